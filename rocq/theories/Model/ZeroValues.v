(** The package mnemonikey with pointers that may be nil and structures that were not made by its constructors (C96).
    A Go program outside the package can hold a nil *Seed, *DecodedMnemonic or *Mnemonikey, their zero values
    (new(Seed), DecodedMnemonic{Version: v}, new(Mnemonikey)), pass a nil *big.Int or a nil io.Reader, and assign the one
    exported field there is, Version of a DecodedMnemonic.  A nil pointer is None; following it is a panic.
    Simplifications: integers are values (BigHeap.v has the sharing), byte slices are values (SliceHeap.v). *)
From Verif.Model Require Import GoBase Env BitBuffer MnemonicPkg Version Seed Encoding GoTime Recovery PgpKeys Mnemonikey.

(** following a pointer (or calling a method of an interface value) that may be nil *)
Definition deref {A} (p : option A) : res A := match p with Some a => Ok a | None => Panic end.

(** ** seed.go *)
(** lines 18-21 *)
Record n_seed := mk_nseed { ns_era : Z; ns_value : option Z }.
Definition n_of_seed (s : seed) : n_seed := mk_nseed (seed_era s) (Some (seed_value s)).
(** lines 28-46; BitLen of a nil *big.Int follows the pointer *)
Definition n_new_seed (era : Z) (entropy : option Z) : res n_seed :=
  let* _ := era_check era in
  let* v := deref entropy in
  let* s := new_seed era v in
  Ok (n_of_seed s).
(** lines 49-51 *)
Definition n_seed_era (s : option n_seed) : res Z := let* s := deref s in Ok (ns_era s).
(** lines 54-56; Set of a nil *big.Int follows the pointer *)
Definition n_seed_int (s : option n_seed) : res Z := let* s := deref s in deref (ns_value s).
(** lines 59-61 *)
Definition n_seed_bytes (s : option n_seed) : res bytes :=
  let* s := deref s in
  let* v := deref (ns_value s) in
  fill_bytes v (Z.to_nat ((entropy_bits + 7) / 8)).
(** lines 66-77; a nil reader panics inside rand.Int *)
Definition n_generate_seed (random : option bytes) : res n_seed :=
  let* src := deref random in
  let* (s, _) := generate_seed src in
  Ok (n_of_seed s).

(** ** encoding.go *)
(** lines 45-58 *)
Definition n_encode_plaintext (E : Env) (s : option n_seed) (creation_offset : Z) : res (list bytes) :=
  let* era := n_seed_era s in
  let* _ := era_check era in
  let* buf := new_bitbuf 0 version_bits in
  let* v := n_seed_int s in
  let* buf := append_trailing buf v entropy_bits in
  let* buf := append_trailing buf creation_offset offset_bits in
  encode_mnemonic E 0 buf.
(** lines 67-113 *)
Definition n_encode_encrypted (E : Env) (s : option n_seed) (creation_offset : Z) (password : bytes) (random : option bytes)
  : res (list bytes) :=
  let* era := n_seed_era s in
  let* _ := era_check era in
  if zlen password =? 0 then Err ErrEmptyPassword
  else
    let* buf := new_bitbuf 1 version_bits in
    let* src := deref random in
    let* (salt, _) := rand_int src (Z.shiftl 1 salt_bits) in
    let* key := enc_seed_key E password salt creation_offset in
    if negb (aes_key_ok (firstn 16 key)) then Err ErrAESKeySize
    else
      let* sb := n_seed_bytes s in
      let enc_seed := aes_encrypt E (firstn 16 key) sb in
      let* last := go_index key 16 in
      let* buf := append_trailing buf (be_uint enc_seed) entropy_bits in
      let* buf := append_trailing buf salt salt_bits in
      let* buf := append_trailing buf (Z.land last verify_mask) verify_bits in
      let* buf := append_trailing buf creation_offset offset_bits in
      encode_mnemonic E 1 buf.

(** ** recovery.go *)
(** lines 34-43: salt stays nil for plaintext phrases *)
Record n_decoded := mk_ndec { nd_version : Z; nd_entropy : option Z; nd_salt : option Z; nd_verify : Z; nd_offset : Z }.
(** lines 184-245: line 231 is where salt is set *)
Definition n_decode (E : Env) (words : list bytes) : res n_decoded :=
  let* dm := decode_mnemonic E words in
  Ok (mk_ndec (dm_version dm) (Some (dm_entropy dm)) (if dm_version dm =? 1 then Some (dm_salt dm) else None)
              (dm_verify dm) (dm_offset dm)).
(** lines 49-51, 54-56, 59-61 *)
Definition n_encrypted (d : option n_decoded) : res bool := let* d := deref d in Ok (version_encrypted (nd_version d)).
Definition n_creation (d : option n_decoded) : res Z :=
  let* d := deref d in Ok (t_add epoch_start (d_mul (nd_offset d) epoch_increment)).
Definition n_offset (d : option n_decoded) : res Z := let* d := deref d in Ok (nd_offset d).
(** lines 116-121 *)
Definition n_dm_seed (d : option n_decoded) : res n_seed :=
  let* d := deref d in
  if version_encrypted (nd_version d) then Err ErrMnemonicDecryption
  else n_new_seed (version_era (nd_version d)) (nd_entropy d).
(** lines 76-110 *)
Definition n_decrypt (E : Env) (d : option n_decoded) (password : bytes) : res n_seed :=
  let* encrypted := n_encrypted d in
  if negb encrypted then n_dm_seed d
  else
    let* d := deref d in
    let* salt := deref (nd_salt d) in
    let* key := enc_seed_key E password salt (nd_offset d) in
    let* last := go_index key 16 in
    if negb (Z.land last verify_mask =? nd_verify d) then Err ErrMnemonicDecryption
    else if negb (aes_key_ok (firstn 16 key)) then Err ErrAESKeySize
    else
      let* entropy := deref (nd_entropy d) in
      let* enc_seed := fill_bytes entropy 16 in
      n_new_seed (version_era (nd_version d)) (Some (be_uint (aes_decrypt E (firstn 16 key) enc_seed))).

(** ** mnemonikey.go *)
(** lines 40-44 *)
Record n_key := mk_nkey { nk_keys : option key_set; nk_seed : option n_seed; nk_creation : Z }.
(** lines 55-87.  derivePGPKeySet (derive.go:56-122) uses the seed at line 66 only, for its bytes. *)
Definition n_new (E : Env) (s : option n_seed) (creation : Z) (opts : option key_options) : res n_key :=
  let* era := n_seed_era s in
  let* _ := era_check era in
  let o := match opts with None => zero_options | Some o => o end in
  if ko_ttl o <? 0 then Err ErrTTLInvalid
  else if t_after creation max_creation_time then Err ErrCreationTooLate
  else if t_before creation epoch_start then Err ErrCreationTooEarly
  else
    let creation := t_add epoch_start (d_mul epoch_increment (d_quot (t_sub creation epoch_start) epoch_increment)) in
    let* v := n_seed_int s in
    let* ks := derive_key_set E (mk_seed era v) creation o in
    Ok (mk_nkey (Some ks) s creation).
(** lines 91-93 *)
Definition n_created (k : option n_key) : res Z := let* k := deref k in Ok (nk_creation k).
(** mnk.pgpKeySet of a pointer mnk *)
Definition n_keys (k : option n_key) : res key_set := let* k := deref k in deref (nk_keys k).
(** lines 96-98, 101-103, 106-108, 111-123: the functions of the values look at pgpKeySet only *)
Definition n_as_key (ks : key_set) : mnemonikey := mk_mnk ks (mk_seed 0 0) 0.
Definition n_expiry (k : option n_key) : res Z := let* ks := n_keys k in Ok (mnk_expiry (n_as_key ks)).
Definition n_user_id (k : option n_key) : res bytes := let* ks := n_keys k in Ok (mnk_user_id (n_as_key ks)).
Definition n_fingerprint (E : Env) (k : option n_key) : res bytes := let* ks := n_keys k in Ok (mnk_fingerprint E (n_as_key ks)).
Definition n_types (k : option n_key) : res (list bytes) := let* ks := n_keys k in Ok (mnk_subkey_types (n_as_key ks)).
(** lines 127-145: for another type the switch has no case, so the receiver is not looked at *)
Definition n_subkey_fingerprint (E : Env) (k : option n_key) (t : bytes) : res (option bytes) :=
  if bytes_eqb t type_encryption || bytes_eqb t type_authentication || bytes_eqb t type_signing
  then let* ks := n_keys k in Ok (mnk_subkey_fingerprint E (n_as_key ks) t)
  else Ok None.
(** lines 151-153, 167-169, 176-186, 201-211 *)
Definition n_export (E : Env) (k : option n_key) (armor : bool) (subkeys : option bool) (password tape : bytes) : res bytes :=
  let* ks := n_keys k in
  let* (out, _) :=
    match subkeys, armor with
    | None, false => mnk_encode_pgp E (n_as_key ks) password tape
    | None, true => mnk_encode_pgp_armor E (n_as_key ks) password tape
    | Some cert, false => mnk_encode_subkeys_pgp E (n_as_key ks) password cert tape
    | Some cert, true => mnk_encode_subkeys_pgp_armor E (n_as_key ks) password cert tape
    end in
  Ok out.
(** lines 214-216 *)
Definition n_creation_offset (k : n_key) : Z := u32 (d_quot (t_sub (nk_creation k) epoch_start) epoch_increment).
(** lines 220-222, 231-233 *)
Definition n_key_plaintext (E : Env) (k : option n_key) : res (list bytes) :=
  let* k := deref k in n_encode_plaintext E (nk_seed k) (n_creation_offset k).
Definition n_key_encrypted (E : Env) (k : option n_key) (password : bytes) (random : option bytes) : res (list bytes) :=
  let* k := deref k in n_encode_encrypted E (nk_seed k) (n_creation_offset k) password random.

(** recovery.go:129-146 and 161-178 *)
Definition n_recover_plaintext (E : Env) (words : list bytes) (opts : option key_options) : res n_key :=
  let* d := n_decode E words in
  let* s := n_dm_seed (Some d) in
  let* t := n_creation (Some d) in
  n_new E (Some s) t opts.
Definition n_recover_encrypted (E : Env) (words : list bytes) (password : bytes) (opts : option key_options) : res n_key :=
  let* d := n_decode E words in
  let* s := n_decrypt E (Some d) password in
  let* t := n_creation (Some d) in
  n_new E (Some s) t opts.

(** ** Programs.  A call names the pointers it uses by the number of the call they come from. *)
Inductive n_call :=
| N_zero_seed                                                    (* new(Seed) *)
| N_new_seed (era : Z) (entropy : option Z)
| N_generate (random : option bytes)
| N_era (s : nat)
| N_int (s : nat)
| N_bytes (s : nat)
| N_plaintext (s : nat) (offset : Z)
| N_encrypted (s : nat) (offset : Z) (password : bytes) (random : option bytes)
| N_new (s : nat) (creation : Z) (opts : option key_options)
| N_zero_decoded (version : Z)                                   (* &DecodedMnemonic{Version: version} *)
| N_decode (words : list bytes)
| N_set_version (d : nat) (version : Z)                          (* d.Version = version *)
| N_is_encrypted (d : nat)
| N_creation (d : nat)
| N_offset (d : nat)
| N_dm_seed (d : nat)
| N_decrypt (d : nat) (password : bytes)
| N_zero_key                                                     (* new(Mnemonikey) *)
| N_recover_plaintext (words : list bytes) (opts : option key_options)
| N_recover_encrypted (words : list bytes) (password : bytes) (opts : option key_options)
| N_created (k : nat)
| N_expiry (k : nat)
| N_user_id (k : nat)
| N_fingerprint (k : nat)
| N_types (k : nat)
| N_subkey_fingerprint (k : nat) (type : bytes)
| N_export (k : nat) (armor : bool) (subkeys : option bool) (password tape : bytes)
| N_key_plaintext (k : nat)
| N_key_encrypted (k : nat) (password : bytes) (random : option bytes).

(** What a call shows to the program. *)
Inductive n_seen :=
| N_done                          (* an object, without an error *)
| N_number (n : Z)
| N_flag (b : bool)
| N_data (b : bytes)
| N_no_data                       (* a nil slice *)
| N_list (l : list bytes)
| N_failed (e : err)
| N_panicked.

(** What a pointer refers to; a call that makes no object leaves a nil pointer, as does one that fails. *)
Inductive n_object := N_nil | N_seed (s : n_seed) | N_phrase (d : n_decoded) | N_key (k : n_key).
Definition n_state := list n_object.
Definition seed_at (st : n_state) (i : nat) : option n_seed := match nth i st N_nil with N_seed s => Some s | _ => None end.
Definition phrase_at (st : n_state) (i : nat) : option n_decoded := match nth i st N_nil with N_phrase d => Some d | _ => None end.
Definition key_at (st : n_state) (i : nat) : option n_key := match nth i st N_nil with N_key k => Some k | _ => None end.
Definition n_makes {A} (st : n_state) (wrap : A -> n_object) (r : res A) : n_seen * n_state :=
  match r with
  | Ok a => (N_done, st ++ [wrap a])
  | Err e => (N_failed e, st ++ [N_nil])
  | Panic => (N_panicked, st)
  end.
Definition n_shows {A} (st : n_state) (show : A -> n_seen) (r : res A) : n_seen * n_state :=
  match r with
  | Ok a => (show a, st ++ [N_nil])
  | Err e => (N_failed e, st ++ [N_nil])
  | Panic => (N_panicked, st)
  end.
Definition n_step (E : Env) (st : n_state) (c : n_call) : n_seen * n_state :=
  match c with
  | N_zero_seed => (N_done, st ++ [N_seed (mk_nseed 0 None)])
  | N_new_seed era v => n_makes st N_seed (n_new_seed era v)
  | N_generate random => n_makes st N_seed (n_generate_seed random)
  | N_era s => n_shows st N_number (n_seed_era (seed_at st s))
  | N_int s => n_shows st N_number (n_seed_int (seed_at st s))
  | N_bytes s => n_shows st N_data (n_seed_bytes (seed_at st s))
  | N_plaintext s off => n_shows st N_list (n_encode_plaintext E (seed_at st s) off)
  | N_encrypted s off pw random => n_shows st N_list (n_encode_encrypted E (seed_at st s) off pw random)
  | N_new s t opts => n_makes st N_key (n_new E (seed_at st s) t opts)
  | N_zero_decoded v => (N_done, st ++ [N_phrase (mk_ndec v None None 0 0)])
  | N_decode ws => n_makes st N_phrase (n_decode E ws)
  | N_set_version d v =>
      match phrase_at st d with
      | None => (N_panicked, st)
      | Some p =>
          (N_done, firstn d st ++ N_phrase (mk_ndec v (nd_entropy p) (nd_salt p) (nd_verify p) (nd_offset p)) :: skipn (S d) st ++ [N_nil])
      end
  | N_is_encrypted d => n_shows st N_flag (n_encrypted (phrase_at st d))
  | N_creation d => n_shows st N_number (n_creation (phrase_at st d))
  | N_offset d => n_shows st N_number (n_offset (phrase_at st d))
  | N_dm_seed d => n_makes st N_seed (n_dm_seed (phrase_at st d))
  | N_decrypt d pw => n_makes st N_seed (n_decrypt E (phrase_at st d) pw)
  | N_zero_key => (N_done, st ++ [N_key (mk_nkey None None zero_time)])
  | N_recover_plaintext ws opts => n_makes st N_key (n_recover_plaintext E ws opts)
  | N_recover_encrypted ws pw opts => n_makes st N_key (n_recover_encrypted E ws pw opts)
  | N_created k => n_shows st N_number (n_created (key_at st k))
  | N_expiry k => n_shows st N_number (n_expiry (key_at st k))
  | N_user_id k => n_shows st N_data (n_user_id (key_at st k))
  | N_fingerprint k => n_shows st N_data (n_fingerprint E (key_at st k))
  | N_types k => n_shows st N_list (n_types (key_at st k))
  | N_subkey_fingerprint k t =>
      n_shows st (fun o => match o with Some b => N_data b | None => N_no_data end) (n_subkey_fingerprint E (key_at st k) t)
  | N_export k armor subkeys pw tape => n_shows st N_data (n_export E (key_at st k) armor subkeys pw tape)
  | N_key_plaintext k => n_shows st N_list (n_key_plaintext E (key_at st k))
  | N_key_encrypted k pw random => n_shows st N_list (n_key_encrypted E (key_at st k) pw random)
  end.

(** The calls made, each with what it showed; a panic ends the program. *)
Fixpoint n_run (E : Env) (st : n_state) (calls : list n_call) : list (n_call * n_seen) * n_state :=
  match calls with
  | [] => ([], st)
  | c :: rest =>
      match n_step E st c with
      | (N_panicked, st') => ([(c, N_panicked)], st')
      | (o, st') => let (h, st'') := n_run E st' rest in ((c, o) :: h, st'')
      end
  end.
