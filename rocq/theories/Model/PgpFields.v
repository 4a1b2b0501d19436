(** The package pgp with pointers that may be nil, structures that were not made by its constructors, and fields and
    variables that were assigned to (C98).  A Go program outside the package can hold nil pointers and literals of the
    exported structures (in which the field base is nil), assign every exported field, and assign the two exported
    variables DefaultKDFParameters and DefaultStringToKeyHashFunc.  A nil pointer is None; following it is a panic.
    Simplifications: byte slices are values with no room behind them (SliceHeap.v has the sharing); a pointer is the number of
    the call that made the object, and one of another type than is wanted counts as nil (such programs do not compile); the
    subpackets that Sign makes itself cannot be reached through the signature. *)
From Verif.Model Require Import GoBase Env GoTime Seed Encoding PgpWire PgpS2k PgpKeys ZeroValues.

(** master_key.go:17-23, ed25519_subkey.go:10-16 *)
Record f_ed := mk_fed { fe_base : option ecc_key; fe_private : bytes; fe_public : bytes; fe_creation : Z; fe_expiry : Z }.
(** encryption_subkey.go:16-23 *)
Record f_curve := mk_fcurve {
  fc_base : option ecc_key; fc_private : bytes; fc_public : bytes; fc_creation : Z; fc_expiry : Z; fc_kdf : option kdf_params
}.
(** key_set.go:12-21 *)
Record f_set := mk_fset { fs_uid : nat; fs_master : nat; fs_enc : nat; fs_auth : nat; fs_sign : nat }.
(** a pointer to a subpacket: one that Sign made, or one of the program *)
Inductive f_sub := Own (s : subpacket) | Given (p : nat).
(** signature.go:36-43 *)
Record f_sig := mk_fsig {
  fg_hashed : list f_sub; fg_unhashed : list f_sub; fg_type : Z; fg_hash : Z; fg_digest : bytes; fg_r : option Z; fg_s : option Z
}.
(** sign.go:11-35 *)
Record f_request := mk_freq {
  fr_fingerprint : bytes; fr_hash : Z; fr_data : bytes; fr_type : Z; fr_hashed : list f_sub; fr_unhashed : list f_sub; fr_time : Z
}.
Inductive f_object :=
| F_none | F_master_key (k : f_ed) | F_ed_subkey (k : f_ed) | F_curve_key (k : f_curve) | F_user (u : user_id) | F_keys (s : f_set)
| F_subpacket (s : subpacket) | F_signature (s : f_sig).
(** the objects, and the variables of constants.go:68-74 *)
Record f_state := mk_fst { f_heap : list f_object; f_kdf : option kdf_params; f_hash : Z }.
Definition f_init : f_state := mk_fst [] (Some default_kdf) default_s2k_hash.

Definition master_at (h : list f_object) (p : nat) : option f_ed := match nth p h F_none with F_master_key k => Some k | _ => None end.
Definition subkey_at (h : list f_object) (p : nat) : option f_ed := match nth p h F_none with F_ed_subkey k => Some k | _ => None end.
Definition curve_at (h : list f_object) (p : nat) : option f_curve := match nth p h F_none with F_curve_key k => Some k | _ => None end.
Definition user_at (h : list f_object) (p : nat) : option user_id := match nth p h F_none with F_user u => Some u | _ => None end.
Definition keys_at (h : list f_object) (p : nat) : option f_set := match nth p h F_none with F_keys s => Some s | _ => None end.
Definition subpacket_at (h : list f_object) (p : nat) : option subpacket := match nth p h F_none with F_subpacket s => Some s | _ => None end.
Definition signature_at (h : list f_object) (p : nat) : option f_sig := match nth p h F_none with F_signature s => Some s | _ => None end.

Section Code.
Variable E : Env.
Variable h : list f_object.

(** ** signature.go:18-33 *)
Fixpoint f_subs (l : list f_sub) : res (list subpacket) :=
  match l with
  | [] => Ok []
  | s :: l =>
      let* s := deref (match s with Own s => Some s | Given p => subpacket_at h p end) in
      let* l := f_subs l in
      Ok (s :: l)
  end.
(** lines 71-88.  SigHash[:2] of fewer than two bytes and EncodeMPI of a nil integer panic. *)
Definition f_sig_encode (s : option f_sig) : res bytes :=
  let* s := deref s in
  let* hashed := f_subs (fg_hashed s) in
  let* unhashed := f_subs (fg_unhashed s) in
  if Nat.ltb (length (fg_digest s)) 2 then Panic
  else
    let* r := deref (fg_r s) in
    let* v := deref (fg_s s) in
    Ok (sig_preimage (fg_type s) (fg_hash s) hashed ++ encode_subpackets unhashed ++ firstn 2 (fg_digest s) ++
        encode_mpi r ++ encode_mpi v).
(** lines 90-92 *)
Definition f_sig_packet (s : option f_sig) : res bytes := let* b := f_sig_encode s in Ok (encode_packet tag_signature b).
(** user_id.go:11-24 *)
Definition f_uid_encode (u : option user_id) : res bytes := let* u := deref u in Ok (uid_encode u).
Definition f_uid_packet (u : option user_id) : res bytes := let* b := f_uid_encode u in Ok (encode_packet tag_user_id b).

(** ** sign.go:39-84.  ed25519.Sign panics if the private key does not have 64 bytes; New of an unknown hash function gives
    a nil interface. *)
Definition f_sign (private : bytes) (rq : option f_request) : res f_sig :=
  let* rq := deref rq in
  let stamp := be_bytes 4 (u32 (t_unix (fr_time rq))) in
  let fp := fr_fingerprint rq in
  let hashed := [Own (mk_sub sub_issuer_fingerprint (key_packet_version :: fp)); Own (mk_sub sub_creation_time stamp)] ++ fr_hashed rq in
  if Nat.ltb (length fp) 8 then Panic
  else
    let unhashed := [Own (mk_sub sub_issuer (skipn (length fp - 8) fp))] ++ fr_unhashed rq in
    let* hash := deref (hash_new E (fr_hash rq)) in
    let* subs := f_subs hashed in
    let pre := sig_preimage (fr_type rq) (fr_hash rq) subs in
    let digest := hash (fr_data rq ++ pre ++ signature_trailer ++ be_bytes 4 (u32 (zlen pre))) in
    if negb (Nat.eqb (length private) 64) then Panic
    else
      let sg := ed25519_sign E private digest in
      Ok (mk_fsig hashed unhashed (fr_type rq) (fr_hash rq) digest (Some (be_uint (firstn 32 sg))) (Some (be_uint (skipn 32 sg)))).

(** ** ecc_key.go *)
Definition f_encode_public (k : option ecc_key) : res bytes := let* k := deref k in Ok (encode_public k).
(** lines 59-82, with the hash function that DefaultStringToKeyHashFunc holds *)
Definition f_encode_private (default_hash : Z) (k : option ecc_key) (password tape : bytes) : res (bytes * bytes) :=
  let* public := f_encode_public k in
  let* k := deref k in
  if zlen password >? 0 then
    let* (enc, tape) := encrypt_s2k E default_hash (ec_private k) password tape in
    Ok (public ++ enc, tape)
  else
    let mpi := encode_mpi (be_uint (ec_private k)) in
    Ok (public ++ [0] ++ mpi ++ checksum_mpi mpi, tape).
Definition f_private_packet (default_hash : Z) (tag : Z) (k : option ecc_key) (password tape : bytes) : res (bytes * bytes) :=
  let* (p, tape) := f_encode_private default_hash k password tape in
  Ok (encode_packet tag p, tape).
(** lines 86-101 *)
Definition f_dummy_packet (k : option ecc_key) : res bytes :=
  let* public := f_encode_public k in
  Ok (encode_packet tag_secret_key (public ++ [s2k_specifier; 0; s2k_gnu_dummy; 0] ++ s2k_gnu_id ++ [s2k_gnu_dummy - 100])).
(** lines 104-113 *)
Definition f_fingerprint (k : option ecc_key) : res bytes :=
  let* p := f_encode_public k in
  Ok (sha1 E ([public_key_prefix_v4] ++ be_bytes 2 (u16 (zlen p)) ++ p)).

(** ** master_key.go:83-181: time and expiry are those of the fields, the key packet is that of base *)
Definition f_self_certify (k : option f_ed) (u : option user_id) : res f_sig :=
  let* k := deref k in
  let* p := f_encode_public (fe_base k) in
  let* uid := f_uid_encode u in
  let data := [public_key_prefix_v4] ++ be_bytes 2 (u16 (zlen p)) ++ p ++ [user_id_prefix] ++ be_bytes 4 (u32 (zlen uid)) ++ uid in
  let* fp := f_fingerprint (fe_base k) in
  f_sign (fe_private k) (Some (mk_freq fp hash_sha256 data sig_positive_certification
    (map Own
      ([mk_sub sub_key_flags [flag_certify]] ++
       expiry_subpackets E (fe_creation k) (fe_expiry k) ++
       [mk_sub sub_pref_cipher [cipher_aes256; cipher_aes192; cipher_aes128; cipher_des];
        mk_sub sub_pref_hash [hash_sha512; hash_sha384; hash_sha256; hash_sha224; hash_sha1];
        mk_sub sub_pref_compression [compression_zlib; compression_bzip2; compression_zip];
        mk_sub sub_features [1];
        mk_sub sub_key_server [key_server_no_modify]]))
    [] (fe_creation k))).
(** lines 184-254: time and expiry are those of the subkey's base *)
Definition f_bind_subkey (k : option f_ed) (sub : option ecc_key) (flags expiry : Z) : res f_sig :=
  let* k := deref k in
  let* p := f_encode_public (fe_base k) in
  let* q := f_encode_public sub in
  let data := [public_key_prefix_v4] ++ be_bytes 2 (u16 (zlen p)) ++ p ++ [public_key_prefix_v4] ++ be_bytes 2 (u16 (zlen q)) ++ q in
  let* s := deref sub in
  let* unhashed :=
    (if negb (Z.land flags flag_sign =? 0) then
       let* private := deref (ec_signing s) in
       let* fp := f_fingerprint sub in
       let* sg := f_sign private (Some (mk_freq fp hash_sha256 data sig_primary_key_binding [] [] (ec_creation s))) in
       let* e := f_sig_encode (Some sg) in
       Ok [Own (mk_sub sub_embedded_signature e)]
     else Ok []) in
  let* fp := f_fingerprint (fe_base k) in
  f_sign (fe_private k) (Some (mk_freq fp hash_sha256 data sig_subkey_binding
    (map Own ([mk_sub sub_key_flags [flags]] ++ expiry_subpackets E (ec_creation s) expiry)) unhashed (ec_creation s))).

(** ** key_set.go *)
(** lines 29-87 *)
Definition f_subkey_packets (default_hash : Z) (m : option f_ed) (k : option ecc_key) (flags expiry : Z) (password tape : bytes) : res (bytes * bytes) :=
  let* (p, tape) := f_private_packet default_hash tag_secret_subkey k password tape in
  let* sg := f_bind_subkey m k flags expiry in
  let* b := f_sig_packet (Some sg) in
  Ok (p ++ b, tape).
(** lines 95-147 *)
Definition f_all_subkeys (default_hash : Z) (ks : f_set) (password tape : bytes) : res (bytes * bytes) :=
  let m := master_at h (fs_master ks) in
  let* (g0, tape) :=
    match curve_at h (fs_enc ks) with
    | None => Ok ([], tape)
    | Some k => f_subkey_packets default_hash m (fc_base k) (Z.lor flag_encrypt_comm flag_encrypt_storage) (fc_expiry k) password tape
    end in
  let* (g1, tape) :=
    match subkey_at h (fs_auth ks) with
    | None => Ok ([], tape)
    | Some k => f_subkey_packets default_hash m (fe_base k) flag_authenticate (fe_expiry k) password tape
    end in
  let* (g2, tape) :=
    match subkey_at h (fs_sign ks) with
    | None => Ok ([], tape)
    | Some k => f_subkey_packets default_hash m (fe_base k) flag_sign (fe_expiry k) password tape
    end in
  let* m := deref m in
  let* groups := shuffle E (shuffle_seed E (fe_private m)) [g0; g1; g2] in
  Ok (concat groups, tape).
(** lines 151-153 *)
Definition f_self_certification (ks : f_set) : res bytes :=
  let* sg := f_self_certify (master_at h (fs_master ks)) (user_at h (fs_uid ks)) in
  f_sig_packet (Some sg).
(** lines 159-183 *)
Definition f_encode_packets (default_hash : Z) (ks : option f_set) (password tape : bytes) : res (bytes * bytes) :=
  let* ks := deref ks in
  let* m := deref (master_at h (fs_master ks)) in
  let* (master, tape) := f_private_packet default_hash tag_secret_key (fe_base m) password tape in
  let* uid := f_uid_packet (user_at h (fs_uid ks)) in
  let* cert := f_self_certification ks in
  let* (subs, tape) := f_all_subkeys default_hash ks password tape in
  Ok (master ++ uid ++ cert ++ subs, tape).
(** lines 194-218 *)
Definition f_encode_subkey_packets (default_hash : Z) (ks : option f_set) (password : bytes) (with_cert : bool) (tape : bytes) : res (bytes * bytes) :=
  let* ks := deref ks in
  let* m := deref (master_at h (fs_master ks)) in
  let* master := f_dummy_packet (fe_base m) in
  let* uid := f_uid_packet (user_at h (fs_uid ks)) in
  let* cert := (if with_cert then f_self_certification ks else Ok []) in
  let* (subs, tape) := f_all_subkeys default_hash ks password tape in
  Ok (master ++ uid ++ cert ++ subs, tape).
End Code.

(** ** Constructors *)
(** master_key.go:27-54, ed25519_subkey.go:20-49 *)
Definition f_new_ed (E : Env) (seed : bytes) (creation expiry : Z) : res f_ed :=
  let* k := new_ed_key E seed creation expiry in
  Ok (mk_fed (Some (ed_base k)) (ed_private k) (ec_public (ed_base k)) creation expiry).
(** encryption_subkey.go:29-74, with the pointer that DefaultKDFParameters holds *)
Definition f_new_curve (E : Env) (default : option kdf_params) (seed : bytes) (creation expiry : Z) (kdf : option kdf_params) : res f_curve :=
  if negb (zlen seed =? 32) then Err ErrSeedLength
  else
    let* params := deref (match kdf with None => default | Some k => Some k end) in
    let* k := new_curve_key E seed creation expiry (Some params) in
    Ok (mk_fcurve (Some (cv_base k)) (cv_private k) (ec_public (cv_base k)) creation expiry (Some params)).

(** ** Programs.  Every call makes an object, F_none if it has none to make. *)
Inductive f_call :=
| F_new_master (seed : bytes) (creation expiry : Z)
| F_new_subkey (seed : bytes) (creation expiry : Z)
| F_new_encryption (seed : bytes) (creation expiry : Z) (kdf : option kdf_params)
(* literals; new(T) has empty fields *)
| F_lit_master (private public : bytes) (creation expiry : Z)
| F_lit_subkey (private public : bytes) (creation expiry : Z)
| F_lit_encryption (private public : bytes) (creation expiry : Z) (kdf : option kdf_params)
| F_lit_user (u : user_id)
| F_lit_keys (s : f_set)
| F_lit_sub (s : subpacket)
| F_lit_sig (hashed unhashed : list nat) (type hash : Z) (digest : bytes) (r s : option Z)
(* assignments *)
| F_set_private (k : nat) (b : bytes)
| F_set_public (k : nat) (b : bytes)
| F_set_creation (k : nat) (t : Z)
| F_set_expiry (k : nat) (t : Z)
| F_set_kdf (k : nat) (p : option kdf_params)
| F_set_user (u : nat) (v : user_id)
| F_set_keys (s : nat) (v : f_set)
| F_set_sub (s : nat) (v : subpacket)
| F_set_sig (s : nat) (hashed unhashed : list nat) (type hash : Z) (digest : bytes) (r v : option Z)
| F_set_default_kdf (p : option kdf_params)
| F_set_default_hash (id : Z)
(* calls *)
| F_fingerprint (k : nat)
| F_public_packet (k : nat)
| F_private_packet (k : nat) (password tape : bytes)
| F_dummy_packet (k : nat)
| F_self_certify (k u : nat)
| F_bind_nil (k : nat) (flags expiry : Z)
| F_sign (private : bytes) (rq : option (bytes * Z * bytes * Z * list nat * list nat * Z))
| F_sig_encode (s : nat)
| F_sig_packet (s : nat)
| F_sub_encode (s : nat)
| F_uid (u : nat)
| F_uid_packet (u : nat)
| F_packets (s : nat) (password tape : bytes)
| F_subkey_packets (s : nat) (password : bytes) (with_cert : bool) (tape : bytes)
| F_packet (tag : Z) (b : bytes)
| F_mpi (n : option Z)
| F_s2k (hash : Z) (plaintext password tape : bytes)
| F_kdf_encode (p : option kdf_params).
Inductive f_seen := F_done | F_bytes (b : bytes) | F_failed (e : err) | F_panicked.

(** the base of any key *)
Definition base_at (h : list f_object) (p : nat) : option ecc_key :=
  match nth p h F_none with F_master_key k | F_ed_subkey k => fe_base k | F_curve_key k => fc_base k | _ => None end.
Definition f_update (h : list f_object) (p : nat) (o : f_object) : list f_object := firstn p h ++ o :: skipn (S p) h.

Section Run.
Variable E : Env.
Definition f_makes (st : f_state) (r : res f_object) : f_seen * f_state :=
  let add o := mk_fst (f_heap st ++ [o]) (f_kdf st) (f_hash st) in
  match r with Ok o => (F_done, add o) | Err e => (F_failed e, add F_none) | Panic => (F_panicked, add F_none) end.
Definition f_shows (st : f_state) (r : res bytes) : f_seen * f_state :=
  let add := mk_fst (f_heap st ++ [F_none]) (f_kdf st) (f_hash st) in
  match r with Ok b => (F_bytes b, add) | Err e => (F_failed e, add) | Panic => (F_panicked, add) end.
Definition f_assigns (st : f_state) (p : nat) (r : res f_object) : f_seen * f_state :=
  match r with
  | Ok o => (F_done, mk_fst (f_update (f_heap st) p o ++ [F_none]) (f_kdf st) (f_hash st))
  | Err e => (F_failed e, mk_fst (f_heap st ++ [F_none]) (f_kdf st) (f_hash st))
  | Panic => (F_panicked, mk_fst (f_heap st ++ [F_none]) (f_kdf st) (f_hash st))
  end.
(** assigning to a field of one of the three key types *)
Definition f_key_field (h : list f_object) (p : nat) (ed : f_ed -> f_ed) (curve : f_curve -> f_curve) : res f_object :=
  match nth p h F_none with
  | F_master_key k => Ok (F_master_key (ed k))
  | F_ed_subkey k => Ok (F_ed_subkey (ed k))
  | F_curve_key k => Ok (F_curve_key (curve k))
  | _ => Panic
  end.
Definition tag_of (h : list f_object) (p : nat) (master sub : Z) : Z := match nth p h F_none with F_master_key _ => master | _ => sub end.
Definition drop_tape (r : res (bytes * bytes)) : res bytes := let* (b, _) := r in Ok b.

Definition f_step (st : f_state) (c : f_call) : f_seen * f_state :=
  let h := f_heap st in
  match c with
  | F_new_master s cr ex => f_makes st (let* k := f_new_ed E s cr ex in Ok (F_master_key k))
  | F_new_subkey s cr ex => f_makes st (let* k := f_new_ed E s cr ex in Ok (F_ed_subkey k))
  | F_new_encryption s cr ex kdf => f_makes st (let* k := f_new_curve E (f_kdf st) s cr ex kdf in Ok (F_curve_key k))
  | F_lit_master p q cr ex => f_makes st (Ok (F_master_key (mk_fed None p q cr ex)))
  | F_lit_subkey p q cr ex => f_makes st (Ok (F_ed_subkey (mk_fed None p q cr ex)))
  | F_lit_encryption p q cr ex kdf => f_makes st (Ok (F_curve_key (mk_fcurve None p q cr ex kdf)))
  | F_lit_user u => f_makes st (Ok (F_user u))
  | F_lit_keys s => f_makes st (Ok (F_keys s))
  | F_lit_sub s => f_makes st (Ok (F_subpacket s))
  | F_lit_sig hs us t hash d r s => f_makes st (Ok (F_signature (mk_fsig (map Given hs) (map Given us) t hash d r s)))
  | F_set_private k b =>
      f_assigns st k (f_key_field h k (fun k => mk_fed (fe_base k) b (fe_public k) (fe_creation k) (fe_expiry k))
                                      (fun k => mk_fcurve (fc_base k) b (fc_public k) (fc_creation k) (fc_expiry k) (fc_kdf k)))
  | F_set_public k b =>
      f_assigns st k (f_key_field h k (fun k => mk_fed (fe_base k) (fe_private k) b (fe_creation k) (fe_expiry k))
                                      (fun k => mk_fcurve (fc_base k) (fc_private k) b (fc_creation k) (fc_expiry k) (fc_kdf k)))
  | F_set_creation k t =>
      f_assigns st k (f_key_field h k (fun k => mk_fed (fe_base k) (fe_private k) (fe_public k) t (fe_expiry k))
                                      (fun k => mk_fcurve (fc_base k) (fc_private k) (fc_public k) t (fc_expiry k) (fc_kdf k)))
  | F_set_expiry k t =>
      f_assigns st k (f_key_field h k (fun k => mk_fed (fe_base k) (fe_private k) (fe_public k) (fe_creation k) t)
                                      (fun k => mk_fcurve (fc_base k) (fc_private k) (fc_public k) (fc_creation k) t (fc_kdf k)))
  | F_set_kdf k p =>
      f_assigns st k (let* k := deref (curve_at h k) in Ok (F_curve_key (mk_fcurve (fc_base k) (fc_private k) (fc_public k) (fc_creation k) (fc_expiry k) p)))
  | F_set_user u v => f_assigns st u (let* _ := deref (user_at h u) in Ok (F_user v))
  | F_set_keys s v => f_assigns st s (let* _ := deref (keys_at h s) in Ok (F_keys v))
  | F_set_sub s v => f_assigns st s (let* _ := deref (subpacket_at h s) in Ok (F_subpacket v))
  | F_set_sig s hs us t hash d r v =>
      f_assigns st s (let* _ := deref (signature_at h s) in Ok (F_signature (mk_fsig (map Given hs) (map Given us) t hash d r v)))
  | F_set_default_kdf p => (F_done, mk_fst (h ++ [F_none]) p (f_hash st))
  | F_set_default_hash id => (F_done, mk_fst (h ++ [F_none]) (f_kdf st) id)
  | F_fingerprint k => f_shows st (f_fingerprint E (base_at h k))
  | F_public_packet k => f_shows st (let* b := f_encode_public (base_at h k) in Ok (encode_packet (tag_of h k tag_public_key tag_public_subkey) b))
  | F_private_packet k pw tape =>
      f_shows st (drop_tape (f_private_packet E (f_hash st) (tag_of h k tag_secret_key tag_secret_subkey) (base_at h k) pw tape))
  | F_dummy_packet k => f_shows st (let* k := deref (master_at h k) in f_dummy_packet (fe_base k))
  | F_self_certify k u => f_makes st (let* s := f_self_certify E h (master_at h k) (user_at h u) in Ok (F_signature s))
  | F_bind_nil k flags ex => f_makes st (let* s := f_bind_subkey E h (master_at h k) None flags ex in Ok (F_signature s))
  | F_sign private rq =>
      let rq := match rq with
                | None => None
                | Some (fp, hash, data, type, hs, us, t) => Some (mk_freq fp hash data type (map Given hs) (map Given us) t)
                end in
      f_makes st (let* s := f_sign E h private rq in Ok (F_signature s))
  | F_sig_encode s => f_shows st (f_sig_encode h (signature_at h s))
  | F_sig_packet s => f_shows st (f_sig_packet h (signature_at h s))
  | F_sub_encode s => f_shows st (let* s := deref (subpacket_at h s) in Ok (sub_encode s))
  | F_uid u => f_shows st (f_uid_encode (user_at h u))
  | F_uid_packet u => f_shows st (f_uid_packet (user_at h u))
  | F_packets s pw tape => f_shows st (drop_tape (f_encode_packets E h (f_hash st) (keys_at h s) pw tape))
  | F_subkey_packets s pw cert tape => f_shows st (drop_tape (f_encode_subkey_packets E h (f_hash st) (keys_at h s) pw cert tape))
  | F_packet tag b => f_shows st (Ok (encode_packet tag b))
  | F_mpi n => f_shows st (let* n := deref n in Ok (encode_mpi n))
  | F_s2k hash p pw tape => f_shows st (drop_tape (encrypt_s2k E hash p pw tape))
  | F_kdf_encode p => f_shows st (let* p := deref p in Ok (kdf_encode p))
  end.
(** A panic ends the program. *)
Fixpoint f_run (st : f_state) (calls : list f_call) : list (f_call * f_seen) * f_state :=
  match calls with
  | [] => ([], st)
  | c :: rest =>
      let (o, st) := f_step st c in
      match o with
      | F_panicked => ([(c, F_panicked)], st)
      | _ => let (l, st) := f_run st rest in ((c, o) :: l, st)
      end
  end.
End Run.
