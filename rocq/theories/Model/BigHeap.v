(** The functions of /repo that work on *big.Int, with the integers in memory: a *big.Int is an address, and what
    one function writes through it another may see.  BitBuffer.v, MnemonicPkg.v, Seed.v, Encoding.v and Recovery.v
    have the same functions on values. *)
From Verif.Model Require Import GoBase Env BitBuffer Crc32 MnemonicPkg Version Seed Encoding GoTime Recovery.
From Verif.Model Require Import PgpKeys Mnemonikey.

Definition heap := list Z.
Definition ptr := nat.
(** A function as the sequence of its accesses to integers: it reads one, writes one, or makes one.
    Simplification: an access takes all of an integer. *)
Inductive mem (A : Type) :=
| M_done (r : res A)
| M_load (p : ptr) (k : Z -> mem A)
| M_store (p : ptr) (v : Z) (k : mem A)
| M_new (v : Z) (k : ptr -> mem A).
Arguments M_done {A}. Arguments M_load {A}. Arguments M_store {A}. Arguments M_new {A}.
Definition m_ret {A} (a : A) : mem A := M_done (Ok a).
Definition m_lift {A} (r : res A) : mem A := M_done r.
Fixpoint m_bind {A B} (m : mem A) (f : A -> mem B) : mem B :=
  match m with
  | M_done (Ok a) => f a
  | M_done (Err e) => M_done (Err e)
  | M_done Panic => M_done Panic
  | M_load p k => M_load p (fun v => m_bind (k v) f)
  | M_store p v k => M_store p v (m_bind k f)
  | M_new v k => M_new v (fun p => m_bind (k p) f)
  end.
Notation "'mdo' p '<-' a ';' b" := (m_bind a (fun p => b)) (at level 200, p as pattern, a at level 100, b at level 200).

Definition load (p : ptr) : mem Z := M_load p m_ret.
Definition store (p : ptr) (v : Z) : mem unit := M_store p v (m_ret tt).
(** big.NewInt(v); new(big.Int) is big.NewInt(0) *)
Definition new_int (v : Z) : mem ptr := M_new v m_ret.
Definition put (h : heap) (p : ptr) (v : Z) : heap := firstn p h ++ v :: skipn (S p) h.
(** The accesses one after the other: the result and the memory afterwards.  An address without an integer panics. *)
Fixpoint m_run {A} (m : mem A) (h : heap) : res A * heap :=
  match m with
  | M_done r => (r, h)
  | M_load p k => match nth_error h p with Some v => m_run (k v) h | None => (Panic, h) end
  | M_store p v k => match nth_error h p with Some _ => m_run k (put h p v) | None => (Panic, h) end
  | M_new v k => m_run (k (length h)) (h ++ [v])
  end.
Coercion m_run : mem >-> Funclass.
(** z.Set(x), z.Lsh(x, n), z.Rsh(x, n), z.And(x, y), z.Or(x, y), z.Xor(x, y), z.Sub(x, y): z may be x or y *)
Definition big1 (f : Z -> Z) (z x : ptr) : mem unit := mdo v <- load x; store z (f v).
Definition big2 (f : Z -> Z -> Z) (z x y : ptr) : mem unit := mdo v <- load x; mdo u <- load y; store z (f v u).
Definition big_set := big1 (fun v => v).
Definition big_lsh (z x : ptr) (n : Z) := big1 (fun v => Z.shiftl v n) z x.
Definition big_rsh (z x : ptr) (n : Z) := big1 (fun v => Z.shiftr v n) z x.
Definition big_and := big2 Z.land.
Definition big_or := big2 Z.lor.
Definition big_xor := big2 Z.lxor.
Definition big_sub := big2 Z.sub.

(** The two integers that are variables of packages: bigOne (seed.go:10) and wordMask (mnemonic/encode.go:16) *)
Definition big_one : ptr := 0%nat.
Definition big_mask : ptr := 1%nat.
Definition heap_start : heap := [1; word_mask].

(** ** bit_buffer.go.  The struct is handed from call to call; every buffer is local to one function of the package. *)
Record hbuf := mk_hb { hb_value : ptr; hb_nbits : Z }.
(** lines 15-24 *)
Definition h_new_bitbuf (value : ptr) (nbits : Z) : mem hbuf :=
  mdo v <- load value;
  if bit_len v >? nbits then m_lift Panic
  else mdo p <- new_int 0; mdo _ <- big_set p value; m_ret (mk_hb p nbits).
(** lines 28-51 *)
Definition h_pop_trailing (bb : hbuf) (n : Z) : mem (ptr * hbuf) :=
  if n >? hb_nbits bb then m_lift Panic
  else
    mdo mask <- new_int 0;
    mdo _ <- big_lsh mask big_one n;
    mdo _ <- big_sub mask mask big_one;
    mdo bits <- new_int 0;
    mdo _ <- big_and bits mask (hb_value bb);
    mdo _ <- big_rsh (hb_value bb) (hb_value bb) n;
    m_ret (bits, mk_hb (hb_value bb) (hb_nbits bb - n)).
(** lines 55-80 *)
Definition h_pop_leading (bb : hbuf) (n : Z) : mem (ptr * hbuf) :=
  if n >? hb_nbits bb then m_lift Panic
  else
    mdo mask <- new_int 0;
    mdo _ <- big_lsh mask big_one n;
    mdo _ <- big_sub mask mask big_one;
    mdo bits <- new_int 0;
    mdo _ <- big_rsh bits (hb_value bb) (hb_nbits bb - n);
    mdo _ <- big_and bits mask bits;
    mdo _ <- big_lsh mask bits (hb_nbits bb - n);
    mdo _ <- big_xor (hb_value bb) (hb_value bb) mask;
    m_ret (bits, mk_hb (hb_value bb) (hb_nbits bb - n)).
(** lines 83-95 *)
Definition h_append_leading (bb : hbuf) (value : ptr) (nbits : Z) : mem hbuf :=
  mdo v <- load value;
  if bit_len v >? nbits then m_lift Panic
  else
    mdo mask <- new_int 0;
    mdo _ <- big_lsh mask value (hb_nbits bb);
    mdo _ <- big_or (hb_value bb) (hb_value bb) mask;
    m_ret (mk_hb (hb_value bb) (hb_nbits bb + nbits)).
(** lines 98-110 *)
Definition h_append_trailing (bb : hbuf) (value : ptr) (nbits : Z) : mem hbuf :=
  mdo v <- load value;
  if bit_len v >? nbits then m_lift Panic
  else
    mdo _ <- big_lsh (hb_value bb) (hb_value bb) nbits;
    mdo _ <- big_or (hb_value bb) (hb_value bb) value;
    m_ret (mk_hb (hb_value bb) (hb_nbits bb + nbits)).
(** lines 115-117 *)
Definition h_bytes (bb : hbuf) : mem bytes :=
  mdo v <- load (hb_value bb); m_lift (fill_bytes v (Z.to_nat ((hb_nbits bb + 7) / 8))).
(** lines 120-122 *)
Definition h_int (bb : hbuf) : mem ptr := mdo p <- new_int 0; mdo _ <- big_set p (hb_value bb); m_ret p.

(** ** mnemonic/encode.go:31-43.  [k] is i + 1 as in MnemonicPkg.v. *)
Fixpoint h_encode_loop (k : nat) (payload : ptr) (acc : list Z) : mem (list Z) :=
  mdo v <- load payload;
  if bit_len v >? 0 then
    match k with
    | O => m_lift Panic
    | S k' =>
        mdo t <- new_int 0;
        mdo _ <- big_and t payload big_mask;
        mdo u <- load t;
        mdo _ <- big_rsh payload payload bits_per_word;
        h_encode_loop k' payload (u16 (big_uint64 u) :: acc)
    end
  else m_ret (repeat 0 k ++ acc).
Definition h_encode_to_indices (payload : ptr) (bit_size : Z) : mem (list Z) :=
  mdo v <- load payload;
  if bit_len v >? bit_size then m_lift (Err ErrPayloadTooLarge)
  else if negb (make_uint16_ok (word_count bit_size)) then m_lift Panic
  else h_encode_loop (Z.to_nat (word_count bit_size)) payload [].
(** mnemonic/decode.go:20-32 *)
Fixpoint h_decode_loop (p : ptr) (indices : list Z) : mem ptr :=
  match indices with
  | [] => m_ret p
  | i :: rest =>
      if bit_len i >? bits_per_word then m_lift (Err ErrInvalidIndex)
      else
        mdo _ <- big_lsh p p bits_per_word;
        mdo t <- new_int i;
        mdo _ <- big_or p p t;
        h_decode_loop p rest
  end.
Definition h_decode_indices (indices : list Z) : mem ptr := mdo p <- new_int 0; h_decode_loop p indices.

(** ** seed.go *)
Record h_seed := mk_hseed { hs_era : Z; hs_value : ptr }.
(** lines 28-46: the address is kept *)
Definition h_new_seed (era : Z) (entropy : ptr) : mem h_seed :=
  mdo _ <- m_lift (era_check era);
  mdo v <- load entropy;
  if bit_len v >? entropy_bits then m_lift (Err ErrEntropyTooLarge) else m_ret (mk_hseed era entropy).
(** lines 54-56 *)
Definition h_seed_int (s : h_seed) : mem ptr := mdo p <- new_int 0; mdo _ <- big_set p (hs_value s); m_ret p.
(** lines 59-61 *)
Definition h_seed_bytes (s : h_seed) : mem bytes :=
  mdo v <- load (hs_value s); m_lift (fill_bytes v (Z.to_nat ((entropy_bits + 7) / 8))).
(** crypto/rand.Int: reads max, returns a new integer *)
Definition h_rand_int (src : bytes) (max : ptr) : mem (ptr * bytes) :=
  mdo m <- load max; mdo (n, rest) <- m_lift (rand_int src m); mdo p <- new_int n; m_ret (p, rest).
(** lines 66-77 *)
Definition h_generate_seed (src : bytes) : mem (h_seed * bytes) :=
  mdo max <- new_int 0;
  mdo _ <- big_lsh max big_one entropy_bits;
  mdo (n, rest) <- h_rand_int src max;
  mdo s <- h_new_seed era_latest n;
  m_ret (s, rest).

(** ** encoding.go:17-41 *)
Definition h_encode_mnemonic (E : Env) (version : Z) (buf : hbuf) : mem (list bytes) :=
  mdo payload <- h_bytes buf;
  mdo checksum <- new_int (Z.land checksum_mask (crc32 payload));
  mdo buf <- h_append_trailing buf checksum checksum_bits;
  if negb (hb_nbits buf =? payload_bit_count version) then m_lift (Err ErrPayloadBitLen)
  else
    mdo copy <- h_int buf;
    mdo indices <- h_encode_to_indices copy (hb_nbits buf);
    m_lift (encode_to_words E indices).
(** lines 45-58 *)
Definition h_encode_plaintext (E : Env) (s : h_seed) (creation_offset : Z) : mem (list bytes) :=
  mdo _ <- m_lift (era_check (hs_era s));
  let version := 0 in
  mdo v <- new_int version;
  mdo buf <- h_new_bitbuf v version_bits;
  mdo copy <- h_seed_int s;
  mdo buf <- h_append_trailing buf copy entropy_bits;
  mdo offset <- new_int creation_offset;
  mdo buf <- h_append_trailing buf offset offset_bits;
  h_encode_mnemonic E version buf.
(** lines 90-93, recovery.go:82-92 *)
Definition h_seed_key (E : Env) (password : bytes) (salt : ptr) (creation_offset : Z) : mem bytes :=
  mdo sbuf <- h_new_bitbuf salt salt_bits;
  mdo offset <- new_int creation_offset;
  mdo sbuf <- h_append_trailing sbuf offset offset_bits;
  mdo sbytes <- h_bytes sbuf;
  m_ret (argon2id E password sbytes argon_time argon_memory argon_threads 17).
(** lines 67-113 *)
Definition h_encode_encrypted (E : Env) (s : h_seed) (creation_offset : Z) (password src : bytes) : mem (list bytes) :=
  mdo _ <- m_lift (era_check (hs_era s));
  if zlen password =? 0 then m_lift (Err ErrEmptyPassword)
  else
    let version := 1 in
    mdo v <- new_int version;
    mdo buf <- h_new_bitbuf v version_bits;
    mdo max <- new_int (Z.shiftl 1 salt_bits);
    mdo (salt, _) <- h_rand_int src max;
    mdo key <- h_seed_key E password salt creation_offset;
    if negb (aes_key_ok (firstn 16 key)) then m_lift (Err ErrAESKeySize)
    else
      mdo sb <- h_seed_bytes s;
      mdo last <- m_lift (go_index key 16);
      mdo verify <- new_int (Z.land last verify_mask);
      mdo enc_seed <- new_int (be_uint (aes_encrypt E (firstn 16 key) sb));
      mdo buf <- h_append_trailing buf enc_seed entropy_bits;
      mdo buf <- h_append_trailing buf salt salt_bits;
      mdo buf <- h_append_trailing buf verify verify_bits;
      mdo offset <- new_int creation_offset;
      mdo buf <- h_append_trailing buf offset offset_bits;
      h_encode_mnemonic E version buf.

(** ** recovery.go:34-43: salt is nil in a plaintext phrase *)
Record h_decoded := mk_hd { hd_version : Z; hd_entropy : ptr; hd_salt : option ptr; hd_verify : Z; hd_offset : Z }.
(** lines 184-245 *)
Definition h_decode_mnemonic (E : Env) (words : list bytes) : mem h_decoded :=
  match words with
  | [] => m_lift (Err ErrInvalidWordCount)
  | w0 :: _ =>
      mdo version <- m_lift (parse_mnemonic_version E w0);
      mdo _ <- m_lift (version_check version);
      if negb (zlen words =? mnemonic_size version) then m_lift (Err ErrInvalidWordCount)
      else
        mdo indices <- m_lift (decode_words E words);
        mdo payload <- h_decode_indices indices;
        mdo buf <- h_new_bitbuf payload (zlen words * bits_per_word);
        mdo (popped, buf) <- h_pop_trailing buf checksum_bits;
        mdo sum <- load popped;
        mdo pbytes <- h_bytes buf;
        if negb (Z.land checksum_mask (crc32 pbytes) =? u32 (big_uint64 sum)) then m_lift (Err ErrInvalidChecksum)
        else
          mdo (_, buf) <- h_pop_leading buf version_bits;
          mdo (entropy, buf) <- h_pop_leading buf entropy_bits;
          mdo (salt, verify, buf) <-
            (if version =? 1 then
               mdo (salt, buf) <- h_pop_leading buf salt_bits;
               mdo (verify, buf) <- h_pop_leading buf verify_bits;
               mdo v <- load verify;
               m_ret (Some salt, u8 (big_uint64 v), buf)
             else m_ret (None, 0, buf));
          mdo (offset, buf) <- h_pop_leading buf offset_bits;
          mdo o <- load offset;
          if negb (hb_nbits buf =? 0) then m_lift (Err ErrExtraBits)
          else m_ret (mk_hd version entropy salt verify (u32 (big_uint64 o)))
  end.
(** lines 116-121: the seed has the address of the entropy in the decoded phrase *)
Definition h_dm_seed (dm : h_decoded) : mem h_seed :=
  if version_encrypted (hd_version dm) then m_lift (Err ErrMnemonicDecryption)
  else h_new_seed (version_era (hd_version dm)) (hd_entropy dm).
(** lines 76-110 *)
Definition h_decrypt_seed (E : Env) (dm : h_decoded) (password : bytes) : mem h_seed :=
  if negb (version_encrypted (hd_version dm)) then h_dm_seed dm
  else
    mdo salt <- m_lift (match hd_salt dm with Some p => Ok p | None => Panic end);
    mdo key <- h_seed_key E password salt (hd_offset dm);
    mdo last <- m_lift (go_index key 16);
    if negb (Z.land last verify_mask =? hd_verify dm) then m_lift (Err ErrMnemonicDecryption)
    else if negb (aes_key_ok (firstn 16 key)) then m_lift (Err ErrAESKeySize)
    else
      mdo v <- load (hd_entropy dm);
      mdo enc_seed <- m_lift (fill_bytes v 16);
      mdo n <- new_int (be_uint (aes_decrypt E (firstn 16 key) enc_seed));
      h_new_seed (version_era (hd_version dm)) n.

(** ** mnemonikey.go:40-44, 55-87: the keys are derived once, the seed is kept by its address.  [hk_key] has the
    derived keys; its copy of the seed is not used. *)
Record h_key := mk_hk { hk_seed : h_seed; hk_key : mnemonikey }.
Definition h_new_key (E : Env) (s : h_seed) (creation : Z) (opts : option key_options) : mem h_key :=
  mdo v <- load (hs_value s);
  mdo m <- m_lift (mnk_new E (mk_seed (hs_era s) v) creation opts);
  m_ret (mk_hk s m).
(** lines 220-222 and 231-233 *)
Definition h_key_plaintext (E : Env) (k : h_key) : mem (list bytes) :=
  h_encode_plaintext E (hk_seed k) (mnk_creation_offset (hk_key k)).
Definition h_key_encrypted (E : Env) (k : h_key) (password src : bytes) : mem (list bytes) :=
  h_encode_encrypted E (hk_seed k) (mnk_creation_offset (hk_key k)) password src.

(** ** A program that uses the package: the calls it makes, and what it sees of their results.  Integers, seeds,
    decoded phrases and keys are numbered in the order in which the program got them. *)
Inductive call :=
| C_int (v : Z)                                     (* big.NewInt of its own *)
| C_set (x : nat) (v : Z)                           (* it changes an integer it has *)
| C_read (x : nat)                                  (* it looks at one *)
| C_to_indices (x : nat) (bit_size : Z)             (* mnemonic.EncodeToIndices *)
| C_from_indices (indices : list Z)                 (* mnemonic.DecodeIndices *)
| C_new_seed (era : Z) (x : nat)                    (* NewSeed *)
| C_generate_seed (src : bytes)                     (* GenerateSeed *)
| C_seed_int (s : nat)                              (* Seed.Int *)
| C_seed_bytes (s : nat)                            (* Seed.Bytes *)
| C_plaintext (s : nat) (offset : Z)                (* EncodeMnemonicPlaintext *)
| C_encrypted (s : nat) (offset : Z) (password src : bytes)
| C_decode (words : list bytes)                     (* DecodeMnemonic *)
| C_dm_seed (d : nat)                               (* DecodedMnemonic.Seed *)
| C_decrypt (d : nat) (password : bytes)            (* DecodedMnemonic.DecryptSeed *)
| C_new_key (s : nat) (creation : Z) (opts : option key_options) (* New *)
| C_key_plaintext (k : nat)                         (* Mnemonikey.EncodeMnemonicPlaintext *)
| C_key_encrypted (k : nat) (password src : bytes).
(** what a call returns, as far as it can be printed; a new key shows everything derived from the seed *)
Inductive seen :=
| Nothing | Failed (e : err) | Panicked | An_int (v : Z) | Bytes (b : bytes) | Indices (l : list Z)
| Words (ws : list bytes) | Key (ks : key_set) (creation : Z).

Record h_state := mk_hst {
  hst_heap : heap; hst_ints : list ptr; hst_seeds : list h_seed; hst_phrases : list h_decoded; hst_keys : list h_key
}.
Definition h_init : h_state := mk_hst heap_start [] [] [] [].
(** run a call and go on with its result *)
Definition h_call {A} (m : mem A) (st : h_state) (f : A -> h_state -> seen * h_state) : seen * h_state :=
  let (r, h) := m (hst_heap st) in
  let st := mk_hst h (hst_ints st) (hst_seeds st) (hst_phrases st) (hst_keys st) in
  match r with Ok a => f a st | Err e => (Failed e, st) | Panic => (Panicked, st) end.
Definition add_int (p : ptr) (st : h_state) : seen * h_state :=
  (Nothing, mk_hst (hst_heap st) (hst_ints st ++ [p]) (hst_seeds st) (hst_phrases st) (hst_keys st)).
Definition add_seed (s : h_seed) (st : h_state) : seen * h_state :=
  (Nothing, mk_hst (hst_heap st) (hst_ints st) (hst_seeds st ++ [s]) (hst_phrases st) (hst_keys st)).
Definition add_phrase (d : h_decoded) (st : h_state) : seen * h_state :=
  (Nothing, mk_hst (hst_heap st) (hst_ints st) (hst_seeds st) (hst_phrases st ++ [d]) (hst_keys st)).
Definition add_key (k : h_key) (st : h_state) : seen * h_state :=
  (Key (mnk_keys (hk_key k)) (mnk_creation (hk_key k)),
   mk_hst (hst_heap st) (hst_ints st) (hst_seeds st) (hst_phrases st) (hst_keys st ++ [k])).
(** a number of something the program does not have: nothing happens *)
Definition having {A} (l : list A) (n : nat) (st : h_state) (f : A -> seen * h_state) : seen * h_state :=
  match nth_error l n with Some a => f a | None => (Nothing, st) end.
Definition h_step (E : Env) (c : call) (st : h_state) : seen * h_state :=
  match c with
  | C_int v => h_call (new_int v) st add_int
  | C_set x v => having (hst_ints st) x st (fun p => h_call (store p v) st (fun _ st => (Nothing, st)))
  | C_read x => having (hst_ints st) x st (fun p => h_call (load p) st (fun v st => (An_int v, st)))
  | C_to_indices x n =>
      having (hst_ints st) x st (fun p => h_call (h_encode_to_indices p n) st (fun l st => (Indices l, st)))
  | C_from_indices l => h_call (h_decode_indices l) st add_int
  | C_new_seed era x => having (hst_ints st) x st (fun p => h_call (h_new_seed era p) st add_seed)
  | C_generate_seed src => h_call (h_generate_seed src) st (fun r => add_seed (fst r))
  | C_seed_int s => having (hst_seeds st) s st (fun s => h_call (h_seed_int s) st add_int)
  | C_seed_bytes s => having (hst_seeds st) s st (fun s => h_call (h_seed_bytes s) st (fun b st => (Bytes b, st)))
  | C_plaintext s o =>
      having (hst_seeds st) s st (fun s => h_call (h_encode_plaintext E s o) st (fun ws st => (Words ws, st)))
  | C_encrypted s o pw src =>
      having (hst_seeds st) s st (fun s => h_call (h_encode_encrypted E s o pw src) st (fun ws st => (Words ws, st)))
  | C_decode ws => h_call (h_decode_mnemonic E ws) st add_phrase
  | C_dm_seed d => having (hst_phrases st) d st (fun d => h_call (h_dm_seed d) st add_seed)
  | C_decrypt d pw => having (hst_phrases st) d st (fun d => h_call (h_decrypt_seed E d pw) st add_seed)
  | C_new_key s t o => having (hst_seeds st) s st (fun s => h_call (h_new_key E s t o) st add_key)
  | C_key_plaintext k =>
      having (hst_keys st) k st (fun k => h_call (h_key_plaintext E k) st (fun ws st => (Words ws, st)))
  | C_key_encrypted k pw src =>
      having (hst_keys st) k st (fun k => h_call (h_key_encrypted E k pw src) st (fun ws st => (Words ws, st)))
  end.
(** all the calls up to the first panic *)
Fixpoint h_run (E : Env) (calls : list call) (st : h_state) : list seen * h_state :=
  match calls with
  | [] => ([], st)
  | c :: rest =>
      let (o, st) := h_step E c st in
      match o with
      | Panicked => ([Panicked], st)
      | _ => let (os, st) := h_run E rest st in (o :: os, st)
      end
  end.
