(** The functions of /repo/pgp with their byte slices in memory: a slice is a part of an array, several slices may
    lie in the same array, and append writes into the array if there is room behind the slice.  PgpWire.v, PgpS2k.v
    and PgpKeys.v have the same functions on lists of bytes.

    Simplifications: slices of *Subpacket are lists (each is local to one function until it is stored in the
    Signature); a bytes.Buffer is the list of what was written to it until Bytes is called; what is written to a
    running hash is read at that moment and put together; arrays that are not behind a slice ([20]byte of sha1.Sum)
    are values.  Structs are never changed after their construction. *)
From Verif.Model Require Import GoBase Env GoTime Seed Encoding PgpWire PgpS2k PgpKeys.

Definition arrays := list bytes.
Record slice := mk_slice { sl_at : nat; sl_off : nat; sl_len : nat; sl_cap : nat }.
(** memory and what crypto/rand will deliver *)
Definition memory : Type := (arrays * bytes)%type.
(** A computation is the sequence of its accesses to memory: it ends, or reads all of a slice, or makes an array of the
    given bytes with room behind them, or writes bytes into the array of a slice from an element on, or asks crypto/rand
    for bytes; what comes next depends on the answer.  What other goroutines do may come between (SliceThreads.v). *)
Inductive sm (A : Type) : Type :=
| S_done (r : res A)
| S_read (s : slice) (next : bytes -> sm A)
| S_new (b : bytes) (room : nat) (next : slice -> sm A)
| S_put (s : slice) (i : nat) (b : bytes) (next : sm A)
| S_take (n : nat) (next : res bytes -> sm A).
Arguments S_done {A} r.
Arguments S_read {A} s next.
Arguments S_new {A} b room next.
Arguments S_put {A} s i b next.
Arguments S_take {A} n next.
Definition s_lift {A} (r : res A) : sm A := S_done r.
Definition s_ret {A} (a : A) : sm A := S_done (Ok a).
Fixpoint s_bind {A B} (f : sm A) (g : A -> sm B) : sm B :=
  match f with
  | S_done (Ok a) => g a
  | S_done (Err e) => S_done (Err e)
  | S_done Panic => S_done Panic
  | S_read s k => S_read s (fun b => s_bind (k b) g)
  | S_new b room k => S_new b room (fun s => s_bind (k s) g)
  | S_put s i b k => S_put s i b (s_bind k g)
  | S_take n k => S_take n (fun r => s_bind (k r) g)
  end.
Notation "'sdo' p '<-' a ';' b" := (s_bind a (fun p => b)) (at level 200, p as pattern, a at level 100, b at level 200).

Definition array (m : arrays) (i : nat) : bytes := nth i m [].
Definition content (m : arrays) (s : slice) : bytes := firstn (sl_len s) (skipn (sl_off s) (array m (sl_at s))).
Definition splice (a : bytes) (i : nat) (b : bytes) : bytes := firstn i a ++ b ++ skipn (i + length b) a.
Definition set_array (m : arrays) (i : nat) (a : bytes) : arrays := firstn i m ++ a :: skipn (S i) m.
(** a new array at the end of memory *)
Definition m_new (m : arrays) (b : bytes) (room : nat) : slice * arrays :=
  (mk_slice (length m) 0 (length b) (length b + room), m ++ [b ++ repeat 0 room]).
Definition m_put (m : arrays) (s : slice) (i : nat) (b : bytes) : arrays :=
  set_array m (sl_at s) (splice (array m (sl_at s)) (sl_off s + i) b).
Definition m_take (tape : bytes) (n : nat) : res bytes * bytes :=
  match read_full tape n with Ok (b, rest) => (Ok b, rest) | Err e => (Err e, tape) | Panic => (Panic, tape) end.
(** a computation that nothing comes between *)
Fixpoint s_run {A} (f : sm A) (h : memory) {struct f} : res A * memory :=
  match f with
  | S_done r => (r, h)
  | S_read s k => s_run (k (content (fst h) s)) h
  | S_new b room k => s_run (k (fst (m_new (fst h) b room))) (snd (m_new (fst h) b room), snd h)
  | S_put s i b k => s_run k (m_put (fst h) s i b, snd h)
  | S_take n k => s_run (k (fst (m_take (snd h) n))) (fst h, snd (m_take (snd h) n))
  end.
Coercion s_run : sm >-> Funclass.

(** reading all of a slice *)
Definition s_read (s : slice) : sm bytes := S_read s s_ret.
Definition s_new (b : bytes) (room : nat) : sm slice := S_new b room s_ret.
(** a composite literal, or make([]byte, n): as much capacity as elements *)
Definition s_lit (b : bytes) : sm slice := s_new b 0.
Definition s_make (n : nat) : sm slice := s_new (repeat 0 n) 0.
(** writing [b] into the array of a slice, from its element number [i] on *)
Definition s_put (s : slice) (i : nat) (b : bytes) : sm unit := S_put s i b (s_ret tt).
(** s[i] = v *)
Definition s_set (s : slice) (i : nat) (v : Z) : sm unit :=
  if Nat.ltb i (sl_len s) then s_put s i [v] else s_lift Panic.
(** copy(s[i:], b) *)
Definition s_copy (s : slice) (i : nat) (b : bytes) : sm unit :=
  if Nat.ltb (sl_len s) i then s_lift Panic else s_put s i (firstn (sl_len s - i) b).
(** binary.BigEndian.PutUint16(s, _), PutUint32(s, _) with the bytes [b] *)
Definition s_put_uint (s : slice) (b : bytes) : sm unit :=
  if Nat.ltb (sl_len s) (length b) then s_lift Panic else s_put s 0 b.
(** s[i:j] *)
Definition s_cut (s : slice) (i j : nat) : sm slice :=
  if (Nat.leb i j && Nat.leb j (sl_cap s))%bool then s_ret (mk_slice (sl_at s) (sl_off s + i) (j - i) (sl_cap s - i)) else s_lift Panic.

(** variables of the package: oidED25519 (master_key.go:12), oidCurve25519 (encryption_subkey.go:11) and
    signatureTrailer (constants.go:63) *)
Definition package_arrays : arrays := [oid_ed25519; oid_curve25519; signature_trailer].
Definition global (i : nat) (b : bytes) : slice := mk_slice i 0 (length b) (length b).
Definition var_oid_ed25519 : slice := global 0 oid_ed25519.
Definition var_oid_curve25519 : slice := global 1 oid_curve25519.
Definition var_trailer : slice := global 2 signature_trailer.
(** the nil slice *)
Definition s_nil : slice := mk_slice 0 0 0 0.

Record h_sub := mk_hsub { hb_type : Z; hb_body : slice }.
Record h_sig := mk_hsig {
  hg_hashed : list h_sub; hg_unhashed : list h_sub; hg_type : Z; hg_hash : Z; hg_digest : slice; hg_r : Z; hg_s : Z
}.
Record h_request := mk_hreq {
  hr_fingerprint : slice; hr_hash : Z; hr_data : slice; hr_type : Z;
  hr_hashed : list h_sub; hr_unhashed : list h_sub; hr_time : Z
}.
Record h_ecc := mk_hecc {
  he_private : slice; he_public : slice; he_signing : option slice; he_creation : Z; he_alg : Z;
  he_oid : slice; he_extra : slice
}.
Record h_ed := mk_hed { hd_base : h_ecc; hd_private : slice; hd_expiry : Z }.
Record h_curve := mk_hcurve { hc_base : h_ecc; hc_private : slice; hc_expiry : Z; hc_kdf : kdf_params }.
Record h_set := mk_hset {
  hk_uid : user_id; hk_master : h_ed; hk_enc : option h_curve; hk_auth : option h_ed; hk_sign : option h_ed
}.

Section Code.
Variable E : Env.
(** how much room append, bytes.Buffer, a conversion from string or Sum(nil) leave when they make an array, given the
    old capacity and the length that is needed: up to the runtime *)
Variable G : nat -> nat -> nat.

(** append(s, b...) *)
Definition s_append (s : slice) (b : bytes) : sm slice :=
  let n := (sl_len s + length b)%nat in
  if Nat.leb n (sl_cap s)
  then sdo _ <- s_put s (sl_len s) b; s_ret (mk_slice (sl_at s) (sl_off s) n (sl_cap s))
  else sdo old <- s_read s; s_new (old ++ b) (G (sl_cap s) n).
(** Bytes of a new bytes.Buffer that [b] was written to; []byte(string); Sum(nil) *)
Definition s_fresh (b : bytes) : sm slice := s_new b (G 0 (length b)).

(** ** packet.go:21-34 *)
Definition h_packet_length (size : Z) : sm slice :=
  if size <=? 191 then s_lit [u8 size]
  else if size <=? 8383 then
    let k := size - 192 in s_lit [u8 (u8 (Z.shiftr k 8) + 192); u8 k]
  else
    sdo s <- s_lit [0xFF; 0; 0; 0; 0];
    sdo tail <- s_cut s 1 5;
    sdo _ <- s_put_uint tail (be_bytes 4 (u32 size));
    s_ret s.
(** packet.go:9-19 *)
Definition h_encode_packet (tag : Z) (payload : slice) : sm slice :=
  sdo len <- h_packet_length (Z.of_nat (sl_len payload));
  sdo encoded <- s_make (1 + sl_len len + sl_len payload);
  sdo _ <- s_set encoded 0 (Z.lor 0xC0 (u8 tag));
  sdo l <- s_read len;
  sdo _ <- s_copy encoded 1 l;
  sdo p <- s_read payload;
  sdo _ <- s_copy encoded (1 + sl_len len) p;
  s_ret encoded.
(** mpi.go:12-21 *)
Definition h_encode_mpi (n : Z) : sm slice :=
  let len := bit_len n in
  sdo encoded <- s_make (Z.to_nat ((len + 7) / 8 + 2));
  sdo _ <- s_put_uint encoded (be_bytes 2 (u16 len));
  sdo _ <- s_copy encoded 2 (big_bytes n);
  s_ret encoded.
(** mpi.go:24-32 *)
Definition h_checksum_mpi (mpi : slice) : sm slice :=
  sdo b <- s_read mpi;
  sdo buf <- s_make 2;
  sdo _ <- s_put_uint buf (be_bytes 2 (fold_left (fun c b => u16 (c + b)) b 0));
  s_ret buf.
(** user_id.go:11-24 *)
Definition h_uid_encode (u : user_id) : sm slice := s_fresh (uid_encode u).
Definition h_uid_packet (u : user_id) : sm slice := sdo p <- h_uid_encode u; h_encode_packet tag_user_id p.
(** constants.go:128-135 *)
Definition h_kdf_encode (k : kdf_params) : sm slice := s_lit (kdf_encode k).

(** ** signature.go:18-24 *)
Definition h_sub_encode (s : h_sub) : sm slice :=
  sdo len <- h_packet_length (Z.of_nat (sl_len (hb_body s)) + 1);
  sdo l <- s_read len;
  sdo body <- s_read (hb_body s);
  s_fresh (l ++ u8 (hb_type s) :: body).
(** lines 26-33 *)
Fixpoint h_sub_loop (encoded : slice) (l : list h_sub) : sm slice :=
  match l with
  | [] => s_ret encoded
  | sp :: l =>
      sdo e <- h_sub_encode sp;
      sdo b <- s_read e;
      sdo encoded <- s_append encoded b;
      h_sub_loop encoded l
  end.
Definition h_encode_subpackets (l : list h_sub) : sm slice :=
  sdo encoded <- s_make 2;
  sdo encoded <- h_sub_loop encoded l;
  sdo _ <- s_put_uint encoded (be_bytes 2 (u16 (Z.of_nat (sl_len encoded) - 2)));
  s_ret encoded.
(** lines 48-67 *)
Definition h_sig_preimage (type hash : Z) (hashed : list h_sub) : sm slice :=
  sdo subs <- h_encode_subpackets hashed;
  sdo b <- s_read subs;
  s_fresh ([sig_packet_version; u8 type; alg_eddsa; u8 hash] ++ b).
(** lines 71-92 *)
Definition h_sig_encode (s : h_sig) : sm slice :=
  sdo pre <- h_sig_preimage (hg_type s) (hg_hash s) (hg_hashed s);
  sdo p <- s_read pre;
  sdo un <- h_encode_subpackets (hg_unhashed s);
  sdo u <- s_read un;
  sdo cut <- s_cut (hg_digest s) 0 2;
  sdo d <- s_read cut;
  sdo mr <- h_encode_mpi (hg_r s);
  sdo r <- s_read mr;
  sdo ms <- h_encode_mpi (hg_s s);
  sdo v <- s_read ms;
  s_fresh (p ++ u ++ d ++ r ++ v).
Definition h_sig_packet (s : h_sig) : sm slice := sdo p <- h_sig_encode s; h_encode_packet tag_signature p.

(** ** s2k.go:13-25 *)
Definition h_string_to_key (hash : Z) (password salt : slice) (count : Z) : sm slice :=
  sdo p <- s_read password;
  sdo preimage <- s_append salt p;
  match hash_new E hash with
  | None => s_lift Panic
  | Some h =>
      let n := Z.of_nat (sl_len preimage) in
      if n =? 0 then s_lift Panic
      else
        sdo all <- s_read preimage;
        sdo cut <- s_cut preimage 0 (Z.to_nat (count mod n));
        sdo part <- s_read cut;
        s_fresh (h (concat (repeat all (Z.to_nat (count / n))) ++ part))
  end.
(** crypto/rand.Read(s) *)
Definition s_random (s : slice) : sm unit :=
  S_take (sl_len s) (fun r => match r with Ok b => s_put s 0 b | Err e => S_done (Err e) | Panic => S_done Panic end).
(** lines 35-81.  XORKeyStream fills the ciphertext; that is one step with the make before it. *)
Definition h_encrypt_s2k (hash : Z) (plaintext password : slice) : sm slice :=
  sdo salt <- s_make 8;
  sdo _ <- s_random salt;
  sdo iv <- s_make 16;
  sdo _ <- s_random iv;
  sdo key <- h_string_to_key hash password salt (s2k_count_decode s2k_count_maximum);
  sdo secret <- s_read plaintext;
  sdo mpi <- h_encode_mpi (be_uint secret);
  sdo mb <- s_read mpi;
  sdo text <- s_append mpi (sha1 E mb);
  sdo k <- s_read key;
  if negb (aes_key_ok k) then s_lift (Err ErrAESKeySize)
  else
    sdo t <- s_read text;
    sdo v <- s_read iv;
    sdo ciphertext <- s_lit (cfb_encrypt E k (length t) v t);
    sdo cipher <- s_lift
      (if hash_size hash =? 16 then Ok cipher_aes128
       else if hash_size hash =? 24 then Ok cipher_aes192
       else if hash_size hash =? 32 then Ok cipher_aes256
       else Err ErrAESKeySize);
    sdo s <- s_read salt;
    sdo c <- s_read ciphertext;
    s_fresh ([s2k_specifier; cipher; s2k_usage_iterated; u8 hash] ++ s ++ [s2k_count_maximum] ++ v ++ c).

(** ** sign.go:39-84.  ed25519.Sign panics if the private key does not have 64 bytes. *)
Definition h_sign (private : slice) (rq : h_request) : sm h_sig :=
  sdo stamp <- s_make 4;
  sdo _ <- s_put_uint stamp (be_bytes 4 (u32 (t_unix (hr_time rq))));
  sdo version <- s_lit [key_packet_version];
  sdo fp <- s_read (hr_fingerprint rq);
  sdo issuer <- s_append version fp;
  let hashed := [mk_hsub sub_issuer_fingerprint issuer; mk_hsub sub_creation_time stamp] ++ hr_hashed rq in
  sdo id <- (if Nat.ltb (sl_len (hr_fingerprint rq)) 8 then s_lift Panic
             else s_cut (hr_fingerprint rq) (sl_len (hr_fingerprint rq) - 8) (sl_len (hr_fingerprint rq)));
  let unhashed := [mk_hsub sub_issuer id] ++ hr_unhashed rq in
  match hash_new E (hr_hash rq) with
  | None => s_lift Panic
  | Some h =>
      sdo data <- s_read (hr_data rq);
      sdo pre <- h_sig_preimage (hr_type rq) (hr_hash rq) hashed;
      sdo p <- s_read pre;
      sdo trailer <- s_read var_trailer;
      sdo digest <- s_fresh (h (data ++ p ++ trailer ++ be_bytes 4 (u32 (zlen p))));
      sdo d <- s_read digest;
      if negb (Nat.eqb (sl_len private) 64) then s_lift Panic
      else
        sdo k <- s_read private;
        let sg := ed25519_sign E k d in
        s_ret (mk_hsig hashed unhashed (hr_type rq) (hr_hash rq) digest (be_uint (firstn 32 sg)) (be_uint (skipn 32 sg)))
  end.

(** ** ecc_key.go:28-55 *)
Definition h_encode_public (k : h_ecc) : sm slice :=
  sdo oid <- s_read (he_oid k);
  sdo prefix <- s_lit [mpi_prefix_eddsa];
  sdo pub <- s_read (he_public k);
  sdo point <- s_append prefix pub;
  sdo n <- s_read point;
  sdo mpi <- h_encode_mpi (be_uint n);
  sdo m <- s_read mpi;
  sdo extra <- s_read (he_extra k);
  s_fresh ([key_packet_version] ++ be_bytes 4 (u32 (t_unix (he_creation k))) ++ [he_alg k] ++
           [u8 (Z.of_nat (sl_len (he_oid k)))] ++ oid ++ m ++ extra).
(** lines 59-82 *)
Definition h_encode_private (k : h_ecc) (password : slice) : sm slice :=
  sdo public <- h_encode_public k;
  sdo p <- s_read public;
  if Z.of_nat (sl_len password) >? 0 then
    sdo enc <- h_encrypt_s2k default_s2k_hash (he_private k) password;
    sdo e <- s_read enc;
    s_fresh (p ++ e)
  else
    sdo secret <- s_read (he_private k);
    sdo mpi <- h_encode_mpi (be_uint secret);
    sdo m <- s_read mpi;
    sdo sum <- h_checksum_mpi mpi;
    sdo c <- s_read sum;
    s_fresh (p ++ [0] ++ m ++ c).
(** lines 86-101 *)
Definition h_encode_private_dummy (k : h_ecc) : sm slice :=
  sdo public <- h_encode_public k;
  sdo p <- s_read public;
  s_fresh (p ++ [s2k_specifier; 0; s2k_gnu_dummy; 0] ++ s2k_gnu_id ++ [s2k_gnu_dummy - 100]).
(** lines 104-125 *)
Definition h_fingerprint_v4 (k : h_ecc) : sm slice :=
  sdo public <- h_encode_public k;
  sdo p <- s_read public;
  s_fresh (sha1 E ([public_key_prefix_v4] ++ be_bytes 2 (u16 (zlen p)) ++ p)).
Definition h_fingerprint_v5 (k : h_ecc) : sm slice :=
  sdo public <- h_encode_public k;
  sdo p <- s_read public;
  s_fresh (sha256 E ([public_key_prefix_v5] ++ be_bytes 4 (u32 (zlen p)) ++ p)).

(** ** master_key.go:27-54, ed25519_subkey.go:20-49.  NewKeyFromSeed and Public make new arrays; PrivateSerialized,
    PrivateSigning and Private lie in one array, PublicSerialized and Public in another. *)
Definition h_new_ed_key (seed : slice) (creation expiry : Z) : sm h_ed :=
  if negb (Z.of_nat (sl_len seed) =? 32) then s_lift (Err ErrSeedLength)
  else
    sdo s <- s_read seed;
    sdo private <- s_lit (s ++ ed25519_public E s);
    sdo public <- s_lit (ed25519_public E s);
    sdo serialized <- s_cut private 0 32;
    s_ret (mk_hed (mk_hecc serialized public (Some private) creation alg_eddsa var_oid_ed25519 s_nil) private expiry).
(** encryption_subkey.go:95-102 *)
Definition h_reverse (s : slice) : sm slice := sdo b <- s_read s; s_lit (rev b).
(** encryption_subkey.go:29-74 *)
Definition h_new_curve_key (seed : slice) (creation expiry : Z) (kdf : option kdf_params) : sm h_curve :=
  if negb (Z.of_nat (sl_len seed) =? 32) then s_lift (Err ErrSeedLength)
  else
    sdo empty <- s_lit [];
    sdo s <- s_read seed;
    sdo private <- s_append empty s;
    sdo b <- s_read private;
    sdo _ <- s_set private 0 (Z.land (nth 0 b 0) 248);
    sdo b <- s_read private;
    sdo _ <- s_set private 31 (Z.land (nth 31 b 0) 127);
    sdo b <- s_read private;
    sdo _ <- s_set private 31 (Z.lor (nth 31 b 0) 64);
    sdo s <- s_read seed;
    sdo public <- s_lit (x25519_base E s);
    let kdf := match kdf with None => default_kdf | Some k => k end in
    sdo serialized <- h_reverse private;
    sdo extra <- h_kdf_encode kdf;
    s_ret (mk_hcurve (mk_hecc serialized public None creation alg_ecdh var_oid_curve25519 extra) private expiry kdf).

(** master_key.go:118-125 and 211-218 *)
Definition h_expiry (creation expiry : Z) : sm (list h_sub) :=
  if is_zero_time expiry then s_ret []
  else
    sdo t <- s_make 4;
    sdo _ <- s_put_uint t (be_bytes 4 (seconds_u32 E (t_sub expiry creation)));
    s_ret [mk_hsub sub_expiry t].
(** master_key.go:83-181.  The literals come in the order of the code. *)
Definition h_self_certify (m : h_ed) (u : user_id) : sm h_sig :=
  sdo public <- h_encode_public (hd_base m);
  sdo uid <- h_uid_encode u;
  sdo p <- s_read public;
  sdo q <- s_read uid;
  sdo flags <- s_lit [flag_certify];
  sdo expiry <- h_expiry (he_creation (hd_base m)) (hd_expiry m);
  sdo ciphers <- s_lit [cipher_aes256; cipher_aes192; cipher_aes128; cipher_des];
  sdo hashes <- s_lit [hash_sha512; hash_sha384; hash_sha256; hash_sha224; hash_sha1];
  sdo compressions <- s_lit [compression_zlib; compression_bzip2; compression_zip];
  sdo features <- s_lit [1];
  sdo server <- s_lit [key_server_no_modify];
  sdo fp <- h_fingerprint_v4 (hd_base m);
  sdo data <- s_fresh ([public_key_prefix_v4] ++ be_bytes 2 (u16 (zlen p)) ++ p ++
                       [user_id_prefix] ++ be_bytes 4 (u32 (zlen q)) ++ q);
  h_sign (hd_private m) (mk_hreq fp hash_sha256 data sig_positive_certification
    ([mk_hsub sub_key_flags flags] ++ expiry ++
     [mk_hsub sub_pref_cipher ciphers; mk_hsub sub_pref_hash hashes; mk_hsub sub_pref_compression compressions;
      mk_hsub sub_features features; mk_hsub sub_key_server server])
    [] (he_creation (hd_base m))).
(** master_key.go:184-254 *)
Definition h_bind_subkey (m : h_ed) (sub : h_ecc) (flags expiry : Z) : sm h_sig :=
  sdo public <- h_encode_public (hd_base m);
  sdo subkey <- h_encode_public sub;
  sdo p <- s_read public;
  sdo q <- s_read subkey;
  sdo flag <- s_lit [flags];
  sdo exp <- h_expiry (he_creation sub) expiry;
  sdo data <- s_fresh ([public_key_prefix_v4] ++ be_bytes 2 (u16 (zlen p)) ++ p ++
                       [public_key_prefix_v4] ++ be_bytes 2 (u16 (zlen q)) ++ q);
  sdo unhashed <-
    (if negb (Z.land flags flag_sign =? 0) then
       match he_signing sub with
       | None => s_lift Panic
       | Some private =>
           sdo fp <- h_fingerprint_v4 sub;
           sdo sg <- h_sign private (mk_hreq fp hash_sha256 data sig_primary_key_binding [] [] (he_creation sub));
           sdo body <- h_sig_encode sg;
           s_ret [mk_hsub sub_embedded_signature body]
       end
     else s_ret []);
  sdo fp <- h_fingerprint_v4 (hd_base m);
  h_sign (hd_private m) (mk_hreq fp hash_sha256 data sig_subkey_binding
    ([mk_hsub sub_key_flags flag] ++ exp) unhashed (he_creation sub)).

(** ** master_key.go:57-79, ed25519_subkey.go:52-68, encryption_subkey.go:77-93 *)
Definition h_private_packet (tag : Z) (k : h_ecc) (password : slice) : sm slice :=
  sdo p <- h_encode_private k password; h_encode_packet tag p.
Definition h_public_packet (tag : Z) (k : h_ecc) : sm slice :=
  sdo p <- h_encode_public k; h_encode_packet tag p.
Definition h_dummy_packet (k : h_ecc) : sm slice :=
  sdo p <- h_encode_private_dummy k; h_encode_packet tag_secret_key p.
(** key_set.go:29-43, 51-65, 73-87: append to the packet of the key *)
Definition h_subkey_packets (m : h_ed) (k : h_ecc) (flags expiry : Z) (password : slice) : sm slice :=
  sdo packet <- h_private_packet tag_secret_subkey k password;
  sdo sg <- h_bind_subkey m k flags expiry;
  sdo sp <- h_sig_packet sg;
  sdo b <- s_read sp;
  s_append packet b.
Fixpoint s_read_all (l : list slice) : sm bytes :=
  match l with
  | [] => s_ret []
  | s :: l => sdo b <- s_read s; sdo r <- s_read_all l; s_ret (b ++ r)
  end.
(** lines 95-147 *)
Definition h_all_subkey_packets (ks : h_set) (password : slice) : sm slice :=
  let m := hk_master ks in
  sdo e0 <- s_lit [];
  sdo e1 <- s_lit [];
  sdo e2 <- s_lit [];
  sdo g0 <- match hk_enc ks with
            | None => s_ret e0
            | Some k => h_subkey_packets m (hc_base k) (Z.lor flag_encrypt_comm flag_encrypt_storage) (hc_expiry k) password
            end;
  sdo g1 <- match hk_auth ks with
            | None => s_ret e1
            | Some k => h_subkey_packets m (hd_base k) flag_authenticate (hd_expiry k) password
            end;
  sdo g2 <- match hk_sign ks with
            | None => s_ret e2
            | Some k => h_subkey_packets m (hd_base k) flag_sign (hd_expiry k) password
            end;
  sdo private <- s_read (hd_private m);
  sdo groups <- s_lift (shuffle E (shuffle_seed E private) [g0; g1; g2]);
  sdo b <- s_read_all groups;
  s_fresh b.
(** lines 151-153 *)
Definition h_self_certification (ks : h_set) : sm slice :=
  sdo sg <- h_self_certify (hk_master ks) (hk_uid ks); h_sig_packet sg.
(** lines 159-183 *)
Definition h_encode_packets (ks : h_set) (password : slice) : sm slice :=
  sdo master <- h_private_packet tag_secret_key (hd_base (hk_master ks)) password;
  sdo a <- s_read master;
  sdo uid <- h_uid_packet (hk_uid ks);
  sdo b <- s_read uid;
  sdo cert <- h_self_certification ks;
  sdo c <- s_read cert;
  sdo subs <- h_all_subkey_packets ks password;
  sdo d <- s_read subs;
  s_fresh (a ++ b ++ c ++ d).
(** lines 194-218 *)
Definition h_encode_subkey_packets (ks : h_set) (password : slice) (with_cert : bool) : sm slice :=
  sdo master <- h_dummy_packet (hd_base (hk_master ks));
  sdo a <- s_read master;
  sdo uid <- h_uid_packet (hk_uid ks);
  sdo b <- s_read uid;
  sdo c <- (if with_cert then sdo cert <- h_self_certification ks; s_read cert else s_ret []);
  sdo subs <- h_all_subkey_packets ks password;
  sdo d <- s_read subs;
  s_fresh (a ++ b ++ c ++ d).

(** ** Programs that use the package *)
(** A program has byte slices of its own, and keys and signatures that the package gave it.  It names each by its
    number.  A result that is a []byte becomes one more of its slices. *)
Inductive signer := By_key (k : nat) | By_slice (x : nat).
Inductive p_call :=
| P_make (b : bytes)                                (* x := []byte{...} *)
| P_set (x i : nat) (v : Z)                         (* x[i] = v *)
| P_read (x : nat)
| P_new_key (x : nat) (creation expiry : Z)         (* NewED25519MasterKey, NewED25519Subkey *)
| P_new_curve (x : nat) (creation expiry : Z) (kdf : option kdf_params)
| P_private (k : nat)                               (* reading key.Private *)
| P_public (k : nat)                                (* reading key.Public *)
| P_set_private (k i : nat) (v : Z)                 (* key.Private[i] = v *)
| P_set_public (k i : nat) (v : Z)
| P_curve_private (c : nat)
| P_set_curve_private (c i : nat) (v : Z)
| P_fingerprint (k : nat)
| P_curve_fingerprint (c : nat)
| P_public_packet (k : nat)                         (* EncodePublicPacket of a master key *)
| P_public_subkey (k : nat)
| P_curve_public_subkey (c : nat)
| P_private_packet (k pw : nat) (tape : bytes)      (* EncodePrivatePacket of a master key *)
| P_private_subkey (k pw : nat) (tape : bytes)
| P_curve_private_subkey (c pw : nat) (tape : bytes)
| P_dummy_packet (k : nat)
| P_self_certify (k : nat) (u : user_id)
| P_sign (by_ : signer) (fingerprint : nat) (hash : Z) (data : nat) (type : Z) (hashed unhashed : list (Z * nat)) (time : Z)
| P_sig_encode (s : nat)
| P_sig_packet (s : nat)
| P_sig_digest (s : nat)                            (* reading SigHash *)
| P_packets (u : user_id) (m : nat) (enc auth sign : option nat) (pw : nat) (tape : bytes)
| P_subkey_packets (u : user_id) (m : nat) (enc auth sign : option nat) (pw : nat) (with_cert : bool) (tape : bytes)
| P_packet (tag : Z) (x : nat)                      (* EncodePacket *)
| P_mpi (n : Z)                                     (* EncodeMPI *)
| P_s2k (hash : Z) (x pw : nat) (tape : bytes)      (* EncryptS2K *)
| P_uid (u : user_id)                               (* UserID.Encode *)
| P_uid_packet (u : user_id)
| P_sub (type : Z) (x : nat).                       (* Subpacket.Encode *)
(** what the program sees of a call *)
Inductive p_seen := Q_nothing | Q_bytes (b : bytes) | Q_failed (e : err) | Q_panicked.

Record p_state := mk_pst {
  pst_mem : arrays; pst_slices : list slice; pst_keys : list h_ed; pst_curves : list h_curve; pst_sigs : list h_sig
}.
Definition p_init : p_state := mk_pst package_arrays [] [] [] [].
Definition with_mem (m : arrays) (st : p_state) : p_state :=
  mk_pst m (pst_slices st) (pst_keys st) (pst_curves st) (pst_sigs st).
Definition p_do {A} (f : sm A) (tape : bytes) (st : p_state) (g : A -> p_state -> p_seen * p_state) : p_seen * p_state :=
  match f (pst_mem st, tape) with
  | (Ok a, (m, _)) => g a (with_mem m st)
  | (Err e, (m, _)) => (Q_failed e, with_mem m st)
  | (Panic, (m, _)) => (Q_panicked, with_mem m st)
  end.
Definition p_quiet (_ : unit) (st : p_state) : p_seen * p_state := (Q_nothing, st).
Definition p_show (b : bytes) (st : p_state) : p_seen * p_state := (Q_bytes b, st).
Definition p_slice (s : slice) (st : p_state) : p_seen * p_state :=
  (Q_bytes (content (pst_mem st) s),
   mk_pst (pst_mem st) (pst_slices st ++ [s]) (pst_keys st) (pst_curves st) (pst_sigs st)).
Definition p_key (k : h_ed) (st : p_state) : p_seen * p_state :=
  (Q_nothing, mk_pst (pst_mem st) (pst_slices st) (pst_keys st ++ [k]) (pst_curves st) (pst_sigs st)).
Definition p_curve (c : h_curve) (st : p_state) : p_seen * p_state :=
  (Q_nothing, mk_pst (pst_mem st) (pst_slices st) (pst_keys st) (pst_curves st ++ [c]) (pst_sigs st)).
Definition p_sig (s : h_sig) (st : p_state) : p_seen * p_state :=
  (Q_nothing, mk_pst (pst_mem st) (pst_slices st) (pst_keys st) (pst_curves st) (pst_sigs st ++ [s])).
(** a number without slice, key or signature: there is no such program *)
Definition p_with {A S} (l : list A) (n : nat) (st : S) (f : A -> p_seen * S) : p_seen * S :=
  match nth_error l n with Some a => f a | None => (Q_nothing, st) end.
Definition p_maybe {A S} (l : list A) (n : option nat) (st : S) (f : option A -> p_seen * S) : p_seen * S :=
  match n with None => f None | Some n => p_with l n st (fun a => f (Some a)) end.
Fixpoint p_all {A S} (l : list A) (ns : list (Z * nat)) (st : S) (f : list (Z * A) -> p_seen * S) : p_seen * S :=
  match ns with
  | [] => f []
  | (t, n) :: ns => p_with l n st (fun a => p_all l ns st (fun r => f ((t, a) :: r)))
  end.
Definition h_subs (l : list (Z * slice)) : list h_sub := map (fun p => mk_hsub (fst p) (snd p)) l.

Definition p_step (c : p_call) (st : p_state) : p_seen * p_state :=
  let xs := pst_slices st in
  let ks := pst_keys st in
  let cs := pst_curves st in
  let sgs := pst_sigs st in
  match c with
  | P_make b => p_do (s_lit b) [] st p_slice
  | P_set x i v => p_with xs x st (fun s => p_do (s_set s i v) [] st p_quiet)
  | P_read x => p_with xs x st (fun s => p_do (s_read s) [] st p_show)
  | P_new_key x cr ex => p_with xs x st (fun s => p_do (h_new_ed_key s cr ex) [] st p_key)
  | P_new_curve x cr ex kdf => p_with xs x st (fun s => p_do (h_new_curve_key s cr ex kdf) [] st p_curve)
  | P_private k => p_with ks k st (fun k => p_do (s_read (hd_private k)) [] st p_show)
  | P_public k => p_with ks k st (fun k => p_do (s_read (he_public (hd_base k))) [] st p_show)
  | P_set_private k i v => p_with ks k st (fun k => p_do (s_set (hd_private k) i v) [] st p_quiet)
  | P_set_public k i v => p_with ks k st (fun k => p_do (s_set (he_public (hd_base k)) i v) [] st p_quiet)
  | P_curve_private c => p_with cs c st (fun c => p_do (s_read (hc_private c)) [] st p_show)
  | P_set_curve_private c i v => p_with cs c st (fun c => p_do (s_set (hc_private c) i v) [] st p_quiet)
  | P_fingerprint k => p_with ks k st (fun k => p_do (h_fingerprint_v4 (hd_base k)) [] st p_slice)
  | P_curve_fingerprint c => p_with cs c st (fun c => p_do (h_fingerprint_v4 (hc_base c)) [] st p_slice)
  | P_public_packet k => p_with ks k st (fun k => p_do (h_public_packet tag_public_key (hd_base k)) [] st p_slice)
  | P_public_subkey k => p_with ks k st (fun k => p_do (h_public_packet tag_public_subkey (hd_base k)) [] st p_slice)
  | P_curve_public_subkey c => p_with cs c st (fun c => p_do (h_public_packet tag_public_subkey (hc_base c)) [] st p_slice)
  | P_private_packet k pw tape =>
      p_with ks k st (fun k => p_with xs pw st (fun pw => p_do (h_private_packet tag_secret_key (hd_base k) pw) tape st p_slice))
  | P_private_subkey k pw tape =>
      p_with ks k st (fun k => p_with xs pw st (fun pw => p_do (h_private_packet tag_secret_subkey (hd_base k) pw) tape st p_slice))
  | P_curve_private_subkey c pw tape =>
      p_with cs c st (fun c => p_with xs pw st (fun pw => p_do (h_private_packet tag_secret_subkey (hc_base c) pw) tape st p_slice))
  | P_dummy_packet k => p_with ks k st (fun k => p_do (h_dummy_packet (hd_base k)) [] st p_slice)
  | P_self_certify k u => p_with ks k st (fun k => p_do (h_self_certify k u) [] st p_sig)
  | P_sign b fp hash data type hs us t =>
      p_with xs fp st (fun fp => p_with xs data st (fun data => p_all xs hs st (fun hs => p_all xs us st (fun us =>
        let rq := mk_hreq fp hash data type (h_subs hs) (h_subs us) t in
        match b with
        | By_key k => p_with ks k st (fun k => p_do (h_sign (hd_private k) rq) [] st p_sig)
        | By_slice x => p_with xs x st (fun x => p_do (h_sign x rq) [] st p_sig)
        end))))
  | P_sig_encode s => p_with sgs s st (fun s => p_do (h_sig_encode s) [] st p_slice)
  | P_sig_packet s => p_with sgs s st (fun s => p_do (h_sig_packet s) [] st p_slice)
  | P_sig_digest s => p_with sgs s st (fun s => p_do (s_read (hg_digest s)) [] st p_show)
  | P_packets u m enc auth sign pw tape =>
      p_with ks m st (fun m => p_maybe cs enc st (fun enc => p_maybe ks auth st (fun auth => p_maybe ks sign st (fun sign =>
        p_with xs pw st (fun pw => p_do (h_encode_packets (mk_hset u m enc auth sign) pw) tape st p_slice)))))
  | P_subkey_packets u m enc auth sign pw cert tape =>
      p_with ks m st (fun m => p_maybe cs enc st (fun enc => p_maybe ks auth st (fun auth => p_maybe ks sign st (fun sign =>
        p_with xs pw st (fun pw => p_do (h_encode_subkey_packets (mk_hset u m enc auth sign) pw cert) tape st p_slice)))))
  | P_packet tag x => p_with xs x st (fun x => p_do (h_encode_packet tag x) [] st p_slice)
  | P_mpi n => p_do (h_encode_mpi n) [] st p_slice
  | P_s2k hash x pw tape =>
      p_with xs x st (fun x => p_with xs pw st (fun pw => p_do (h_encrypt_s2k hash x pw) tape st p_slice))
  | P_uid u => p_do (h_uid_encode u) [] st p_slice
  | P_uid_packet u => p_do (h_uid_packet u) [] st p_slice
  | P_sub t x => p_with xs x st (fun x => p_do (h_sub_encode (mk_hsub t x)) [] st p_slice)
  end.
(** A panic ends the program. *)
Fixpoint p_run (calls : list p_call) (st : p_state) : list p_seen * p_state :=
  match calls with
  | [] => ([], st)
  | c :: rest =>
      let (o, st) := p_step c st in
      match o with
      | Q_panicked => ([Q_panicked], st)
      | _ => let (l, st) := p_run rest st in (o :: l, st)
      end
  end.
End Code.
