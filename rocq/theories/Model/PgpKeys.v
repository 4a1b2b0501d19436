(** Model of /repo/pgp/sign.go, ecc_key.go, master_key.go, ed25519_subkey.go,
    encryption_subkey.go and key_set.go. *)
From Verif.Model Require Import GoBase Env GoTime Seed PgpWire PgpS2k.

(** pgp/sign.go:11-35 *)
Record sign_request := mk_req {
  rq_fingerprint : bytes;
  rq_hash : Z;
  rq_data : bytes;
  rq_type : Z;
  rq_hashed : list subpacket;
  rq_unhashed : list subpacket;
  rq_time : Z
}.

(** pgp/sign.go:39-84.  The fingerprint has 20 bytes and the Ed25519 signature 64, so the slices
    at lines 59 and 81-82 cannot go out of range; a nil hash panics. *)
Definition sign (E : Env) (private : bytes) (rq : sign_request) : res signature :=
  let stamp := be_bytes 4 (u32 (t_unix (rq_time rq))) in
  let hashed := [mk_sub sub_issuer_fingerprint (key_packet_version :: rq_fingerprint rq);
                 mk_sub sub_creation_time stamp] ++ rq_hashed rq in
  let fp := rq_fingerprint rq in
  let unhashed := [mk_sub sub_issuer (skipn (length fp - 8) fp)] ++ rq_unhashed rq in
  match hash_new E (rq_hash rq) with
  | None => Panic
  | Some h =>
      let pre := sig_preimage (rq_type rq) (rq_hash rq) hashed in
      let digest := h (rq_data rq ++ pre ++ signature_trailer ++ be_bytes 4 (u32 (zlen pre))) in
      let sg := ed25519_sign E private digest in
      Ok (mk_sig hashed unhashed (rq_type rq) (rq_hash rq) digest
                 (be_uint (firstn 32 sg)) (be_uint (skipn 32 sg)))
  end.

(** pgp/ecc_key.go:15-24.  PublicSigning is never read and left out; a nil PrivateSigning is
    None; a nil ExtraPublicData is the empty string. *)
Record ecc_key := mk_ecc {
  ec_private : bytes;
  ec_public : bytes;
  ec_signing : option bytes;
  ec_creation : Z;
  ec_alg : Z;
  ec_oid : bytes;
  ec_extra : bytes
}.

(** pgp/ecc_key.go:28-55 *)
Definition encode_public (k : ecc_key) : bytes :=
  [key_packet_version] ++ be_bytes 4 (u32 (t_unix (ec_creation k))) ++ [ec_alg k] ++
  [u8 (zlen (ec_oid k))] ++ ec_oid k ++
  encode_mpi (be_uint (mpi_prefix_eddsa :: ec_public k)) ++ ec_extra k.

(** pgp/ecc_key.go:59-82.  The tape is only read when a password is given. *)
Definition encode_private (E : Env) (k : ecc_key) (password tape : bytes) : res (bytes * bytes) :=
  if zlen password >? 0 then
    let* (enc, tape) := encrypt_s2k E default_s2k_hash (ec_private k) password tape in
    Ok (encode_public k ++ enc, tape)
  else
    let mpi := encode_mpi (be_uint (ec_private k)) in
    Ok (encode_public k ++ [0] ++ mpi ++ checksum_mpi mpi, tape).

(** pgp/ecc_key.go:86-101 *)
Definition encode_private_dummy (k : ecc_key) : bytes :=
  encode_public k ++ [s2k_specifier; 0; s2k_gnu_dummy; 0] ++ s2k_gnu_id ++ [s2k_gnu_dummy - 100].

(** pgp/ecc_key.go:104-113 *)
Definition fingerprint_v4 (E : Env) (k : ecc_key) : bytes :=
  let p := encode_public k in
  sha1 E ([public_key_prefix_v4] ++ be_bytes 2 (u16 (zlen p)) ++ p).

(** pgp/ecc_key.go:116-125 *)
Definition fingerprint_v5 (E : Env) (k : ecc_key) : bytes :=
  let p := encode_public k in
  sha256 E ([public_key_prefix_v5] ++ be_bytes 4 (u32 (zlen p)) ++ p).

(** pgp/master_key.go:12-14 *)
Definition oid_ed25519 : bytes := [0x2B; 0x06; 0x01; 0x04; 0x01; 0xDA; 0x47; 0x0F; 0x01].
(** pgp/encryption_subkey.go:11-13 *)
Definition oid_curve25519 : bytes := [0x2B; 0x06; 0x01; 0x04; 0x01; 0x97; 0x55; 0x01; 0x05; 0x01].

(** pgp/master_key.go:17-23 and pgp/ed25519_subkey.go:10-16: both structures have the same
    fields.  Public and Creation repeat base fields and are left out. *)
Record ed_key := mk_ed { ed_base : ecc_key; ed_private : bytes; ed_expiry : Z }.

(** pgp/master_key.go:27-54 and pgp/ed25519_subkey.go:20-49 (same body).
    ed25519.NewKeyFromSeed is the seed followed by the public key. *)
Definition new_ed_key (E : Env) (seed : bytes) (creation expiry : Z) : res ed_key :=
  if negb (zlen seed =? 32) then Err ErrSeedLength
  else
    let public := ed25519_public E seed in
    let private := seed ++ public in
    Ok (mk_ed (mk_ecc (firstn 32 private) public (Some private) creation alg_eddsa oid_ed25519 [])
              private expiry).

(** pgp/encryption_subkey.go:16-23 *)
Record curve_key := mk_curve {
  cv_base : ecc_key;
  cv_private : bytes;
  cv_expiry : Z;
  cv_kdf : kdf_params
}.

(** pgp/encryption_subkey.go:40-43.  The three statements on a 32-byte array. *)
Definition clamp (seed : bytes) : bytes :=
  match seed with
  | [] => []
  | x :: r => Z.land x 248 :: firstn 30 r ++ map (fun y => Z.lor (Z.land y 127) 64) (skipn 30 r)
  end.

(** pgp/encryption_subkey.go:29-74 with kdfParams nil or given; reverse is lines 95-102.
    curve25519.X25519 on a 32-byte scalar and the base point returns no error. *)
Definition new_curve_key (E : Env) (seed : bytes) (creation expiry : Z) (kdf : option kdf_params)
  : res curve_key :=
  if negb (zlen seed =? 32) then Err ErrSeedLength
  else
    let private := clamp seed in
    let public := x25519_base E seed in
    let kdf := match kdf with None => default_kdf | Some k => k end in
    Ok (mk_curve (mk_ecc (rev private) public None creation alg_ecdh oid_curve25519 (kdf_encode kdf))
                 private expiry kdf).

(** pgp/master_key.go:118-125 and 211-218 *)
Definition expiry_subpackets (E : Env) (creation expiry : Z) : list subpacket :=
  if is_zero_time expiry then []
  else [mk_sub sub_expiry (be_bytes 4 (seconds_u32 E (t_sub expiry creation)))].

(** pgp/master_key.go:88-98 *)
Definition certify_data (master : ecc_key) (uid : bytes) : bytes :=
  let p := encode_public master in
  [public_key_prefix_v4] ++ be_bytes 2 (u16 (zlen p)) ++ p ++
  [user_id_prefix] ++ be_bytes 4 (u32 (zlen uid)) ++ uid.

(** pgp/master_key.go:83-181 *)
Definition self_certify (E : Env) (m : ed_key) (u : user_id) : res signature :=
  sign E (ed_private m) (mk_req (fingerprint_v4 E (ed_base m)) hash_sha256
    (certify_data (ed_base m) (uid_encode u)) sig_positive_certification
    ([mk_sub sub_key_flags [flag_certify]] ++
     expiry_subpackets E (ec_creation (ed_base m)) (ed_expiry m) ++
     [mk_sub sub_pref_cipher [cipher_aes256; cipher_aes192; cipher_aes128; cipher_des];
      mk_sub sub_pref_hash [hash_sha512; hash_sha384; hash_sha256; hash_sha224; hash_sha1];
      mk_sub sub_pref_compression [compression_zlib; compression_bzip2; compression_zip];
      mk_sub sub_features [1];
      mk_sub sub_key_server [key_server_no_modify]])
    [] (ec_creation (ed_base m))).

(** pgp/master_key.go:192-202 *)
Definition bind_data (master sub : ecc_key) : bytes :=
  let p := encode_public master in
  let q := encode_public sub in
  [public_key_prefix_v4] ++ be_bytes 2 (u16 (zlen p)) ++ p ++
  [public_key_prefix_v4] ++ be_bytes 2 (u16 (zlen q)) ++ q.

(** pgp/master_key.go:184-254 *)
Definition bind_subkey (E : Env) (m : ed_key) (sub : ecc_key) (flags expiry : Z) : res signature :=
  let data := bind_data (ed_base m) sub in
  let* unhashed :=
    (if negb (Z.land flags flag_sign =? 0) then
       match ec_signing sub with
       | None => Panic
       | Some private =>
           let* sg := sign E private (mk_req (fingerprint_v4 E sub) hash_sha256 data
                        sig_primary_key_binding [] [] (ec_creation sub)) in
           Ok [mk_sub sub_embedded_signature (sig_encode sg)]
       end
     else Ok []) in
  sign E (ed_private m) (mk_req (fingerprint_v4 E (ed_base m)) hash_sha256 data sig_subkey_binding
    ([mk_sub sub_key_flags [flags]] ++ expiry_subpackets E (ec_creation sub) expiry)
    unhashed (ec_creation sub)).

(** pgp/key_set.go:12-21 *)
Record key_set := mk_set {
  ks_uid : user_id;
  ks_master : ed_key;
  ks_enc : option curve_key;
  ks_auth : option ed_key;
  ks_sign : option ed_key
}.

(** pgp/master_key.go:67-73, ed25519_subkey.go:62-68, encryption_subkey.go:87-93 *)
Definition private_packet (E : Env) (tag : Z) (k : ecc_key) (password tape : bytes) : res (bytes * bytes) :=
  let* (p, tape) := encode_private E k password tape in Ok (encode_packet tag p, tape).

(** pgp/key_set.go:29-43, 51-65, 73-87: the three functions differ in key, flags and expiry *)
Definition subkey_packets (E : Env) (m : ed_key) (k : ecc_key) (flags expiry : Z) (password tape : bytes)
  : res (bytes * bytes) :=
  let* (p, tape) := private_packet E tag_secret_subkey k password tape in
  let* sg := bind_subkey E m k flags expiry in
  Ok (p ++ sig_packet sg, tape).

(** pgp/key_set.go:131-136 *)
Definition shuffle_seed (E : Env) (private : bytes) : Z :=
  let last := be_uint (firstn 8 (sha256 E private)) in
  let seed := Z.land last 0x7FFFFFFFFFFFFFFF in
  if seed =? last then seed else - seed.

(** the swap callback at pgp/key_set.go:138-140 *)
Definition swap {A} (l : list A) (i j : nat) : res (list A) :=
  match nth_error l i, nth_error l j with
  | Some x, Some y =>
      Ok (map (fun p => if Nat.eqb (fst p) i then y else if Nat.eqb (fst p) j then x else snd p)
              (combine (seq 0 (length l)) l))
  | _, _ => Panic
  end.

(** math/rand.(Rand).Shuffle (Go standard library): for i from n-1 down to 1, swap i with the
    next int31n(i+1).  [k] counts the generator calls. *)
Fixpoint shuffle_from {A} (E : Env) (seed : Z) (i : nat) (k : nat) (l : list A) : res (list A) :=
  match i with
  | O => Ok l
  | S i' =>
      let* l := swap l i (Z.to_nat (rand_int31n E seed k (Z.of_nat i + 1))) in
      shuffle_from E seed i' (S k) l
  end.
Definition shuffle {A} (E : Env) (seed : Z) (l : list A) : res (list A) :=
  shuffle_from E seed (length l - 1) 0 l.

(** pgp/key_set.go:95-147 *)
Definition all_subkey_packets (E : Env) (ks : key_set) (password tape : bytes) : res (bytes * bytes) :=
  let m := ks_master ks in
  let* (g0, tape) :=
    match ks_enc ks with
    | None => Ok ([], tape)
    | Some k => subkey_packets E m (cv_base k) (Z.lor flag_encrypt_comm flag_encrypt_storage) (cv_expiry k) password tape
    end in
  let* (g1, tape) :=
    match ks_auth ks with
    | None => Ok ([], tape)
    | Some k => subkey_packets E m (ed_base k) flag_authenticate (ed_expiry k) password tape
    end in
  let* (g2, tape) :=
    match ks_sign ks with
    | None => Ok ([], tape)
    | Some k => subkey_packets E m (ed_base k) flag_sign (ed_expiry k) password tape
    end in
  let* groups := shuffle E (shuffle_seed E (ed_private m)) [g0; g1; g2] in
  Ok (concat groups, tape).

(** pgp/key_set.go:151-153 *)
Definition self_certification (E : Env) (ks : key_set) : res bytes :=
  let* sg := self_certify E (ks_master ks) (ks_uid ks) in Ok (sig_packet sg).

(** pgp/key_set.go:159-183 *)
Definition encode_packets (E : Env) (ks : key_set) (password tape : bytes) : res (bytes * bytes) :=
  let* (master, tape) := private_packet E tag_secret_key (ed_base (ks_master ks)) password tape in
  let* cert := self_certification E ks in
  let* (subs, tape) := all_subkey_packets E ks password tape in
  Ok (master ++ uid_packet (ks_uid ks) ++ cert ++ subs, tape).

(** pgp/key_set.go:194-218 *)
Definition encode_subkey_packets (E : Env) (ks : key_set) (password : bytes) (with_cert : bool) (tape : bytes)
  : res (bytes * bytes) :=
  let master := encode_packet tag_secret_key (encode_private_dummy (ed_base (ks_master ks))) in
  let* cert := (if with_cert then self_certification E ks else Ok []) in
  let* (subs, tape) := all_subkey_packets E ks password tape in
  Ok (master ++ uid_packet (ks_uid ks) ++ cert ++ subs, tape).

(** pgp/master_key.go:62-64, ed25519_subkey.go:57-59, encryption_subkey.go:82-84 *)
Definition public_packet (k : ecc_key) : bytes := encode_packet tag_public_key (encode_public k).
Definition public_subkey_packet (k : ecc_key) : bytes := encode_packet tag_public_subkey (encode_public k).
