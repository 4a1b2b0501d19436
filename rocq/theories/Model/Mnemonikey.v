(** Model of /repo/key_options.go, derive.go, mnemonikey.go and the Recover* functions of
    recovery.go. *)
From Verif.Model Require Import GoBase Env Version GoTime Seed Encoding Recovery PgpWire PgpKeys.

(** mnemonikey.go:20-22 *)
Definition type_encryption : bytes := bs "encryption".
Definition type_authentication : bytes := bs "authentication".
Definition type_signing : bytes := bs "signing".

(** key_options.go:8-27.  A nil Subkeys slice is None; indices are uint16 values. *)
Record key_options := mk_opts {
  ko_name : bytes;
  ko_email : bytes;
  ko_ttl : Z;
  ko_enc_index : Z;
  ko_auth_index : Z;
  ko_sign_index : Z;
  ko_subkeys : option (list bytes)
}.
(** new(KeyOptions), mnemonikey.go:61 *)
Definition zero_options : key_options := mk_opts [] [] 0 0 0 0 None.

(** key_options.go:30-41 *)
Definition subkey_enabled (o : key_options) (target : bytes) : bool :=
  match ko_subkeys o with
  | None => true
  | Some l => existsb (fun t => bytes_eqb t target) l
  end.

(** derive.go:25 *)
Definition expand_info_master : bytes := bs "mnemonikey master key".
(** derive.go:29-35 *)
Definition expand_info_subkey (type : bytes) (index : Z) : bytes :=
  bs "mnemonikey " ++ type ++ bs " subkey" ++ be_bytes 2 index.

(** derive.go:38-45.  Reading 32 bytes never reaches HKDF's limit of 255 blocks, so there is no
    error. *)
Definition hkdf_expand (E : Env) (root : bytes) (size : nat) (info : bytes) : bytes :=
  hkdf_expand_sha256 E root info size.

(** derive.go:57-61 *)
Definition derive_expiry (creation ttl : Z) : Z :=
  if ttl >? 0 then t_from_unix (t_unix (t_add creation ttl)) else zero_time.

(** derive.go:63-66 *)
Definition root_key (E : Env) (s : seed) (creation : Z) : res bytes :=
  let* sb := seed_bytes s in
  Ok (argon2id E sb (be_bytes 4 (u32 (t_unix creation))) argon_time argon_memory argon_threads 32).

(** derive.go:56-122 *)
Definition derive_key_set (E : Env) (s : seed) (creation : Z) (o : key_options) : res key_set :=
  let expiry := derive_expiry creation (ko_ttl o) in
  let* root := root_key E s creation in
  let* master := new_ed_key E (hkdf_expand E root 32 expand_info_master) creation expiry in
  let* enc :=
    (if subkey_enabled o type_encryption then
       let* k := new_curve_key E (hkdf_expand E root 32 (expand_info_subkey type_encryption (ko_enc_index o)))
                               creation expiry None in
       Ok (Some k)
     else Ok None) in
  let* auth :=
    (if subkey_enabled o type_authentication then
       let* k := new_ed_key E (hkdf_expand E root 32 (expand_info_subkey type_authentication (ko_auth_index o)))
                            creation expiry in
       Ok (Some k)
     else Ok None) in
  let* sgn :=
    (if subkey_enabled o type_signing then
       let* k := new_ed_key E (hkdf_expand E root 32 (expand_info_subkey type_signing (ko_sign_index o)))
                            creation expiry in
       Ok (Some k)
     else Ok None) in
  Ok (mk_set (mk_uid (ko_name o) (ko_email o)) master enc auth sgn).

(** mnemonikey.go:40-44 *)
Record mnemonikey := mk_mnk { mnk_keys : key_set; mnk_seed : seed; mnk_creation : Z }.

(** mnemonikey.go:55-87.  A nil opts is None. *)
Definition mnk_new (E : Env) (s : seed) (creation : Z) (opts : option key_options) : res mnemonikey :=
  let* _ := era_check (seed_era s) in
  let o := match opts with None => zero_options | Some o => o end in
  if ko_ttl o <? 0 then Err ErrTTLInvalid
  else if t_after creation max_creation_time then Err ErrCreationTooLate
  else if t_before creation epoch_start then Err ErrCreationTooEarly
  else
    let offset := d_quot (t_sub creation epoch_start) epoch_increment in
    let creation := t_add epoch_start (d_mul epoch_increment offset) in
    let* ks := derive_key_set E s creation o in
    Ok (mk_mnk ks s creation).

(** mnemonikey.go:91-93, 96-98, 101-103, 106-108 *)
Definition mnk_created_at (m : mnemonikey) : Z := mnk_creation m.
Definition mnk_expiry (m : mnemonikey) : Z := ed_expiry (ks_master (mnk_keys m)).
Definition mnk_user_id (m : mnemonikey) : bytes := uid_encode (ks_uid (mnk_keys m)).
Definition mnk_fingerprint (E : Env) (m : mnemonikey) : bytes :=
  fingerprint_v4 E (ed_base (ks_master (mnk_keys m))).

(** mnemonikey.go:111-123 *)
Definition mnk_subkey_types (m : mnemonikey) : list bytes :=
  (match ks_enc (mnk_keys m) with Some _ => [type_encryption] | None => [] end) ++
  (match ks_auth (mnk_keys m) with Some _ => [type_authentication] | None => [] end) ++
  (match ks_sign (mnk_keys m) with Some _ => [type_signing] | None => [] end).

(** mnemonikey.go:127-145.  nil is None. *)
Definition mnk_subkey_fingerprint (E : Env) (m : mnemonikey) (t : bytes) : option bytes :=
  if bytes_eqb t type_encryption then option_map (fun k => fingerprint_v4 E (cv_base k)) (ks_enc (mnk_keys m))
  else if bytes_eqb t type_authentication then option_map (fun k => fingerprint_v4 E (ed_base k)) (ks_auth (mnk_keys m))
  else if bytes_eqb t type_signing then option_map (fun k => fingerprint_v4 E (ed_base k)) (ks_sign (mnk_keys m))
  else None.

(** mnemonikey.go:151-153 and 167-169 *)
Definition mnk_encode_pgp (E : Env) (m : mnemonikey) (password tape : bytes) : res (bytes * bytes) :=
  encode_packets E (mnk_keys m) password tape.
Definition mnk_encode_subkeys_pgp (E : Env) (m : mnemonikey) (password : bytes) (with_cert : bool) (tape : bytes)
  : res (bytes * bytes) :=
  encode_subkey_packets E (mnk_keys m) password with_cert tape.

(** mnemonikey.go:235-248 with openpgp.PrivateKeyType; writes to a bytes.Buffer do not fail *)
Definition private_key_type : bytes := bs "PGP PRIVATE KEY BLOCK".
(** mnemonikey.go:176-186 and 201-211 *)
Definition mnk_encode_pgp_armor (E : Env) (m : mnemonikey) (password tape : bytes) : res (bytes * bytes) :=
  let* (p, tape) := mnk_encode_pgp E m password tape in
  Ok (armor_encode E private_key_type p, tape).
Definition mnk_encode_subkeys_pgp_armor (E : Env) (m : mnemonikey) (password : bytes) (with_cert : bool) (tape : bytes)
  : res (bytes * bytes) :=
  let* (p, tape) := mnk_encode_subkeys_pgp E m password with_cert tape in
  Ok (armor_encode E private_key_type p, tape).

(** mnemonikey.go:214-216 *)
Definition mnk_creation_offset (m : mnemonikey) : Z :=
  u32 (d_quot (t_sub (mnk_creation m) epoch_start) epoch_increment).

(** mnemonikey.go:220-222 and 231-233 *)
Definition mnk_encode_plaintext (E : Env) (m : mnemonikey) : res (list bytes) :=
  encode_mnemonic_plaintext E (mnk_seed m) (mnk_creation_offset m).
Definition mnk_encode_encrypted (E : Env) (m : mnemonikey) (password src : bytes) : res (list bytes) :=
  encode_mnemonic_encrypted E (mnk_seed m) (mnk_creation_offset m) password src.

(** recovery.go:129-146 *)
Definition recover_plaintext (E : Env) (words : list bytes) (opts : option key_options) : res mnemonikey :=
  let* dm := decode_mnemonic E words in
  let* s := dm_seed dm in
  mnk_new E s (dm_creation dm) opts.

(** recovery.go:161-178 *)
Definition recover_encrypted (E : Env) (words : list bytes) (password : bytes) (opts : option key_options)
  : res mnemonikey :=
  let* dm := decode_mnemonic E words in
  let* s := dm_decrypt_seed E dm password in
  mnk_new E s (dm_creation dm) opts.
