(** The root package with its exported variables EpochStart and MaxCreationTime, and those of the package pgp,
    DefaultKDFParameters and DefaultStringToKeyHashFunc, when a program assigns to them (C99).  Every function takes the
    values the variables have when it is called.  Exports are those of PgpFields.v.
    Simplification: no time is so far away that time.Time overflows (it counts seconds in 64 bits). *)
From Verif.Model Require Import GoBase Env Version GoTime Seed Encoding Recovery PgpWire PgpS2k PgpKeys Mnemonikey ZeroValues PgpFields.

(** parameters.go:16 and 54, pgp/constants.go:68-74 *)
Record variables := mk_vars { v_epoch : Z; v_max : Z; v_kdf : option kdf_params; v_hash : Z }.
(** as they are initialised *)
Definition first_variables : variables := mk_vars epoch_start max_creation_time (Some default_kdf) default_s2k_hash.

Section Code.
Variable E : Env.
Variable vs : variables.

(** derive.go:56-122; lines 85-95 call NewCurve25519Subkey with nil parameters, which stand for DefaultKDFParameters
    (pgp/encryption_subkey.go:50-52) *)
Definition v_derive (s : seed) (creation : Z) (o : key_options) : res key_set :=
  let expiry := derive_expiry creation (ko_ttl o) in
  let* root := root_key E s creation in
  let* master := new_ed_key E (hkdf_expand E root 32 expand_info_master) creation expiry in
  let* enc :=
    (if subkey_enabled o type_encryption then
       let* p := deref (v_kdf vs) in
       let* k := new_curve_key E (hkdf_expand E root 32 (expand_info_subkey type_encryption (ko_enc_index o))) creation expiry (Some p) in
       Ok (Some k)
     else Ok None) in
  let* auth :=
    (if subkey_enabled o type_authentication then
       let* k := new_ed_key E (hkdf_expand E root 32 (expand_info_subkey type_authentication (ko_auth_index o))) creation expiry in
       Ok (Some k)
     else Ok None) in
  let* sgn :=
    (if subkey_enabled o type_signing then
       let* k := new_ed_key E (hkdf_expand E root 32 (expand_info_subkey type_signing (ko_sign_index o))) creation expiry in
       Ok (Some k)
     else Ok None) in
  Ok (mk_set (mk_uid (ko_name o) (ko_email o)) master enc auth sgn).

(** mnemonikey.go:55-87 *)
Definition v_new (s : seed) (creation : Z) (opts : option key_options) : res mnemonikey :=
  let* _ := era_check (seed_era s) in
  let o := match opts with None => zero_options | Some o => o end in
  if ko_ttl o <? 0 then Err ErrTTLInvalid
  else if t_after creation (v_max vs) then Err ErrCreationTooLate
  else if t_before creation (v_epoch vs) then Err ErrCreationTooEarly
  else
    let offset := d_quot (t_sub creation (v_epoch vs)) epoch_increment in
    let creation := t_add (v_epoch vs) (d_mul epoch_increment offset) in
    let* ks := v_derive s creation o in
    Ok (mk_mnk ks s creation).

(** mnemonikey.go:214-216, 220-222, 231-233 *)
Definition v_creation_offset (m : mnemonikey) : Z := u32 (d_quot (t_sub (mnk_creation m) (v_epoch vs)) epoch_increment).
Definition v_encode_plaintext (m : mnemonikey) : res (list bytes) := encode_mnemonic_plaintext E (mnk_seed m) (v_creation_offset m).
Definition v_encode_encrypted (m : mnemonikey) (password src : bytes) : res (list bytes) :=
  encode_mnemonic_encrypted E (mnk_seed m) (v_creation_offset m) password src.

(** recovery.go:54-56, 129-146, 161-178 *)
Definition v_dm_creation (dm : decoded) : Z := t_add (v_epoch vs) (d_mul (dm_offset dm) epoch_increment).
Definition v_recover_plaintext (words : list bytes) (opts : option key_options) : res mnemonikey :=
  let* dm := decode_mnemonic E words in
  let* s := dm_seed dm in
  v_new s (v_dm_creation dm) opts.
Definition v_recover_encrypted (words : list bytes) (password : bytes) (opts : option key_options) : res mnemonikey :=
  let* dm := decode_mnemonic E words in
  let* s := dm_decrypt_seed E dm password in
  v_new s (v_dm_creation dm) opts.

(** the key set in memory, as the constructors leave it: the user ID, the master key, the subkeys *)
Definition ed_object (k : ed_key) : f_ed := mk_fed (Some (ed_base k)) (ed_private k) (ec_public (ed_base k)) (ec_creation (ed_base k)) (ed_expiry k).
Definition curve_object (k : curve_key) : f_curve :=
  mk_fcurve (Some (cv_base k)) (cv_private k) (ec_public (cv_base k)) (ec_creation (cv_base k)) (cv_expiry k) (Some (cv_kdf k)).
Definition set_memory (ks : key_set) : list f_object :=
  [F_user (ks_uid ks); F_master_key (ed_object (ks_master ks));
   match ks_enc ks with Some k => F_curve_key (curve_object k) | None => F_none end;
   match ks_auth ks with Some k => F_ed_subkey (ed_object k) | None => F_none end;
   match ks_sign ks with Some k => F_ed_subkey (ed_object k) | None => F_none end;
   F_keys (mk_fset 0 1 2 3 4)].
(** mnemonikey.go:151-153 and 167-169 *)
Definition v_encode_pgp (m : mnemonikey) (password tape : bytes) : res (bytes * bytes) :=
  f_encode_packets E (set_memory (mnk_keys m)) (v_hash vs) (keys_at (set_memory (mnk_keys m)) 5) password tape.
Definition v_encode_subkeys_pgp (m : mnemonikey) (password : bytes) (with_cert : bool) (tape : bytes) : res (bytes * bytes) :=
  f_encode_subkey_packets E (set_memory (mnk_keys m)) (v_hash vs) (keys_at (set_memory (mnk_keys m)) 5) password with_cert tape.
End Code.
