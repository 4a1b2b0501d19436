(** Model of /repo/recovery.go up to seed recovery (the Recover* functions are in Mnemonikey.v). *)
From Verif.Model Require Import GoBase Env BitBuffer Crc32 MnemonicPkg Version Seed Encoding GoTime.

(** recovery.go:34-43.  salt and encSeedVerify stay at their zero values for plaintext phrases. *)
Record decoded := mk_decoded {
  dm_version : Z;
  dm_entropy : Z;
  dm_salt : Z;
  dm_verify : Z;
  dm_offset : Z
}.

(** recovery.go:49-51 *)
Definition dm_encrypted (dm : decoded) : bool := version_encrypted (dm_version dm).

(** recovery.go:54-56 *)
Definition dm_creation (dm : decoded) : Z :=
  t_add epoch_start (d_mul (dm_offset dm) epoch_increment).

(** recovery.go:116-121 *)
Definition dm_seed (dm : decoded) : res seed :=
  if dm_encrypted dm then Err ErrMnemonicDecryption
  else new_seed (version_era (dm_version dm)) (dm_entropy dm).

(** recovery.go:76-110 *)
Definition dm_decrypt_seed (E : Env) (dm : decoded) (password : bytes) : res seed :=
  if negb (dm_encrypted dm) then dm_seed dm
  else
    let* key := enc_seed_key E password (dm_salt dm) (dm_offset dm) in
    let* last := go_index key 16 in
    if negb (Z.land last verify_mask =? dm_verify dm) then Err ErrMnemonicDecryption
    else if negb (aes_key_ok (firstn 16 key)) then Err ErrAESKeySize
    else
      let* enc_seed := fill_bytes (dm_entropy dm) 16 in
      let dec_seed := aes_decrypt E (firstn 16 key) enc_seed in
      new_seed (version_era (dm_version dm)) (be_uint dec_seed).

(** recovery.go:257-266.  On error the version is still returned in Go; see [parse_version_raw]. *)
Definition parse_version_raw (E : Env) (first_word : bytes) : Z * res unit :=
  match word_map E (to_lower E first_word) with
  | None => (0, Err ErrInvalidWord)
  | Some index =>
      let version := Z.shiftr index (bits_per_word - version_bits) in
      (version, version_check version)
  end.
Definition parse_mnemonic_version (E : Env) (first_word : bytes) : res Z :=
  let (v, r) := parse_version_raw E first_word in
  let* _ := r in Ok v.

(** recovery.go:184-245 *)
Definition decode_mnemonic (E : Env) (words : list bytes) : res decoded :=
  match words with
  | [] => Err ErrInvalidWordCount
  | w0 :: _ =>
      let* version := parse_mnemonic_version E w0 in
      let* _ := version_check version in
      if negb (zlen words =? mnemonic_size version) then Err ErrInvalidWordCount
      else
        let* indices := decode_words E words in
        let* payload := decode_indices indices in
        let* buf := new_bitbuf payload (zlen words * bits_per_word) in
        let* (popped, buf) := pop_trailing buf checksum_bits in
        let expected := u32 (big_uint64 popped) in
        let* pbytes := bb_bytes buf in
        let checksum := Z.land checksum_mask (crc32 pbytes) in
        if negb (checksum =? expected) then Err ErrInvalidChecksum
        else
          let* (_, buf) := pop_leading buf version_bits in
          let* (entropy, buf) := pop_leading buf entropy_bits in
          let* (salt, verify, buf) :=
            (if version =? 1 then
               let* (salt, buf) := pop_leading buf salt_bits in
               let* (verify, buf) := pop_leading buf verify_bits in
               Ok (salt, u8 (big_uint64 verify), buf)
             else Ok (0, 0, buf)) in
          let* (offset, buf) := pop_leading buf offset_bits in
          if negb (bb_nbits buf =? 0) then Err ErrExtraBits
          else Ok (mk_decoded version entropy salt verify (u32 (big_uint64 offset)))
  end.
