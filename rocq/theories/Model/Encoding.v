(** Model of /repo/encoding.go. *)
From Verif.Model Require Import GoBase Env BitBuffer Crc32 MnemonicPkg Version Seed.

(** derive.go:18-20 *)
Definition argon_time : Z := 4.
Definition argon_memory : Z := 0x80000.
Definition argon_threads : Z := 2.

(** encoding.go:17-41 *)
Definition encode_mnemonic (E : Env) (version : Z) (buf : bitbuf) : res (list bytes) :=
  let* payload := bb_bytes buf in
  let checksum := Z.land checksum_mask (crc32 payload) in
  let* buf := append_trailing buf checksum checksum_bits in
  if negb (bb_nbits buf =? payload_bit_count version) then Err ErrPayloadBitLen
  else
    let* (indices, _) := encode_to_indices (bb_value buf) (bb_nbits buf) in
    encode_to_words E indices.

(** encoding.go:45-58 *)
Definition encode_mnemonic_plaintext (E : Env) (s : seed) (creation_offset : Z) : res (list bytes) :=
  let* _ := era_check (seed_era s) in
  let version := 0 in
  let* buf := new_bitbuf version version_bits in
  let* buf := append_trailing buf (seed_int s) entropy_bits in
  let* buf := append_trailing buf creation_offset offset_bits in
  encode_mnemonic E version buf.

(** encoding.go:90-93 and recovery.go:82-92: the 17-byte key derived from password, salt and
    creation offset. *)
Definition enc_seed_key (E : Env) (password : bytes) (salt creation_offset : Z) : res bytes :=
  let* sbuf := new_bitbuf salt salt_bits in
  let* sbuf := append_trailing sbuf creation_offset offset_bits in
  let* sbytes := bb_bytes sbuf in
  Ok (argon2id E password sbytes argon_time argon_memory argon_threads 17).

(** aes.NewCipher: key size check *)
Definition aes_key_ok (key : bytes) : bool :=
  (zlen key =? 16) || (zlen key =? 24) || (zlen key =? 32).

(** encoding.go:67-113.  [src] is the content of the random source. *)
Definition encode_mnemonic_encrypted (E : Env) (s : seed) (creation_offset : Z)
    (password src : bytes) : res (list bytes) :=
  let* _ := era_check (seed_era s) in
  if zlen password =? 0 then Err ErrEmptyPassword
  else
    let version := 1 in
    let* buf := new_bitbuf version version_bits in
    let* (salt, _) := rand_int src (Z.shiftl 1 salt_bits) in
    let* key := enc_seed_key E password salt creation_offset in
    if negb (aes_key_ok (firstn 16 key)) then Err ErrAESKeySize
    else
      let* sb := seed_bytes s in
      let enc_seed := aes_encrypt E (firstn 16 key) sb in
      let* last := go_index key 16 in
      let enc_verify := Z.land last verify_mask in
      let* buf := append_trailing buf (be_uint enc_seed) entropy_bits in
      let* buf := append_trailing buf salt salt_bits in
      let* buf := append_trailing buf enc_verify verify_bits in
      let* buf := append_trailing buf creation_offset offset_bits in
      encode_mnemonic E version buf.
