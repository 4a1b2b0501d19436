(** Model of /repo/pgp/constants.go, packet.go, mpi.go, user_id.go and signature.go: the OpenPGP
    wire encodings. *)
From Verif.Model Require Import GoBase.

(** pgp/constants.go:11-12 *)
Definition key_packet_version : Z := 4.
Definition sig_packet_version : Z := 4.
(** pgp/constants.go:15 *)
Definition mpi_prefix_eddsa : Z := 0x40.
(** pgp/constants.go:19 *)
Definition s2k_count_maximum : Z := 0xFF.
(** pgp/constants.go:23-24 *)
Definition s2k_gnu_dummy : Z := 101.
Definition s2k_gnu_id : bytes := bs "GNU".
(** pgp/constants.go:28-30 *)
Definition public_key_prefix_v4 : Z := 0x99.
Definition public_key_prefix_v5 : Z := 0x9A.
Definition user_id_prefix : Z := 0xB4.
(** pgp/constants.go:34 *)
Definition s2k_specifier : Z := 254.
(** pgp/constants.go:38-39 *)
Definition alg_ecdh : Z := 18.
Definition alg_eddsa : Z := 22.
(** pgp/constants.go:44-48 *)
Definition flag_certify : Z := 1.
Definition flag_sign : Z := 2.
Definition flag_encrypt_comm : Z := 4.
Definition flag_encrypt_storage : Z := 8.
Definition flag_authenticate : Z := 32.
(** pgp/constants.go:52 *)
Definition key_server_no_modify : Z := 0x80.
(** pgp/constants.go:58 *)
Definition s2k_usage_iterated : Z := 3.
(** pgp/constants.go:63 *)
Definition signature_trailer : bytes := [sig_packet_version; 0xFF].
(** pgp/constants.go:83-85 *)
Definition compression_zip : Z := 1.
Definition compression_zlib : Z := 2.
Definition compression_bzip2 : Z := 3.
(** pgp/constants.go:92-96 *)
Definition hash_sha1 : Z := 2.
Definition hash_sha256 : Z := 8.
Definition hash_sha384 : Z := 9.
Definition hash_sha512 : Z := 10.
Definition hash_sha224 : Z := 11.
(** pgp/constants.go:115-118 *)
Definition cipher_des : Z := 2.
Definition cipher_aes128 : Z := 7.
Definition cipher_aes192 : Z := 8.
Definition cipher_aes256 : Z := 9.
(** pgp/constants.go:74 *)
Definition default_s2k_hash : Z := hash_sha256.
(** pgp/constants.go:146-154 *)
Definition sig_positive_certification : Z := 0x13.
Definition sig_subkey_binding : Z := 0x18.
Definition sig_primary_key_binding : Z := 0x19.
(** pgp/constants.go:178-183 *)
Definition tag_signature : Z := 2.
Definition tag_secret_key : Z := 5.
Definition tag_public_key : Z := 6.
Definition tag_secret_subkey : Z := 7.
Definition tag_user_id : Z := 13.
Definition tag_public_subkey : Z := 14.
(** pgp/constants.go:191-201 *)
Definition sub_creation_time : Z := 2.
Definition sub_expiry : Z := 9.
Definition sub_pref_cipher : Z := 11.
Definition sub_issuer : Z := 16.
Definition sub_pref_hash : Z := 21.
Definition sub_pref_compression : Z := 22.
Definition sub_key_server : Z := 23.
Definition sub_key_flags : Z := 27.
Definition sub_features : Z := 30.
Definition sub_embedded_signature : Z := 32.
Definition sub_issuer_fingerprint : Z := 33.

(** pgp/constants.go:123-135 *)
Record kdf_params := mk_kdf { kdf_hash : Z; kdf_cipher : Z }.
Definition kdf_encode (k : kdf_params) : bytes := [3; 1; u8 (kdf_hash k); u8 (kdf_cipher k)].
(** pgp/constants.go:68-71 *)
Definition default_kdf : kdf_params := mk_kdf hash_sha256 cipher_aes128.

(** pgp/packet.go:21-34 *)
Definition packet_length_encode (size : Z) : bytes :=
  if size <=? 191 then [u8 size]
  else if size <=? 8383 then
    let k := size - 192 in [u8 (u8 (Z.shiftr k 8) + 192); u8 k]
  else 0xFF :: be_bytes 4 (u32 size).

(** pgp/packet.go:9-19 *)
Definition encode_packet (tag : Z) (payload : bytes) : bytes :=
  Z.lor 0xC0 (u8 tag) :: packet_length_encode (zlen payload) ++ payload.

(** pgp/mpi.go:12-21 *)
Definition encode_mpi (n : Z) : bytes := be_bytes 2 (u16 (bit_len n)) ++ big_bytes n.

(** pgp/mpi.go:24-32 *)
Definition checksum_mpi (mpi : bytes) : bytes :=
  be_bytes 2 (fold_left (fun c b => u16 (c + b)) mpi 0).

(** pgp/user_id.go:6-20 *)
Record user_id := mk_uid { uid_name : bytes; uid_email : bytes }.
Definition uid_encode (u : user_id) : bytes :=
  match uid_email u, uid_name u with
  | [], name => name
  | email, [] => email
  | email, name => name ++ bs " <" ++ email ++ bs ">"
  end.
(** pgp/user_id.go:22-24 *)
Definition uid_packet (u : user_id) : bytes := encode_packet tag_user_id (uid_encode u).

(** pgp/signature.go:12-24 *)
Record subpacket := mk_sub { sub_type : Z; sub_body : bytes }.
Definition sub_encode (s : subpacket) : bytes :=
  packet_length_encode (zlen (sub_body s) + 1) ++ u8 (sub_type s) :: sub_body s.

(** pgp/signature.go:26-33 *)
Definition encode_subpackets (l : list subpacket) : bytes :=
  let body := concat (map sub_encode l) in be_bytes 2 (u16 (zlen body)) ++ body.

(** pgp/signature.go:36-43 *)
Record signature := mk_sig {
  sg_hashed : list subpacket;
  sg_unhashed : list subpacket;
  sg_type : Z;
  sg_hash : Z;
  sg_digest : bytes;
  sg_r : Z;
  sg_s : Z
}.

(** pgp/signature.go:48-67 *)
Definition sig_preimage (type hash : Z) (hashed : list subpacket) : bytes :=
  [sig_packet_version; u8 type; alg_eddsa; u8 hash] ++ encode_subpackets hashed.

(** pgp/signature.go:71-88.  SigHash[:2] cannot fail: digests have at least 32 bytes. *)
Definition sig_encode (s : signature) : bytes :=
  sig_preimage (sg_type s) (sg_hash s) (sg_hashed s) ++ encode_subpackets (sg_unhashed s) ++
  firstn 2 (sg_digest s) ++ encode_mpi (sg_r s) ++ encode_mpi (sg_s s).

(** pgp/signature.go:90-92 *)
Definition sig_packet (s : signature) : bytes := encode_packet tag_signature (sig_encode s).
