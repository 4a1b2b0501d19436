(** An environment in which the cryptographic packages are the standard algorithms and the packages of Go
    (strings, math/rand, time, armor) are as transcribed in Go*.v.  Only the word list and its search are
    taken from [E0]. *)
From Verif.Model Require Import GoBase Env.
From Verif.Spec Require Import Sha Aes Curve25519 Argon2 GoRand GoFloat GoArmor GoText.

Definition std_env (E0 : Env) : Env := {|
  wl_words := wl_words E0;
  wl_search := wl_search E0;
  unicode_lower := std_lower;
  trim_space := std_trim;
  argon2id := std_argon2id;
  aes_encrypt := std_aes_encrypt;
  aes_decrypt := std_aes_decrypt;
  sha1 := std_sha1;
  sha256 := std_sha256;
  sha384 := std_sha384;
  sha512 := std_sha512;
  hkdf_expand_sha256 := std_hkdf_expand;
  ed25519_public := std_ed25519_public;
  ed25519_sign := std_ed25519_sign;
  x25519_base := std_x25519_base;
  rand_int31n := std_rand_int31n;
  seconds_u32 := std_seconds_u32;
  armor_encode := std_armor
|}.

(** The root key of a seed and a creation second, and the secret of a role, spelled out (README,
    "Key Derivation"): [info] is the label of the role. *)
Definition std_root (entropy second : Z) : bytes :=
  std_argon2id (num_be 16 entropy) (num_be 4 second) 4 (512 * 1024) 2 32.
Definition std_secret (entropy second : Z) (info : bytes) : bytes :=
  std_hkdf_expand (std_root entropy second) info 32.

(** Version 4 fingerprint (RFC 4880, 12.2) of a public key made at [second]. *)
Definition mpi_bytes (l : bytes) : bytes := num_be 2 (8 * zlen l - 1) ++ l.
Definition v4_fingerprint (second alg : Z) (oid public kdf : bytes) : bytes :=
  (* the point is prefixed with 0x40, whose top bit is zero *)
  let body := [4] ++ num_be 4 second ++ [alg] ++ [zlen oid] ++ oid ++ mpi_bytes (0x40 :: public) ++ kdf in
  std_sha1 ([0x99] ++ num_be 2 (zlen body) ++ body).
Definition oid_ed25519 : bytes := [0x2b; 0x06; 0x01; 0x04; 0x01; 0xda; 0x47; 0x0f; 0x01].
Definition oid_curve25519 : bytes := [0x2b; 0x06; 0x01; 0x04; 0x01; 0x97; 0x55; 0x01; 0x05; 0x01].
