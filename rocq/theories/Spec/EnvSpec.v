(** What theorems may assume of the external functions collected in [Env].  Each record is a
    predicate used as an explicit hypothesis; Proofs/EnvInst.v exhibits an environment meeting
    all of them at once. *)
From Verif.Model Require Import GoBase Env.

Definition byte (b : Z) : Prop := 0 <= b < 256.

Definition lower_letter (b : Z) : Prop := 97 <= b <= 122.

(** wordlist4096: 4096 distinct, non-empty, lower-case a-z words. *)
Record wordlist_ok (E : Env) : Prop := {
  wlo_length : length (wl_words E) = Z.to_nat 4096;
  wlo_nodup : NoDup (wl_words E);
  wlo_nonempty : Forall (fun w => w <> []) (wl_words E);
  wlo_letters : Forall (Forall lower_letter) (wl_words E)
}.

(** argon2.IDKey returns keyLen bytes. *)
Definition argon_ok (E : Env) : Prop :=
  forall p s t m th n, 0 <= n ->
    length (argon2id E p s t m th n) = Z.to_nat n /\ Forall byte (argon2id E p s t m th n).

(** AES with a 16-byte key permutes 16-byte blocks and decryption inverts encryption. *)
Definition block16 (l : bytes) : Prop := length l = 16%nat /\ Forall byte l.
Definition aes_ok (E : Env) : Prop :=
  forall key blk, block16 key -> block16 blk ->
    block16 (aes_encrypt E key blk) /\ block16 (aes_decrypt E key blk) /\
    aes_decrypt E key (aes_encrypt E key blk) = blk /\
    aes_encrypt E key (aes_decrypt E key blk) = blk.

(** HKDF-Expand returns the requested number of bytes. *)
Definition hkdf_ok (E : Env) : Prop :=
  forall key info n, length (hkdf_expand_sha256 E key info n) = n /\ Forall byte (hkdf_expand_sha256 E key info n).

(** SHA-1 and SHA-256 digests have 20 and 32 bytes. *)
Definition hash_ok (E : Env) : Prop :=
  forall m, (length (sha1 E m) = 20%nat /\ Forall byte (sha1 E m)) /\
            (length (sha256 E m) = 32%nat /\ Forall byte (sha256 E m)).

(** math/rand: Int31n(n) is in [0, n). *)
Definition rand_ok (E : Env) : Prop := forall sd k n, 0 < n -> 0 <= rand_int31n E sd k n < n.

Definition block32 (l : bytes) : Prop := length l = 32%nat /\ Forall byte l.

(** Ed25519: 32-byte public keys, 64-byte signatures, and what a key signs the verification
    function [verify public message signature] accepts.  [verify] is not part of the code; the
    theorems hold for every function with this property. *)
Definition ed25519_ok (E : Env) (verify : bytes -> bytes -> bytes -> bool) : Prop :=
  forall sd, block32 sd ->
    block32 (ed25519_public E sd) /\
    forall m, length (ed25519_sign E (sd ++ ed25519_public E sd) m) = 64%nat /\
              Forall byte (ed25519_sign E (sd ++ ed25519_public E sd) m) /\
              verify (ed25519_public E sd) m (ed25519_sign E (sd ++ ed25519_public E sd) m) = true.

(** X25519 of a 32-byte scalar gives 32 bytes and ignores the bits RFC 7748 tells it to ignore:
    the low three bits of the first byte and the top two of the last. *)
Definition same_scalar_bits (a b : bytes) : Prop :=
  length a = length b /\
  forall i, (i < length a)%nat ->
    let lo := if Nat.eqb i 0 then 3 else 0 in
    let hi := if Nat.eqb i 31 then 6 else 8 in
    forall j, lo <= j < hi -> Z.testbit (nth i a 0) j = Z.testbit (nth i b 0) j.
Definition x25519_ok (E : Env) : Prop :=
  (forall sd, block32 sd -> block32 (x25519_base E sd)) /\
  (forall a b, block32 a -> block32 b -> same_scalar_bits a b -> x25519_base E a = x25519_base E b).

(** uint32(d.Seconds()) is a uint32, exact for whole seconds below 2^32. *)
Definition seconds_ok (E : Env) : Prop :=
  (forall q, 0 <= q < 2 ^ 32 -> seconds_u32 E (q * 10 ^ 9) = q) /\
  (forall d, 0 <= seconds_u32 E d < 2 ^ 32).

(** AES-256 encryption of one block. *)
Definition aes256_ok (E : Env) : Prop :=
  forall key blk, block32 key -> block16 blk -> block16 (aes_encrypt E key blk).
