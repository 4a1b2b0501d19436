(** What a recovery phrase means, written from the README ("Encoding" and "Mnemonic Encoding", README.md:324-434, 740-873)
    rather than from the Go code: a number in base 4096 whose bits are cut into fields. *)
From Verif.Model Require Import GoBase Env.

(** j-th most significant base-4096 digit of an n written with k digits *)
Definition digit (k : nat) (n : Z) (j : nat) : Z := n / 4096 ^ Z.of_nat (k - 1 - j) mod 4096.

(** the k words that spell n *)
Definition words_of_int (E : Env) (k : nat) (n : Z) : list bytes :=
  map (fun j => nth (Z.to_nat (digit k n j)) (wl_words E) []) (seq 0 k).

(** the phrase [words] spells the number [n] (letter case ignored) *)
Definition spells (E : Env) (words : list bytes) (n : Z) : Prop :=
  0 <= n < 4096 ^ zlen words /\ map (to_lower E) words = words_of_int E (length words) n.

(** CRC-32 as textbook shift register, bit by bit: the register holds the coefficients of
    x^31 .. x^0; generator x^32+x^26+x^23+x^22+x^16+x^12+x^11+x^10+x^8+x^7+x^5+x^4+x^2+x+1;
    message bytes enter least significant bit first; the register starts as all ones; the
    result is complemented and read with the x^31 coefficient as the lowest bit. *)
Definition generator : list bool :=
  map (fun i => existsb (Nat.eqb i) [26; 23; 22; 16; 12; 11; 10; 8; 7; 5; 4; 2; 1; 0]%nat)
      (rev (seq 0 32)).
Fixpoint xor_bits (a b : list bool) : list bool :=
  match a, b with
  | x :: a', y :: b' => xorb x y :: xor_bits a' b'
  | _, _ => []
  end.
Definition crc_bit_step (reg : list bool) (b : bool) : list bool :=
  match reg with
  | [] => []
  | top :: rest =>
      if xorb top b then xor_bits (rest ++ [false]) generator else rest ++ [false]
  end.
Definition bits_lsb_first (width : nat) (x : Z) : list bool :=
  map (fun i => Z.testbit x (Z.of_nat i)) (seq 0 width).
Fixpoint bits_to_int (l : list bool) : Z :=
  match l with
  | [] => 0
  | b :: l' => Z.b2z b + 2 * bits_to_int l'
  end.
Definition crc32_spec (msg : bytes) : Z :=
  bits_to_int (map negb
    (fold_left crc_bit_step (flat_map (bits_lsb_first 8) msg) (repeat true 32))).

(** big-endian bytes of an [nbits]-bit number, padded at the front to whole bytes *)
Definition bytes_of_bits (nbits : nat) (x : Z) : bytes :=
  map (fun i => x / 256 ^ Z.of_nat i mod 256) (rev (seq 0 ((nbits + 7) / 8))).

(** the five checksum bits of an [nbits]-bit payload *)
Definition checksum_spec (nbits : nat) (payload : Z) : Z :=
  crc32_spec (bytes_of_bits nbits payload) mod 32.

(** payload of a plaintext phrase before the checksum: version 0 (4 bits), entropy (128), creation
    offset (31) *)
Definition plain_payload (entropy offset : Z) : Z :=
  0 * 2 ^ 159 + entropy * 2 ^ 31 + offset.
Definition plain_int (entropy offset : Z) : Z :=
  plain_payload entropy offset * 2 ^ 5 + checksum_spec 163 (plain_payload entropy offset).

(** encrypted phrase: version 1 (4), encrypted entropy (128), salt (19), verify bits (5), offset (31) *)
Definition enc_payload (entropy salt verify offset : Z) : Z :=
  1 * 2 ^ 183 + entropy * 2 ^ 55 + salt * 2 ^ 36 + verify * 2 ^ 31 + offset.
Definition enc_int (entropy salt verify offset : Z) : Z :=
  enc_payload entropy salt verify offset * 2 ^ 5
  + checksum_spec 187 (enc_payload entropy salt verify offset).

(** the 17-byte phrase encryption key: Argon2id with 4 passes, 512 MiB, 2 threads; its salt is the
    50-bit string salt || creation offset (README "Encrypted phrases") *)
Definition phrase_key (E : Env) (pw : bytes) (salt off : Z) : bytes :=
  argon2id E pw (bytes_of_bits 50 (salt * 2 ^ 31 + off)) 4 (512 * 1024) 2 17.

(** verification bits: low five bits of the last key byte *)
Definition key_verify (E : Env) (pw : bytes) (salt off : Z) : Z := nth 16 (phrase_key E pw salt off) 0 mod 32.

(** AES-128 under the first 16 key bytes, on 128-bit big-endian numbers *)
Definition cipher_int (E : Env) (pw : bytes) (salt off value : Z) : Z :=
  be_uint (aes_encrypt E (firstn 16 (phrase_key E pw salt off)) (bytes_of_bits 128 value)).
Definition plain_of_cipher (E : Env) (pw : bytes) (salt off c : Z) : Z :=
  be_uint (aes_decrypt E (firstn 16 (phrase_key E pw salt off)) (bytes_of_bits 128 c)).

(** salt drawn from the first three bytes of a random source: its low 19 bits *)
Definition salt_of (src : bytes) : Z := be_uint (firstn 3 src) mod 2 ^ 19.
