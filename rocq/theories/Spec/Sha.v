(** The hash functions the repository imports, written from their standards: SHA-1, SHA-256,
    SHA-384 and SHA-512 (FIPS 180-4), HMAC (RFC 2104) and HKDF-Expand (RFC 5869).  In the model
    these are fields of [Env]; Props/RealProps.v proves that the functions below have the
    properties assumed of those fields and tests them on published vectors.  Used by the code at
    pgp/ecc_key.go:107, 119, pgp/s2k.go:49, pgp/constants.go:102-106, pgp/key_set.go:131 and
    derive.go:40.  Nothing of the model is used but [bytes] and [zlen]. *)
From Verif.Model Require Import GoBase.

(** Messages are read as if shorter than 2^64 bits, as in the standards. *)
Definition be_num (l : bytes) : Z := fold_left (fun a b => a * 256 + b) l 0.

(** Big-endian bytes of a number, [n] of them. *)
Fixpoint num_be (n : nat) (x : Z) : bytes :=
  match n with O => [] | S n' => num_be n' (x / 256) ++ [x mod 256] end.

(** Words of [w] bits. *)
Section Words.
Variable w : Z.
Definition wadd (a b : Z) : Z := (a + b) mod 2 ^ w.
Definition rotr (n x : Z) : Z := Z.lor (Z.shiftr x n) (Z.shiftl x (w - n) mod 2 ^ w).
Definition rotl (n x : Z) : Z := rotr (w - n) x.
Definition wnot (x : Z) : Z := 2 ^ w - 1 - x.
Definition ch (x y z : Z) : Z := Z.lxor (Z.land x y) (Z.land (wnot x) z).
Definition maj (x y z : Z) : Z := Z.lxor (Z.lxor (Z.land x y) (Z.land x z)) (Z.land y z).
Definition parity (x y z : Z) : Z := Z.lxor (Z.lxor x y) z.
End Words.

(** FIPS 180-4, 5.1: a one bit, zeros, and the length in bits, filling whole blocks of
    [16 * wb] bytes ([wb] bytes a word). *)
Definition sha_pad (wb : nat) (m : bytes) : bytes :=
  let blk := Z.of_nat (16 * wb) in
  let used := zlen m + 1 + Z.of_nat (2 * wb) in
  m ++ [128] ++ repeat 0 (Z.to_nat ((blk - used mod blk) mod blk)) ++ num_be (2 * wb) (8 * zlen m).

(** Cut into pieces of [k] bytes; [fuel] bounds the number of pieces. *)
Fixpoint pieces (fuel k : nat) (l : bytes) : list bytes :=
  match fuel, l with
  | S f, _ :: _ => firstn k l :: pieces f k (skipn k l)
  | _, _ => []
  end.
Definition sha_blocks (wb : nat) (m : bytes) : list (list Z) :=
  let p := sha_pad wb m in
  map (fun b => map be_num (pieces 16 wb b)) (pieces (length p) (16 * wb) p).

(** ** SHA-2 *)
Definition st8 : Type := Z * Z * Z * Z * Z * Z * Z * Z.
Section Sha2.
Variable w : Z.
(** rotation amounts of the four sigma functions; the last of each small one is a shift *)
Variables (S0 S1 s0 s1 : Z * Z * Z).
Variable k : list Z.
Definition big (r : Z * Z * Z) (x : Z) : Z :=
  let '(a, b, c) := r in Z.lxor (Z.lxor (rotr w a x) (rotr w b x)) (rotr w c x).
Definition small (r : Z * Z * Z) (x : Z) : Z :=
  let '(a, b, c) := r in Z.lxor (Z.lxor (rotr w a x) (rotr w b x)) (Z.shiftr x c).
(** Message schedule, newest word first. *)
Fixpoint extend (n : nat) (ws : list Z) : list Z :=
  match n with
  | O => ws
  | S n' => extend n' (wadd w (wadd w (small s1 (nth 1 ws 0)) (nth 6 ws 0))
                              (wadd w (small s0 (nth 14 ws 0)) (nth 15 ws 0)) :: ws)
  end.
Definition sha2_round (s : st8) (kw : Z * Z) : st8 :=
  let '(a, b, c, d, e, f, g, h) := s in
  let t1 := wadd w (wadd w (wadd w h (big S1 e)) (ch w e f g)) (wadd w (fst kw) (snd kw)) in
  let t2 := wadd w (big S0 a) (maj a b c) in
  (wadd w t1 t2, a, b, c, wadd w d t1, e, f, g).
Definition add8 (s t : st8) : st8 :=
  let '(a, b, c, d, e, f, g, h) := s in
  let '(a', b', c', d', e', f', g', h') := t in
  (wadd w a a', wadd w b b', wadd w c c', wadd w d d', wadd w e e', wadd w f f', wadd w g g', wadd w h h').
Definition sha2_block (s : st8) (blk : list Z) : st8 :=
  let ws := rev (extend (length k - 16) (rev blk)) in
  add8 s (fold_left sha2_round (combine k ws) s).
Definition sha2 (iv : st8) (m : bytes) : bytes :=
  let wb := Z.to_nat (w / 8) in
  let '(a, b, c, d, e, f, g, h) := fold_left sha2_block (sha_blocks wb m) iv in
  num_be wb a ++ num_be wb b ++ num_be wb c ++ num_be wb d ++
  num_be wb e ++ num_be wb f ++ num_be wb g ++ num_be wb h.
End Sha2.

(** Cube roots of the first primes, fractional bits. *)
Definition k256 : list Z :=
   [ 0x428a2f98; 0x71374491; 0xb5c0fbcf; 0xe9b5dba5; 0x3956c25b; 0x59f111f1; 0x923f82a4; 0xab1c5ed5;
     0xd807aa98; 0x12835b01; 0x243185be; 0x550c7dc3; 0x72be5d74; 0x80deb1fe; 0x9bdc06a7; 0xc19bf174;
     0xe49b69c1; 0xefbe4786; 0x0fc19dc6; 0x240ca1cc; 0x2de92c6f; 0x4a7484aa; 0x5cb0a9dc; 0x76f988da;
     0x983e5152; 0xa831c66d; 0xb00327c8; 0xbf597fc7; 0xc6e00bf3; 0xd5a79147; 0x06ca6351; 0x14292967;
     0x27b70a85; 0x2e1b2138; 0x4d2c6dfc; 0x53380d13; 0x650a7354; 0x766a0abb; 0x81c2c92e; 0x92722c85;
     0xa2bfe8a1; 0xa81a664b; 0xc24b8b70; 0xc76c51a3; 0xd192e819; 0xd6990624; 0xf40e3585; 0x106aa070;
     0x19a4c116; 0x1e376c08; 0x2748774c; 0x34b0bcb5; 0x391c0cb3; 0x4ed8aa4a; 0x5b9cca4f; 0x682e6ff3;
     0x748f82ee; 0x78a5636f; 0x84c87814; 0x8cc70208; 0x90befffa; 0xa4506ceb; 0xbef9a3f7; 0xc67178f2 ].
Definition k512 : list Z :=
   [ 0x428a2f98d728ae22; 0x7137449123ef65cd; 0xb5c0fbcfec4d3b2f; 0xe9b5dba58189dbbc;
     0x3956c25bf348b538; 0x59f111f1b605d019; 0x923f82a4af194f9b; 0xab1c5ed5da6d8118;
     0xd807aa98a3030242; 0x12835b0145706fbe; 0x243185be4ee4b28c; 0x550c7dc3d5ffb4e2;
     0x72be5d74f27b896f; 0x80deb1fe3b1696b1; 0x9bdc06a725c71235; 0xc19bf174cf692694;
     0xe49b69c19ef14ad2; 0xefbe4786384f25e3; 0x0fc19dc68b8cd5b5; 0x240ca1cc77ac9c65;
     0x2de92c6f592b0275; 0x4a7484aa6ea6e483; 0x5cb0a9dcbd41fbd4; 0x76f988da831153b5;
     0x983e5152ee66dfab; 0xa831c66d2db43210; 0xb00327c898fb213f; 0xbf597fc7beef0ee4;
     0xc6e00bf33da88fc2; 0xd5a79147930aa725; 0x06ca6351e003826f; 0x142929670a0e6e70;
     0x27b70a8546d22ffc; 0x2e1b21385c26c926; 0x4d2c6dfc5ac42aed; 0x53380d139d95b3df;
     0x650a73548baf63de; 0x766a0abb3c77b2a8; 0x81c2c92e47edaee6; 0x92722c851482353b;
     0xa2bfe8a14cf10364; 0xa81a664bbc423001; 0xc24b8b70d0f89791; 0xc76c51a30654be30;
     0xd192e819d6ef5218; 0xd69906245565a910; 0xf40e35855771202a; 0x106aa07032bbd1b8;
     0x19a4c116b8d2d0c8; 0x1e376c085141ab53; 0x2748774cdf8eeb99; 0x34b0bcb5e19b48a8;
     0x391c0cb3c5c95a63; 0x4ed8aa4ae3418acb; 0x5b9cca4f7763e373; 0x682e6ff3d6b2b8a3;
     0x748f82ee5defb2fc; 0x78a5636f43172f60; 0x84c87814a1f0ab72; 0x8cc702081a6439ec;
     0x90befffa23631e28; 0xa4506cebde82bde9; 0xbef9a3f7b2c67915; 0xc67178f2e372532b;
     0xca273eceea26619c; 0xd186b8c721c0c207; 0xeada7dd6cde0eb1e; 0xf57d4f7fee6ed178;
     0x06f067aa72176fba; 0x0a637dc5a2c898a6; 0x113f9804bef90dae; 0x1b710b35131c471b;
     0x28db77f523047d84; 0x32caab7b40c72493; 0x3c9ebe0a15c9bebc; 0x431d67c49c100d4c;
     0x4cc5d4becb3e42b6; 0x597f299cfc657e2a; 0x5fcb6fab3ad6faec; 0x6c44198c4a475817 ].
Definition iv256 : st8 :=
    (0x6a09e667, 0xbb67ae85, 0x3c6ef372, 0xa54ff53a,
     0x510e527f, 0x9b05688c, 0x1f83d9ab, 0x5be0cd19).
Definition iv512 : st8 :=
    (0x6a09e667f3bcc908, 0xbb67ae8584caa73b, 0x3c6ef372fe94f82b, 0xa54ff53a5f1d36f1,
     0x510e527fade682d1, 0x9b05688c2b3e6c1f, 0x1f83d9abfb41bd6b, 0x5be0cd19137e2179).
Definition iv384 : st8 :=
    (0xcbbb9d5dc1059ed8, 0x629a292a367cd507, 0x9159015a3070dd17, 0x152fecd8f70e5939,
     0x67332667ffc00b31, 0x8eb44a8768581511, 0xdb0c2e0d64f98fa7, 0x47b5481dbefa4fa4).

Definition std_sha256 : bytes -> bytes :=
  sha2 32 (2, 13, 22) (6, 11, 25) (7, 18, 3) (17, 19, 10) k256 iv256.
Definition std_sha512 : bytes -> bytes :=
  sha2 64 (28, 34, 39) (14, 18, 41) (1, 8, 7) (19, 61, 6) k512 iv512.
Definition std_sha384 (m : bytes) : bytes :=
  firstn 48 (sha2 64 (28, 34, 39) (14, 18, 41) (1, 8, 7) (19, 61, 6) k512 iv384 m).

(** ** SHA-1 *)
Definition st5 : Type := Z * Z * Z * Z * Z.
Fixpoint extend1 (n : nat) (ws : list Z) : list Z :=
  match n with
  | O => ws
  | S n' => extend1 n' (rotl 32 1 (Z.lxor (Z.lxor (nth 2 ws 0) (nth 7 ws 0))
                                          (Z.lxor (nth 13 ws 0) (nth 15 ws 0))) :: ws)
  end.
Definition sha1_round (f : Z -> Z -> Z -> Z) (k : Z) (s : st5) (wt : Z) : st5 :=
  let '(a, b, c, d, e) := s in
  (wadd 32 (wadd 32 (rotl 32 5 a) (f b c d)) (wadd 32 (wadd 32 e k) wt), a, rotl 32 30 b, c, d).
Definition sha1_block (s : st5) (blk : list Z) : st5 :=
  let ws := rev (extend1 64 (rev blk)) in
  let part i := firstn 20 (skipn (20 * i) ws) in
  let s1 := fold_left (sha1_round (ch 32) 0x5a827999) (part 0%nat) s in
  let s2 := fold_left (sha1_round parity 0x6ed9eba1) (part 1%nat) s1 in
  let s3 := fold_left (sha1_round maj 0x8f1bbcdc) (part 2%nat) s2 in
  let s4 := fold_left (sha1_round parity 0xca62c1d6) (part 3%nat) s3 in
  let '(a, b, c, d, e) := s in
  let '(a', b', c', d', e') := s4 in
  (wadd 32 a a', wadd 32 b b', wadd 32 c c', wadd 32 d d', wadd 32 e e').
Definition std_sha1 (m : bytes) : bytes :=
  let '(a, b, c, d, e) :=
    fold_left sha1_block (sha_blocks 4 m)
      (0x67452301, 0xefcdab89, 0x98badcfe, 0x10325476, 0xc3d2e1f0) in
  num_be 4 a ++ num_be 4 b ++ num_be 4 c ++ num_be 4 d ++ num_be 4 e.

(** ** HMAC-SHA256 and HKDF-Expand *)
Definition hmac_sha256 (key m : bytes) : bytes :=
  let k0 := if 64 <? zlen key then std_sha256 key else key in
  let k1 := k0 ++ repeat 0 (64 - length k0) in
  std_sha256 (map (Z.lxor 0x5c) k1 ++ std_sha256 (map (Z.lxor 0x36) k1 ++ m)).

(** T(1) ++ T(2) ++ ... with T(i) = HMAC(key, T(i-1) ++ info ++ [i]); the standard stops after
    255 pieces. *)
Fixpoint hkdf_t (n : nat) (key info : bytes) (i : Z) (prev : bytes) : bytes :=
  match n with
  | O => []
  | S n' => let t := hmac_sha256 key (prev ++ info ++ [i]) in t ++ hkdf_t n' key info (i + 1) t
  end.
Definition std_hkdf_expand (key info : bytes) (n : nat) : bytes :=
  firstn n (hkdf_t (Nat.div (n + 31) 32) key info 1 []).
