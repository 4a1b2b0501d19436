(** X25519 (RFC 7748) and Ed25519 (RFC 8032) over the integers modulo 2^255 - 19, as
    curve25519.X25519 and crypto/ed25519 compute them for the code (pgp/encryption_subkey.go:45,
    pgp/master_key.go:31, pgp/ed25519_subkey.go:25, pgp/sign.go:79).  In the model these are
    fields of [Env]; Props/RealProps.v proves the assumed shapes and tests published vectors. *)
From Verif.Model Require Import GoBase.
From Verif.Spec Require Import Sha.

Definition prime25519 : Z := 2 ^ 255 - 19.
Definition num_le (n : nat) (x : Z) : bytes := rev (num_be n x).
Definition le_num (l : bytes) : Z := be_num (rev l).

(** Reduction modulo the prime of a number below 2^512, by 2^255 = 19; the same as [mod]
    ([reduce_mod] in Proofs/RealP.v). *)
Definition fold25519 (x : Z) : Z := Z.land x (Z.ones 255) + 19 * Z.shiftr x 255.
Definition reduce (x : Z) : Z :=
  let y := fold25519 (fold25519 x) in if y <? prime25519 then y else y - prime25519.
Definition fmul (a b : Z) : Z := reduce (a * b).
Definition fadd (a b : Z) : Z := (a + b) mod prime25519.
Definition fsub (a b : Z) : Z := (a - b) mod prime25519.
(** a to the power e by repeated squaring *)
Fixpoint fpow_pos (a : Z) (e : positive) : Z :=
  match e with
  | xH => a
  | xO e' => let r := fpow_pos a e' in fmul r r
  | xI e' => let r := fpow_pos a e' in fmul a (fmul r r)
  end.
Definition finv (a : Z) : Z := fpow_pos a (Z.to_pos (prime25519 - 2)).

(** Clamping, RFC 7748 section 5: clear the low three bits of the first byte and the top bit of
    the last, set the bit below it. *)
Definition clamp (k : bytes) : bytes :=
  match k with
  | [] => []
  | b :: l => Z.land b 248 :: removelast l ++ [Z.lor (Z.land (last l 0) 127) 64]
  end.

(** ** X25519 *)
Definition cswap (c : bool) (a b : Z) : Z * Z := if c then (b, a) else (a, b).
Definition ladder_step (u : Z) (k : Z) (st : Z * Z * Z * Z * bool) (t : Z) : Z * Z * Z * Z * bool :=
  let '(x2, z2, x3, z3, sw) := st in
  let kt := Z.testbit k t in
  let s := xorb sw kt in
  let '(x2, x3) := cswap s x2 x3 in
  let '(z2, z3) := cswap s z2 z3 in
  let a := fadd x2 z2 in let aa := fmul a a in
  let b := fsub x2 z2 in let bb := fmul b b in
  let e := fsub aa bb in
  let c := fadd x3 z3 in let d := fsub x3 z3 in
  let da := fmul d a in let cb := fmul c b in
  let s1 := fadd da cb in let s2 := fsub da cb in
  (fmul aa bb, fmul e (fadd aa (fmul 121665 e)), fmul s1 s1, fmul u (fmul s2 s2), kt).
Definition bits_down (n : nat) : list Z := rev (map Z.of_nat (seq 0 n)).
Definition x25519 (scalar point : bytes) : bytes :=
  let k := le_num (clamp scalar) in
  let u := le_num point mod 2 ^ 255 in
  let '(x2, z2, x3, z3, sw) := fold_left (ladder_step u k) (bits_down 255) (1, 0, u, 1, false) in
  let '(x2, x3) := cswap sw x2 x3 in
  let '(z2, z3) := cswap sw z2 z3 in
  num_le 32 (fmul x2 (finv z2)).
Definition std_x25519_base (scalar : bytes) : bytes := x25519 scalar (9 :: repeat 0 31).

(** ** Ed25519 *)
Definition ed_d : Z := 37095705934669439343138083508754565189542113879843219016388785533085940283555.
Definition ed_order : Z := 2 ^ 252 + 27742317777372353535851937790883648493.
(** Extended coordinates X, Y, Z, T. *)
Definition pt : Type := Z * Z * Z * Z.
Definition pt_zero : pt := (0, 1, 1, 0).
Definition pt_base : pt :=
  let x := 15112221349535400772501151409588531511454012693041857206046113283949847762202 in
  let y := 46316835694926478169428394003475163141307993866256225615783033603165251855960 in
  (x, y, 1, fmul x y).
Definition pt_add (p q : pt) : pt :=
  let '(x1, y1, z1, t1) := p in
  let '(x2, y2, z2, t2) := q in
  let a := fmul (fsub y1 x1) (fsub y2 x2) in
  let b := fmul (fadd y1 x1) (fadd y2 x2) in
  let c := fmul (fmul t1 (fadd ed_d ed_d)) t2 in
  let d := fmul (fadd z1 z1) z2 in
  let e := fsub b a in let f := fsub d c in
  let g := fadd d c in let h := fadd b a in
  (fmul e f, fmul g h, fmul f g, fmul e h).
Definition pt_mul (k : Z) (p : pt) : pt :=
  fold_left (fun acc t => let acc2 := pt_add acc acc in if Z.testbit k t then pt_add acc2 p else acc2)
    (bits_down 255) pt_zero.
Definition pt_encode (p : pt) : bytes :=
  let '(x, y, z, _) := p in
  let zi := finv z in
  let xa := fmul x zi in
  num_le 32 (fmul y zi + (xa mod 2) * 2 ^ 255).

Definition std_ed25519_public (seed : bytes) : bytes :=
  pt_encode (pt_mul (le_num (clamp (firstn 32 (std_sha512 seed)))) pt_base).
(** The private key of Go is the seed followed by the public key. *)
Definition std_ed25519_sign (priv m : bytes) : bytes :=
  let h := std_sha512 (firstn 32 priv) in
  let pub := skipn 32 priv in
  let s := le_num (clamp (firstn 32 h)) in
  let r := le_num (std_sha512 (skipn 32 h ++ m)) mod ed_order in
  let rb := pt_encode (pt_mul r pt_base) in
  let k := le_num (std_sha512 (rb ++ pub ++ m)) mod ed_order in
  rb ++ num_le 32 ((r + k * s) mod ed_order).
