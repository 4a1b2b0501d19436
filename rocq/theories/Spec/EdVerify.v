(** Ed25519 verification (RFC 8032, 5.1.3 and 5.1.7).  The code only signs; what it signs is verified
    by others, with the functions below. *)
From Verif.Model Require Import GoBase.
From Verif.Spec Require Import Sha Curve25519.

(** 5.1.3: a point from 32 bytes.  The square root of u / v is u v^3 (u v^7)^((p-5)/8), or that times
    2^((p-1)/4), if there is one; the top bit of the last byte chooses its sign. *)
Definition pt_decode (b : bytes) : option pt :=
  let n := le_num b in
  let y := n mod 2 ^ 255 in
  let odd := Z.testbit n 255 in
  if prime25519 <=? y then None
  else
    let y2 := fmul y y in
    let u := fsub y2 1 in
    let v := fadd (fmul ed_d y2) 1 in
    let v3 := fmul v (fmul v v) in
    let v7 := fmul v3 (fmul v3 v) in
    let x := fmul (fmul u v3) (fpow_pos (fmul u v7) (Z.to_pos ((prime25519 - 5) / 8))) in
    let vx2 := fmul v (fmul x x) in
    let root :=
      if vx2 =? u then Some x
      else if vx2 =? fsub 0 u then Some (fmul x (fpow_pos 2 (Z.to_pos ((prime25519 - 1) / 4))))
      else None in
    match root with
    | None => None
    | Some x =>
        if (x =? 0) && odd then None
        else let x := if Bool.eqb (Z.odd x) odd then x else fsub 0 x in
             Some (x, y, 1, fmul x y)
    end.

Definition pt_neg (p : pt) : pt := let '(x, y, z, t) := p in (fsub 0 x, y, z, fsub 0 t).
Definition pt_same (p q : pt) : bool :=
  let '(x1, y1, z1, _) := p in
  let '(x2, y2, z2, _) := q in
  (fmul x1 z2 =? fmul x2 z1) && (fmul y1 z2 =? fmul y2 z1).

(** 5.1.7 with the stricter, cofactorless equation: R and A decode, S is below the order, and
    [S]B = R + [k]A *)
Definition std_ed25519_verify (public m sig : bytes) : bool :=
  let rb := firstn 32 sig in
  let s := le_num (skipn 32 sig) in
  let k := le_num (std_sha512 (rb ++ public ++ m)) mod ed_order in
  (zlen public =? 32) && (zlen sig =? 64) && (s <? ed_order) &&
  match pt_decode public, pt_decode rb with
  | Some a, Some r => pt_same (pt_mul s pt_base) (pt_add r (pt_mul k a))
  | _, _ => false
  end.
(** The comparison many implementations make instead: the encoding of [S]B - [k]A is R. *)
Definition ed25519_verify_bytes (public m sig : bytes) : bool :=
  let rb := firstn 32 sig in
  let s := le_num (skipn 32 sig) in
  let k := le_num (std_sha512 (rb ++ public ++ m)) mod ed_order in
  (zlen public =? 32) && (zlen sig =? 64) && (s <? ed_order) &&
  match pt_decode public with
  | Some a => bytes_eqb (pt_encode (pt_add (pt_mul s pt_base) (pt_mul k (pt_neg a)))) rb
  | None => false
  end.
