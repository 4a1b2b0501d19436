(** float64 (IEEE 754 binary64) as far as time.Duration.Seconds needs it: a finite non-negative value
    is [mant * 2 ^ expo]; results are rounded to the nearest 53-bit mantissa, ties to even.  There is
    no underflow or overflow for durations. *)
From Verif.Model Require Import GoBase.

Record float := mk_float { mant : Z; expo : Z }.

(** the fraction n/d in units of 2^e *)
Definition over (n e : Z) : Z := n * 2 ^ Z.max 0 (- e).
Definition under (d e : Z) : Z := d * 2 ^ Z.max 0 e.
Definition nearest_even (n d : Z) : Z :=
  let q := n / d in
  let r := n mod d in
  if 2 * r <? d then q
  else if d <? 2 * r then q + 1
  else if Z.even q then q else q + 1.
(** the exponent that gives n/d a quotient of 53 bits *)
Definition exponent (n d : Z) : Z :=
  let e := Z.log2 n - Z.log2 d - 53 in
  if over n e / under d e <? 2 ^ 53 then e else e + 1.
(** n/d for n >= 0 and d > 0 *)
Definition fl_round (n d : Z) : float :=
  if n =? 0 then mk_float 0 0
  else let e := exponent n d in mk_float (nearest_even (over n e) (under d e)) e.

(** conversion of an integer, quotient by an integer-valued float, sum *)
Definition fl_of_int (n : Z) : float := fl_round n 1.
Definition fl_div (a b : float) : float :=
  fl_round (under (mant a) (expo a) * 2 ^ Z.max 0 (- expo b)) (mant b * 2 ^ Z.max 0 (- expo a) * 2 ^ Z.max 0 (expo b)).
Definition fl_add (a b : float) : float :=
  let e := Z.min 0 (Z.min (expo a) (expo b)) in
  fl_round (mant a * 2 ^ (expo a - e) + mant b * 2 ^ (expo b - e)) (2 ^ (- e)).
(** truncation towards zero *)
Definition fl_trunc (a : float) : Z := under (mant a) (expo a) / 2 ^ Z.max 0 (- expo a).

(** time.Duration.Seconds: float64(d/1e9) + float64(d%1e9)/1e9; the operations treat the two signs
    alike, so this is for the absolute value *)
Definition fl_seconds (d : Z) : float :=
  fl_add (fl_of_int (d / 10 ^ 9)) (fl_div (fl_of_int (d mod 10 ^ 9)) (fl_of_int (10 ^ 9))).
(** uint32(d.Seconds()): truncated to int64, then to the low 32 bits (what amd64 does; the language
    leaves values outside uint32 to the implementation) *)
Definition std_seconds_u32 (d : Z) : Z := (Z.sgn d * fl_trunc (fl_seconds (Z.abs d))) mod 2 ^ 32.
