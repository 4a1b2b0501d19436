(** Bit strings, most significant bit first: what a bit buffer stands for. *)
From Verif.Model Require Import GoBase.

Definition val (bs : list bool) : Z := fold_left (fun a (b : bool) => 2 * a + (if b then 1 else 0)) bs 0.

(** the n bits of v *)
Definition bits_of (n : nat) (v : Z) : list bool :=
  map (fun i => Z.odd (v / 2 ^ Z.of_nat (n - 1 - i))) (seq 0 n).

(** bytes of a bit string, padded with zero bits in front to whole bytes *)
Fixpoint octets (k : nat) (bs : list bool) : list Z :=
  match k with O => [] | S k => val (firstn 8 bs) :: octets k (skipn 8 bs) end.
Definition padded_bytes (bs : list bool) : list Z :=
  let k := Nat.div (length bs + 7) 8 in octets k (repeat false (8 * k - length bs) ++ bs).

Inductive bop := AppL (v n : Z) | AppT (v n : Z) | PopL (n : Z) | PopT (n : Z) | GetBytes | GetLen.
Inductive bobs := Done | Bits (v : Z) | Octets (l : list Z) | Len (n : Z).

(** one operation on the bit string; None is a panic *)
Definition string_op (o : bop) (bs : list bool) : option (bobs * list bool) :=
  match o with
  | AppL v n => if v <? 2 ^ n then Some (Done, bits_of (Z.to_nat n) v ++ bs) else None
  | AppT v n => if v <? 2 ^ n then Some (Done, bs ++ bits_of (Z.to_nat n) v) else None
  | PopL n => if n <=? zlen bs then Some (Bits (val (firstn (Z.to_nat n) bs)), skipn (Z.to_nat n) bs) else None
  | PopT n => if n <=? zlen bs
              then let m := Z.to_nat (zlen bs - n) in Some (Bits (val (skipn m bs)), firstn m bs) else None
  | GetBytes => Some (Octets (padded_bytes bs), bs)
  | GetLen => Some (Len (zlen bs), bs)
  end.

(** observations of a sequence of operations, up to and including a panic; the final string *)
Fixpoint string_run (ops : list bop) (bs : list bool) : list bobs * option (list bool) :=
  match ops with
  | [] => ([], Some bs)
  | o :: r => match string_op o bs with
              | None => ([], None)
              | Some (x, bs') => let (l, e) := string_run r bs' in (x :: l, e)
              end
  end.

(** operations a Go caller can write: sizes are unsigned, values non-negative *)
Definition bop_ok (o : bop) : Prop :=
  match o with AppL v n | AppT v n => 0 <= v /\ 0 <= n | PopL n | PopT n => 0 <= n | _ => True end.
