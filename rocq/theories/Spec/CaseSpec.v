(** Letter case, independent of strings.ToLower. *)
From Verif.Model Require Import GoBase.

(** [b] and [c] are the same ASCII character, or the two cases of one letter. *)
Definition same_letter (b c : Z) : Prop :=
  0 <= b < 128 /\ (b = c \/ (97 <= b <= 122 /\ c = b - 32) \/ (65 <= b <= 90 /\ c = b + 32)).
Definition case_variant (w w' : bytes) : Prop := Forall2 same_letter w w'.
