(** Word files: blank-separated text, independent of the scanner that reads it. *)
From Verif.Model Require Import GoBase Env Version Recovery.
From Verif.Spec Require Import InputSpec.

Definition blank (b : Z) : Prop := b = 32 \/ 9 <= b <= 13.
(** an ASCII token of less than 64 KiB *)
Definition token (t : bytes) : Prop := t <> [] /\ Forall (fun b => 0 <= b < 128 /\ ~ blank b) t /\ zlen t < 65536.
Inductive separated : bytes -> list bytes -> Prop :=
| Sep_end s : Forall blank s -> separated s []
| Sep_last s t : Forall blank s -> token t -> separated (s ++ t) [t]
| Sep_more s t b c ts : Forall blank s -> token t -> blank b -> separated c ts -> separated (s ++ t ++ b :: c) (t :: ts).

(** words of the list, as many as the version of the first one says *)
Definition phrase_ok (E : Env) (ws : list bytes) : Prop :=
  Forall (fun w => In w (wl_words E)) ws /\
  exists w t, ws = w :: t /\ supported_first E w = true /\ zlen ws = phrase_size E w.
(** the words of the list are short (the longest of wordlist4096 has 8 letters) *)
Definition words_short (E : Env) : Prop := Forall (fun w => zlen w < 65536) (wl_words E).
