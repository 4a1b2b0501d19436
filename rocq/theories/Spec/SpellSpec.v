(** Which texts are read as a word, and what trimming leaves. *)
From Verif.Model Require Import GoBase.
From Verif.Spec Require Import SpaceSpec.

(** the ways to write a letter a-z: itself, its capital, and for k the Kelvin sign U+212A, for i the
    capital I with a dot above U+0130, in UTF-8 *)
Definition spelling (letter : Z) (s : bytes) : Prop :=
  s = [letter] \/ s = [letter - 32] \/ (letter = 107 /\ s = [0xE2; 0x84; 0xAA]) \/ (letter = 105 /\ s = [0xC4; 0xB0]).
Definition spelled (word s : bytes) : Prop := exists parts, Forall2 spelling word parts /\ s = concat parts.

(** [t] is [s] without the white space at its ends *)
Definition trimmed (s t : bytes) : Prop :=
  (exists a b, Forall white a /\ Forall white b /\ s = utf8_text a ++ t ++ utf8_text b) /\
  (forall c r, white c -> t <> utf8 c ++ r) /\
  (forall c r, white c -> t <> r ++ utf8 c).
