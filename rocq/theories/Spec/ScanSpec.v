(** Standard input in pieces (C106). *)
From Verif.Model Require Import GoBase.

(** the text of the pieces up to the end of the input *)
Fixpoint text (src : list bytes) : bytes :=
  match src with
  | [] | [] :: _ => []
  | piece :: rest => piece ++ text rest
  end.
(** A terminal in its normal mode hands over lines as they are entered, with their newline, or without it what was typed before
    Ctrl+D.  No piece goes beyond its first newline. *)
Definition entered_line (piece : bytes) : Prop := forall a b, piece = a ++ 10 :: b -> b = [].
