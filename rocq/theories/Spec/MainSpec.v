(** The command line: names, numbers and worlds, independent of the code that reads them. *)
From Verif.Model Require Import GoBase.
From Verif.Spec Require Import TextSpec.

(** an argument that can name a command: not an option and not "help" *)
Definition command_name (a : bytes) : Prop := a <> bs "help" /\ forall r, a <> 45 :: r.
(** a number written the usual way: digits, no leading zero *)
Definition plain_number (q : bytes) : Prop :=
  q <> [] /\ Forall is_digit q /\ (q = [48] \/ forall r, q <> 48 :: r).
