(** Goroutines that share integers, seeds, decoded phrases and keys (C101).  Conflicting accesses are as in
    ThreadSpec.v. *)
From Verif.Model Require Import GoBase BigHeap.
From Verif.Spec Require Import ShareSpec.

(** The goroutine changes no integer that was there before it was started: it assigns to none, and it gives none to
    EncodeToIndices, which shifts its argument away. *)
Definition keeps_shared (st : h_state) (c : call) : Prop :=
  forall x, writes c = Some x -> (length (hst_ints st) <= x)%nat.
