(** Goroutines that share objects of /repo/pgp (C97). *)
From Verif.Model Require Import GoBase SliceHeap SliceThreads.

(** The goroutine assigns to no element of a slice or key that was there before it was started: of the objects in [st] it
    changes none. *)
Definition leaves_alone (st : p_state) (c : p_call) : Prop :=
  (match c with
   | P_set x _ _ => length (pst_slices st) <= x
   | P_set_private k _ _ | P_set_public k _ _ => length (pst_keys st) <= k
   | P_set_curve_private k _ _ => length (pst_curves st) <= k
   | _ => True
   end)%nat.
(** Two accesses conflict if they come from different goroutines, to the same array, and one of them writes.  The model
    has no synchronisation between goroutines, so any two conflicting accesses are a data race. *)
Definition conflict (a b : access) : Prop :=
  ac_by a <> ac_by b /\ ac_array a = ac_array b /\ (ac_writes a || ac_writes b = true)%bool.
