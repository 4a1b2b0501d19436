(** What is asked of files. *)
From Verif.Model Require Import GoBase CliFile.

(** where a path leads: along links to something that is no link, every place on the way reachable *)
Inductive leads (d : disk) : bytes -> bytes -> Prop :=
| Leads_here p : d_reach d p = true -> (forall to, d_at d p <> Link to) -> leads d p p
| Leads_on p to q : d_reach d p = true -> d_at d p = Link to -> leads d to q -> leads d p q.
(** nobody but the owner can read, write or execute it: the lower six bits are clear *)
Definition only_owner (mode : Z) : Prop := forall i, 0 <= i < 6 -> Z.testbit mode i = false.
Definition owner_reads (mode : Z) : Prop := Z.testbit mode 8 = true.
(** the disks differ in nothing but what is at q *)
Definition elsewhere_same (q : bytes) (d d' : disk) : Prop :=
  (forall p, p <> q -> d_at d' p = d_at d p) /\ d_umask d' = d_umask d /\ d_reach d' = d_reach d /\ d_create d' = d_create d /\ d_room d' = d_room d.
(** a umask that does not take the owner's rights away *)
Definition usual_umask (d : disk) : Prop := Z.testbit (d_umask d) 7 = false /\ Z.testbit (d_umask d) 8 = false.
