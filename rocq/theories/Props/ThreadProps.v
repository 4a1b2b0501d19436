(** C97: goroutines may use the package pgp at the same time, on keys, signatures and slices that they share, as long as
    none of them assigns to what is shared. *)
From Coq Require Import Lia ZifyBool ZifyNat.
From Verif.Model Require Import GoBase Env GoTime PgpWire PgpS2k PgpKeys SliceHeap SliceThreads.
From Verif.Spec Require Import SliceSpec ThreadSpec.
From Verif.Proofs Require Import SliceP SliceRunP TwinP ThreadP.
From Verif.Props Require Import SliceProps.

(** A program has made any calls, [before], and then starts a goroutine for each list of calls in [programs].  Whatever
    the order in which their accesses to memory come, no two of them conflict. *)
Theorem goroutines_race_free : forall E G before programs schedule, sizes_ok E ->
  let st := snd (p_run E G before p_init) in
  Forall (Forall (leaves_alone st)) programs ->
  forall a b, In a (pr_log (pr_run E G (pr_start st programs) schedule)) -> In b (pr_log (pr_run E G (pr_start st programs) schedule)) -> ~ conflict a b.
Proof.
  intros E G before programs schedule S st C a b IA IB (D & A & X). destruct (pr_run_ok E G st (run_wf E G S before p_init wf_init) programs C schedule) as [rs O].
  pose proof (po_log _ _ _ _ _ _ _ O) as L. rewrite Forall_forall in L. pose proof (L a IA) as LA. pose proof (L b IB) as LB.
  assert (R : forall i x, In x (rs i) -> (length (pst_mem st) <= x)%nat) by (intros i x H; pose proof (po_range _ _ _ _ _ _ _ O i x H); lia).
  destruct LA as [LA|[LA WA]], LB as [LB|[LB WB]].
  - apply D. rewrite A in LA. exact (po_apart _ _ _ _ _ _ _ O _ _ _ LA LB).
  - pose proof (R _ _ LA). lia.
  - pose proof (R _ _ LB). lia.
  - rewrite WA, WB in X. discriminate.
Qed.
Print Assumptions goroutines_race_free.

(** What a goroutine has seen is at any time the beginning of what it would see on its own, and all of it once it is
    through. *)
Theorem goroutines_as_alone : forall E G before programs schedule i calls, sizes_ok E ->
  let st := snd (p_run E G before p_init) in
  Forall (Forall (leaves_alone st)) programs -> nth_error programs i = Some calls ->
  exists g, nth_error (pr_gos (pr_run E G (pr_start st programs) schedule)) i = Some g /\
    (exists rest, fst (p_run E G calls st) = go_seen g ++ rest) /\
    (go_finished g = true -> go_seen g = fst (p_run E G calls st)).
Proof.
  intros E G before programs schedule i calls S st C N. destruct (pr_run_ok E G st (run_wf E G S before p_init wf_init) programs C schedule) as [rs O].
  pose proof (po_gos _ _ _ _ _ _ _ O i) as K. rewrite N in K. destruct (nth_error (pr_gos _) i) as [g|]; [|contradiction]. destruct K as (left & K & _). exists g. split; [reflexivity|].
  split; [exact (ok_prefix _ _ _ _ _ _ _ _ K)|exact (ok_finished _ _ _ _ _ _ _ _ K)].
Qed.
Print Assumptions goroutines_as_alone.

(** Nothing that was there when the goroutines were started changes: slices, keys, signatures, the room behind slices and
    the variables of the package. *)
Theorem shared_memory_kept : forall E G before programs schedule, sizes_ok E ->
  let st := snd (p_run E G before p_init) in
  Forall (Forall (leaves_alone st)) programs ->
  extends (pst_mem st) (pr_mem (pr_run E G (pr_start st programs) schedule)).
Proof.
  intros E G before programs schedule S st C. destruct (pr_run_ok E G st (run_wf E G S before p_init wf_init) programs C schedule) as [rs O].
  set (m := pr_mem _) in *. exists (skipn (length (pst_mem st)) m). rewrite <- (firstn_skipn (length (pst_mem st)) m) at 1. f_equal.
  pose proof (po_more _ _ _ _ _ _ _ O) as M. fold m in M. apply nth_ext with (d := []) (d' := []); [rewrite firstn_length; lia|]. intros a L. rewrite firstn_length in L. 
  transitivity (array m a); [|apply (po_base _ _ _ _ _ _ _ O); lia]. unfold array. rewrite <- (firstn_skipn (length (pst_mem st)) m) at 2. rewrite app_nth1; [reflexivity|]. rewrite firstn_length. exact L.
Qed.
Print Assumptions shared_memory_kept.

(** A goroutine is through after a number of turns that depends neither on the others nor on the order, unless a panic
    ends the process. *)
Theorem goroutines_finish : forall E G before calls, sizes_ok E ->
  let st := snd (p_run E G before p_init) in
  exists turns, forall programs schedule i, Forall (Forall (leaves_alone st)) programs -> nth_error programs i = Some calls ->
  let p := pr_run E G (pr_start st programs) schedule in
  pr_dead p = false -> (turns <= count_occ Nat.eq_dec schedule i)%nat ->
  exists g, nth_error (pr_gos p) i = Some g /\ go_finished g = true.
Proof.
  intros E G before calls S st. exists (p_turns E G calls st). intros programs schedule i C N p D T. destruct (pr_run_ok E G st (run_wf E G S before p_init wf_init) programs C schedule) as [rs O]. fold p in O.
  pose proof (po_gos _ _ _ _ _ _ _ O i) as K. rewrite N in K. destruct (nth_error (pr_gos p) i) as [g|]; [|contradiction]. destruct K as (left & K & Q). exists g. split; [reflexivity|].
  specialize (Q D). assert (left = 0%nat) by lia. subst left. apply (ok_over E G st (pr_mem p) (rs i) g (fst (p_run E G calls st))). rewrite H in K. exact K.
Qed.
Print Assumptions goroutines_finish.

(** The process ends when a goroutine panics, and only a goroutine that would panic on its own does. *)
Theorem process_ends_by_own_panic : forall E G before programs schedule, sizes_ok E ->
  let st := snd (p_run E G before p_init) in
  Forall (Forall (leaves_alone st)) programs ->
  let p := pr_run E G (pr_start st programs) schedule in
  (pr_dead p = true <-> exists i g, nth_error (pr_gos p) i = Some g /\ In Q_panicked (go_seen g)) /\
  (forall i g, nth_error (pr_gos p) i = Some g -> In Q_panicked (go_seen g) -> exists calls, nth_error programs i = Some calls /\ In Q_panicked (fst (p_run E G calls st))) /\
  (pr_dead p = true -> forall i, pr_step E G p i = p).
Proof.
  intros E G before programs schedule S st C p. destruct (pr_run_ok E G st (run_wf E G S before p_init wf_init) programs C schedule) as [rs O]. fold p in O.
  split; [exact (po_dead _ _ _ _ _ _ _ O)|]. split.
  - intros i g N H. pose proof (po_gos _ _ _ _ _ _ _ O i) as K. rewrite N in K. destruct (nth_error programs i) as [calls|]; [|contradiction]. destruct K as (left & K & _). exists calls. split; [reflexivity|].
    destruct (ok_prefix _ _ _ _ _ _ _ _ K) as [rest ->]. apply in_or_app. left. exact H.
  - intros D i. unfold pr_step. rewrite D. reflexivity.
Qed.
Print Assumptions process_ends_by_own_panic.

(** With C95: a careful goroutine sees what it would see if byte slices, keys and signatures were values. *)
Lemma run_app E G before : forall calls st, ~ In Q_panicked (fst (p_run E G before st)) ->
  fst (p_run E G (before ++ calls) st) = fst (p_run E G before st) ++ fst (p_run E G calls (snd (p_run E G before st))).
Proof.
  induction before as [|c before IH]; intros calls st N; [reflexivity|]. cbn [app p_run] in *. destruct (p_step E G c st) as [o st1].
  specialize (IH calls st1). destruct (p_run E G before st1) as [l st2], (p_run E G (before ++ calls) st1) as [l' st3]. destruct o; cbn [fst snd app In] in *; try (rewrite IH; [reflexivity|tauto]). exfalso. apply N. left. reflexivity.
Qed.
Theorem goroutines_as_values : forall E G before programs schedule i calls, sizes_ok E ->
  let st := snd (p_run E G before p_init) in
  Forall (Forall (leaves_alone st)) programs -> nth_error programs i = Some calls ->
  ~ In Q_panicked (fst (p_run E G before p_init)) -> p_careful [] (before ++ calls) ->
  exists g rest, nth_error (pr_gos (pr_run E G (pr_start st programs) schedule)) i = Some g /\
    pv_run E (before ++ calls) pv_init = fst (p_run E G before p_init) ++ go_seen g ++ rest /\
    (go_finished g = true -> rest = []).
Proof.
  intros E G before programs schedule i calls S st C N P Q. destruct (goroutines_as_alone E G before programs schedule i calls S C N) as (g & NG & [rest R] & F).
  exists g, rest. split; [exact NG|]. rewrite <- (slices_as_values E G) by assumption. rewrite run_app by exact P. rewrite R. split; [reflexivity|]. intros H. specialize (F H). rewrite R in F.
  apply (app_inv_head (go_seen g)). rewrite app_nil_r. symmetry. exact F.
Qed.
Print Assumptions goroutines_as_values.

(** ** Cases *)
(** A master key, a signing and an encryption subkey and a password are shared.  Three goroutines export the set, sign
    and make keys of their own, which they change. *)
Definition shared_before : list p_call :=
  [P_make (repeat 7 32); P_make (repeat 9 32); P_make (bs "secret"); P_make []; P_new_key 0 0 zero_time; P_new_key 1 0 zero_time; P_new_curve 0 0 zero_time None].
Definition three_programs : list (list p_call) :=
  [[P_packets alice 0 (Some 0%nat) None (Some 1%nat) 3 []];
   [P_fingerprint 0; P_sign (By_key 0) 4 hash_sha256 3 sig_positive_certification [(2, 3%nat)] [] 0; P_sig_encode 0; P_public_packet 1];
   [P_make (repeat 5 32); P_new_key 4 0 zero_time; P_set 4 0 1; P_set_private 2 0 77; P_private 2; P_curve_fingerprint 0]].
Example three_leave_alone : Forall (Forall (leaves_alone (snd (p_run case_env no_room shared_before p_init)))) three_programs.
Proof. set (st := snd _). vm_compute in st. subst st. repeat constructor. Qed.
(** in turn, and the third most of the time *)
Definition in_turn (n : nat) : list nat := concat (repeat [2; 0; 2; 1; 2]%nat n).
Definition three_run : process := pr_run case_env no_room (pr_start (snd (p_run case_env no_room shared_before p_init)) three_programs) (in_turn 700).
Definition nothing_or_bytes (q : p_seen) : bool := match q with Q_nothing => true | Q_bytes b => negb (Nat.eqb (length b) 0) | _ => false end.
Example three_finish :
  (negb (pr_dead three_run) && forallb go_finished (pr_gos three_run) && forallb (fun g => forallb nothing_or_bytes (go_seen g)) (pr_gos three_run) &&
   existsb (fun a => Nat.eqb (ac_by a) 1 && ac_writes a) (pr_log three_run) && existsb (fun a => Nat.eqb (ac_by a) 0 && negb (ac_writes a)) (pr_log three_run))%bool = true.
Proof. vm_compute. reflexivity. Qed.
Example three_careful : p_careful [] (shared_before ++ nth 1 three_programs []) /\ ~ In Q_panicked (fst (p_run case_env no_room shared_before p_init)).
Proof. split; [cbn; intuition discriminate|]. vm_compute. intuition discriminate. Qed.

(** A fingerprint of six bytes: Sign panics, and the other goroutine is stopped after one of its calls. *)
Definition panicking : list (list p_call) := [[P_read 0; P_sign (By_key 0) 2 hash_sha256 3 sig_positive_certification [] [] 0]; [P_read 2; P_read 3]].
Example panic_leaves_alone : Forall (Forall (leaves_alone (snd (p_run case_env no_room shared_before p_init)))) panicking.
Proof. repeat constructor. Qed.
Example panic_ends_process :
  let p := pr_run case_env no_room (pr_start (snd (p_run case_env no_room shared_before p_init)) panicking) (repeat 1%nat 4 ++ repeat 0%nat 40 ++ repeat 1%nat 40) in
  (pr_dead p = true /\ map (@go_seen) (pr_gos p) = [[Q_bytes (repeat 7 32); Q_panicked]; [Q_bytes (bs "secret")]]).
Proof. vm_compute. split; reflexivity. Qed.

(** ** What must not be shared *)
(** One goroutine overwrites the Private of a key it shares (to wipe it) while another exports the key: a race, and the
    other sees neither what it would see before nor after. *)
Definition wiping : list (list p_call) := [[P_private_packet 0 3 []]; [P_set_private 0 0 0; P_set_private 0 1 0]].
Definition conflicting (log : list access) : bool :=
  existsb (fun a => existsb (fun b => negb (Nat.eqb (ac_by a) (ac_by b)) && Nat.eqb (ac_array a) (ac_array b) && (ac_writes a || ac_writes b)) log)%bool log.
Lemma conflicting_ok log : conflicting log = true -> exists a b, In a log /\ In b log /\ conflict a b.
Proof.
  unfold conflicting. rewrite existsb_exists. intros (a & A & H). rewrite existsb_exists in H. destruct H as (b & B & H). apply andb_prop in H as [H W]. apply andb_prop in H as [D Q].
  exists a, b. split; [exact A|]. split; [exact B|]. split; [|split; [apply Nat.eqb_eq; exact Q|exact W]]. intros X. rewrite X, Nat.eqb_refl in D. discriminate.
Qed.
Definition wiping_order : list nat := repeat 1%nat 3 ++ repeat 0%nat 20 ++ repeat 1%nat 3 ++ repeat 0%nat 60.
Theorem writing_to_shared_key_refuted : exists E G before exports wipes schedule, sizes_ok E /\
  let st := snd (p_run E G before p_init) in
  let p := pr_run E G (pr_start st [exports; wipes]) schedule in
  (exists a b, In a (pr_log p) /\ In b (pr_log p) /\ conflict a b) /\
  exists g, nth_error (pr_gos p) 0 = Some g /\ go_finished g = true /\
    go_seen g <> fst (p_run E G exports st) /\ go_seen g <> fst (p_run E G exports (snd (p_run E G wipes st))).
Proof.
  exists case_env, no_room, shared_before, (nth 0 wiping []), (nth 1 wiping []), wiping_order. split; [exact case_sizes|]. cbn zeta. split.
  - apply conflicting_ok. vm_compute. reflexivity.
  - eexists. split; [vm_compute; reflexivity|]. split; [reflexivity|]. split; vm_compute; discriminate.
Qed.
Print Assumptions writing_to_shared_key_refuted.
