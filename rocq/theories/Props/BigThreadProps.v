(** C101: goroutines may use the root package and the package mnemonic at the same time, on seeds, decoded phrases, keys
    and integers that they share, as long as none of them changes a shared integer. *)
From Coq Require Import Lia ZifyBool ZifyNat.
From Verif.Model Require Import GoBase Env GoTime BitBuffer Version Seed Encoding MnemonicPkg Recovery PgpWire PgpKeys Mnemonikey BigHeap SliceThreads BigThreads.
From Verif.Spec Require Import ShareSpec ThreadSpec BigThreadSpec.
From Verif.Proofs Require Import EnvInst ShareP BigTwinP BigThreadP.
From Verif.Props Require Import ShareProps.

Lemma reached E before : exists v, rel (snd (h_run E before h_init)) v.
Proof. destruct (run_rel E before h_init v_init (fun _ => False) rel_init (sep_init _)) as [H _]. exact H. Qed.

(** A program has made any calls, [before], and then starts a goroutine for each list of calls in [programs].  Whatever
    the order in which their accesses to integers come, no two of them conflict; and none of them writes to an integer
    that was there before, or to the two that the packages keep. *)
Theorem root_goroutines_race_free : forall E before programs schedule,
  let st := snd (h_run E before h_init) in
  Forall (Forall (keeps_shared st)) programs ->
  let p := bp_run E (bp_start st programs) schedule in
  (forall a b, In a (bp_log p) -> In b (bp_log p) -> ~ conflict a b) /\
  (forall q v, nth_error (hst_heap st) q = Some v -> nth_error (bp_mem p) q = Some v).
Proof.
  intros E before programs schedule st C p. destruct (reached E before) as [vals W]. destruct (pr_run_ok E st vals W programs C schedule) as [rs O]. fold p in O. split.
  - intros a b IA IB (D & A & X).
    pose proof (po_log _ _ _ _ _ _ O) as L. rewrite Forall_forall in L. pose proof (L a IA) as LA. pose proof (L b IB) as LB.
    assert (R : forall i x, In x (rs i) -> (length (hst_heap st) <= x)%nat) by (intros i x H; pose proof (po_range _ _ _ _ _ _ O i x H); lia).
    destruct LA as [LA|[LA WA]], LB as [LB|[LB WB]].
    + apply D. rewrite A in LA. exact (po_apart _ _ _ _ _ _ O _ _ _ LA LB).
    + pose proof (R _ _ LA). lia.
    + pose proof (R _ _ LB). lia.
    + rewrite WA, WB in X. discriminate.
  - intros q v Q. rewrite (po_base _ _ _ _ _ _ O); [exact Q|]. exact (nth_lt _ _ _ Q).
Qed.
Print Assumptions root_goroutines_race_free.

(** What a goroutine has seen is at any time the beginning of what it would see on its own, and all of it once it is
    through. *)
Theorem root_goroutines_as_alone : forall E before programs schedule i calls,
  let st := snd (h_run E before h_init) in
  Forall (Forall (keeps_shared st)) programs -> nth_error programs i = Some calls ->
  exists g, nth_error (bp_gos (bp_run E (bp_start st programs) schedule)) i = Some g /\
    (exists rest, fst (h_run E calls st) = bg_seen g ++ rest) /\
    (bg_finished g = true -> bg_seen g = fst (h_run E calls st)).
Proof.
  intros E before programs schedule i calls st C N. destruct (reached E before) as [vals W]. destruct (pr_run_ok E st vals W programs C schedule) as [rs O].
  pose proof (po_gos _ _ _ _ _ _ O i) as K. rewrite N in K. destruct (nth_error (bp_gos _) i) as [g|]; [|contradiction]. destruct K as (left & K & _). exists g. split; [reflexivity|].
  split; [exact (ok_prefix _ _ _ _ _ _ _ K)|exact (ok_finished _ _ _ _ _ _ _ K)].
Qed.
Print Assumptions root_goroutines_as_alone.

(** A goroutine is through after a number of turns that depends neither on the others nor on the order, unless a panic
    ends the process; and only a goroutine that would panic on its own does that. *)
Theorem root_goroutines_finish : forall E before calls,
  let st := snd (h_run E before h_init) in
  exists turns, forall programs schedule i, Forall (Forall (keeps_shared st)) programs -> nth_error programs i = Some calls ->
  let p := bp_run E (bp_start st programs) schedule in
  (bp_dead p = false -> (turns <= count_occ Nat.eq_dec schedule i)%nat -> exists g, nth_error (bp_gos p) i = Some g /\ bg_finished g = true) /\
  (bp_dead p = true -> exists j other, nth_error programs j = Some other /\ In Panicked (fst (h_run E other st))).
Proof.
  intros E before calls st. destruct (reached E before) as [vals W]. exists (b_turns E calls st). intros programs schedule i C N p. destruct (pr_run_ok E st vals W programs C schedule) as [rs O]. fold p in O. split.
  - intros D T. pose proof (po_gos _ _ _ _ _ _ O i) as K. rewrite N in K. destruct (nth_error (bp_gos p) i) as [g|]; [|contradiction]. destruct K as (left & K & Q). exists g. split; [reflexivity|].
    specialize (Q D). assert (left = 0%nat) by lia. subst left. apply (ok_over E st (bp_mem p) (rs i) g (fst (h_run E calls st))). rewrite H in K. exact K.
  - intros D. apply (po_dead _ _ _ _ _ _ O) in D as (j & g & NG & H). pose proof (po_gos _ _ _ _ _ _ O j) as K. rewrite NG in K. destruct (nth_error programs j) as [other|] eqn:NO; [|contradiction].
    destruct K as (left & K & _). exists j, other. split; [exact NO|]. destruct (ok_prefix _ _ _ _ _ _ _ K) as [rest ->]. apply in_or_app. left. exact H.
Qed.
Print Assumptions root_goroutines_finish.

(** With C92: a goroutine that leaves alone the integers seeds were made of sees what it would see if everything were a
    value. *)
Lemma h_run_app E before : forall calls st, ~ In Panicked (fst (h_run E before st)) ->
  fst (h_run E (before ++ calls) st) = fst (h_run E before st) ++ fst (h_run E calls (snd (h_run E before st))).
Proof.
  induction before as [|c before IH]; intros calls st N; [reflexivity|]. cbn [app h_run] in *. destruct (h_step E c st) as [o st1].
  specialize (IH calls st1). destruct (h_run E before st1) as [l st2], (h_run E (before ++ calls) st1) as [l' st3]. destruct o; cbn [fst snd app In] in *; try (rewrite IH; [reflexivity|tauto]). exfalso. apply N. left. reflexivity.
Qed.
Theorem root_goroutines_as_values : forall E before programs schedule i calls,
  let st := snd (h_run E before h_init) in
  Forall (Forall (keeps_shared st)) programs -> nth_error programs i = Some calls ->
  ~ In Panicked (fst (h_run E before h_init)) -> careful [] (before ++ calls) ->
  exists g rest, nth_error (bp_gos (bp_run E (bp_start st programs) schedule)) i = Some g /\
    v_run E (before ++ calls) v_init = fst (h_run E before h_init) ++ bg_seen g ++ rest /\
    (bg_finished g = true -> rest = []).
Proof.
  intros E before programs schedule i calls st C N P Q. destruct (root_goroutines_as_alone E before programs schedule i calls C N) as (g & NG & [rest R] & F).
  exists g, rest. split; [exact NG|]. rewrite <- (sharing_invisible E) by assumption. rewrite h_run_app by exact P. rewrite R. split; [reflexivity|]. intros H. specialize (F H). rewrite R in F.
  apply (app_inv_head (bg_seen g)). rewrite app_nil_r. symmetry. exact F.
Qed.
Print Assumptions root_goroutines_as_values.

(** ** Cases *)
(** A seed made of an integer, a key of that seed and a decoded phrase are shared.  Three goroutines encode, derive and
    recover; the third takes a copy of the integer of the seed and encodes that away. *)
Definition root_before : list call := [C_int 12345; C_new_seed 0 0; C_new_key 0 the_time None; C_decode (the_words 12345)].
Definition root_programs : list (list call) :=
  [[C_key_plaintext 0; C_read 0]; [C_dm_seed 0; C_new_key 1 the_time None; C_plaintext 1 the_offset];
   [C_seed_int 0; C_to_indices 1 128; C_read 1; C_seed_bytes 0; C_set 1 7; C_new_seed 0 1]].
Example root_keeps : Forall (Forall (keeps_shared (snd (h_run toy_env root_before h_init)))) root_programs /\
  careful [] (root_before ++ nth 2 root_programs []) /\ ~ In Panicked (fst (h_run toy_env root_before h_init)).
Proof.
  split; [|split].
  - assert (L : length (hst_ints (snd (h_run toy_env root_before h_init))) = 1%nat) by (vm_compute; reflexivity).
    unfold keeps_shared. rewrite L. repeat constructor; intros x H; try discriminate H; injection H as <-; lia.
  - cbn. intuition congruence.
  - vm_compute. intuition discriminate.
Qed.
Definition root_turns (n : nat) : list nat := concat (repeat [2; 0; 2; 1; 2]%nat n).
Definition root_run : b_process := bp_run toy_env (bp_start (snd (h_run toy_env root_before h_init)) root_programs) (root_turns 300).
Definition root_seen_ok (g : b_goroutine) : bool := forallb (fun s => match s with Failed _ | Panicked => false | _ => true end) (bg_seen g).
Example root_finish :
  (negb (bp_dead root_run) && forallb bg_finished (bp_gos root_run) && forallb root_seen_ok (bp_gos root_run) &&
   existsb (fun a => Nat.eqb (ac_by a) 0 && Nat.eqb (ac_array a) big_mask) (bp_log root_run) && existsb (fun a => Nat.eqb (ac_by a) 2 && ac_writes a) (bp_log root_run))%bool = true.
Proof. vm_compute. reflexivity. Qed.

(** ** What must not be shared *)
(** EncodeToIndices shifts its argument away: two goroutines that encode the same integer race, and one of them gets
    indices of what the other has left. *)
Definition conflicts (log : list access) : bool :=
  existsb (fun a => existsb (fun b => negb (Nat.eqb (ac_by a) (ac_by b)) && Nat.eqb (ac_array a) (ac_array b) && (ac_writes a || ac_writes b)) log)%bool log.
Lemma conflicts_ok log : conflicts log = true -> exists a b, In a log /\ In b log /\ conflict a b.
Proof.
  unfold conflicts. rewrite existsb_exists. intros (a & A & H). rewrite existsb_exists in H. destruct H as (b & B & H). apply andb_prop in H as [H W]. apply andb_prop in H as [D Q].
  exists a, b. split; [exact A|]. split; [exact B|]. split; [|split; [apply Nat.eqb_eq; exact Q|exact W]]. intros X. rewrite X, Nat.eqb_refl in D. discriminate.
Qed.
Theorem encoding_shared_integer_refuted : exists E before calls schedule,
  let st := snd (h_run E before h_init) in
  let p := bp_run E (bp_start st [calls; calls]) schedule in
  (exists a b, In a (bp_log p) /\ In b (bp_log p) /\ conflict a b) /\
  exists g, nth_error (bp_gos p) 1 = Some g /\ bg_finished g = true /\
    bg_seen g <> fst (h_run E calls st) /\ bg_seen g <> fst (h_run E calls (snd (h_run E calls st))).
Proof.
  exists toy_env, [C_int (4096 * 4096 * 7 + 4096 * 5 + 3)], [C_to_indices 0 36], (repeat 0%nat 10 ++ repeat 1%nat 40). cbn zeta. split.
  - apply conflicts_ok. vm_compute. reflexivity.
  - eexists. split; [vm_compute; reflexivity|]. split; [reflexivity|]. split; vm_compute; discriminate.
Qed.
Print Assumptions encoding_shared_integer_refuted.

(** The same through a seed: NewSeed keeps the integer it is given.  While one goroutine encodes that integer away, the
    other writes the phrase of a seed that neither existed before nor exists afterwards. *)
Theorem encoding_seed_integer_refuted : exists E before encodes writes schedule,
  let st := snd (h_run E before h_init) in
  let p := bp_run E (bp_start st [encodes; writes]) schedule in
  (exists a b, In a (bp_log p) /\ In b (bp_log p) /\ conflict a b) /\
  exists g, nth_error (bp_gos p) 1 = Some g /\ bg_finished g = true /\
    bg_seen g <> fst (h_run E writes st) /\ bg_seen g <> fst (h_run E writes (snd (h_run E encodes st))).
Proof.
  exists toy_env, [C_int 123456; C_new_seed 0 0], [C_to_indices 0 36], [C_plaintext 0 the_offset], (repeat 0%nat 10 ++ repeat 1%nat 200). cbn zeta. split.
  - apply conflicts_ok. vm_compute. reflexivity.
  - eexists. split; [vm_compute; reflexivity|]. split; [reflexivity|]. split; vm_compute; discriminate.
Qed.
Print Assumptions encoding_seed_integer_refuted.
