(** Goroutines that use /repo/pgp at the same time: whatever the order of their accesses, each of them is in step with a
    run on its own (C97). *)
From Coq Require Import Lia ZifyBool ZifyNat.
From Verif.Model Require Import GoBase Env GoTime Seed Encoding PgpWire PgpS2k PgpKeys SliceHeap SliceThreads.
From Verif.Spec Require Import SliceSpec ThreadSpec.
From Verif.Proofs Require Import SliceP SliceRunP TwinP.

(** ** A call on its own *)
Definition as_step (o : t_objects) (q : res t_result * memory) : p_seen * p_state :=
  match q with
  | (Ok (s, o2), (m, _)) => (s, with_objects m o2)
  | (Err e, (m, _)) => (Q_failed e, with_objects m o)
  | (Panic, (m, _)) => (Q_panicked, with_objects m o)
  end.
Lemma run_bind {A B} (f : sm A) (g : A -> sm B) h :
  s_run (s_bind f g) h = match s_run f h with (Ok a, h2) => s_run (g a) h2 | (Err e, h2) => (Err e, h2) | (Panic, h2) => (Panic, h2) end.
Proof. revert h. induction f as [[a|e|]|s k IH|b room k IH|s i b k IH|n k IH]; intros h; cbn [s_bind s_run]; auto. Qed.
Lemma objects_back st : with_objects (pst_mem st) (objects_of st) = st.
Proof. destruct st. reflexivity. Qed.

Section Alone.
Variable E : Env.
Variable G : nat -> nat -> nat.
Lemma do_alone {A} (f : sm A) t st (g : A -> p_state -> p_seen * p_state) (h : A -> sm t_result) :
  (forall a m t2, g a (with_mem m st) = as_step (objects_of st) (s_run (h a) (m, t2))) ->
  p_do f t st g = as_step (objects_of st) (s_run (s_bind f h) (pst_mem st, t)).
Proof.
  intros H. unfold p_do. rewrite run_bind. destruct (s_run f (pst_mem st, t)) as [[a|e|] [m t2]]; [apply H|destruct st; reflexivity|destruct st; reflexivity].
Qed.
Lemma quiet_alone f t st : p_do f t st p_quiet = as_step (objects_of st) (s_run (t_quiet (objects_of st) f) (pst_mem st, t)).
Proof. apply do_alone. intros. destruct st. reflexivity. Qed.
Lemma show_alone f t st : p_do f t st p_show = as_step (objects_of st) (s_run (t_show (objects_of st) f) (pst_mem st, t)).
Proof. apply do_alone. intros. destruct st. reflexivity. Qed.
Lemma slice_alone f t st : p_do f t st p_slice = as_step (objects_of st) (s_run (t_slice (objects_of st) f) (pst_mem st, t)).
Proof. apply do_alone. intros. destruct st. reflexivity. Qed.
Lemma key_alone f t st : p_do f t st p_key = as_step (objects_of st) (s_run (t_key (objects_of st) f) (pst_mem st, t)).
Proof. apply do_alone. intros. destruct st. reflexivity. Qed.
Lemma curve_alone f t st : p_do f t st p_curve = as_step (objects_of st) (s_run (t_curve (objects_of st) f) (pst_mem st, t)).
Proof. apply do_alone. intros. destruct st. reflexivity. Qed.
Lemma sig_alone f t st : p_do f t st p_sig = as_step (objects_of st) (s_run (t_sig (objects_of st) f) (pst_mem st, t)).
Proof. apply do_alone. intros. destruct st. reflexivity. Qed.
Lemma with_alone {A} (l : list A) n st t f g : (forall a, f a = as_step (objects_of st) (s_run (g a) (pst_mem st, t))) ->
  p_with l n st f = as_step (objects_of st) (s_run (t_with l n (objects_of st) g) (pst_mem st, t)).
Proof. intros H. unfold p_with, t_with. destruct (nth_error l n); [apply H|]. cbn. rewrite objects_back. reflexivity. Qed.
Lemma maybe_alone {A} (l : list A) n st t f g : (forall a, f a = as_step (objects_of st) (s_run (g a) (pst_mem st, t))) ->
  p_maybe l n st f = as_step (objects_of st) (s_run (t_maybe l n (objects_of st) g) (pst_mem st, t)).
Proof. intros H. destruct n as [n|]; cbn [p_maybe t_maybe]; [|apply H]. apply with_alone. intros a. apply H. Qed.
Lemma all_alone {A} (l : list A) ns st t : forall f g, (forall a, f a = as_step (objects_of st) (s_run (g a) (pst_mem st, t))) ->
  p_all l ns st f = as_step (objects_of st) (s_run (t_all l ns (objects_of st) g) (pst_mem st, t)).
Proof.
  induction ns as [|[x n] ns IH]; intros f g H; cbn [p_all t_all]; [apply H|]. apply with_alone. intros a. apply IH. intros r. apply H.
Qed.
Lemma alone c st : p_step E G c st = as_step (objects_of st) (s_run (t_code E G c (objects_of st)) (pst_mem st, tape_of c)).
Proof.
  destruct c; cbn [p_step t_code tape_of];
    change (to_slices (objects_of st)) with (pst_slices st); change (to_keys (objects_of st)) with (pst_keys st); change (to_curves (objects_of st)) with (pst_curves st); change (to_sigs (objects_of st)) with (pst_sigs st);
    repeat first [apply with_alone; intros ?|apply maybe_alone; intros ?|apply all_alone; intros ?];
    first [apply quiet_alone|apply show_alone|apply slice_alone|apply key_alone|apply curve_alone|apply sig_alone|idtac].
  cbn zeta. destruct by_; apply with_alone; intros ?; apply sig_alone.
Qed.

(** how many steps a computation takes *)
Fixpoint s_steps {A} (f : sm A) (h : memory) {struct f} : nat :=
  match f with
  | S_done _ => 1
  | S_read s k => S (s_steps (k (content (fst h) s)) h)
  | S_new b room k => S (s_steps (k (fst (m_new (fst h) b room))) (snd (m_new (fst h) b room), snd h))
  | S_put s i b k => S (s_steps k (m_put (fst h) s i b, snd h))
  | S_take n k => S (s_steps (k (fst (m_take (snd h) n))) (fst h, snd (m_take (snd h) n)))
  end.
Fixpoint p_turns (calls : list p_call) (st : p_state) : nat :=
  match calls with
  | [] => 0
  | c :: rest => S (s_steps (t_code E G c (objects_of st)) (pst_mem st, tape_of c) + (let (o, st1) := p_step E G c st in match o with Q_panicked => 0 | _ => p_turns rest st1 end))
  end.
(** what is still to be seen, and the turns that are still to come, in the middle of a call *)
Definition rest_seen (f : sm t_result) (o : t_objects) (h : memory) (calls : list p_call) : list p_seen :=
  let (s, st1) := as_step o (s_run f h) in match s with Q_panicked => [Q_panicked] | _ => s :: fst (p_run E G calls st1) end.
Definition rest_turns (f : sm t_result) (o : t_objects) (h : memory) (calls : list p_call) : nat :=
  (s_steps f h + (let (s, st1) := as_step o (s_run f h) in match s with Q_panicked => 0 | _ => p_turns calls st1 end))%nat.
Lemma run_cons c calls st : fst (p_run E G (c :: calls) st) = rest_seen (t_code E G c (objects_of st)) (objects_of st) (pst_mem st, tape_of c) calls.
Proof.
  unfold rest_seen. rewrite <- alone. cbn [p_run]. destruct (p_step E G c st) as [o st1]. destruct o; try reflexivity; destruct (p_run E G calls st1); reflexivity.
Qed.
Lemma turns_cons c calls st : p_turns (c :: calls) st = S (rest_turns (t_code E G c (objects_of st)) (objects_of st) (pst_mem st, tape_of c) calls).
Proof. unfold rest_turns. rewrite <- alone. reflexivity. Qed.
End Alone.

(** ** A goroutine among others *)
Section Threads.
Variable E : Env.
Variable G : nat -> nat -> nat.
Variable st : p_state.
Hypothesis W : wf st.
Let n0 := length (pst_mem st).
Lemma three : (3 <= n0)%nat.
Proof. pose proof (ext_len _ _ (wf_mem st W)) as L. exact L. Qed.
Lemma in_old m s : in_memory m s -> (sl_at s < length m)%nat.
Proof. intros (L & _). exact L. Qed.
Lemma st_slices : Forall (fun s => (sl_at s < n0)%nat) (pst_slices st).
Proof. eapply Forall_impl; [|exact (wf_slices st W)]. intros s [I _]. exact (in_old _ _ I). Qed.
Lemma ecc_old k : Forall (in_memory (pst_mem st)) (slices_ecc k) -> old_ecc n0 k.
Proof.
  intros F. unfold slices_ecc in F. inversion_clear F as [|? ? A F1]. inversion_clear F1 as [|? ? B F2]. inversion_clear F2 as [|? ? C F3]. inversion_clear F3 as [|? ? D F4].
  repeat (split; [eapply in_old; eassumption|]). split; [|split; eapply in_old; eassumption]. destruct (he_signing k); [|exact I]. inversion_clear F4. eapply in_old. eassumption.
Qed.
Lemma st_keys : Forall (fun k => old_ecc n0 (hd_base k) /\ (sl_at (hd_private k) < n0)%nat) (pst_keys st).
Proof. eapply Forall_impl; [|exact (wf_keys st W)]. intros k (F & _). inversion_clear F as [|? ? A B]. split; [apply ecc_old; exact B|exact (in_old _ _ A)]. Qed.
Lemma st_curves : Forall (fun k => old_ecc n0 (hc_base k) /\ (sl_at (hc_private k) < n0)%nat) (pst_curves st).
Proof. eapply Forall_impl; [|exact (wf_curves st W)]. intros k (F & _). inversion_clear F as [|? ? A B]. split; [apply ecc_old; exact B|exact (in_old _ _ A)]. Qed.
Lemma bodies_old l : Forall (in_memory (pst_mem st)) (map hb_body l) -> Forall (fun s => (sl_at (hb_body s) < n0)%nat) l.
Proof. intros F. induction l as [|s l IH]; [constructor|]. inversion_clear F as [|? ? A B]. constructor; [exact (in_old _ _ A)|exact (IH B)]. Qed.
Lemma st_sigs : Forall (fun g => Forall (fun s => (sl_at (hb_body s) < n0)%nat) (hg_hashed g) /\ Forall (fun s => (sl_at (hb_body s) < n0)%nat) (hg_unhashed g) /\ (sl_at (hg_digest g) < n0)%nat) (pst_sigs st).
Proof.
  eapply Forall_impl; [|exact (wf_sigs st W)]. intros k (F & _). inversion_clear F as [|? ? A B]. apply Forall_app in B as [B C]. split; [apply bodies_old; exact B|]. split; [apply bodies_old; exact C|exact (in_old _ _ A)].
Qed.

(** memory [m], as a goroutine sees it that has made the arrays [r]; on its own it would have memory [m'] *)
Record sees (m : arrays) (r : list nat) (m' : arrays) : Prop := {
  ss_len : length m' = (n0 + length r)%nat;
  ss_once : NoDup r;
  ss_range : Forall (fun a => (n0 <= a < length m)%nat) r;
  ss_more : (n0 <= length m)%nat;
  ss_same : forall a a', at_ n0 r a a' -> array m a = array m' a'
}.
Lemma sees_start : sees (pst_mem st) [] (pst_mem st).
Proof.
  split; [cbn; unfold n0; lia|constructor|constructor|unfold n0; lia|]. intros a a' [[_ ->]|(j & _ & N)]; [reflexivity|]. destruct j; discriminate.
Qed.
Lemma sees_content m r m' s s' : sees m r m' -> tw n0 r s s' -> content m s = content m' s'.
Proof. intros S [A B C D]. unfold content. rewrite (ss_same _ _ _ S _ _ A), B, C. reflexivity. Qed.
Lemma NoDup_app_one (r : list nat) a : NoDup r -> ~ In a r -> NoDup (r ++ [a]).
Proof. intros N I. apply NoDup_Add with (a := a) (l := r); [rewrite <- (app_nil_r r) at 1; apply Add_app|auto]. Qed.
Lemma sees_new m r m' b room : sees m r m' -> sees (snd (m_new m b room)) (r ++ [length m]) (snd (m_new m' b room)).
Proof.
  intros [L N F M S]. unfold m_new. cbn [snd]. split.
  - rewrite !app_length, L. cbn. lia.
  - apply NoDup_app_one; [exact N|]. intros I. rewrite Forall_forall in F. specialize (F _ I). lia.
  - rewrite app_length. cbn [length]. apply Forall_app. split; [revert F; apply Forall_impl; intros; lia|]. constructor; [lia|constructor].
  - rewrite app_length. lia.
  - intros a a' A. unfold array. destruct A as [[A1 A2]|(j & J & K)].
    + rewrite !app_nth1 by lia. apply S. left. auto.
    + destruct (Nat.lt_ge_cases j (length r)) as [B|B].
      * rewrite nth_error_app1 in K by exact B. rewrite Forall_forall in F. pose proof (F _ (nth_error_In _ _ K)). rewrite !app_nth1 by lia. apply S. right. exists j. auto.
      * rewrite nth_error_app2 in K by exact B. destruct (j - length r)%nat as [|x] eqn:D; [|destruct x; discriminate]. cbn in K. injection K as <-. rewrite !app_nth2 by lia. replace (a' - length m')%nat with 0%nat by lia. rewrite Nat.sub_diag. reflexivity.
Qed.
Lemma own_place r s s' : tw_own n0 r s s' -> exists j, sl_at s' = (n0 + j)%nat /\ nth_error r j = Some (sl_at s).
Proof. intros [[[[A B]|(j & J & K)] _ _ _] L]; [lia|]. exists j. auto. Qed.
Lemma sees_put m r m' s s' i b : sees m r m' -> tw_own n0 r s s' -> sees (m_put m s i b) r (m_put m' s' i b).
Proof.
  intros S T. pose proof (own_place _ _ _ T) as (j & J & K). destruct T as [T L]. destruct S as [L' N F M S]. pose proof (tw_at _ _ _ _ T) as A. pose proof (tw_off _ _ _ _ T) as O.
  assert (B : (n0 <= sl_at s < length m)%nat) by (rewrite Forall_forall in F; apply F; apply nth_error_In with j; exact K).
  assert (B' : (sl_at s' < length m')%nat) by (assert (j < length r)%nat by (apply nth_error_Some; congruence); lia).
  unfold m_put. split.
  - rewrite set_array_len by exact B'. exact L'.
  - exact N.
  - rewrite set_array_len by lia. exact F.
  - rewrite set_array_len by lia. exact M.
  - intros a a' P. rewrite !set_array_nth by lia. rewrite (S _ _ A), O. destruct (Nat.eqb_spec a (sl_at s)) as [->|D], (Nat.eqb_spec a' (sl_at s')) as [->|D']; try reflexivity; [| |apply S; exact P].
    + exfalso. apply D'. destruct P as [[P _]|(j2 & J2 & K2)]; [lia|]. rewrite NoDup_nth_error in N. assert (j = j2); [|subst; lia]. apply N; [apply nth_error_Some; congruence|congruence].
    + exfalso. apply D. destruct P as [[P P2]|(j2 & J2 & K2)]; [lia|]. assert (j = j2) by lia. congruence.
Qed.

Definition objects_ok := tw_objects n0 st.
(** the goroutine has made the arrays [r], will have seen [all] when it is through, and that after [left] turns *)
Record go_ok (m : arrays) (r : list nat) (g : goroutine) (all : list p_seen) (left : nat) : Prop := mk_ok {
  gk_calls : Forall (leaves_alone st) (go_calls g);
  gk_solo : exists m' o', sees m r m' /\ objects_ok r (go_objects g) o' /\
    match go_now g with
    | None => all = go_seen g ++ fst (p_run E G (go_calls g) (with_objects m' o')) /\ left = p_turns E G (go_calls g) (with_objects m' o')
    | Some (f, t) => exists f', tws n0 (tw_result n0 st) r f f' /\ all = go_seen g ++ rest_seen E G f' o' (m', t) (go_calls g) /\ left = rest_turns E G f' o' (m', t) (go_calls g)
    end
}.
Lemma ok_start calls : Forall (leaves_alone st) calls -> go_ok (pst_mem st) [] (mk_go (objects_of st) None calls []) (fst (p_run E G calls st)) (p_turns E G calls st).
Proof.
  intros L. split; [exact L|]. exists (pst_mem st), (objects_of st). split; [exact sees_start|]. split.
  - split; exists [], []; rewrite app_nil_r; repeat split; constructor.
  - cbn [go_now go_calls go_seen app]. rewrite objects_back. auto.
Qed.
(** what other goroutines do does not matter as long as they keep off *)
Lemma sees_frame m m1 r m' : sees m r m' -> (length m <= length m1)%nat -> (forall a, (a < n0)%nat \/ In a r -> array m1 a = array m a) -> sees m1 r m'.
Proof.
  intros [L N F M S] X H. split; auto; [revert F; apply Forall_impl; intros; lia|lia|]. intros a a' P. rewrite H; [exact (S _ _ P)|]. destruct P as [[P _]|(j & _ & K)]; [left; exact P|right; exact (nth_error_In _ _ K)].
Qed.
Lemma ok_frame m m1 r g all left : go_ok m r g all left -> (length m <= length m1)%nat -> (forall a, (a < n0)%nat \/ In a r -> array m1 a = array m a) -> go_ok m1 r g all left.
Proof. intros [C (m' & o' & S & R)] X H. split; [exact C|]. exists m', o'. split; [exact (sees_frame _ _ _ _ S X H)|exact R]. Qed.

(** a step *)
Record step_ok (i : nat) (m m1 : arrays) (r r1 : list nat) (log : list access) : Prop := {
  so_new : r1 = r \/ r1 = r ++ [length m];
  so_len : (length m <= length m1)%nat;
  so_keep : forall a, ~ In a r1 -> array m1 a = array m a;
  so_log : Forall (fun a => ac_by a = i /\ (In (ac_array a) r1 \/ (ac_array a < n0)%nat /\ ac_writes a = false)) log
}.
Lemma step_none i m r : step_ok i m m r r [].
Proof. split; auto. Qed.
Lemma read_place r s s' : tw n0 r s s' -> In (sl_at s) r \/ (sl_at s < n0)%nat /\ false = false.
Proof. intros [[[A _]|(j & _ & K)] _ _ _]; [right; auto|left; exact (nth_error_In _ _ K)]. Qed.

Lemma step_in i m r g all left : go_ok m r g all left ->
  let '(m1, g1, log, dead) := go_step E G i m g in
  exists r1, step_ok i m m1 r r1 log /\ go_ok m1 r1 g1 all (pred left) /\ (left = 0%nat -> go_finished g = true /\ g1 = g) /\ (In Q_panicked (go_seen g1) <-> In Q_panicked (go_seen g) \/ dead = true).
Proof.
  intros [C (m' & o' & S & O & R)]. destruct g as [objs now calls seen]. cbn [go_now go_calls go_objects go_seen] in *. unfold go_step. cbn [go_now go_calls go_objects go_seen].
  destruct now as [[f t]|].
  - destruct R as (f' & T & A & L). inversion T; subst f f'; try subst.
    + (* the call is over *)
      rename H into R. destruct a as [q o], a' as [q' o'']. destruct R as [[Q1 Q2] Q3]. cbn [fst snd] in *. subst q'.
      exists r. split; [apply step_none|]. split; [|split; [|cbn [go_seen]; rewrite in_app_iff; cbn [In]; intuition congruence]].
      * split; [exact C|]. exists m', o''. cbn [go_now go_calls go_objects go_seen]. split; [exact S|]. split; [exact Q3|].
        unfold rest_seen, rest_turns. cbn [s_run as_step s_steps]. rewrite <- app_assoc. destruct q; try (split; reflexivity). contradiction.
      * discriminate.
    + exists r. split; [apply step_none|]. split; [|split; [|cbn [go_seen]; rewrite in_app_iff; cbn [In]; intuition congruence]].
      * split; [exact C|]. exists m', o'. cbn [go_now go_calls go_objects go_seen]. split; [exact S|]. split; [exact O|]. unfold rest_seen, rest_turns. cbn [s_run as_step s_steps]. rewrite <- app_assoc. split; reflexivity.
      * discriminate.
    + exists r. split; [apply step_none|]. split; [|split; [discriminate|cbn [go_seen]; rewrite in_app_iff; cbn [In]; intuition congruence]].
      split; [constructor|]. exists m', o'. cbn [go_now go_calls go_objects go_seen]. split; [exact S|]. split; [exact O|]. unfold rest_seen, rest_turns. cbn. rewrite app_nil_r. split; reflexivity.
    + exists r. split; [|split; [|split; [discriminate|intuition congruence]]].
      * split; auto. constructor; [|constructor]. split; [reflexivity|]. exact (read_place _ _ _ H).
      * split; [exact C|]. exists m', o'. split; [exact S|]. split; [exact O|]. cbn [go_now go_calls go_objects go_seen]. exists (k' (content m s)). split; [apply H0|]. rewrite (sees_content _ _ _ _ _ S H). split; reflexivity.
    + exists (r ++ [length m]). split; [|split; [|split; [discriminate|intuition congruence]]].
      * split; [right; reflexivity|unfold m_new; cbn [snd]; rewrite app_length; lia| |].
        { intros a N. unfold m_new, array. cbn [snd]. destruct (Nat.lt_trichotomy a (length m)) as [B|[->|B]]; [rewrite app_nth1 by exact B; reflexivity|exfalso; apply N; apply in_or_app; right; left; reflexivity|].
          rewrite !nth_overflow; [reflexivity|lia|rewrite app_length; cbn; lia]. }
        { constructor; [|constructor]. split; [reflexivity|]. left. apply in_or_app. right. left. reflexivity. }
      * split; [exact C|]. exists (snd (m_new m' b room)), o'. split; [exact (sees_new _ _ _ _ _ S)|]. split; [exact (objects_grow n0 st _ _ _ _ (ex_intro _ [length m] eq_refl) O)|].
        cbn [go_now go_calls go_objects go_seen]. exists (k' (fst (m_new m' b room))). split; [|split; reflexivity]. unfold m_new. cbn [fst]. rewrite (ss_len _ _ _ S). apply H.
    + exists r. pose proof (own_place _ _ _ H) as (j & J & K). assert (B : (n0 <= sl_at s < length m)%nat) by (pose proof (ss_range _ _ _ S) as F; rewrite Forall_forall in F; apply F; apply nth_error_In with j; exact K).
      split; [|split; [|split; [discriminate|intuition congruence]]].
      * split; [left; reflexivity|unfold m_put; rewrite set_array_len by lia; lia| |].
        { intros a N. unfold m_put. rewrite set_array_nth by lia. destruct (Nat.eqb_spec a (sl_at s)) as [->|]; [|reflexivity]. exfalso. apply N. exact (nth_error_In _ _ K). }
        { constructor; [|constructor]. split; [reflexivity|]. left. exact (nth_error_In _ _ K). }
      * split; [exact C|]. exists (m_put m' s' i0 b), o'. split; [exact (sees_put _ _ _ _ _ _ _ S H)|]. split; [exact O|]. cbn [go_now go_calls go_objects go_seen]. exists k'. split; [exact H0|split; reflexivity].
    + exists r. split; [apply step_none|]. split; [|split; [discriminate|intuition congruence]].
      split; [exact C|]. exists m', o'. split; [exact S|]. split; [exact O|]. cbn [go_now go_calls go_objects go_seen]. exists (k' (fst (m_take t n))). split; [apply H|split; reflexivity].
  - destruct R as [A L]. destruct calls as [|c calls].
    + exists r. split; [apply step_none|]. cbn in L. subst left. split; [|split; [auto|intuition congruence]]. split; [exact C|]. exists m', o'. split; [exact S|]. split; [exact O|]. cbn [go_now]. split; [exact A|reflexivity].
    + exists r. split; [apply step_none|]. inversion_clear C as [|? ? C1 C2]. rewrite run_cons in A. rewrite turns_cons in L. split; [|split; [lia|cbn [go_seen]; intuition congruence]].
      split; [exact C2|]. exists m', o'. split; [exact S|]. split; [exact O|]. cbn [go_now go_calls go_objects go_seen]. exists (t_code E G c o'). destruct o' as [x1 x2 x3 x4]. cbn [objects_of with_objects to_slices to_keys to_curves to_sigs pst_mem pst_slices pst_keys pst_curves pst_sigs] in *.
      split; [|split; [exact A|rewrite L; reflexivity]].
      apply code_tws; try assumption; [exact three|reflexivity|exact st_slices|exact st_keys|exact st_curves|exact st_sigs].
Qed.

Lemma steps_pos {A} (f : sm A) h : (1 <= s_steps f h)%nat.
Proof. destruct f; cbn; lia. Qed.
Lemma ok_prefix m r g all left : go_ok m r g all left -> exists rest, all = go_seen g ++ rest.
Proof. intros [_ (m' & o' & _ & _ & R)]. destruct (go_now g) as [[f t]|]; [destruct R as (f' & _ & R & _)|destruct R as [R _]]; eexists; exact R. Qed.
Lemma ok_finished m r g all left : go_ok m r g all left -> go_finished g = true -> go_seen g = all.
Proof.
  intros [_ (m' & o' & _ & _ & R)] F. unfold go_finished in F. destruct (go_now g) as [[f t]|]; [discriminate|]. destruct (go_calls g); [|discriminate]. destruct R as [R _]. cbn in R. rewrite app_nil_r in R. auto.
Qed.
Lemma ok_over m r g all : go_ok m r g all 0 -> go_finished g = true.
Proof.
  intros [_ (m' & o' & _ & _ & R)]. unfold go_finished. destruct (go_now g) as [[f t]|].
  - destruct R as (f' & _ & _ & L). exfalso. unfold rest_turns in L. pose proof (steps_pos f' (m', t)). lia.
  - destruct R as [_ L]. destruct (go_calls g) as [|c l]; [reflexivity|]. rewrite turns_cons in L. discriminate.
Qed.

(** ** All goroutines *)
Variable programs : list (list p_call).
Hypothesis careful : Forall (Forall (leaves_alone st)) programs.
Record pr_ok (rs : nat -> list nat) (taken : list nat) (p : process) : Prop := {
  po_gos : forall i, match nth_error (pr_gos p) i, nth_error programs i with
    | Some g, Some calls => exists left, go_ok (pr_mem p) (rs i) g (fst (p_run E G calls st)) left /\ (pr_dead p = false -> left = (p_turns E G calls st - count_occ Nat.eq_dec taken i)%nat)
    | None, None => True
    | _, _ => False
    end;
  po_range : forall i a, In a (rs i) -> (n0 <= a < length (pr_mem p))%nat;
  po_apart : forall i j a, In a (rs i) -> In a (rs j) -> i = j;
  po_more : (n0 <= length (pr_mem p))%nat;
  po_base : forall a, (a < n0)%nat -> array (pr_mem p) a = array (pst_mem st) a;
  po_log : Forall (fun a => In (ac_array a) (rs (ac_by a)) \/ (ac_array a < n0)%nat /\ ac_writes a = false) (pr_log p);
  po_dead : pr_dead p = true <-> exists i g, nth_error (pr_gos p) i = Some g /\ In Q_panicked (go_seen g)
}.
Lemma pr_start_ok : pr_ok (fun _ => []) [] (pr_start st programs).
Proof.
  unfold pr_start. split; cbn [pr_gos pr_mem pr_log pr_dead]; try (intros; contradiction); try discriminate; auto.
  2:{ split; [discriminate|]. intros (i & g & N & H). rewrite nth_error_map in N. destruct (nth_error programs i); [|discriminate]. injection N as <-. destruct H. }
  intros i. rewrite nth_error_map. destruct (nth_error programs i) as [calls|] eqn:N; [|exact I]. cbn [option_map]. exists (p_turns E G calls st). split; [|cbn; intros _; lia].
  apply ok_start. rewrite Forall_forall in careful. apply careful. exact (nth_error_In _ _ N).
Qed.
Lemma nth_replace {A} (l : list A) i a j : (i < length l)%nat -> nth_error (firstn i l ++ a :: skipn (S i) l) j = if Nat.eqb j i then Some a else nth_error l j.
Proof.
  revert l j. induction i as [|i IH]; intros [|x l] [|j] L; cbn [length] in L; try lia; try reflexivity.
  cbn [firstn skipn app nth_error Nat.eqb]. apply IH. lia.
Qed.
Lemma count_snoc l i j : count_occ Nat.eq_dec (l ++ [i]) j = if Nat.eqb j i then S (count_occ Nat.eq_dec l j) else count_occ Nat.eq_dec l j.
Proof.
  rewrite count_occ_app. cbn [count_occ]. destruct (Nat.eq_dec i j) as [->|D]; [rewrite Nat.eqb_refl; lia|]. destruct (Nat.eqb_spec j i) as [->|]; [contradiction|lia].
Qed.
Lemma pr_step_ok rs taken p i : pr_ok rs taken p -> exists rs1, pr_ok rs1 (taken ++ [i]) (pr_step E G p i).
Proof.
  intros O. unfold pr_step. destruct (pr_dead p) eqn:D.
  { exists rs. destruct O as [A B C M F L X]. split; auto. intros j. specialize (A j). destruct (nth_error (pr_gos p) j), (nth_error programs j); auto. destruct A as (left & A & _). exists left. split; [exact A|congruence]. }
  pose proof (po_gos _ _ _ O i) as K. destruct (nth_error (pr_gos p) i) as [g|] eqn:N.
  2:{ exists rs. destruct O as [A B C M F L X]. split; auto. intros j. specialize (A j). destruct (nth_error (pr_gos p) j) eqn:NJ, (nth_error programs j); auto. destruct A as (left & A & T). exists left. split; [exact A|].
      rewrite count_snoc. destruct (Nat.eqb_spec j i) as [->|]; [congruence|exact T]. }
  destruct (nth_error programs i) as [calls|] eqn:P; [|contradiction]. destruct K as (left & K & T). specialize (T D). pose proof (step_in i _ _ _ _ _ K) as S.
  destruct (go_step E G i (pr_mem p) g) as [[[m1 g1] log] dead]. destruct S as (r1 & S & K1 & Z & DD).
  assert (LI : (i < length (pr_gos p))%nat) by (apply nth_error_Some; congruence).
  assert (RI : forall a, In a r1 -> In a (rs i) \/ a = length (pr_mem p)).
  { intros a H. destruct (so_new _ _ _ _ _ _ S) as [-> | ->]; [left; exact H|]. apply in_app_or in H. destruct H as [H|[H|[]]]; auto. }
  assert (SI : forall a, In a (rs i) -> In a r1) by (intros a H; destruct (so_new _ _ _ _ _ _ S) as [-> | ->]; [exact H|apply in_or_app; left; exact H]).
  assert (R1 : forall a, In a r1 -> (n0 <= a < length m1)%nat).
  { destruct K1 as [_ (m' & o' & SE & _)]. pose proof (ss_range _ _ _ SE) as F. rewrite Forall_forall in F. exact F. }
  pose proof (so_len _ _ _ _ _ _ S) as LM. pose proof (so_keep _ _ _ _ _ _ S) as KP. pose proof (po_more _ _ _ O) as PM.
  exists (fun j => if Nat.eqb j i then r1 else rs j). split; cbn [pr_gos pr_mem pr_log pr_dead].
  - intros j. rewrite nth_replace by exact LI. rewrite count_snoc. destruct (Nat.eqb_spec j i) as [->|NE].
    + rewrite P. exists (pred left). split; [exact K1|intros _; lia].
    + pose proof (po_gos _ _ _ O j) as J. destruct (nth_error (pr_gos p) j) as [gj|], (nth_error programs j) as [cj|]; auto. destruct J as (lj & J & TJ). exists lj. split; [|intros _; exact (TJ D)].
      apply (ok_frame (pr_mem p)); [exact J|exact LM|]. intros a [A|A]; apply KP; intros H; destruct (RI a H) as [B| ->].
      * pose proof (po_range _ _ _ O i a B). lia.
      * lia.
      * apply NE. exact (po_apart _ _ _ O j i a A B).
      * pose proof (po_range _ _ _ O j _ A). lia.
  - intros j a. destruct (Nat.eqb_spec j i) as [->|NE]; [apply R1|]. intros H. pose proof (po_range _ _ _ O j a H). lia.
  - intros j k a. destruct (Nat.eqb_spec j i) as [->|NE], (Nat.eqb_spec k i) as [->|NK]; intros A B; auto.
    + destruct (RI a A) as [H| ->]; [exact (po_apart _ _ _ O i k a H B)|]. pose proof (po_range _ _ _ O k _ B). lia.
    + destruct (RI a B) as [H| ->]; [exact (po_apart _ _ _ O j i a A H)|]. pose proof (po_range _ _ _ O j _ A). lia.
    + exact (po_apart _ _ _ O j k a A B).
  - lia.
  - intros a A. rewrite KP; [exact (po_base _ _ _ O a A)|]. intros H. pose proof (R1 a H). destruct (RI a H) as [B| ->]; lia.
  - apply Forall_app. split.
    + eapply Forall_impl; [|exact (po_log _ _ _ O)]. cbn beta. intros a [A|A]; [left|right; exact A]. destruct (Nat.eqb_spec (ac_by a) i) as [Q|]; [apply SI; rewrite <- Q|]; exact A.
    + eapply Forall_impl; [|exact (so_log _ _ _ _ _ _ S)]. cbn beta. intros a [-> A]. rewrite Nat.eqb_refl. exact A.
  - pose proof (po_dead _ _ _ O) as PD. rewrite D in PD. split.
    + intros H. exists i, g1. rewrite nth_replace, Nat.eqb_refl by exact LI. split; [reflexivity|]. apply DD. right. exact H.
    + intros (j & gj & NJ & H). rewrite nth_replace in NJ by exact LI. destruct (Nat.eqb_spec j i) as [->|NE].
      * injection NJ as <-. apply DD in H as [H|H]; [|exact H]. assert (false = true) by (apply PD; exists i, g; auto). discriminate.
      * assert (false = true) by (apply PD; exists j, gj; auto). discriminate.
Qed.
Lemma pr_run_ok schedule : exists rs, pr_ok rs schedule (pr_run E G (pr_start st programs) schedule).
Proof.
  unfold pr_run. induction schedule as [|i schedule IH] using rev_ind; [exists (fun _ => []); exact pr_start_ok|]. rewrite fold_left_app. cbn [fold_left]. destruct IH as [rs IH]. exact (pr_step_ok _ _ _ i IH).
Qed.
End Threads.
