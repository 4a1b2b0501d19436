(** Goroutines that use the root package at the same time: whatever the order of their accesses, each of them is in step
    with a run on its own (C101).  As ThreadP.v. *)
From Coq Require Import Lia ZifyBool ZifyNat.
From Verif.Model Require Import GoBase Env BitBuffer Crc32 MnemonicPkg Version Seed Encoding GoTime Recovery PgpKeys Mnemonikey BigHeap SliceThreads BigThreads.
From Verif.Spec Require Import ShareSpec BigThreadSpec.
From Verif.Proofs Require Import ShareP TwinP BigTwinP.

(** ** A call on its own *)
Definition b_as_step (o : b_objects) (q : res b_result * heap) : seen * h_state :=
  match q with
  | (Ok (s, o2), h) => (s, b_with_objects h o2)
  | (Err e, h) => (Failed e, b_with_objects h o)
  | (Panic, h) => (Panicked, b_with_objects h o)
  end.
Lemma b_objects_back st : b_with_objects (hst_heap st) (b_objects_of st) = st.
Proof. destruct st. reflexivity. Qed.

Section Alone.
Variable E : Env.
Lemma b_call_alone {A} (f : mem A) st (g : A -> h_state -> seen * h_state) (k : A -> mem b_result) :
  (forall a h, g a (b_with_objects h (b_objects_of st)) = b_as_step (b_objects_of st) (k a h)) ->
  h_call f st g = b_as_step (b_objects_of st) (m_bind f k (hst_heap st)).
Proof.
  intros H. unfold h_call. rewrite m_bind_run. destruct (f (hst_heap st)) as [[a|e|] h]; [apply H|reflexivity|reflexivity].
Qed.
Lemma b_with_alone {A} (l : list A) n st f g : (forall a, f a = b_as_step (b_objects_of st) (m_run (g a) (hst_heap st))) ->
  having l n st f = b_as_step (b_objects_of st) (m_run (b_with l n (b_objects_of st) g) (hst_heap st)).
Proof. intros H. unfold having, b_with. destruct (nth_error l n); [apply H|]. cbn. rewrite b_objects_back. reflexivity. Qed.
Lemma b_alone c st : h_step E c st = b_as_step (b_objects_of st) (b_code E c (b_objects_of st) (hst_heap st)).
Proof.
  destruct c; cbn [h_step b_code];
    change (bo_ints (b_objects_of st)) with (hst_ints st); change (bo_seeds (b_objects_of st)) with (hst_seeds st); change (bo_phrases (b_objects_of st)) with (hst_phrases st); change (bo_keys (b_objects_of st)) with (hst_keys st);
    try (apply b_with_alone; intros ?); unfold b_show, b_int, b_seed, b_phrase, b_key; try (apply b_call_alone; intros; reflexivity).
  unfold h_call. rewrite !m_bind_run. destruct (h_generate_seed src (hst_heap st)) as [[[s rest]|e|] h]; reflexivity.
Qed.

(** how many steps a computation takes *)
Fixpoint m_steps {A} (f : mem A) (h : heap) {struct f} : nat :=
  match f with
  | M_done _ => 1
  | M_load p k => S (match nth_error h p with Some v => m_steps (k v) h | None => 0 end)
  | M_store p v k => S (match nth_error h p with Some _ => m_steps k (put h p v) | None => 0 end)
  | M_new v k => S (m_steps (k (length h)) (h ++ [v]))
  end.
Fixpoint b_turns (calls : list call) (st : h_state) : nat :=
  match calls with
  | [] => 0
  | c :: rest => S (m_steps (b_code E c (b_objects_of st)) (hst_heap st) + (let (o, st1) := h_step E c st in match o with Panicked => 0 | _ => b_turns rest st1 end))
  end.
(** what is still to be seen, and the turns that are still to come, in the middle of a call *)
Definition b_rest_seen (f : mem b_result) (o : b_objects) (h : heap) (calls : list call) : list seen :=
  let (s, st1) := b_as_step o (f h) in match s with Panicked => [Panicked] | _ => s :: fst (h_run E calls st1) end.
Definition b_rest_turns (f : mem b_result) (o : b_objects) (h : heap) (calls : list call) : nat :=
  (m_steps f h + (let (s, st1) := b_as_step o (f h) in match s with Panicked => 0 | _ => b_turns calls st1 end))%nat.
Lemma b_run_cons c calls st : fst (h_run E (c :: calls) st) = b_rest_seen (b_code E c (b_objects_of st)) (b_objects_of st) (hst_heap st) calls.
Proof.
  unfold b_rest_seen. rewrite <- b_alone. cbn [h_run]. destruct (h_step E c st) as [o st1]. destruct o; try reflexivity; destruct (h_run E calls st1); reflexivity.
Qed.
Lemma b_turns_cons c calls st : b_turns (c :: calls) st = S (b_rest_turns (b_code E c (b_objects_of st)) (b_objects_of st) (hst_heap st) calls).
Proof. unfold b_rest_turns. rewrite <- b_alone. reflexivity. Qed.
End Alone.

(** ** A goroutine among others *)
Section Threads.
Variable E : Env.
Variable st : h_state.
Variable vals : values.
Hypothesis W : rel st vals.
Let n0 := length (hst_heap st).
Lemma two : (2 <= n0)%nat.
Proof. apply globals_len. exact (rel_globals _ _ W). Qed.
Lemma st_ints : Forall (fun p => (p < n0)%nat) (hst_ints st).
Proof. rewrite Forall_forall. intros p I. destruct (forall2_in _ _ _ _ (rel_ints _ _ W) I) as [v V]. exact (nth_lt _ _ _ V). Qed.
Lemma st_seeds : Forall (fun s => (hs_value s < n0)%nat) (hst_seeds st).
Proof. rewrite Forall_forall. intros p I. destruct (forall2_in _ _ _ _ (rel_seeds _ _ W) I) as [v [_ V]]. exact (nth_lt _ _ _ V). Qed.
Lemma st_phrases : Forall (fun d => (hd_entropy d < n0)%nat /\ match hd_salt d with Some p => (p < n0)%nat | None => True end) (hst_phrases st).
Proof.
  rewrite Forall_forall. intros p I. destruct (forall2_in _ _ _ _ (rel_phrases _ _ W) I) as [v (_ & V & _ & _ & S)]. split; [exact (nth_lt _ _ _ V)|].
  destruct (hd_salt p); [exact (nth_lt _ _ _ S)|exact Logic.I].
Qed.
Lemma st_hkeys : Forall (fun k => (hs_value (hk_seed k) < n0)%nat) (hst_keys st).
Proof. rewrite Forall_forall. intros p I. destruct (forall2_in _ _ _ _ (rel_keys _ _ W) I) as [v V]. destruct V as [[_ V] _]. exact (nth_lt _ _ _ V). Qed.

(** memory [m], as a goroutine sees it that has made the integers [r]; on its own it would have memory [m'] *)
Record sees (m : heap) (r : list nat) (m' : heap) : Prop := {
  ss_len : length m' = (n0 + length r)%nat;
  ss_once : NoDup r;
  ss_range : Forall (fun a => (n0 <= a < length m)%nat) r;
  ss_more : (n0 <= length m)%nat;
  ss_same : forall a a', at_ n0 r a a' -> nth_error m a = nth_error m' a'
}.
Lemma sees_start : sees (hst_heap st) [] (hst_heap st).
Proof.
  split; [cbn; unfold n0; lia|constructor|constructor|unfold n0; lia|]. intros a a' [[_ ->]|(j & _ & N)]; [reflexivity|]. destruct j; discriminate.
Qed.
Lemma NoDup_app_one (r : list nat) a : NoDup r -> ~ In a r -> NoDup (r ++ [a]).
Proof. intros N I. apply NoDup_Add with (a := a) (l := r); [rewrite <- (app_nil_r r) at 1; apply Add_app|auto]. Qed.
Lemma sees_new m r m' v : sees m r m' -> sees (m ++ [v]) (r ++ [length m]) (m' ++ [v]).
Proof.
  intros [L N F M S]. split.
  - rewrite !app_length, L. cbn. lia.
  - apply NoDup_app_one; [exact N|]. intros I. rewrite Forall_forall in F. specialize (F _ I). lia.
  - rewrite app_length. cbn [length]. apply Forall_app. split; [revert F; apply Forall_impl; intros; lia|]. constructor; [lia|constructor].
  - rewrite app_length. lia.
  - intros a a' A. destruct A as [[A1 A2]|(j & J & K)].
    + rewrite !nth_error_app1 by lia. apply S. left. auto.
    + destruct (Nat.lt_ge_cases j (length r)) as [B|B].
      * rewrite nth_error_app1 in K by exact B. rewrite Forall_forall in F. pose proof (F _ (nth_error_In _ _ K)). rewrite !nth_error_app1 by lia. apply S. right. exists j. auto.
      * rewrite nth_error_app2 in K by exact B. destruct (j - length r)%nat as [|x] eqn:D; [|destruct x; discriminate]. cbn in K. injection K as <-. rewrite !nth_error_app2 by lia. replace (a' - length m')%nat with 0%nat by lia. rewrite Nat.sub_diag. reflexivity.
Qed.
Lemma own_place r s s' : mine n0 r s s' -> exists j, s' = (n0 + j)%nat /\ nth_error r j = Some s.
Proof. intros [[[A B]|(j & J & K)] L]; [lia|]. exists j. auto. Qed.
Lemma sees_put m r m' s s' v : sees m r m' -> mine n0 r s s' -> sees (put m s v) r (put m' s' v).
Proof.
  intros S T. pose proof (own_place _ _ _ T) as (j & J & K). destruct T as [T L]. destruct S as [L' N F M S].
  assert (B : (n0 <= s < length m)%nat) by (rewrite Forall_forall in F; apply F; apply nth_error_In with j; exact K).
  assert (B' : (s' < length m')%nat) by (pose proof (nth_lt _ _ _ K); lia).
  split.
  - rewrite put_length by exact B'. exact L'.
  - exact N.
  - rewrite put_length by lia. exact F.
  - rewrite put_length by lia. exact M.
  - intros a a' P. rewrite !put_nth by lia. destruct (Nat.eqb_spec a s) as [->|D], (Nat.eqb_spec a' s') as [->|D']; try reflexivity; [| |apply S; exact P].
    + exfalso. apply D'. destruct P as [[P _]|(j2 & J2 & K2)]; [lia|]. rewrite NoDup_nth_error in N. assert (j = j2); [|subst; lia]. apply N; [exact (nth_lt _ _ _ K)|exact (eq_trans K (eq_sym K2))].
    + exfalso. apply D. destruct P as [[P P2]|(j2 & J2 & K2)]; [lia|]. assert (j = j2) by lia. subst j2. pose proof (eq_trans (eq_sym K) K2) as Q. injection Q as ->. reflexivity.
Qed.

Definition objects_ok := tw_bobjects n0 st.
(** the goroutine has made the integers [r], will have seen [all] when it is through, and that after [left] turns *)
Record go_ok (m : heap) (r : list nat) (g : b_goroutine) (all : list seen) (left : nat) : Prop := mk_ok {
  gk_calls : Forall (keeps_shared st) (bg_calls g);
  gk_solo : exists m' o', sees m r m' /\ objects_ok r (bg_objects g) o' /\
    match bg_now g with
    | None => all = bg_seen g ++ fst (h_run E (bg_calls g) (b_with_objects m' o')) /\ left = b_turns E (bg_calls g) (b_with_objects m' o')
    | Some f => exists f', twm n0 (tw_bresult n0 st) r f f' /\ all = bg_seen g ++ b_rest_seen E f' o' m' (bg_calls g) /\ left = b_rest_turns E f' o' m' (bg_calls g)
    end
}.
Lemma ok_start calls : Forall (keeps_shared st) calls -> go_ok (hst_heap st) [] (mk_bgo (b_objects_of st) None calls []) (fst (h_run E calls st)) (b_turns E calls st).
Proof.
  intros L. split; [exact L|]. exists (hst_heap st), (b_objects_of st). split; [exact sees_start|]. split.
  - split; exists [], []; rewrite app_nil_r; repeat split; constructor.
  - cbn [bg_now bg_calls bg_seen app]. rewrite b_objects_back. auto.
Qed.
(** what other goroutines do does not matter as long as they keep off *)
Lemma sees_frame m m1 r m' : sees m r m' -> (length m <= length m1)%nat -> (forall a, (a < n0)%nat \/ In a r -> nth_error m1 a = nth_error m a) -> sees m1 r m'.
Proof.
  intros [L N F M S] X H. split; auto; [revert F; apply Forall_impl; intros; lia|lia|]. intros a a' P. rewrite H; [exact (S _ _ P)|]. destruct P as [[P _]|(j & _ & K)]; [left; exact P|right; exact (nth_error_In _ _ K)].
Qed.
Lemma ok_frame m m1 r g all left : go_ok m r g all left -> (length m <= length m1)%nat -> (forall a, (a < n0)%nat \/ In a r -> nth_error m1 a = nth_error m a) -> go_ok m1 r g all left.
Proof. intros [C (m' & o' & S & R)] X H. split; [exact C|]. exists m', o'. split; [exact (sees_frame _ _ _ _ S X H)|exact R]. Qed.

(** a step *)
Record step_ok (i : nat) (m m1 : heap) (r r1 : list nat) (log : list access) : Prop := {
  so_new : r1 = r \/ r1 = r ++ [length m];
  so_len : (length m <= length m1)%nat;
  so_keep : forall a, ~ In a r1 -> nth_error m1 a = nth_error m a;
  so_log : Forall (fun a => ac_by a = i /\ (In (ac_array a) r1 \/ (ac_array a < n0)%nat /\ ac_writes a = false)) log
}.
Lemma step_none i m r : step_ok i m m r r [].
Proof. split; auto. Qed.
Lemma read_place r s s' : at_ n0 r s s' -> In s r \/ (s < n0)%nat /\ false = false.
Proof. intros [[A _]|(j & _ & K)]; [right; auto|left; exact (nth_error_In _ _ K)]. Qed.
Lemma has_place m r m' s s' : sees m r m' -> at_ n0 r s s' -> exists v, nth_error m s = Some v /\ nth_error m' s' = Some v.
Proof.
  intros S A. rewrite <- (ss_same _ _ _ S _ _ A). destruct (nth_error m s) as [v|] eqn:N; [exists v; auto|]. exfalso. apply nth_error_None in N. pose proof (ss_more _ _ _ S).
  destruct A as [[A _]|(j & _ & K)]; [lia|]. pose proof (ss_range _ _ _ S) as F. rewrite Forall_forall in F. pose proof (F _ (nth_error_In _ _ K)). lia.
Qed.

Lemma step_in i m r g all left : go_ok m r g all left ->
  let '(m1, g1, log, dead) := bg_step E i m g in
  exists r1, step_ok i m m1 r r1 log /\ go_ok m1 r1 g1 all (pred left) /\ (left = 0%nat -> bg_finished g = true /\ g1 = g) /\ (In Panicked (bg_seen g1) <-> In Panicked (bg_seen g) \/ dead = true).
Proof.
  intros [C (m' & o' & S & O & R)]. destruct g as [objs now calls seen]. cbn [bg_now bg_calls bg_objects bg_seen] in *. unfold bg_step. cbn [bg_now bg_calls bg_objects bg_seen].
  destruct now as [f|].
  - destruct R as (f' & T & A & L). inversion T; subst f f'; try subst.
    + (* the call is over *)
      rename H into R. destruct a as [q o], a' as [q' o'']. destruct R as [[Q1 Q2] Q3]. cbn [fst snd] in *. subst q'.
      exists r. split; [apply step_none|]. split; [|split; [|cbn [bg_seen]; rewrite in_app_iff; cbn [In]; intuition congruence]].
      * split; [exact C|]. exists m', o''. cbn [bg_now bg_calls bg_objects bg_seen]. split; [exact S|]. split; [exact Q3|].
        unfold b_rest_seen, b_rest_turns. cbn [m_run b_as_step m_steps]. rewrite <- app_assoc. destruct q; try (split; reflexivity). contradiction.
      * discriminate.
    + exists r. split; [apply step_none|]. split; [|split; [|cbn [bg_seen]; rewrite in_app_iff; cbn [In]; intuition congruence]].
      * split; [exact C|]. exists m', o'. cbn [bg_now bg_calls bg_objects bg_seen]. split; [exact S|]. split; [exact O|]. unfold b_rest_seen, b_rest_turns. cbn [m_run b_as_step m_steps]. rewrite <- app_assoc. split; reflexivity.
      * discriminate.
    + exists r. split; [apply step_none|]. split; [|split; [discriminate|cbn [bg_seen]; rewrite in_app_iff; cbn [In]; intuition congruence]].
      split; [constructor|]. exists m', o'. cbn [bg_now bg_calls bg_objects bg_seen]. split; [exact S|]. split; [exact O|]. unfold b_rest_seen, b_rest_turns. cbn. rewrite app_nil_r. split; reflexivity.
    + destruct (has_place _ _ _ _ _ S H) as (v & V & V'). rewrite V. exists r. unfold b_rest_seen, b_rest_turns. cbn [m_run m_steps]. rewrite V'. split; [|split; [|split; [discriminate|intuition congruence]]].
      * split; auto. constructor; [|constructor]. split; [reflexivity|]. exact (read_place _ _ _ H).
      * split; [exact C|]. exists m', o'. split; [exact S|]. split; [exact O|]. cbn [bg_now bg_calls bg_objects bg_seen]. exists (k' v). split; [apply H0|]. split; reflexivity.
    + destruct (has_place _ _ _ _ _ S (mine_at _ _ _ _ H)) as (u & V & V'). rewrite V. unfold b_rest_seen, b_rest_turns. cbn [m_run m_steps]. rewrite V'.
      exists r. pose proof (own_place _ _ _ H) as (j & J & K). assert (B : (n0 <= p < length m)%nat) by (pose proof (ss_range _ _ _ S) as F; rewrite Forall_forall in F; apply F; apply nth_error_In with j; exact K).
      split; [|split; [|split; [discriminate|intuition congruence]]].
      * split; [left; reflexivity|rewrite put_length by lia; lia| |].
        { intros a N. rewrite put_nth by lia. destruct (Nat.eqb_spec a p) as [->|]; [|reflexivity]. exfalso. apply N. exact (nth_error_In _ _ K). }
        { constructor; [|constructor]. split; [reflexivity|]. left. exact (nth_error_In _ _ K). }
      * split; [exact C|]. exists (put m' p' v), o'. split; [exact (sees_put _ _ _ _ _ _ S H)|]. split; [exact O|]. cbn [bg_now bg_calls bg_objects bg_seen]. exists k'. split; [exact H0|split; reflexivity].
    + exists (r ++ [length m]). split; [|split; [|split; [discriminate|intuition congruence]]].
      * split; [right; reflexivity|rewrite app_length; lia| |].
        { intros a N. destruct (Nat.lt_trichotomy a (length m)) as [B|[->|B]]; [rewrite nth_error_app1 by exact B; reflexivity|exfalso; apply N; apply in_or_app; right; left; reflexivity|].
          transitivity (@None Z); [|symmetry]; apply nth_error_None; [rewrite app_length; cbn; lia|lia]. }
        { constructor; [|constructor]. split; [reflexivity|]. left. apply in_or_app. right. left. reflexivity. }
      * split; [exact C|]. exists (m' ++ [v]), o'. split; [exact (sees_new _ _ _ _ S)|]. split; [exact (bobjects_grow n0 st _ _ _ _ (ex_intro _ [length m] eq_refl) O)|].
        cbn [bg_now bg_calls bg_objects bg_seen]. exists (k' (length m')). split; [|split; reflexivity]. rewrite (ss_len _ _ _ S). apply H.
  - destruct R as [A L]. destruct calls as [|c calls].
    + exists r. split; [apply step_none|]. cbn in L. subst left. split; [|split; [auto|intuition congruence]]. split; [exact C|]. exists m', o'. split; [exact S|]. split; [exact O|]. cbn [bg_now]. split; [exact A|reflexivity].
    + exists r. split; [apply step_none|]. inversion_clear C as [|? ? C1 C2]. rewrite b_run_cons in A. rewrite b_turns_cons in L. split; [|split; [lia|cbn [bg_seen]; intuition congruence]].
      split; [exact C2|]. exists m', o'. split; [exact S|]. split; [exact O|]. cbn [bg_now bg_calls bg_objects bg_seen]. exists (b_code E c o'). destruct o' as [x1 x2 x3 x4]. cbn [b_objects_of b_with_objects bo_ints bo_seeds bo_phrases bo_keys hst_heap hst_ints hst_seeds hst_phrases hst_keys] in *.
      split; [|split; [exact A|rewrite L; reflexivity]].
      apply code_twm; try assumption; [exact two|exact st_ints|exact st_seeds|exact st_phrases|exact st_hkeys].
Qed.

Lemma steps_pos {A} (f : mem A) h : (1 <= m_steps f h)%nat.
Proof. destruct f; cbn; lia. Qed.
Lemma ok_prefix m r g all left : go_ok m r g all left -> exists rest, all = bg_seen g ++ rest.
Proof. intros [_ (m' & o' & _ & _ & R)]. destruct (bg_now g) as [f|]; [destruct R as (f' & _ & R & _)|destruct R as [R _]]; eexists; exact R. Qed.
Lemma ok_finished m r g all left : go_ok m r g all left -> bg_finished g = true -> bg_seen g = all.
Proof.
  intros [_ (m' & o' & _ & _ & R)] F. unfold bg_finished in F. destruct (bg_now g) as [f|]; [discriminate|]. destruct (bg_calls g); [|discriminate]. destruct R as [R _]. cbn in R. rewrite app_nil_r in R. auto.
Qed.
Lemma ok_over m r g all : go_ok m r g all 0 -> bg_finished g = true.
Proof.
  intros [_ (m' & o' & _ & _ & R)]. unfold bg_finished. destruct (bg_now g) as [f|].
  - destruct R as (f' & _ & _ & L). exfalso. unfold b_rest_turns in L. pose proof (steps_pos f' m'). lia.
  - destruct R as [_ L]. destruct (bg_calls g) as [|c l]; [reflexivity|]. rewrite b_turns_cons in L. discriminate.
Qed.

(** ** All goroutines *)
Variable programs : list (list call).
Hypothesis careful : Forall (Forall (keeps_shared st)) programs.
Record pr_ok (rs : nat -> list nat) (taken : list nat) (p : b_process) : Prop := {
  po_gos : forall i, match nth_error (bp_gos p) i, nth_error programs i with
    | Some g, Some calls => exists left, go_ok (bp_mem p) (rs i) g (fst (h_run E calls st)) left /\ (bp_dead p = false -> left = (b_turns E calls st - count_occ Nat.eq_dec taken i)%nat)
    | None, None => True
    | _, _ => False
    end;
  po_range : forall i a, In a (rs i) -> (n0 <= a < length (bp_mem p))%nat;
  po_apart : forall i j a, In a (rs i) -> In a (rs j) -> i = j;
  po_more : (n0 <= length (bp_mem p))%nat;
  po_base : forall a, (a < n0)%nat -> nth_error (bp_mem p) a = nth_error (hst_heap st) a;
  po_log : Forall (fun a => In (ac_array a) (rs (ac_by a)) \/ (ac_array a < n0)%nat /\ ac_writes a = false) (bp_log p);
  po_dead : bp_dead p = true <-> exists i g, nth_error (bp_gos p) i = Some g /\ In Panicked (bg_seen g)
}.
Lemma bp_start_ok : pr_ok (fun _ => []) [] (bp_start st programs).
Proof.
  unfold bp_start. split; cbn [bp_gos bp_mem bp_log bp_dead]; try (intros; contradiction); try discriminate; auto.
  2:{ split; [discriminate|]. intros (i & g & N & H). rewrite nth_error_map in N. destruct (nth_error programs i); [|discriminate]. injection N as <-. destruct H. }
  intros i. rewrite nth_error_map. destruct (nth_error programs i) as [calls|] eqn:N; [|exact I]. cbn [option_map]. exists (b_turns E calls st). split; [|cbn; intros _; lia].
  apply ok_start. rewrite Forall_forall in careful. apply careful. exact (nth_error_In _ _ N).
Qed.
Lemma nth_replace {A} (l : list A) i a j : (i < length l)%nat -> nth_error (firstn i l ++ a :: skipn (S i) l) j = if Nat.eqb j i then Some a else nth_error l j.
Proof.
  revert l j. induction i as [|i IH]; intros [|x l] [|j] L; cbn [length] in L; try lia; try reflexivity.
  cbn [firstn skipn app nth_error Nat.eqb]. apply IH. lia.
Qed.
Lemma count_snoc l i j : count_occ Nat.eq_dec (l ++ [i]) j = if Nat.eqb j i then S (count_occ Nat.eq_dec l j) else count_occ Nat.eq_dec l j.
Proof.
  rewrite count_occ_app. cbn [count_occ]. destruct (Nat.eq_dec i j) as [->|D]; [rewrite Nat.eqb_refl; lia|]. destruct (Nat.eqb_spec j i) as [->|]; [contradiction|lia].
Qed.
Lemma pr_step_ok rs taken p i : pr_ok rs taken p -> exists rs1, pr_ok rs1 (taken ++ [i]) (bp_step E p i).
Proof.
  intros O. unfold bp_step. destruct (bp_dead p) eqn:D.
  { exists rs. destruct O as [A B C M F L X]. split; auto. intros j. specialize (A j). destruct (nth_error (bp_gos p) j), (nth_error programs j); auto. destruct A as (left & A & _). exists left. split; [exact A|congruence]. }
  pose proof (po_gos _ _ _ O i) as K. destruct (nth_error (bp_gos p) i) as [g|] eqn:N.
  2:{ exists rs. destruct O as [A B C M F L X]. split; auto. intros j. specialize (A j). destruct (nth_error (bp_gos p) j) eqn:NJ, (nth_error programs j); auto. destruct A as (left & A & T). exists left. split; [exact A|].
      rewrite count_snoc. destruct (Nat.eqb_spec j i) as [->|]; [congruence|exact T]. }
  destruct (nth_error programs i) as [calls|] eqn:P; [|contradiction]. destruct K as (left & K & T). specialize (T D). pose proof (step_in i _ _ _ _ _ K) as S.
  destruct (bg_step E i (bp_mem p) g) as [[[m1 g1] log] dead]. destruct S as (r1 & S & K1 & Z & DD).
  assert (LI : (i < length (bp_gos p))%nat) by (apply nth_error_Some; congruence).
  assert (RI : forall a, In a r1 -> In a (rs i) \/ a = length (bp_mem p)).
  { intros a H. destruct (so_new _ _ _ _ _ _ S) as [-> | ->]; [left; exact H|]. apply in_app_or in H. destruct H as [H|[H|[]]]; auto. }
  assert (SI : forall a, In a (rs i) -> In a r1) by (intros a H; destruct (so_new _ _ _ _ _ _ S) as [-> | ->]; [exact H|apply in_or_app; left; exact H]).
  assert (R1 : forall a, In a r1 -> (n0 <= a < length m1)%nat).
  { destruct K1 as [_ (m' & o' & SE & _)]. pose proof (ss_range _ _ _ SE) as F. rewrite Forall_forall in F. exact F. }
  pose proof (so_len _ _ _ _ _ _ S) as LM. pose proof (so_keep _ _ _ _ _ _ S) as KP. pose proof (po_more _ _ _ O) as PM.
  exists (fun j => if Nat.eqb j i then r1 else rs j). split; cbn [bp_gos bp_mem bp_log bp_dead].
  - intros j. rewrite nth_replace by exact LI. rewrite count_snoc. destruct (Nat.eqb_spec j i) as [->|NE].
    + rewrite P. exists (pred left). split; [exact K1|intros _; lia].
    + pose proof (po_gos _ _ _ O j) as J. destruct (nth_error (bp_gos p) j) as [gj|], (nth_error programs j) as [cj|]; auto. destruct J as (lj & J & TJ). exists lj. split; [|intros _; exact (TJ D)].
      apply (ok_frame (bp_mem p)); [exact J|exact LM|]. intros a [A|A]; apply KP; intros H; destruct (RI a H) as [B| ->].
      * pose proof (po_range _ _ _ O i a B). lia.
      * lia.
      * apply NE. exact (po_apart _ _ _ O j i a A B).
      * pose proof (po_range _ _ _ O j _ A). lia.
  - intros j a. destruct (Nat.eqb_spec j i) as [->|NE]; [apply R1|]. intros H. pose proof (po_range _ _ _ O j a H). lia.
  - intros j k a. destruct (Nat.eqb_spec j i) as [->|NE], (Nat.eqb_spec k i) as [->|NK]; intros A B; auto.
    + destruct (RI a A) as [H| ->]; [exact (po_apart _ _ _ O i k a H B)|]. pose proof (po_range _ _ _ O k _ B). lia.
    + destruct (RI a B) as [H| ->]; [exact (po_apart _ _ _ O j i a A H)|]. pose proof (po_range _ _ _ O j _ A). lia.
    + exact (po_apart _ _ _ O j k a A B).
  - lia.
  - intros a A. rewrite KP; [exact (po_base _ _ _ O a A)|]. intros H. pose proof (R1 a H). destruct (RI a H) as [B| ->]; lia.
  - apply Forall_app. split.
    + eapply Forall_impl; [|exact (po_log _ _ _ O)]. cbn beta. intros a [A|A]; [left|right; exact A]. destruct (Nat.eqb_spec (ac_by a) i) as [Q|]; [apply SI; rewrite <- Q|]; exact A.
    + eapply Forall_impl; [|exact (so_log _ _ _ _ _ _ S)]. cbn beta. intros a [-> A]. rewrite Nat.eqb_refl. exact A.
  - pose proof (po_dead _ _ _ O) as PD. rewrite D in PD. split.
    + intros H. exists i, g1. rewrite nth_replace, Nat.eqb_refl by exact LI. split; [reflexivity|]. apply DD. right. exact H.
    + intros (j & gj & NJ & H). rewrite nth_replace in NJ by exact LI. destruct (Nat.eqb_spec j i) as [->|NE].
      * injection NJ as <-. apply DD in H as [H|H]; [|exact H]. assert (false = true) by (apply PD; exists i, g; auto). discriminate.
      * assert (false = true) by (apply PD; exists j, gj; auto). discriminate.
Qed.
Lemma pr_run_ok schedule : exists rs, pr_ok rs schedule (bp_run E (bp_start st programs) schedule).
Proof.
  unfold bp_run. induction schedule as [|i schedule IH] using rev_ind; [exists (fun _ => []); exact bp_start_ok|]. rewrite fold_left_app. cbn [fold_left]. destruct IH as [rs IH]. exact (pr_step_ok _ _ _ i IH).
Qed.
End Threads.
