(** C104: subpackets in memory: what a program sees when it changes the subpackets of signatures, also those that Sign made. *)
From Coq Require Import Lia ZifyBool ZifyNat.
From Verif.Model Require Import GoBase Env GoTime PgpWire PgpS2k PgpKeys SubHeap.
From Verif.Spec Require Import EnvSpec PhraseSpec PgpSpec SliceSpec SubSpec.
From Verif.Proofs Require Import PgpP SignP SubHeapP EnvInst.
From Verif.Props Require SliceProps.

(** Every program sees what the tale tells: at any time every subpacket, list and signature is as last written, and what Sign
    makes is nowhere else in memory. *)
Theorem tale_true : forall E calls, sizes_ok E -> p_run E p_init calls = tell E no_tale calls.
Proof. intros E calls S. apply run_sim; [exact S|apply init_sim]. Qed.
Print Assumptions tale_true.

Lemma tell_app E calls : forall t t' c, after E t calls = Some t' ->
  exists o, length o = length calls /\ Forall (fun x => x <> P_panicked) o /\ forall rest, tell E t (calls ++ c :: rest) =
    o ++ match told E t' c with Some (x, t) => x :: tell E t rest | None => [P_panicked] end.
Proof.
  induction calls as [|d calls IH]; intros t t' c A; cbn [after] in A.
  - injection A as <-. exists []. repeat split; auto.
  - destruct (told E t d) as [[x t1]|] eqn:T; [|discriminate]. destruct (IH t1 t' c A) as (o & L & N & Q). exists (x :: o). split; [cbn [length]; rewrite L; reflexivity|].
    split.
    + constructor; [|exact N]. intros ->. clear - T. unfold told in T.
      repeat match type of T with match ?x with _ => _ end = _ => destruct x eqn:?; try discriminate T | (if ?x then _ else _) = _ => destruct x; try discriminate T end; injection T as T; discriminate T.
    + intros rest. cbn [app tell]. rewrite T, Q. reflexivity.
Qed.
Lemma after_app E calls : forall t t' more, after E t calls = Some t' -> after E t (calls ++ more) = after E t' more.
Proof.
  induction calls as [|d calls IH]; intros t t' more A; cbn [after app] in *; [congruence|]. destruct (told E t d) as [[x t1]|]; [|discriminate]. eauto.
Qed.
Lemma told_vals E t c o t' : told E t c = Some (o, t') -> exists v, t_vals t' = t_vals t ++ [v].
Proof.
  unfold told. intros T.
  repeat match type of T with match ?x with _ => _ end = _ => destruct x eqn:?; try discriminate T | (if ?x then _ else _) = _ => destruct x; try discriminate T end;
    (assert (Q : t' = snd (o, t')) by reflexivity; rewrite Q; injection T as <- <-; eexists; reflexivity).
Qed.
Lemma after_vals E calls : forall t t', after E t calls = Some t' -> length (t_vals t') = (length (t_vals t) + length calls)%nat /\
  forall x, (x < length (t_vals t))%nat -> nth x (t_vals t') None = nth x (t_vals t) None.
Proof.
  induction calls as [|d calls IH]; intros t t' A; cbn [after length] in *; [injection A as <-; split; [lia|auto]|].
  destruct (told E t d) as [[x t1]|] eqn:T; [|discriminate]. destruct (told_vals _ _ _ _ _ T) as (v & V). destruct (IH _ _ A) as [L N]. rewrite V, app_length in L. cbn [length] in L.
  split; [lia|]. intros y H. rewrite N by (rewrite V, app_length; lia). rewrite V. apply app_nth1, H.
Qed.

(** ** What is written where *)
Definition is_own (j : nat) (n : name) : Prop := match n with Made _ => False | Own_sub k _ | Own_list k _ => k = j end.
Definition not_own (j : nat) (x : option name) : Prop := match x with Some n => ~ is_own j n | None => True end.
(** outside signature j and its lists there is no pointer to what Sign made for it *)
Record apart (j : nat) (t : tale) : Prop := mk_apart {
  ap_before : forall n, now (t_log t) n <> None -> (call_of n < length (t_vals t))%nat;
  ap_made : (j < length (t_vals t))%nat;
  ap_vals : Forall (not_own j) (t_vals t);
  ap_lists : forall n l, now (t_log t) n = Some (List l) -> ~ is_own j n -> Forall (not_own j) l;
  ap_sigs : forall n a b g, now (t_log t) n = Some (Sig a b g) -> n <> Made j -> not_own j a /\ not_own j b
}.
Lemma val_not_own j t x : apart j t -> not_own j (nth x (t_vals t) None).
Proof.
  intros A. destruct (Nat.lt_ge_cases x (length (t_vals t))) as [H|H]; [pose proof (ap_vals _ _ A) as F; rewrite Forall_forall in F; apply F, nth_In, H|rewrite nth_overflow by exact H; exact I].
Qed.
Lemma put_forall {A} (P : A -> Prop) l i x : Forall P l -> P x -> Forall P (put l i x).
Proof. intros F H. revert i. induction F; intros [|i]; cbn [put]; auto. Qed.
Lemma list_not_own j t x : apart j t -> not_own j x -> Forall (not_own j) (list_now (t_log t) x).
Proof.
  intros A N. unfold list_now. destruct x as [n|]; cbn [now_at]; [|constructor]. destruct (now (t_log t) n) as [[| l|]|] eqn:Q; try constructor. exact (ap_lists _ _ A n l Q N).
Qed.
(** one more write *)
Lemma apart_write j t n th v : apart j t -> (call_of n <= length (t_vals t))%nat -> not_own j v ->
  (forall l, th = List l -> ~ is_own j n -> Forall (not_own j) l) -> (forall a b g, th = Sig a b g -> n <> Made j -> not_own j a /\ not_own j b) ->
  apart j (mk_tale ((n, th) :: t_log t) (t_vals t ++ [v])).
Proof.
  intros A C V L S. split; cbn [t_log t_vals now].
  - intros k. rewrite app_length. cbn [length]. destruct (name_dec k n) as [-> |]; [lia|]. intros K. pose proof (ap_before _ _ A k K). lia.
  - rewrite app_length. pose proof (ap_made _ _ A). lia.
  - apply Forall_app. split; [apply (ap_vals _ _ A)|auto].
  - intros k l. destruct (name_dec k n) as [-> |]; [intros Q; injection Q as ->; auto|apply (ap_lists _ _ A)].
  - intros k a b g. destruct (name_dec k n) as [-> |]; [intros Q; injection Q as ->; eauto|apply (ap_sigs _ _ A)].
Qed.
Lemma apart_val j t v : apart j t -> not_own j v -> apart j (mk_tale (t_log t) (t_vals t ++ [v])).
Proof.
  intros A V. split; cbn [t_log t_vals].
  - intros k K. pose proof (ap_before _ _ A k K). rewrite app_length. lia.
  - rewrite app_length. pose proof (ap_made _ _ A). lia.
  - apply Forall_app. split; [apply (ap_vals _ _ A)|auto].
  - apply (ap_lists _ _ A).
  - apply (ap_sigs _ _ A).
Qed.
(** the things signature j is made of, with the subpackets given to Sign, keep what they hold *)
Definition part_of (j : nat) (given : list (option name)) (n : name) : Prop := n = Made j \/ is_own j n \/ In (Some n) given.
Definition given_subs (t : tale) (given : list (option name)) : Prop := forall n, In (Some n) given -> exists v, now (t_log t) n = Some (Sub v).
Definition kept (j : nat) (given : list (option name)) (t t' : tale) : Prop := forall n, part_of j given n -> now (t_log t') n = now (t_log t) n.
Lemma kept_write j given t n th v : ~ part_of j given n -> kept j given t (mk_tale ((n, th) :: t_log t) v).
Proof. intros N k K. cbn [t_log now]. destruct (name_dec k n) as [-> |]; [contradiction|reflexivity]. Qed.
Lemma fresh_part j given t n : apart j t -> given_subs t given -> call_of n = length (t_vals t) -> ~ part_of j given n.
Proof.
  intros A G Q. pose proof (ap_made _ _ A). intros [-> |[K|K]].
  - cbn [call_of] in Q. lia.
  - destruct n; cbn [is_own call_of] in *; try contradiction; lia.
  - destruct (G n K) as (v & W). pose proof (ap_before _ _ A n ltac:(congruence)). lia.
Qed.
Ltac opened T := repeat match type of T with match ?x with _ => _ end = _ => destruct x eqn:?; try discriminate T | (if ?x then _ else _) = _ => destruct x eqn:?; try discriminate T end.
Lemma step_spares E j given t c o t' : apart j t -> given_subs t given -> (exists a b g, now (t_log t) (Made j) = Some (Sig a b g)) ->
  match c with
  | P_part s _ | P_assign s _ _ => nth s (t_vals t) None <> Some (Made j)
  | P_set x _ => ~ In (nth x (t_vals t) None) given
  | _ => True
  end -> told E t c = Some (o, t') -> apart j t' /\ kept j given t t'.
Proof.
  intros A G J K T. unfold told in T. pose proof (val_not_own j t) as VN. destruct c.
  - injection T as <- <-. split; [apply apart_write; auto; [cbn; auto|discriminate|discriminate]|apply kept_write, (fresh_part j given t); auto].
  - injection T as <- <-. split; [apply apart_write; auto; [cbn; auto| |discriminate]|apply kept_write, (fresh_part j given t); auto].
    intros l' Q _. injection Q as <-. apply Forall_map, Forall_forall. intros x _. apply VN, A.
  - opened T. injection T as <- <-. set (k := length (t_vals t)) in *. pose proof (ap_made _ _ A) as JK. fold k in JK.
    assert (OW : forall i, not_own j (Some (Own_sub k i))) by (intros i; cbn; lia). assert (OL : forall i, not_own j (Some (Own_list k i))) by (intros i; cbn; lia).
    pose proof (list_not_own j t _ A (VN hashed A)) as LH. pose proof (list_not_own j t _ A (VN unhashed A)) as LU. split.
    + split; cbn [t_log t_vals now].
      * intros n. rewrite app_length. cbn [length]. fold k. repeat match goal with |- context [name_dec n ?x] => destruct (name_dec n x) as [-> |]; [intros _; cbn [call_of]; lia|] end.
        intros N. pose proof (ap_before _ _ A n N). fold k in H. lia.
      * rewrite app_length. fold k. lia.
      * apply Forall_app. split; [apply (ap_vals _ _ A)|constructor; [cbn; auto|constructor]].
      * intros n l'. repeat match goal with |- context [name_dec n ?x] => destruct (name_dec n x) as [-> |]; [intros Q _; first [discriminate Q|injection Q as <-; repeat (constructor; [apply OW|]); assumption]|] end. apply (ap_lists _ _ A).
      * intros n a' b' g'. repeat match goal with |- context [name_dec n ?x] => destruct (name_dec n x) as [-> |]; [intros Q _; first [discriminate Q|injection Q as <- <- <-; split; apply OL]|] end. apply (ap_sigs _ _ A).
    + intros n P. cbn [t_log now]. repeat match goal with |- context [name_dec n ?x] => destruct (name_dec n x) as [-> |]; [exfalso; revert P; apply (fresh_part j given t); auto|] end. reflexivity.
  - opened T. injection T as <- <-. split; [|intros n _; reflexivity]. apply apart_val; [exact A|]. destruct (nth s (t_vals t) None) as [n|] eqn:V; [|discriminate]. cbn [now_at] in *.
    assert (n <> Made j) as N by congruence. match goal with Q : now _ n = Some (Sig ?a ?b ?g) |- _ => destruct (ap_sigs _ _ A n a b g Q N) end. destruct hashed; assumption.
  - opened T. injection T as <- <-. split; [|intros n _; reflexivity]. apply apart_val; [exact A|]. pose proof (list_not_own j t _ A (VN l A)) as F. rewrite Forall_forall in F. apply F. eapply nth_error_In; eassumption.
  - opened T. injection T as <- <-. match goal with Q : nth x (t_vals t) None = Some ?k |- _ => rename k into n; rename Q into V end. pose proof (VN x A) as NO. rewrite V in *. cbn [now_at not_own] in *.
    match goal with Q : now (t_log t) n = Some (Sub _) |- _ => rename Q into W end. split.
    + apply apart_write; [exact A|pose proof (ap_before _ _ A n ltac:(congruence)); lia|exact I|discriminate|discriminate].
    + apply kept_write. intros [-> |[P|P]]; [|contradiction|contradiction]. destruct J as (a & b & g & J). congruence.
  - opened T. injection T as <- <-. match goal with Q : nth l (t_vals t) None = Some ?k |- _ => rename k into n; rename Q into V end. pose proof (VN l A) as NO. rewrite V in *. cbn [now_at not_own] in *.
    match goal with Q : now (t_log t) n = Some (List _) |- _ => rename Q into W end. split.
    + apply apart_write; [exact A|pose proof (ap_before _ _ A n ltac:(congruence)); lia|exact I| |discriminate].
      intros l' Q _. injection Q as <-. apply put_forall; [exact (ap_lists _ _ A n _ W NO)|apply VN, A].
    + apply kept_write. intros [-> |[P|P]]; [|contradiction|]; [destruct J as (a & b & g & J); congruence|destruct (G n P) as (v & Y); congruence].
  - opened T. injection T as <- <-. match goal with Q : nth s (t_vals t) None = Some ?k |- _ => rename k into n; rename Q into V end. pose proof (VN s A) as NO. rewrite V in *. cbn [now_at not_own] in *.
    match goal with Q : now (t_log t) n = Some (Sig ?a0 ?b0 ?g0) |- _ => rename Q into W; destruct (ap_sigs _ _ A n a0 b0 g0 W ltac:(congruence)) as [W1 W2] end. split.
    + apply apart_write; [exact A|pose proof (ap_before _ _ A n ltac:(congruence)); lia|exact I|destruct hashed; discriminate|].
      intros a b g Q _. pose proof (VN l A). destruct hashed; injection Q as <- <- <-; auto.
    + apply kept_write. intros [-> |[P|P]]; [congruence|contradiction|]. destruct (G n P) as (v & Y). congruence.
  - opened T. injection T as <- <-. split; [|intros n _; reflexivity]. apply apart_val; [exact A|exact I].
Qed.
(** all names are of calls made so far *)
Definition old (k : nat) (x : option name) : Prop := match x with Some n => (call_of n < k)%nat | None => True end.
Definition old_thing (k : nat) (th : thing) : Prop :=
  match th with Sub _ => True | List l => Forall (old k) l | Sig a b _ => old k a /\ old k b end.
Record closed (t : tale) : Prop := mk_closed {
  cl_names : forall n th, now (t_log t) n = Some th -> (call_of n < length (t_vals t))%nat /\ old_thing (length (t_vals t)) th;
  cl_vals : Forall (old (length (t_vals t))) (t_vals t)
}.
Lemma old_more k x : old k x -> old (S k) x.
Proof. destruct x; cbn [old]; [lia|auto]. Qed.
Lemma old_list_more k l : Forall (old k) l -> Forall (old (S k)) l.
Proof. apply Forall_impl, old_more. Qed.
Lemma old_thing_more k th : old_thing k th -> old_thing (S k) th.
Proof. destruct th; cbn [old_thing]; [auto|apply old_list_more|]. intros [A B]. auto using old_more. Qed.
Lemma val_old t x : closed t -> old (length (t_vals t)) (nth x (t_vals t) None).
Proof.
  intros A. destruct (Nat.lt_ge_cases x (length (t_vals t))) as [H|H]; [pose proof (cl_vals _ A) as F; rewrite Forall_forall in F; apply F, nth_In, H|rewrite nth_overflow by exact H; exact I].
Qed.
Lemma list_old t x : closed t -> Forall (old (length (t_vals t))) (list_now (t_log t) x).
Proof.
  intros A. unfold list_now. destruct x as [n|]; cbn [now_at]; [|constructor]. destruct (now (t_log t) n) as [[| l|]|] eqn:Q; try constructor. exact (proj2 (cl_names _ A n _ Q)).
Qed.
Lemma closed_next t w v : closed t -> (forall n th, now w n = Some th -> now (t_log t) n = Some th \/ ((call_of n <= length (t_vals t))%nat /\ old_thing (S (length (t_vals t))) th)) ->
  old (S (length (t_vals t))) v -> closed (mk_tale w (t_vals t ++ [v])).
Proof.
  intros A W V. split; cbn [t_log t_vals]; rewrite app_length, Nat.add_comm; cbn [length Nat.add].
  - intros n th Q. destruct (W n th Q) as [P|[P1 P2]]; [|split; [lia|exact P2]]. destruct (cl_names _ A n th P) as [P1 P2]. split; [lia|apply old_thing_more, P2].
  - apply Forall_app. split; [apply old_list_more, (cl_vals _ A)|auto].
Qed.
Lemma one_write t m th : (call_of m <= length (t_vals t))%nat -> old_thing (S (length (t_vals t))) th ->
  forall n th0, now ((m, th) :: t_log t) n = Some th0 -> now (t_log t) n = Some th0 \/ ((call_of n <= length (t_vals t))%nat /\ old_thing (S (length (t_vals t))) th0).
Proof. intros M T n th0. cbn [now]. destruct (name_dec n m) as [-> |]; [intros Q; injection Q as <-; auto|auto]. Qed.
Lemma step_closed E t c o t' : closed t -> told E t c = Some (o, t') -> closed t'.
Proof.
  intros A T. unfold told in T. destruct c.
  - injection T as <- <-. apply closed_next; [exact A|apply one_write; cbn; auto|cbn; lia].
  - injection T as <- <-. apply closed_next; [exact A|apply one_write; [cbn; lia|]|cbn; lia]. cbn [old_thing]. apply Forall_map, Forall_forall. intros x _. apply old_more, val_old, A.
  - opened T. injection T as <- <-. apply closed_next; [exact A| |cbn; lia]. intros n th. cbn [now].
    repeat match goal with |- context [name_dec n ?x] => destruct (name_dec n x) as [-> |]; [intros Q; injection Q as <-; right; split; [cbn [call_of]; lia|cbn [old_thing]; repeat split; repeat (apply Forall_cons); try (cbn; lia); apply old_list_more, list_old, A]|] end. auto.
  - opened T. injection T as <- <-. apply closed_next; [exact A|auto|]. destruct (nth s (t_vals t) None) as [n|]; [|discriminate]. cbn [now_at] in *.
    match goal with Q : now _ n = Some (Sig _ _ _) |- _ => destruct (proj2 (cl_names _ A n _ Q)) end. destruct hashed; apply old_more; assumption.
  - opened T. injection T as <- <-. apply closed_next; [exact A|auto|]. apply old_more. pose proof (list_old t (nth l (t_vals t) None) A) as F. rewrite Forall_forall in F. apply F. eapply nth_error_In; eassumption.
  - opened T. injection T as <- <-. apply closed_next; [exact A|apply one_write; [|exact I]|exact I]. pose proof (val_old t x A) as O. match goal with Q : nth x _ _ = Some _ |- _ => rewrite Q in O end. cbn [old] in O. lia.
  - opened T. injection T as <- <-. match goal with Q : nth l _ _ = Some ?k |- _ => rename k into n; rename Q into V end. pose proof (val_old t l A) as O. rewrite V in *. cbn [old now_at] in *.
    match goal with Q : now (t_log t) n = Some (List ?k) |- _ => pose proof (proj2 (cl_names _ A n _ Q)) as W end. apply closed_next; [exact A|apply one_write; [lia|]|exact I]. cbn [old_thing] in *.
    apply put_forall; [apply old_list_more, W|apply old_more, val_old, A].
  - opened T. injection T as <- <-. match goal with Q : nth s _ _ = Some ?k |- _ => rename k into n; rename Q into V end. pose proof (val_old t s A) as O. rewrite V in *. cbn [old now_at] in *.
    match goal with Q : now (t_log t) n = Some (Sig ?a0 ?b0 ?g0) |- _ => pose proof (proj2 (cl_names _ A n _ Q)) as W end. apply closed_next; [exact A|apply one_write; [lia|]|exact I]. cbn [old_thing] in *. destruct W as [W1 W2].
    pose proof (val_old t l A) as OL. destruct hashed; cbn [old_thing]; auto using old_more.
  - opened T. injection T as <- <-. apply closed_next; [exact A|auto|exact I].
Qed.
Lemma after_closed E calls : forall t t', closed t -> after E t calls = Some t' -> closed t'.
Proof.
  induction calls as [|c calls IH]; intros t t' A Q; cbn [after] in Q; [congruence|]. destruct (told E t c) as [[o t1]|] eqn:T; [|discriminate]. eapply IH; [eapply step_closed; eassumption|exact Q].
Qed.
Lemma no_tale_closed : closed no_tale.
Proof. split; [discriminate|constructor]. Qed.
Lemma old_not_own k x : old k x -> not_own k x.
Proof. destruct x as [n|]; cbn [old not_own]; [|auto]. intros H O. destruct n; cbn [is_own call_of] in *; lia. Qed.

(** right after Sign *)
Lemma sign_apart E t private fp hash data type hs us time o t1 : closed t -> told E t (P_sign private fp hash data type hs us time) = Some (o, t1) ->
  let j := length (t_vals t) in let w := t_log t in
  apart j t1 /\ nth j (t_vals t1) None = Some (Made j) /\
  exists hashed g, subs_now w (list_now w (nth hs (t_vals t) None)) = Some hashed /\
    sign E private (mk_req fp hash data type hashed [] time) = Ok g /\ length private = 64%nat /\ (8 <= length fp)%nat /\ known hash = true /\
    now (t_log t1) (Made j) = Some (Sig (Some (Own_list j true)) (Some (Own_list j false)) g) /\
    now (t_log t1) (Own_list j true) = Some (List (Some (Own_sub j 0) :: Some (Own_sub j 1) :: list_now w (nth hs (t_vals t) None))) /\
    now (t_log t1) (Own_list j false) = Some (List (Some (Own_sub j 2) :: list_now w (nth us (t_vals t) None))) /\
    now (t_log t1) (Own_sub j 0) = Some (Sub (mk_sub 33 (4 :: fp))) /\ now (t_log t1) (Own_sub j 1) = Some (Sub (mk_sub 2 (be_bytes 4 (u32 (t_unix time))))) /\
    now (t_log t1) (Own_sub j 2) = Some (Sub (mk_sub 16 (skipn (length fp - 8) fp))) /\
    forall n, (call_of n < j)%nat -> now (t_log t1) n = now w n.
Proof.
  intros A T j w. pose proof (step_closed _ _ _ _ _ A T) as A1. unfold told in T. fold w j in T. opened T. pose proof (f_equal (fun x => match x with Some (_, y) => y | None => t end) T) as T'; cbv beta iota in T'; subst t1. cbn [t_log t_vals] in *.
  split; [|split; [apply nth_middle|]].
  - assert (OL : forall x, Forall (not_own j) (list_now w x)) by (intros x; eapply Forall_impl; [intros y; apply old_not_own|apply list_old, A]).
    split; cbn [t_log t_vals].
    + intros n N. destruct (now _ n) as [th|] eqn:Q; [|congruence]. exact (proj1 (cl_names _ A1 n th Q)).
    + rewrite app_length. cbn [length]. fold j. lia.
    + apply Forall_app. split; [eapply Forall_impl; [intros y; apply old_not_own|apply (cl_vals _ A)]|constructor; [cbn; auto|constructor]].
    + intros n l'. cbn [now]. repeat match goal with |- context [name_dec n ?x] => destruct (name_dec n x) as [-> |]; [intros Q N; first [discriminate Q|exfalso; apply N; reflexivity]|] end.
      intros Q _. eapply Forall_impl; [intros y; apply old_not_own|]. exact (proj2 (cl_names _ A n _ Q)).
    + intros n a' b' g'. cbn [now]. repeat match goal with |- context [name_dec n ?x] => destruct (name_dec n x) as [-> |]; [intros Q N; first [discriminate Q|exfalso; apply N; reflexivity]|] end.
      intros Q _. destruct (proj2 (cl_names _ A n _ Q)). split; apply old_not_own; assumption.
  - match goal with Q : _ && _ && _ = true |- _ => apply andb_prop in Q as [Q Q3]; apply andb_prop in Q as [Q1 Q2] end.
    exists l, a. split; [reflexivity|]. split; [exact Heqr|].
    split; [lia|]. split; [lia|]. split; [assumption|].
    cbn [now]. repeat split; try (repeat match goal with |- context [name_dec ?x ?y] => destruct (name_dec x y) as [?Q|?Q]; [try discriminate|try congruence] end; reflexivity).
    intros n N. repeat match goal with |- context [name_dec n ?y] => destruct (name_dec n y) as [-> |_]; [cbn [call_of] in N; lia|] end. reflexivity.
Qed.
Lemma subs_kept w w' l : (forall n, In (Some n) l -> now w' n = now w n) -> subs_now w' l = subs_now w l.
Proof.
  induction l as [|x l IH]; intros K; [reflexivity|]. cbn [subs_now]. rewrite IH by (intros n N; apply K; right; exact N). destruct x as [n|]; cbn [now_at]; [|reflexivity]. rewrite K by (left; reflexivity). reflexivity.
Qed.
Lemma subs_there w l r : subs_now w l = Some r -> forall n, In (Some n) l -> exists v, now w n = Some (Sub v).
Proof.
  revert r. induction l as [|x l IH]; intros r; cbn [subs_now In]; [tauto|]. destruct (now_at w x) as [[v| |]|] eqn:N; try discriminate. destruct (subs_now w l) as [r'|] eqn:Q; [|discriminate].
  intros _ n [-> |K]; [exists v; exact N|eapply IH; eauto].
Qed.
Lemma spares_kept E j given calls : forall t t', apart j t -> given_subs t given -> (exists a b g, now (t_log t) (Made j) = Some (Sig a b g)) ->
  spares E j given t calls -> after E t calls = Some t' -> apart j t' /\ kept j given t t'.
Proof.
  induction calls as [|c calls IH]; intros t t' A G J S Q; cbn [after spares] in *; [injection Q as <-; split; [exact A|intros n _; reflexivity]|].
  destruct (told E t c) as [[o t1]|] eqn:T; [|discriminate]. destruct S as [S1 S2]. destruct (step_spares E j given t c o t1 A G J S1 T) as [A1 K1].
  destruct (IH t1 t' A1) as [A2 K2]; auto.
  - intros n N. rewrite (K1 n) by (right; right; exact N). auto.
  - rewrite (K1 (Made j)) by (left; reflexivity). exact J.
  - split; [exact A2|]. intros n P. rewrite (K2 n P). apply (K1 n P).
Qed.
Definition shown (E : Env) (calls : list p_call) : p_seen := last (p_run E p_init calls) P_done.
Lemma shown_told E calls t c : sizes_ok E -> after E no_tale calls = Some t ->
  shown E (calls ++ [c]) = match told E t c with Some (o, _) => o | None => P_panicked end.
Proof.
  intros S A. unfold shown. rewrite (tale_true E _ S). destruct (tell_app E calls no_tale t c A) as (o & _ & _ & Q). rewrite Q. destruct (told E t c) as [[x t']|]; cbn [tell]; apply last_last.
Qed.
Lemma told_encode E t s : told E t (P_encode s) = match nth s (t_vals t) None with
  | Some n => match now (t_log t) n with
              | Some (Sig a b g) =>
                  match subs_now (t_log t) (list_now (t_log t) a), subs_now (t_log t) (list_now (t_log t) b) with
                  | Some h, Some u => Some (P_bytes (sig_encode (mk_sig h u (sg_type g) (sg_hash g) (sg_digest g) (sg_r g) (sg_s g))), mk_tale (t_log t) (t_vals t ++ [None]))
                  | _, _ => None
                  end
              | _ => None
              end
  | None => None
  end.
Proof. unfold told. destruct (nth s (t_vals t) None); reflexivity. Qed.

(** What Encode shows after any program: the subpackets as they are now, and digest, R and S as Sign made them. *)
Theorem encode_shows_now : forall E calls t private fp hash data type hs us time more t',
  sizes_ok E -> after E no_tale calls = Some t ->
  let sign_call := P_sign private fp hash data type hs us time in let j := length calls in
  after E no_tale (calls ++ sign_call :: more) = Some t' ->
  exists hashed g, subs_now (t_log t) (list_now (t_log t) (nth hs (t_vals t) None)) = Some hashed /\
    sign E private (mk_req fp hash data type hashed [] time) = Ok g /\
    shown E (calls ++ sign_call :: more ++ [P_encode j]) =
      match signature_now t' j with
      | Some (h, u, g') => P_bytes (sig_encode (mk_sig h u (sg_type g) (sg_hash g) (sg_digest g) (sg_r g) (sg_s g)))
      | None => P_panicked
      end.
Proof.
  intros E calls t private fp hash data type hs us time more t' S A sc j A'. rewrite (after_app _ _ _ _ _ A) in A'. cbn [after] in A'.
  destruct (told E t sc) as [[o t1]|] eqn:T; [|discriminate]. pose proof (after_closed _ _ _ _ no_tale_closed A) as C.
  destruct (after_vals _ _ _ _ A) as [LV _]. cbn [no_tale t_vals length Nat.add] in LV.
  destruct (sign_apart E t _ _ _ _ _ _ _ _ _ _ C T) as (AP & VJ & hashed & g & SH & SG & _ & _ & _ & NJ & _). rewrite LV in *. fold j in AP, VJ, NJ.
  exists hashed, g. split; [exact SH|]. split; [exact SG|].
  assert (A2 : after E no_tale (calls ++ sc :: more) = Some t') by (rewrite (after_app _ _ _ _ _ A); cbn [after]; rewrite T; exact A').
  change (calls ++ sc :: more ++ [P_encode j]) with (calls ++ (sc :: more) ++ [P_encode j]). rewrite app_assoc, (shown_told E _ t' _ S A2), told_encode.
  destruct (after_vals _ _ _ _ A') as [_ NV]. rewrite NV by exact (ap_made _ _ AP). rewrite VJ. unfold signature_now.
  assert (G : forall calls t t', (exists a b, now (t_log t) (Made j) = Some (Sig a b g)) -> (j < length (t_vals t))%nat -> after E t calls = Some t' -> exists a b, now (t_log t') (Made j) = Some (Sig a b g)).
  { clearbody j. clear. intros cs. induction cs as [|c cs IH]; intros t t' J L Q; cbn [after] in Q; [injection Q as <-; exact J|]. destruct (told E t c) as [[o t1]|] eqn:T; [|discriminate].
    destruct (told_vals _ _ _ _ _ T) as (v & TV). refine (IH t1 t' _ _ Q); [|rewrite TV, app_length; lia]. clear IH Q TV v. destruct J as (a & b & J). unfold told in T.
    destruct c; opened T; match type of T with Some (_, ?y) = _ => assert (t1 = y) as -> by congruence end; cbn [t_log now]; repeat match goal with |- context [name_dec (Made j) ?y] => destruct (name_dec (Made j) y) as [?Q|?Q]; [first [discriminate|injection Q as Q; lia|idtac]|] end; eauto.
    - subst. cbn [now_at] in *. congruence.
    - subst. cbn [now_at] in *. congruence.
    - subst. cbn [now_at] in *. match goal with X : now _ (Made j) = Some (Sig _ _ ?g') |- _ => assert (g' = g) as -> by congruence end. destruct hashed; eauto. }
  destruct (G more t1 t' ltac:(eauto) (ap_made _ _ AP) A') as (a & b & W). rewrite W. destruct (subs_now _ (list_now _ a)); [|reflexivity]. destruct (subs_now _ (list_now _ b)); reflexivity.
Qed.
Print Assumptions encode_shows_now.

(** A signature stays what it is as long as nothing is taken out of it or assigned to it and the subpackets given to Sign are
    not changed, whatever happens to the slices given to Sign and to other signatures. *)
Theorem signature_kept : forall E calls t private fp hash data type hs us time t1 more t' b,
  sizes_ok E -> after E no_tale calls = Some t ->
  let sign_call := P_sign private fp hash data type hs us time in let j := length calls in
  let given := list_now (t_log t) (nth hs (t_vals t) None) ++ list_now (t_log t) (nth us (t_vals t) None) in
  shown E (calls ++ [sign_call; P_encode j]) = P_bytes b ->
  after E t [sign_call] = Some t1 -> after E t1 more = Some t' -> spares E j given t1 more ->
  shown E (calls ++ sign_call :: more ++ [P_encode j]) = P_bytes b.
Proof.
  intros E calls t private fp hash data type hs us time t1 more t' b S A sc j given SB A1 A' SP. pose proof (after_closed _ _ _ _ no_tale_closed A) as C.
  destruct (after_vals _ _ _ _ A) as [LV _]. cbn [no_tale t_vals length Nat.add] in LV. cbn [after] in A1. destruct (told E t sc) as [[o t1']|] eqn:T; [|discriminate]. injection A1 as ->.
  destruct (sign_apart E t _ _ _ _ _ _ _ _ _ _ C T) as (AP & VJ & hashed & g & SH & SG & _ & _ & _ & NJ & NH & NU & N0 & N1 & N2 & OLD). rewrite LV in *. fold j in AP, VJ, NJ, NH, NU, N0, N1, N2, OLD.
  assert (A2 : after E no_tale (calls ++ [sc]) = Some t1) by (rewrite (after_app _ _ _ _ _ A); cbn [after]; rewrite T; reflexivity).
  assert (A3 : after E no_tale (calls ++ sc :: more) = Some t') by (rewrite (after_app _ _ _ _ _ A); cbn [after]; rewrite T; exact A').
  change [sc; P_encode j] with ([sc] ++ [P_encode j]) in SB. rewrite app_assoc, (shown_told E _ t1 _ S A2), told_encode, VJ, NJ in SB.
  change (calls ++ sc :: more ++ [P_encode j]) with (calls ++ (sc :: more) ++ [P_encode j]). rewrite app_assoc, (shown_told E _ t' _ S A3), told_encode.
  destruct (after_vals _ _ _ _ A') as [_ NV]. rewrite NV by exact (ap_made _ _ AP). rewrite VJ. unfold list_now in SB |- *. cbn [now_at] in SB |- *. rewrite NH, NU in SB.
  match type of SB with match match subs_now ?w1 ?l1 with _ => _ end with _ => _ end = _ => destruct (subs_now w1 l1) as [h1|] eqn:Q1; [|discriminate] end.
  match type of SB with match match subs_now ?w1 ?l1 with _ => _ end with _ => _ end = _ => destruct (subs_now w1 l1) as [u1|] eqn:Q2; [|discriminate] end.
  assert (GS : given_subs t1 given).
  { intros n N. unfold given in N. apply in_app_or in N as [N|N]; [eapply (subs_there _ _ _ Q1)|eapply (subs_there _ _ _ Q2)]; cbn [In]; auto. }
  destruct (spares_kept E j given more t1 t' AP GS ltac:(eauto) SP A') as [_ K].
  rewrite (K (Made j)) by (left; reflexivity). rewrite NJ. cbv beta iota. cbn [now_at]. rewrite !K by (right; left; reflexivity). rewrite NH, NU.
  rewrite (subs_kept (t_log t1) (t_log t')), Q1. 2:{ intros n [Q|[Q|N]]; [injection Q as <-; apply K; right; left; reflexivity|injection Q as <-; apply K; right; left; reflexivity|]. apply K. right. right. unfold given. apply in_or_app. auto. }
  rewrite (subs_kept (t_log t1) (t_log t')), Q2. 2:{ intros n [Q|N]; [injection Q as <-; apply K; right; left; reflexivity|]. apply K. right. right. unfold given. apply in_or_app. auto. }
  exact SB.
Qed.
Print Assumptions signature_kept.

(** What anyone can change: with the hashed subpackets as Sign left them, the encoding still verifies, whatever the unhashed
    ones are now, so also if the subpacket naming the issuer names another key. *)
Theorem unhashed_unprotected : forall E edv sd fp data type hs us time calls t more t' given u g',
  sizes_ok E -> hash_ok E -> ed25519_ok E edv -> block32 sd -> length fp = 20%nat -> 0 <= type < 256 ->
  after E no_tale calls = Some t ->
  let sign_call := P_sign (sd ++ ed25519_public E sd) fp 8 data type hs us time in let j := length calls in
  after E no_tale (calls ++ sign_call :: more) = Some t' ->
  subs_now (t_log t) (list_now (t_log t) (nth hs (t_vals t) None)) = Some given -> Forall small_sub given -> subs_size given <= 1000 ->
  signature_now t' j = Some (mk_sub 33 (4 :: fp) :: mk_sub 2 (bytes_of_bits 32 (t_unix time)) :: given, u, g') -> subs_ok u ->
  exists b p, shown E (calls ++ sign_call :: more ++ [P_encode j]) = P_bytes b /\ read_signature b = Some p /\
    sp_unhashed p = map (fun s => (sub_type s, sub_body s)) u /\
    forall pk, pk_point pk = ed25519_public E sd -> pk_alg pk = 22 -> verifies E edv pk data p = true.
Proof.
  intros E edv sd fp data type hs us time calls t more t' given u g' S HH HS Hsd Lf Ht A sc j A' G GS GL SN U.
  destruct (encode_shows_now E calls t _ fp 8 data type hs us time more t' S A A') as (hashed & g & SH & SG & SHOW).
  assert (hashed = given) as -> by congruence. fold sc j in SHOW. rewrite SN in SHOW.
  destruct (sign_ok E edv sd (mk_req fp 8 data type given [] time) HH HS Hsd eq_refl Ht Lf GS GL) as (g1 & SG1 & (T1 & H1 & K1 & K2 & D & R & SS) & TY & HD & _ & _ & V); [constructor|discriminate|].
  assert (g1 = g) as -> by congruence. cbn [rq_fingerprint rq_time rq_hashed] in HD. unfold stamp_subs in HD. cbn [app] in HD.
  set (g2 := mk_sig _ u _ _ _ _ _) in SHOW. assert (OK : sig_ok g2).
  { subst g2. unfold sig_ok. cbn [sg_type sg_hash sg_hashed sg_unhashed sg_digest sg_r sg_s]. rewrite <- HD. auto 8. }
  exists (sig_encode g2), (sig_of g2). split; [exact SHOW|]. split; [apply read_signature_encode, OK|]. split; [reflexivity|].
  intros pk P1 P2. rewrite <- (V pk P1 P2). subst g2. rewrite <- HD. reflexivity.
Qed.
Print Assumptions unhashed_unprotected.

(** ** Cases *)
(** cheap digests and signatures *)
Definition sum_sign (pub m : bytes) : bytes := SliceProps.sum_hash 64 (pub ++ m).
Definition sum_verify (pub m sg : bytes) : bool := bytes_eqb sg (sum_sign pub m).
Definition sum_env : Env := {|
  wl_words := wl_words toy_env; wl_search := wl_search toy_env; unicode_lower := unicode_lower toy_env; trim_space := trim_space toy_env;
  argon2id := argon2id toy_env; aes_encrypt := aes_encrypt toy_env; aes_decrypt := aes_decrypt toy_env;
  sha1 := SliceProps.sum_hash 20; sha256 := SliceProps.sum_hash 32; sha384 := SliceProps.sum_hash 48; sha512 := SliceProps.sum_hash 64;
  hkdf_expand_sha256 := hkdf_expand_sha256 toy_env; ed25519_public := ed25519_public toy_env;
  ed25519_sign := fun priv m => sum_sign (skipn 32 priv) m; x25519_base := x25519_base toy_env; rand_int31n := rand_int31n toy_env;
  seconds_u32 := seconds_u32 toy_env; armor_encode := armor_encode toy_env
|}.
Lemma sum_ok n m : length (SliceProps.sum_hash n m) = n /\ Forall byte (SliceProps.sum_hash n m).
Proof. split; [apply BitsP.be_bytes_length|apply BitsP.be_bytes_byte]. Qed.
Lemma sum_sizes : sizes_ok sum_env.
Proof. constructor; intros; try apply sum_ok. cbn [ed25519_public sum_env toy_env]. rewrite map_length. assumption. Qed.
Lemma sum_hash_ok : hash_ok sum_env.
Proof. intros m. split; apply sum_ok. Qed.
Lemma sum_ed25519_ok : ed25519_ok sum_env sum_verify.
Proof.
  intros sd B. split; [exact (proj1 (toy_ed25519_ok sd B))|]. intros m. cbn [ed25519_sign sum_env]. unfold sum_verify. rewrite skipn_app, (proj1 B), Nat.sub_diag, skipn_all2 by (destruct B; lia). cbn [app skipn].
  split; [apply sum_ok|]. split; [apply sum_ok|apply BitsP.bytes_eqb_refl].
Qed.
Definition case_seed : bytes := repeat 7 32.
Definition case_private : bytes := case_seed ++ ed25519_public sum_env case_seed.
Definition case_pk : public_key := mk_pk 0 22 [] (ed25519_public sum_env case_seed) None [].
(** A list with one subpacket, an empty one, and a signature. *)
Definition case_calls : list p_call := [P_list []; P_sub (mk_sub 27 [3]); P_list [1%nat]].
Definition case_sign (data : bytes) : p_call := P_sign case_private (repeat 5 20) 8 data 19 2 0 (3 * 10 ^ 9).
(** Another signature is made of the same request; its time is set and its unhashed list replaced; then the slice given to both
    calls gets nil for its subpacket. *)
Definition case_more : list p_call :=
  [case_sign (bs "other"); P_part 4 true; P_item 5 1; P_set 6 (mk_sub 2 [0; 0; 0; 9]); P_assign 4 false 5; P_put 2 0 99; P_encode 4].
Definition case_t : tale := match after sum_env no_tale case_calls with Some t => t | None => no_tale end.
Definition case_t1 : tale := match after sum_env case_t [case_sign (bs "data")] with Some t => t | None => no_tale end.
Example case_after : after sum_env no_tale case_calls = Some case_t /\ after sum_env case_t [case_sign (bs "data")] = Some case_t1 /\
  exists t', after sum_env case_t1 case_more = Some t'.
Proof. repeat split; try (vm_compute; reflexivity). eexists. vm_compute. reflexivity. Qed.
Example case_spares : spares sum_env 3 (list_now (t_log case_t) (nth 2 (t_vals case_t) None) ++ list_now (t_log case_t) (nth 0 (t_vals case_t) None)) case_t1 case_more.
Proof. vm_compute. repeat split; try discriminate; intros [Q|Q]; [discriminate Q|exact Q]. Qed.
Definition encoded (calls : list p_call) : option bytes := match shown sum_env calls with P_bytes b => Some b | _ => None end.
Definition case_verifies (calls : list p_call) : option bool :=
  match encoded calls with
  | Some b => match read_signature b with Some p => Some (verifies sum_env sum_verify case_pk (bs "data") p) | None => None end
  | None => None
  end.
(** The first signature is as before, and verifies. *)
Example case_kept : encoded (case_calls ++ case_sign (bs "data") :: case_more ++ [P_encode 3]) = encoded (case_calls ++ [case_sign (bs "data"); P_encode 3]) /\
  case_verifies (case_calls ++ case_sign (bs "data") :: case_more ++ [P_encode 3]) = Some true.
Proof. split; vm_compute; reflexivity. Qed.
(** Without the condition on the subpackets given to Sign it is not: the program changes the subpacket both signatures have. *)
Example case_shared : case_verifies (case_calls ++ [case_sign (bs "data"); P_set 1 (mk_sub 27 [1]); P_encode 3]) = Some false.
Proof. vm_compute. reflexivity. Qed.
(** Nor when the time that Sign wrote into it is changed; Encode shows the new time beside the old digest. *)
Example case_own : case_verifies (case_calls ++ [case_sign (bs "data"); P_part 3 true; P_item 4 1; P_set 5 (mk_sub 2 [0; 0; 0; 9]); P_encode 3]) = Some false.
Proof. vm_compute. reflexivity. Qed.
(** The same change in the other list goes unnoticed: the issuer is now another key. *)
Definition case_issuer : list p_call := [P_part 3 false; P_item 4 0; P_set 5 (mk_sub 16 (repeat 66 8))].
Example case_unhashed : case_verifies (case_calls ++ case_sign (bs "data") :: case_issuer ++ [P_encode 3]) = Some true.
Proof. vm_compute. reflexivity. Qed.
Example case_unprotected : exists t' g', after sum_env no_tale (case_calls ++ case_sign (bs "data") :: case_issuer) = Some t' /\
  signature_now t' 3 = Some ([mk_sub 33 (4 :: repeat 5 20); mk_sub 2 (bytes_of_bits 32 (t_unix (3 * 10 ^ 9))); mk_sub 27 [3]], [mk_sub 16 (repeat 66 8)], g').
Proof. eexists. eexists. split; vm_compute; reflexivity. Qed.
Example case_unprotected_met : exists b p, shown sum_env (case_calls ++ case_sign (bs "data") :: case_issuer ++ [P_encode 3]) = P_bytes b /\ read_signature b = Some p /\
  sp_unhashed p = [(16, repeat 66 8)] /\ verifies sum_env sum_verify case_pk (bs "data") p = true.
Proof.
  destruct case_unprotected as (t' & g' & A & SN). destruct case_after as (A0 & _).
  assert (B : block32 case_seed) by (split; [reflexivity|apply Forall_forall; intros x Q; apply repeat_spec in Q as ->; split; [discriminate|reflexivity]]).
  destruct (unhashed_unprotected sum_env sum_verify case_seed (repeat 5 20) (bs "data") 19 2 0 (3 * 10 ^ 9) case_calls case_t case_issuer t' [mk_sub 27 [3]] [mk_sub 16 (repeat 66 8)] g' sum_sizes sum_hash_ok sum_ed25519_ok B)
    as (b & p & H1 & H2 & H3 & H4).
  - reflexivity.
  - split; [discriminate|reflexivity].
  - exact A0.
  - exact A.
  - vm_compute. reflexivity.
  - repeat constructor; discriminate.
  - discriminate.
  - exact SN.
  - split; [repeat constructor; discriminate|reflexivity].
  - exists b, p. repeat split; [exact H1|exact H2|exact H3|]. apply H4; reflexivity.
Qed.
