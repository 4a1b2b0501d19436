(** Lemmas about runs at a terminal (Model/CliTerm.v). *)
From Coq Require Import Lia ZifyBool ZifyNat.
From Verif.Model Require Import GoBase CliInput CliTerm.
From Verif.Spec Require Import InputSpec TermSpec.
From Verif.Proofs Require Import InputP.

Lemma run_play s es s' : term_run s es s' <-> play es s = Some s'.
Proof.
  split.
  - intros R. assert (G : forall es2, play (es ++ es2) s = play es2 s').
    { induction R as [|s es s1 e s2 R IH Q]; [reflexivity|]. intros es2. rewrite <- app_assoc, IH. cbn [app play]. rewrite Q. reflexivity. }
    specialize (G []). rewrite app_nil_r in G. exact G.
  - revert s' . induction es as [|e es IH] using rev_ind; intros s' P.
    + injection P as <-. constructor.
    + assert (G : forall es1 s0, play (es1 ++ [e]) s0 = match play es1 s0 with Some s1 => happen e s1 | None => None end).
      { induction es1 as [|e1 es1 IH1]; intros s0; cbn [app play]; [destruct (happen e s0); reflexivity|]. destruct (happen e1 s0); [apply IH1|reflexivity]. }
      rewrite G in P. destruct (play es s) as [s1|] eqn:Q; [|discriminate]. econstructor; [apply IH; reflexivity|exact P].
Qed.

Lemma Some_inj {A} (a b : A) : Some a = Some b -> a = b. Proof. congruence. Qed.
(** the case analysis of a step *)
Ltac step_cases H := unfold happen in H;
  repeat match type of H with
  | match ?x with _ => _ end = Some _ => let Q := fresh "Q" in destruct x eqn:Q; try discriminate H
  | (if ?x then _ else _) = Some _ => let Q := fresh "Q" in destruct x eqn:Q; try discriminate H
  | (let (_, _) := ?x in _) = Some _ => let Q := fresh "Q" in destruct x eqn:Q; try discriminate H
  end; try (apply Some_inj in H; subst).

Lemma set_nth_forall {A} (P : A -> Prop) i x l : Forall P l -> P x -> Forall P (set_nth i x l).
Proof. intros F X. revert i. induction F as [|a l A1 F IH]; intros [|i]; cbn [set_nth]; constructor; auto. Qed.
Lemma nth_forall {A} (P : A -> Prop) i x l : Forall P l -> nth_error l i = Some x -> P x.
Proof. intros F Q. apply nth_error_In in Q. rewrite Forall_forall in F. auto. Qed.
Lemma call_fst t l : Forall (fun w : attrs * watcher_state => fst w = t) l -> Forall (fun w => fst w = t) (map call_watcher l).
Proof. intros F. apply Forall_map. eapply Forall_impl; [|exact F]. intros [a []]; auto. Qed.

Definition calm (t : attrs) (s : system) : Prop :=
  Forall (fun w => fst w = t) (s_watchers s) /\
  s_interrupted s = false /\ (s_errors s <= 1)%nat /\
  (s_errors s <> 0%nat -> s_reader s = Reader_finished) /\
  match s_main s with Main_select _ => True | _ => s_reader s = Reader_finished /\ s_errors s = 0%nat end /\
  match s_main s with
  | Main_entry saved _ _ => saved = t /\ (s_attrs s = t \/ s_attrs s = raw_attrs t)
  | _ => match s_reader s with
         | Reader_waits _ saved | Reader_read _ saved _ => saved = t /\ (s_attrs s = t \/ s_attrs s = hushed_attrs t)
         | _ => s_attrs s = t
         end
  end.
Ltac tidy := cbn [s_attrs s_queue s_closed s_log s_main s_confirm s_reader s_errors s_interrupted s_watchers s_stdout s_passwords
  set_attrs set_queue set_closed set_log set_main set_reader set_errors set_watchers set_output set_passwords set_prompt set_signal call_watchers] in *.
Lemma next_not_waiting c first line : match reader_next c first line with Reader_waits _ _ | Reader_read _ _ _ => False | _ => True end.
Proof. unfold reader_next. destruct line; auto. destruct first; [destruct (bytes_eqb _ _); auto|]. destruct a; auto. destruct c; auto. Qed.
Lemma calm_step t e s s' : calm t s -> e <> Signal -> happen e s = Some s' -> calm t s'.
Proof.
  intros (F & I & E1 & ER & MR & A) N H. destruct s as [at_ qu cl lg mn cf rd er it ws so ps]. unfold calm. tidy. subst it.
  assert (NF : forall i a x, nth_error ws i = Some (a, x) -> a = t) by (intros i a x Q; apply (nth_forall _ _ _ _ F) in Q; exact Q).
  destruct e; try congruence; step_cases H; tidy; subst; try match type of MR with _ /\ _ => destruct MR as [-> ->] end;
    repeat split; auto; try (apply call_fst; assumption); try (intuition congruence);
    try (destruct mn; intuition congruence).
  all: try (match goal with Q : nth_error _ _ = Some (?a, _) |- _ => rewrite (nth_forall _ _ _ _ ltac:(eassumption) Q : a = t) in *  end;
    first [apply set_nth_forall; [assumption|reflexivity]|auto; destruct rd; intuition congruence]).
  all: try lia.
  - apply Forall_app. split; [assumption|]. repeat constructor; auto.
  - pose proof (next_not_waiting cf first line) as W. destruct A as [-> _]. destruct (reader_next cf first line); tauto.
  - destruct er as [|er]; [reflexivity|specialize (ER ltac:(lia)); discriminate].
Qed.
Lemma calm_start t ts : calm t (start_system t ts).
Proof. unfold calm, start_system. tidy. repeat split; auto. Qed.
Lemma calm_run t ts es s : term_run (start_system t ts) es s -> undisturbed es -> calm t s.
Proof.
  intros R. remember (start_system t ts) as s0. induction R as [s0|s0 es s1 e s2 R IH H]; intros U; [subst; apply calm_start|].
  eapply calm_step; [apply IH; auto| |exact H].
  - intros X. apply U. apply in_or_app. auto.
  - intros ->. apply U. apply in_or_app. right. left. reflexivity.
Qed.

(** ** Echo *)
Definition hidden (t : attrs) (s : system) : Prop :=
  calm t s /\
  match s_main s with
  | Main_entry _ _ _ => s_attrs s = raw_attrs t
  | _ => match s_reader s with Reader_waits _ _ => s_attrs s = hushed_attrs t | _ => True end
  end /\
  match s_main s with Main_select _ => exists l a, s_watchers s = l ++ [(a, Watcher_waits)] | _ => True end.
Lemma set_nth_last {A} (l : list A) (x y : A) i z : nth_error (l ++ [x]) i = Some z -> z <> x -> exists l', set_nth i y (l ++ [x]) = l' ++ [x].
Proof.
  revert i. induction l as [|a l IH]; intros [|i] Q N; cbn in Q |- *; try congruence.
  - destruct i; discriminate.
  - exists (y :: l). reflexivity.
  - destruct (IH i Q N) as (l' & ->). exists (a :: l'). reflexivity.
Qed.
Lemma nth_last_rest l i (a b : attrs) : Forall at_rest l -> forall x, nth_error (l ++ [(b, Watcher_waits)]) i = Some (a, x) -> x = Watcher_done \/ x = Watcher_waits.
Proof.
  intros F x Q. destruct (Nat.ltb_spec i (length l)) as [L|L].
  - rewrite nth_error_app1 in Q by lia. apply (nth_forall _ _ _ _ F) in Q. left. exact Q.
  - rewrite nth_error_app2 in Q by lia. destruct (i - length l)%nat; [injection Q; auto|]. destruct n; discriminate.
Qed.
Lemma hidden_step t e s s' : hidden t s -> settled s -> e <> Signal -> happen e s = Some s' -> unseen s -> hidden t s' /\ unseen s'.
Proof.
  intros (C & A & W) [SR SE] N H U. pose proof (calm_step t e s s' C N H) as C'. 
  assert (G : (match s_main s' with
     | Main_entry _ _ _ => s_attrs s' = raw_attrs t
     | _ => match s_reader s' with Reader_waits _ _ => s_attrs s' = hushed_attrs t | _ => True end
     end /\ match s_main s' with Main_select _ => exists l a, s_watchers s' = l ++ [(a, Watcher_waits)] | _ => True end) /\ unseen s');
    [|unfold hidden; tauto].
  clear C'. destruct C as (F & I & E1 & ER & MR & AA). destruct s as [at_ qu cl lg mn cf rd er it ws so ps]. unfold unseen, settled in *. tidy. subst it.
  destruct e; try congruence; step_cases H; tidy; subst; try match type of MR with _ /\ _ => destruct MR as [-> ->] end.
  all: try (repeat split; auto; fail).
  - split; [auto|]. apply Forall_app. split; [exact U|]. constructor; [|constructor]. discriminate.
  - split; [auto|]. apply Forall_app. split; [exact U|]. constructor; [|constructor]. subst at_. reflexivity.
  - split; [auto|]. apply Forall_app. split; [exact U|]. constructor; [|constructor]. cbn [k_secret k_echoed is_secret]. tidy.
    destruct rd; try discriminate. subst at_. reflexivity.
  - split; [split; [exact Logic.I|eauto]|exact U].
  - discriminate (proj1 MR).
  - discriminate (proj1 MR).
  - discriminate (proj1 MR).
  - pose proof (next_not_waiting cf first line). split; [|exact U]. split; [|exact W]. destruct (reader_next cf first line); tauto.
  - pose proof (nth_forall _ _ _ _ (SE _ _ _ eq_refl) Q0) as X. discriminate X.
  - split; [|exact U]. split; [exact A|]. destruct W as (l & b & ->). destruct (set_nth_last l (b, Watcher_waits) (a, Watcher_printed) i _ Q0) as (l' & ->); [congruence|eauto].
  - split; [|exact U]. destruct W as (l & b & ->). split.
    + destruct rd; auto. specialize (SR _ _ eq_refl). rewrite removelast_last in SR. destruct (nth_last_rest l i a b SR _ Q0); discriminate.
    + destruct (set_nth_last l (b, Watcher_waits) (a, Watcher_done) i _ Q0) as (l' & ->); [congruence|eauto].
Qed.
Lemma settled_is_run s es s' : settled_run s es s' -> term_run s es s' /\ settled s'.
Proof. induction 1; [split; [constructor|auto]|]. destruct IHsettled_run. split; [econstructor; eauto|auto]. Qed.
Lemma hidden_run t ts es s : settled_run (start_system t ts) es s -> undisturbed es -> hidden t s /\ unseen s.
Proof.
  intros R. remember (start_system t ts) as s0. induction R as [s0|s0 es s1 e s2 R IH H]; intros U.
  - subst. split; [|constructor]. split; [apply calm_start|]. unfold start_system. tidy. auto.
  - destruct IH as [H1 U1]; [auto|intros X; apply U, in_or_app; auto|]. eapply hidden_step; eauto; [apply (settled_is_run _ _ _ R)|].
    intros ->. apply U, in_or_app. right. left. reflexivity.
Qed.

(** one prompt only *)
Definition only_prints (ts : list task) : bool := forallb (fun t => match t with Print _ => true | _ => false end) ts.
Definition lone (s : system) : Prop :=
  match s_main s with
  | Main_next ts => s_watchers s = [] /\ one_prompt ts = true \/ length (s_watchers s) = 1%nat /\ only_prints ts = true
  | Main_entry _ _ ts => s_watchers s = [] /\ one_prompt ts = true
  | Main_select ts => length (s_watchers s) = 1%nat /\ only_prints ts = true
  | Main_gone => (length (s_watchers s) <= 1)%nat
  end.
Lemma set_nth_length {A} i (x : A) l : length (set_nth i x l) = length l.
Proof. revert i. induction l as [|a l IH]; intros [|i]; cbn [set_nth length]; auto. Qed.
Lemma set_nth_none {A} i (x : A) l : l = [] -> set_nth i x l = []. Proof. intros ->. destruct i; reflexivity. Qed.
Lemma lone_step e s s' : lone s -> happen e s = Some s' -> lone s'.
Proof.
  intros L H. destruct s as [at_ qu cl lg mn cf rd er it ws so ps]. unfold lone in *. tidy.
  destruct e; step_cases H; tidy; subst; rewrite ?map_length, ?set_nth_length; auto; try (intuition (subst; cbn in *; auto; try discriminate; try lia); fail).
  all: repeat match goal with L : _ \/ _ |- _ => destruct L | L : _ /\ _ |- _ => destruct L end; subst; cbn in *; try discriminate; auto.
  all: destruct i; discriminate.
Qed.
Lemma lone_settled s : lone s -> settled s.
Proof.
  intros L. assert (X : (length (s_watchers s) <= 1)%nat).
  { unfold lone in L. destruct (s_main s); repeat match goal with L : _ \/ _ |- _ => destruct L | L : _ /\ _ |- _ => destruct L end; try lia; rewrite H; cbn; lia. }
  split.
  - intros _ _ _. destruct (s_watchers s) as [|a [|b l]]; cbn in *; [constructor|constructor|lia].
  - intros saved n ts M. unfold lone in L. rewrite M in L. destruct L as [-> _]. constructor.
Qed.
Lemma lone_run t ts es s : one_prompt ts = true -> term_run (start_system t ts) es s -> settled_run (start_system t ts) es s.
Proof.
  intros O R. assert (G : settled_run (start_system t ts) es s /\ lone s); [|apply G]. remember (start_system t ts) as s0.
  induction R as [s0|s0 es s1 e s2 R IH H].
  - assert (L : lone s0) by (subst; unfold lone, start_system; tidy; auto). split; [constructor; apply lone_settled; exact L|exact L].
  - destruct (IH Heqs0) as [S1 L1]. pose proof (lone_step _ _ _ L1 H) as L2. split; [econstructor; [exact S1|exact H|apply lone_settled; exact L2]|exact L2].
Qed.

(** ** The passwords *)
Definition first_reader (first : option bytes) : reader := match first with None => At_prompt | Some p => At_confirm p end.
Definition plain_reader (c : bool) (r : reader_state) : reader :=
  let basic r := match r with
  | Reader_calls first | Reader_waits first _ => first_reader first
  | Reader_read _ _ _ => Finished
  | Reader_failing => Failing
  | Reader_sending p => Sending p
  | Reader_finished => Finished
  end in match r with Reader_read first _ line => basic (reader_next c first line) | _ => basic r end.
Definition then_answers (r : res bytes * bytes) (ts : list task) : list bytes * bytes :=
  match r with
  | (Ok p, rest) => let (ps, r) := answers ts rest in (p :: ps, r)
  | (_, rest) => ([], rest)
  end.
Definition to_come (s : system) (fut : bytes) : list bytes * bytes :=
  match s_main s with
  | Main_next ts => answers ts (s_queue s ++ fut)
  | Main_entry _ n ts => answers ts (skipn n (s_queue s ++ fut))
  | Main_select ts =>
      then_answers (match s_errors s with O => value (s_confirm s) (plain_reader (s_confirm s) (s_reader s)) (s_queue s ++ fut) | _ => (Err ErrInputEOF, s_queue s ++ fut) end) ts
  | Main_gone => ([], s_queue s ++ fut)
  end.
Lemma read_more q fut : In 10 q -> read_password (q ++ fut) [] = (fst (read_password q []), snd (read_password q []) ++ fut).
Proof.
  intros I. destruct (read_password_spec q []) as [(l & rest & -> & N & R)|[N _]]; [|contradiction].
  rewrite R. cbn [fst snd]. destruct (read_password_spec ((l ++ 10 :: rest) ++ fut) []) as [(l' & rest' & Q & N' & R')|[N' _]].
  - rewrite R'. rewrite <- app_assoc in Q. cbn [app] in Q. assert (X : l = l' /\ rest ++ fut = rest').
    { clear R R' I. revert l' N' Q. induction l as [|a l IH]; intros [|b l'] N' Q; cbn in Q.
      - injection Q as ->. auto.
      - injection Q as Q _. destruct N'. left. congruence.
      - injection Q as Q _. destruct N. left. congruence.
      - injection Q as -> Q. destruct (IH ltac:(intros X; apply N; right; auto) l' ltac:(intros X; apply N'; right; auto) Q) as [-> ->]. auto. }
    destruct X as [-> ->]. reflexivity.
  - destruct N'. apply in_or_app. left. exact I.
Qed.
Lemma reader_reads c first saved q line rest fut : read_password q [] = (line, rest) -> fut = [] \/ In 10 q ->
  reader_step c (first_reader first) (q ++ fut) = Some (plain_reader c (Reader_read first saved line), rest ++ fut).
Proof.
  intros R F. assert (R' : read_password (q ++ fut) [] = (line, rest ++ fut)).
  { destruct F as [-> |F]; [rewrite !app_nil_r; exact R|rewrite read_more by exact F; rewrite R; reflexivity]. }
  unfold plain_reader, reader_next. destruct first as [p|]; cbn [first_reader reader_step]; rewrite R'; (destruct line as [x|e|]; [|reflexivity..]).
  - destruct (bytes_eqb p x); reflexivity.
  - destruct x; [reflexivity|]. destruct c; reflexivity.
Qed.
Lemma to_come_step t ts e s s' : calm t s -> e <> Signal -> e <> Entry_fails -> happen e s = Some s' ->
  (forall fut, (s_closed s = true -> fut = []) -> answers ts (keys_typed s ++ fut) = (s_passwords s ++ fst (to_come s fut), snd (to_come s fut))) ->
  (forall fut, (s_closed s' = true -> fut = []) -> answers ts (keys_typed s' ++ fut) = (s_passwords s' ++ fst (to_come s' fut), snd (to_come s' fut))).
Proof.
  intros (F & I & E1 & ER & MR & A) N1 N2 H G fut CL. destruct s as [at_ qu cl lg mn cf rd er it ws so ps]. unfold keys_typed, to_come in *. tidy. subst it.
  destruct e; try congruence; step_cases H; tidy; subst; try match type of MR with _ /\ _ => destruct MR as [-> ->] end;
    try (exact (G fut CL)).
  all: try (rewrite map_app, <- !app_assoc; cbn [map k_key app]; apply (G (k :: fut)); discriminate).
  all: try (apply (G fut); intros _; apply CL; reflexivity).
  - rewrite (G fut CL). apply Nat.leb_le in Q0. rewrite skipn_app. replace (keys - length qu)%nat with 0%nat by lia. reflexivity.
  - discriminate (proj1 MR).
  - discriminate (proj1 MR).
  - destruct er as [|er]; [|discriminate (ER ltac:(lia))]. rewrite (G fut CL). cbn [plain_reader].
    assert (W : fut = [] \/ In 10 qu).
    { apply orb_true_iff in Q1 as [-> |X]; [left; auto|right]. apply existsb_exists in X as (x & X & Y). apply Z.eqb_eq in Y. subst x. exact X. }
    rewrite (value_step cf _ _ _ _ (reader_reads cf first saved qu r b fut Q2 W)). reflexivity.
  - rewrite (G fut CL). pose proof (next_not_waiting cf first line) as W. cbn [plain_reader]. destruct (reader_next cf first line); try tauto; reflexivity.
  - rewrite (G fut CL). cbn [plain_reader]. unfold value. rewrite Nat.add_succ_r. reflexivity.
  - rewrite (G fut CL). destruct er as [|er]; [|discriminate (ER ltac:(lia))]. cbn [plain_reader]. unfold value. rewrite Nat.add_succ_r. cbn [prompt_loop then_answers].
    destruct (answers tasks (qu ++ fut)) as [x y]. cbn [fst snd]. rewrite <- app_assoc. reflexivity.
Qed.
Lemma to_come_run t ts es s : term_run (start_system t ts) es s -> undisturbed es -> ~ In Entry_fails es ->
  forall fut, (s_closed s = true -> fut = []) -> answers ts (keys_typed s ++ fut) = (s_passwords s ++ fst (to_come s fut), snd (to_come s fut)).
Proof.
  intros R. pose proof (calm_run t ts) as CR. remember (start_system t ts) as s0. induction R as [s0|s0 es s1 e s2 R IH H]; intros U NE.
  - subst. intros fut _. unfold to_come, start_system. tidy. cbn [keys_typed map s_log app]. destruct (answers ts fut); reflexivity.
  - assert (U1 : undisturbed es) by (intros X; apply U, in_or_app; auto).
    apply (to_come_step t ts e s1 s2); [eapply CR; eauto| | |exact H|apply IH; auto; intros X; apply NE, in_or_app; auto];
      intros ->; [apply U|apply NE]; apply in_or_app; right; left; reflexivity.
Qed.

(** ** Standard output *)
Definition left_tasks (m : main_state) : list task := match m with Main_next ts | Main_entry _ _ ts | Main_select ts => ts | Main_gone => [] end.
Definition gave_newline (w : attrs * watcher_state) : bool := match snd w with Watcher_printed | Watcher_done => true | _ => false end.
Definition newlines (s : system) : nat := length (filter gave_newline (s_watchers s)).
Definition stops (e : event) : bool := match e with Signal | Entry_fails | Fail_prompt => true | _ => false end.
Lemma newlines_call l : filter gave_newline (map call_watcher l) = filter gave_newline l.
Proof. induction l as [|[a []] l IH]; cbn; rewrite ?IH; reflexivity. Qed.
Lemma newlines_print i a l : nth_error l i = Some (a, Watcher_called) -> length (filter gave_newline (set_nth i (a, Watcher_printed) l)) = S (length (filter gave_newline l)).
Proof. revert i. induction l as [|[b x] l IH]; intros [|i] Q; cbn in Q; try discriminate; cbn [set_nth filter]; [injection Q as -> ->; reflexivity|]. destruct (gave_newline (b, x)); cbn [length]; rewrite (IH i Q); reflexivity. Qed.
Lemma newlines_done i a l : nth_error l i = Some (a, Watcher_printed) -> length (filter gave_newline (set_nth i (a, Watcher_done) l)) = length (filter gave_newline l).
Proof. revert i. induction l as [|[b x] l IH]; intros [|i] Q; cbn in Q; try discriminate; cbn [set_nth filter]; [injection Q as -> ->; reflexivity|]. destruct (gave_newline (b, x)); cbn [length]; rewrite (IH i Q); reflexivity. Qed.
Definition output_inv (ts : list task) (through : bool) (s : system) : Prop :=
  (length (s_watchers s) + asks_in (left_tasks (s_main s)) <= asks_in ts)%nat /\
  exists past more, prints_in ts = past ++ prints_in (left_tasks (s_main s)) ++ more /\ merged past (repeat [10] (newlines s)) (s_stdout s) /\
    (through = true -> more = []).
Lemma output_step ts b t e s s' : (b = true -> calm t s) -> happen e s = Some s' -> output_inv ts b s -> output_inv ts (b && negb (stops e)) s'.
Proof.
  intros CM H (LE & past & more & P & M & T). destruct s as [at_ qu cl lg mn cf rd er it ws so ps]. unfold output_inv, newlines in *. tidy.
  destruct e; step_cases H; tidy; subst; cbn [left_tasks stops negb andb] in *; rewrite ?map_length, ?set_nth_length, ?newlines_call, ?andb_true_r, ?andb_false_r, ?app_length.
  all: try (rewrite filter_app; cbn [filter gave_newline snd app length]; rewrite app_nil_r).
  all: try (split; [cbn in *; lia|exists past, more; auto]; fail).
  all: try (split; [cbn in *; lia|exists past, (prints_in tasks ++ more); split; [exact P|split; [exact M|discriminate]]]; fail).
  all: try (split; [cbn in *; lia|exists past, more; split; [exact P|split; [exact M|auto; discriminate]]]; fail).
  all: try (match goal with Q : nth_error _ _ = Some (_, Watcher_called) |- _ => rewrite (newlines_print _ _ _ Q) end;
    split; [exact LE|]; exists past, more; split; [exact P|split; [|exact T]]; rewrite <- Nat.add_1_r, repeat_app; apply Merged_right; exact M).
  all: try (match goal with Q : nth_error _ _ = Some (_, Watcher_printed) |- _ => rewrite (newlines_done _ _ _ Q) end;
    split; [exact LE|]; exists past, more; auto; fail).
  - split; [unfold asks_in in *; cbn [filter length] in *; lia|]. exists past, more. auto.
  - split; [unfold asks_in in *; cbn [filter length] in *; lia|]. exists past, more. auto.
  - split; [unfold asks_in in *; cbn [filter length] in *; lia|]. exists (past ++ [text]), more. split; [rewrite P, <- app_assoc; reflexivity|split; [apply Merged_left; exact M|exact T]].
  - split; [unfold asks_in in *; cbn [filter length] in *; lia|]. exists past, (prints_in tasks ++ more). split; [exact P|split; [exact M|]]. intros ->. destruct (CM eq_refl) as (_ & X & _). discriminate X.
Qed.
Lemma output_run t ts es s : term_run (start_system t ts) es s -> output_inv ts (negb (existsb stops es)) s.
Proof.
  intros R. pose proof (calm_run t ts) as CR. remember (start_system t ts) as s0. induction R as [s0|s0 es s1 e s2 R IH H].
  - subst. unfold output_inv, newlines, start_system. tidy. cbn [left_tasks length filter repeat negb existsb]. split; [lia|]. exists [], []. rewrite app_nil_r. repeat split. constructor.
  - rewrite existsb_app. cbn [existsb]. rewrite orb_false_r, negb_orb. apply (output_step ts _ t e s1 s2); [|exact H|apply IH; assumption].
    intros X. eapply CR; [exact R|]. intros Y. apply negb_true_iff in X. assert (Z : existsb stops es = true) by (apply existsb_exists; exists Signal; auto). congruence.
Qed.
(** passwords got and still to be asked for *)
Definition asks_left (m : main_state) : nat := asks_in (left_tasks m) + match m with Main_select _ => 1 | _ => 0 end.
Definition gave_up (e : event) : bool := match e with Fail_prompt => true | _ => false end.
Definition asks_inv (ts : list task) (failed : bool) (s : system) : Prop :=
  (length (s_passwords s) + asks_left (s_main s) + (if failed then 1 else 0) <= asks_in ts)%nat.
Lemma asks_step ts b e s s' : happen e s = Some s' -> asks_inv ts b s -> asks_inv ts (b || gave_up e) s'.
Proof.
  intros H I. destruct s as [at_ qu cl lg mn cf rd er it ws so ps]. unfold asks_inv, asks_left in *. tidy.
  destruct e; step_cases H; tidy; subst; cbn [left_tasks gave_up] in *; rewrite ?orb_false_r, ?orb_true_r, ?app_length;
    try (destruct b; unfold asks_in in *; cbn [filter length] in *; lia).
Qed.
Lemma asks_run t ts es s : term_run (start_system t ts) es s -> asks_inv ts (existsb gave_up es) s.
Proof.
  intros R. remember (start_system t ts) as s0. induction R as [s0|s0 es s1 e s2 R IH H].
  - subst. unfold asks_inv, asks_left, start_system. tidy. cbn [left_tasks existsb length]. lia.
  - rewrite existsb_app. cbn [existsb]. rewrite orb_false_r. eapply asks_step; [exact H|auto].
Qed.

(** ** Coming to an end *)
Definition lively (s : system) : Prop :=
  (s_errors s <> 0%nat -> s_reader s = Reader_finished) /\
  match s_main s with Main_select _ => s_reader s = Reader_finished -> s_errors s <> 0%nat | _ => True end.
Lemma lively_step e s s' : happen e s = Some s' -> lively s -> lively s'.
Proof.
  intros H [I J]. destruct s as [at_ qu cl lg mn cf rd er it ws so ps]. unfold lively in *. tidy.
  destruct e; step_cases H; tidy; subst; split; auto; try discriminate; try congruence; try lia; try (intros X; specialize (I X); discriminate).
  all: try (intros X; specialize (I ltac:(lia)); congruence).
  all: intros X; unfold reader_next in X; destruct line as [a| |]; try discriminate X; destruct first as [p|];
    [destruct (bytes_eqb p a)|destruct a; [|destruct cf]]; discriminate X.
Qed.
Lemma lively_run t ts es s : term_run (start_system t ts) es s -> lively s.
Proof.
  intros R. remember (start_system t ts) as s0. induction R as [s0|s0 es s1 e s2 R IH H]; [subst; split; unfold start_system; tidy; auto|].
  eapply lively_step; eauto.
Qed.
Lemma progress s : lively s -> s_closed s = true -> s_main s <> Main_gone -> exists e s', of_program e = true /\ happen e s = Some s'.
Proof.
  intros [L1 L2] C G. destruct s as [at_ qu cl lg mn cf rd er it ws so ps]. tidy. subst cl.
  destruct mn as [[|[n|c|x] ts]|sv n ts|ts|]; [exists Leave|exists Begin|exists Begin|exists Begin|exists Entry_fails| |contradiction];
    [eexists; split; reflexivity| eexists; split; reflexivity| eexists; split; reflexivity| eexists; split; reflexivity| eexists; split; reflexivity|].
  destruct rd as [first|first sv|first sv line| |p|].
  - exists Call. eexists. split; reflexivity.
  - exists Read. destruct (read_password qu []) as [r b] eqn:Q. eexists. split; [reflexivity|]. unfold happen. tidy. cbn [orb]. rewrite Q. reflexivity.
  - exists Restore. eexists. split; reflexivity.
  - destruct er as [|er]; [|discriminate (L1 ltac:(lia))]. exists Send_error. eexists. split; reflexivity.
  - exists Receive. eexists. split; reflexivity.
  - destruct er as [|er]; [destruct (L2 eq_refl eq_refl)|]. exists Fail_prompt. eexists. split; reflexivity.
Qed.

(** every step of the program brings the end nearer *)
Definition reader_work (r : reader_state) (q : nat) : nat :=
  match r with
  | Reader_calls _ => 4 * q + 8
  | Reader_waits _ _ => 4 * q + 7
  | Reader_read _ _ (Ok _) => 4 * q + 9
  | Reader_read _ _ _ => 6
  | Reader_failing | Reader_sending _ => 5
  | Reader_finished => 0
  end.
Definition watcher_work (w : attrs * watcher_state) : nat := match snd w with Watcher_waits => 3 | Watcher_called => 2 | Watcher_printed => 1 | Watcher_done => 0 end.
Definition watchers_work (l : list (attrs * watcher_state)) : nat := list_sum (map watcher_work l).
Definition main_work (m : main_state) (q : nat) : nat :=
  match m with
  | Main_next ts => length ts * (4 * q + 20) + 1
  | Main_entry _ _ ts => length ts * (4 * q + 20) + 2
  | Main_select ts => length ts * (4 * q + 20) + 2
  | Main_gone => 0
  end.
Definition work (s : system) : nat :=
  main_work (s_main s) (length (s_queue s)) + reader_work (s_reader s) (length (s_queue s)) + s_errors s + watchers_work (s_watchers s).
Lemma read_shorter q r b : read_password q [] = (r, b) -> (length b <= length q)%nat /\ forall p, r = Ok p -> (length b < length q)%nat.
Proof.
  intros Q. destruct (read_password_spec q []) as [(l & rest & -> & N & R)|[N R]].
  - rewrite R in Q. injection Q as <- <-. rewrite app_length. cbn [length]. split; [lia|intros; lia].
  - rewrite R in Q. assert (B : b = []) by congruence. subst b. cbn [length]. split; [lia|]. intros p ->. destruct q; [discriminate Q|cbn [length]; lia].
Qed.
Lemma watchers_cons w l : watchers_work (w :: l) = (watcher_work w + watchers_work l)%nat. Proof. reflexivity. Qed.
Lemma watchers_snoc w l : watchers_work (l ++ [w]) = (watchers_work l + watcher_work w)%nat.
Proof. induction l as [|x l IH]; cbn [app]; rewrite ?watchers_cons, ?IH; [unfold watchers_work; cbn; lia|lia]. Qed.
Lemma work_called l : (watchers_work (map call_watcher l) <= watchers_work l)%nat.
Proof. induction l as [|[a x] l IH]; cbn [map]; rewrite ?watchers_cons; [lia|]. destruct x; cbn [call_watcher watcher_work snd]; lia. Qed.
Lemma work_set i a x y l : nth_error l i = Some (a, x) -> (watcher_work (a, y) < watcher_work (a, x))%nat -> (watchers_work (set_nth i (a, y) l) < watchers_work l)%nat.
Proof. revert i. induction l as [|b l IH]; intros [|i] Q L; cbn in Q; try discriminate; cbn [set_nth]; rewrite !watchers_cons; [injection Q as ->; lia|]. specialize (IH i Q L). lia. Qed.
Lemma main_work_mono m a b : (a <= b)%nat -> (main_work m a <= main_work m b)%nat.
Proof. intros L. destruct m; cbn [main_work]; try lia; nia. Qed.
Lemma reader_work_mono r a b : (a <= b)%nat -> (reader_work r a <= reader_work r b)%nat.
Proof. intros L. destruct r as [| |? ? []| | |]; cbn [reader_work]; lia. Qed.
Lemma work_read m q r b first saved : read_password q [] = (r, b) ->
  (main_work m (length b) + reader_work (Reader_read first saved r) (length b) < main_work m (length q) + reader_work (Reader_waits first saved) (length q))%nat.
Proof.
  intros Q. destruct (read_shorter _ _ _ Q) as [L1 L2]. pose proof (main_work_mono m _ _ L1).
  destruct r as [p| |]; cbn [reader_work]; [specialize (L2 p eq_refl)| |]; lia.
Qed.
Lemma work_next c first saved line q : (reader_work (reader_next c first line) q < reader_work (Reader_read first saved line) q)%nat.
Proof. unfold reader_next. destruct line as [p| |]; cbn [reader_work]; try lia. destruct first as [p1|]; [destruct (bytes_eqb p1 p)|destruct p; [|destruct c]]; cbn [reader_work]; lia. Qed.
Lemma work_step e s s' : of_program e = true -> happen e s = Some s' -> (work s' < work s)%nat.
Proof.
  intros P H. destruct s as [at_ qu cl lg mn cf rd er it ws so ps]. unfold work. tidy.
  destruct e; try discriminate P; step_cases H; tidy; subst; try (cbn [main_work reader_work length] in *; lia).
  all: try (match goal with Q : read_password _ _ = (_, _) |- context [main_work ?m _] => pose proof (work_read m _ _ _ first ltac:(eassumption) Q) end; cbn [reader_work] in *; lia).
  all: try (match goal with |- context [Reader_read ?f ?sv ?l] => pose proof (work_next cf f sv l (length qu)) end; lia).
  all: try (pose proof (work_called ws); cbn [main_work reader_work length] in *; lia).
  all: try (match goal with Q : nth_error _ _ = Some (_, ?x) |- context [set_nth _ (_, ?y) _] => pose proof (work_set _ _ x y _ Q) as W; cbn in W; lia end).
  - rewrite watchers_snoc. cbn [main_work reader_work length watcher_work snd]. lia.
  - assert (L : (length (skipn keys qu) <= length qu)%nat) by (rewrite skipn_length; lia).
    pose proof (reader_work_mono rd _ _ L). pose proof (main_work_mono (Main_next tasks) _ _ L). cbn [main_work] in *. lia.
Qed.
Lemma work_run s es s' : term_run s es s' -> forallb of_program es = true -> (length es + work s' <= work s)%nat.
Proof.
  induction 1 as [s|s es s1 e s2 R IH H]; intros P; [cbn; lia|]. rewrite forallb_app in P. cbn [forallb] in P.
  apply andb_prop in P as [P1 P2]. rewrite andb_true_r in P2. specialize (IH P1). pose proof (work_step _ _ _ P2 H). rewrite app_length. cbn [length]. lia.
Qed.

(** ** Checking a given run *)
Definition restedb (w : attrs * watcher_state) : bool := match snd w with Watcher_done => true | _ => false end.
Definition settledb (s : system) : bool :=
  match s_reader s with Reader_waits _ _ => forallb restedb (removelast (s_watchers s)) | _ => true end &&
  match s_main s with Main_entry _ _ _ => forallb restedb (s_watchers s) | _ => true end.
Lemma rested l : forallb restedb l = true -> Forall at_rest l.
Proof. intros F. apply Forall_forall. intros [a x] I. rewrite forallb_forall in F. specialize (F _ I). unfold restedb, at_rest in *. cbn [snd] in *. destruct x; congruence. Qed.
Lemma settledb_ok s : settledb s = true -> settled s.
Proof.
  unfold settledb, settled. intros B. apply andb_prop in B as [B1 B2]. split.
  - intros first saved Q. rewrite Q in B1. apply rested, B1.
  - intros saved n ts Q. rewrite Q in B2. apply rested, B2.
Qed.
Fixpoint settled_play (es : list event) (s : system) : option system :=
  if settledb s then
    match es with
    | [] => Some s
    | e :: es' => match happen e s with Some s' => settled_play es' s' | None => None end
    end
  else None.
Lemma settled_cons s e s1 es s2 : settled s -> happen e s = Some s1 -> settled_run s1 es s2 -> settled_run s (e :: es) s2.
Proof.
  intros S H R. revert S H. induction R as [s1 S1|s1 es s2 e2 s3 R IH H2 S3]; intros S H.
  - apply (Settled_step s [] s e s1); [constructor; exact S|exact H|exact S1].
  - change (e :: es ++ [e2]) with ((e :: es) ++ [e2]). econstructor; [apply IH; assumption|exact H2|exact S3].
Qed.
Lemma settled_play_ok : forall es s s', settled_play es s = Some s' -> settled_run s es s'.
Proof.
  induction es as [|e es IH]; intros s s' Q; cbn [settled_play] in Q; destruct (settledb s) eqn:B; try discriminate; apply settledb_ok in B.
  - injection Q as <-. constructor. exact B.
  - destruct (happen e s) as [s1|] eqn:H; [|discriminate]. eapply settled_cons; [exact B|exact H|apply IH; exact Q].
Qed.
