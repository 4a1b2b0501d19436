(** The commands of Model/CliMain.v as tasks at a terminal (Model/CliTerm.v). *)
From Coq Require Import Lia ZifyBool ZifyNat.
From Verif.Model Require Import GoBase Env Version GoTime Seed Encoding Recovery PgpKeys Mnemonikey CliText CliInput CliFlags CliMain CliTerm.
From Verif.Spec Require Import EnvSpec InputSpec TermSpec.
From Verif.Proofs Require Import BitsP InputP TermP.
From Verif.Props Require Import SeedProps.

(** [tells ts w w']: from w to w' the prompts in ts are answered *)
Definition tells (ts : list task) (w w' : world) : Prop :=
  w_tty w' = w_tty w /\ w_prompts w' = (w_prompts w + asks_in ts)%nat /\ w_stdout w' = w_stdout w ++ prints_in ts /\
  exists ps, length ps = asks_in ts /\ forall more, answers (ts ++ more) (w_stdin w) = (ps ++ fst (answers more (w_stdin w')), snd (answers more (w_stdin w'))).
Lemma asks_in_app a b : asks_in (a ++ b) = (asks_in a + asks_in b)%nat. Proof. unfold asks_in. rewrite filter_app, app_length. reflexivity. Qed.
Lemma prints_in_app a b : prints_in (a ++ b) = prints_in a ++ prints_in b. Proof. apply flat_map_app. Qed.
Lemma tells_trans a b u v w : tells a u v -> tells b v w -> tells (a ++ b) u w.
Proof.
  intros (T1 & P1 & O1 & ps & L1 & A1) (T2 & P2 & O2 & qs & L2 & A2). split; [congruence|]. rewrite asks_in_app, prints_in_app. split; [lia|].
  split; [rewrite O2, O1, app_assoc; reflexivity|]. exists (ps ++ qs). rewrite app_length. split; [lia|]. intros more. rewrite <- app_assoc, A1, A2. cbn [fst snd]. rewrite app_assoc. reflexivity.
Qed.
Definition same_terminal (w w' : world) : Prop := w_tty w' = w_tty w /\ w_prompts w' = w_prompts w /\ w_stdout w' = w_stdout w /\ w_stdin w' = w_stdin w.
Lemma tells_same w w' : same_terminal w w' -> tells [] w w'.
Proof. intros (T & P & O & S). unfold tells. cbn [asks_in filter length prints_in flat_map app]. rewrite app_nil_r. repeat split; [exact T|lia|exact O|]. exists []. split; [reflexivity|]. intros more. rewrite S. cbn [app]. destruct (answers more (w_stdin w)); reflexivity. Qed.
Lemma same_refl w : same_terminal w w. Proof. repeat split. Qed.
Lemma tells_ask c w pw w' : w_tty w = true -> ask_password c w = (Ret pw, w') -> tells [Ask c] w w'.
Proof.
  intros T Q. unfold ask_password in Q. destruct (user_input_password (w_tty w) c (w_stdin w)) as [r rest] eqn:U. rewrite T in U.
  cbn [w_tty set_stdin] in Q. rewrite T in Q. injection Q as Q1 <-. destruct r as [p| |]; try discriminate Q1. unfold tells. cbn [w_tty set_stdin set_prompts w_prompts w_stdout w_stdin asks_in filter length prints_in flat_map].
  rewrite app_nil_r. repeat split; [lia|]. exists [p]. split; [reflexivity|]. intros more. cbn [app answers]. rewrite U. destruct (answers more rest); reflexivity.
Qed.
Lemma ret_inv {A B} (m : action A) (f : A -> action B) w b w' : andthen m f w = (Ret b, w') -> exists a v, m w = (Ret a, v) /\ f a v = (Ret b, w').
Proof. unfold andthen. destruct (m w) as [[a| | | |] v] eqn:Q; try discriminate. eauto. Qed.
Lemma lift_inv {A} (r : res A) w a w' : lift r w = (Ret a, w') -> w' = w.
Proof. unfold lift. intros Q. injection Q as _ ->. reflexivity. Qed.
Lemma with_random_same {A} (f : bytes -> res (A * bytes)) w a w' : with_random f w = (Ret a, w') -> same_terminal w w'.
Proof. unfold with_random. destruct (f (w_random w)) as [[x rest]| |]; intros Q; try discriminate. injection Q as _ <-. repeat split. Qed.
Lemma open_same path w a w' : open_file path w = (Ret a, w') -> w' = w.
Proof. unfold open_file. destruct (w_files w path); intros Q; try discriminate. congruence. Qed.
Lemma save_same words path w a w' : save_mnemonic words path w = (Ret a, w') -> same_terminal w w'.
Proof.
  unfold save_mnemonic, save_mnemonic_with, write_file. intros Q.
  repeat match type of Q with
  | match ?x with _ => _ end = _ => destruct x eqn:?; try discriminate Q
  | (let (_, _) := ?x in _) = _ => destruct x eqn:?; try discriminate Q
  end; injection Q as _ <-; repeat split.
Qed.
Lemma show_same words w a w' : print_mnemonic words w = (Ret a, w') -> same_terminal w w'.
Proof. unfold print_mnemonic. intros Q. injection Q as _ <-. repeat split. Qed.
Lemma ttl_same E text w a w' : ttl_option E text w = (Ret a, w') -> w' = w.
Proof. unfold ttl_option. destruct text as [|b text]; [intros Q; injection Q as _ <-; reflexivity|]. destruct (parse_ttl E (b :: text)); intros Q; try discriminate. injection Q as _ <-. reflexivity. Qed.
Lemma same_trans u v w : same_terminal u v -> same_terminal v w -> same_terminal u w.
Proof. intros (A & B & C & D) (A1 & B1 & C1 & D1). repeat split; congruence. Qed.

Lemma seed_rest stdin x rest : Forall byte stdin -> generate_seed stdin = Ok (x, rest) -> rest = skipn 16 stdin.
Proof.
  intros B G. destruct (generate_seed_exact stdin B) as [G1 G2]. destruct (Nat.le_gt_cases 16 (length stdin)); [rewrite G1 in G by auto; congruence|rewrite G2 in G by auto; discriminate].
Qed.
(** [talks input ts w w']: first the rest of standard input becomes [input], then ts *)
Lemma seed_same option w s w' : Forall byte (w_stdin w) -> seed_from_source option w = (Ret s, w') ->
  w_tty w' = w_tty w /\ w_prompts w' = w_prompts w /\ w_stdout w' = w_stdout w /\ (option <> bs "-" -> w_stdin w' = w_stdin w) /\ (option = bs "-" -> w_stdin w' = skipn 16 (w_stdin w)).
Proof.
  intros BY. unfold seed_from_source. destruct option as [|b option]; intros Q; [destruct (with_random_same _ _ _ _ Q) as (A & B & C & D); repeat split; auto; discriminate|].
  destruct (bytes_eqb (b :: option) (bs "-")) eqn:Y.
  - apply bytes_eqb_eq in Y. destruct (generate_seed (w_stdin w)) as [[x rest]| |] eqn:GS; try discriminate Q. injection Q as _ <-. cbn [w_tty w_prompts w_stdout w_stdin set_stdin]. repeat split; [congruence|]. intros _. exact (seed_rest _ _ _ BY GS).
  - apply ret_inv in Q as (c & v & Q1 & Q2). apply open_same in Q1. apply lift_inv in Q2. subst. repeat split; auto. intros X. rewrite X in Y. discriminate Y.
Qed.
Lemma generate_tells E g w w' : Forall byte (w_stdin w) -> generate_and_print E g w = (Ret tt, w') -> w_tty w = true ->
  exists key v, tells (generate_tasks (go_encrypt_keys g) (go_encrypt_phrase g) key) v w' /\
    w_tty v = w_tty w /\ w_prompts v = w_prompts w /\ w_stdout v = w_stdout w /\ (go_entropy g <> bs "-" -> w_stdin v = w_stdin w) /\ (go_entropy g = bs "-" -> w_stdin v = skipn 16 (w_stdin w)).
Proof.
  intros BY G T. unfold generate_and_print in G.
  apply ret_inv in G as (ttl & w1 & G1 & G). apply ttl_same in G1. subst w1.
  apply ret_inv in G as ([om types] & w1 & G1 & G). apply lift_inv in G1. subst w1.
  apply ret_inv in G as (sd & v & G1 & G). apply (seed_same _ _ _ _ BY) in G1 as (A & B & C & D & D2).
  apply ret_inv in G as (mnk & w1 & G1 & G). apply lift_inv in G1. subst w1.
  apply ret_inv in G as (pw & w1 & G1 & G). assert (T1 : tells (if go_encrypt_keys g then [Ask true] else []) v w1).
  { destruct (go_encrypt_keys g); [eapply tells_ask; [congruence|exact G1]|]. injection G1 as _ <-. apply tells_same, same_refl. }
  clear G1. apply ret_inv in G as (armor & w2 & G1 & G). apply with_random_same, tells_same in G1. pose proof (tells_trans _ _ _ _ _ T1 G1) as T2. rewrite app_nil_r in T2. clear T1 G1.
  apply ret_inv in G as (words & w3 & G1 & G). assert (T3 : tells (if go_encrypt_phrase g then [Ask true] else []) w2 w3).
  { destruct (go_encrypt_phrase g); [|apply lift_inv in G1; subst; apply tells_same, same_refl]. apply ret_inv in G1 as (pw2 & w4 & G1 & G2). injection G2 as _ <-.
    eapply tells_ask; [|exact G1]. destruct T2 as (X & _). congruence. }
  clear G1. apply ret_inv in G as ([] & w4 & G1 & G). assert (S4 : same_terminal w3 w4).
  { destruct (go_out_file g); [injection G1 as <-; apply same_refl|]. eapply save_same; exact G1. }
  clear G1. apply ret_inv in G as ([] & w5 & G1 & G). injection G1 as <-.
  assert (S5 : same_terminal (set_stdout w4 (w_stdout w4 ++ [armor ++ [10]])) w').
  { destruct (go_out_file g); [eapply show_same; exact G|]. injection G as <-. apply same_refl. }
  exists (armor ++ [10]), v. split; [|auto]. unfold generate_tasks.
  eapply tells_trans; [exact T2|]. eapply tells_trans; [exact T3|].
  replace [Print (armor ++ [10])] with (([] ++ [Print (armor ++ [10])]) ++ []) by reflexivity.
  eapply tells_trans; [|apply tells_same; exact S5]. eapply tells_trans; [apply tells_same; exact S4|].
  unfold tells. cbn. rewrite Nat.add_0_r. repeat split. exists []. split; [reflexivity|]. intros more. destruct (answers more (w_stdin w4)); reflexivity.
Qed.

(** reading the phrase *)
Lemma enter_suffix E : forall stdin s r rest, enter E s stdin = (r, rest) -> exists n, (n <= length stdin)%nat /\ rest = skipn n stdin.
Proof.
  induction stdin as [|b stdin IH]; intros s r rest Q; cbn [enter] in Q; [injection Q as _ <-; exists 0%nat; auto|].
  destruct (key E s b) as [s'|ws|].
  - destruct (IH _ _ _ Q) as (n & L & ->). exists (S n). cbn [length skipn]. split; [lia|reflexivity].
  - injection Q as _ <-. exists 1%nat. cbn [length skipn]. split; [lia|reflexivity].
  - injection Q as _ <-. exists 1%nat. cbn [length skipn]. split; [lia|reflexivity].
Qed.
Definition entry_tasks (e : option nat) : list task := match e with Some n => [Enter n] | None => [] end.
Lemma tells_enter n v w : (n <= length (w_stdin v))%nat -> w = set_stdin v (skipn n (w_stdin v)) -> tells [Enter n] v w.
Proof.
  intros L ->. unfold tells. cbn. rewrite app_nil_r, Nat.add_0_r. repeat split. exists []. split; [reflexivity|]. intros more. destruct (answers more _); reflexivity.
Qed.
Lemma decrypt_tells E dm : forall f w s w', decrypt_loop E f dm w = (Ret s, w') -> w_tty w = true -> exists k, tells (repeat (Ask false) k) w w'.
Proof.
  induction f as [|f IH]; intros w s w' Q T; [discriminate|]. cbn [decrypt_loop] in Q. apply ret_inv in Q as (pw & v & Q1 & Q2).
  assert (G : exists j, tells (repeat (Ask false) j) w v).
  { destruct (dm_encrypted dm); [exists 1%nat; eapply tells_ask; eassumption|]. injection Q1 as _ <-. exists 0%nat. apply tells_same, same_refl. }
  destruct G as (j & G). destruct (dm_decrypt_seed E dm pw) as [x|e|]; try discriminate Q2.
  - injection Q2 as _ <-. eauto.
  - destruct e; try discriminate Q2. destruct (IH v s w' Q2 ltac:(destruct G as (X & _); congruence)) as (k & K). exists (j + k)%nat. rewrite repeat_app. eapply tells_trans; eassumption.
Qed.
Lemma input_tells E o w s dm w' : decode_mnemonic_from_input E o w = (Ret (s, dm), w') -> w_tty w = true ->
  exists entry unlock v, tells (entry_tasks entry ++ repeat (Ask false) unlock) v w' /\
    w_tty v = w_tty w /\ w_prompts v = w_prompts w /\ w_stdout v = w_stdout w /\
    (io_simple o = false \/ io_in_file o <> [] -> w_stdin v = w_stdin w) /\
    (forall n, entry = Some n -> (n <= length (w_stdin v))%nat /\ io_simple o = false /\ io_in_file o = []).
Proof.
  intros Q T. unfold decode_mnemonic_from_input in Q. apply ret_inv in Q as (words & w1 & Q1 & Q). apply ret_inv in Q as (dm1 & w2 & Q2 & Q). apply lift_inv in Q2. subst w2.
  apply ret_inv in Q as (s1 & w2 & Q2 & Q). assert (w' = w2) by (injection Q; auto). subst w'. clear Q. unfold read_phrase in Q1.
  destruct (io_in_file o) as [|b path] eqn:F.
  - rewrite T in Q1. cbn [negb] in Q1. rewrite orb_false_r in Q1. unfold from_stdin in Q1. destruct (io_simple o) eqn:S.
    + destruct (user_input_mnemonic_simple E (w_stdin w)) as [r rest]. injection Q1 as _ <-. destruct (decrypt_tells _ _ _ _ _ _ Q2 T) as (k & K).
      exists None, k, (set_stdin w rest). cbn [entry_tasks app]. split; [exact K|]. repeat split; try discriminate. intros [X|X]; [discriminate|contradiction].
    + destruct (user_input_mnemonic E (w_stdin w)) as [r rest] eqn:U. injection Q1 as _ <-. destruct (enter_suffix _ _ _ _ _ U) as (n & L & ->).
      destruct (decrypt_tells _ _ _ _ _ _ Q2 T) as (k & K). exists (Some n), k, w. cbn [entry_tasks]. split; [eapply tells_trans; [apply tells_enter; [exact L|reflexivity]|exact K]|].
      repeat split; intros; congruence.
  - assert (w1 = w). { unfold read_word_file in Q1. apply ret_inv in Q1 as (c & v & Q1 & Q3). apply open_same in Q1. subst v. first [apply lift_inv in Q3|injection Q3 as _ Q3]; congruence. }
    subst w1. destruct (decrypt_tells _ _ _ _ _ _ Q2 T) as (k & K). exists None, k, w. cbn [entry_tasks app]. split; [exact K|]. repeat split; intros; congruence.
Qed.
Lemma recover_tells E o w w' : recover_and_print E o w = (Ret tt, w') -> w_tty w = true ->
  exists entry unlock key v, tells (recover_tasks entry unlock (ro_encrypt_keys o) key) v w' /\
    w_tty v = w_tty w /\ w_prompts v = w_prompts w /\ w_stdout v = w_stdout w /\
    (io_simple (ro_input o) = false \/ io_in_file (ro_input o) <> [] -> w_stdin v = w_stdin w) /\
    (forall n, entry = Some n -> (n <= length (w_stdin v))%nat /\ io_simple (ro_input o) = false /\ io_in_file (ro_input o) = []).
Proof.
  intros G T. unfold recover_and_print in G.
  apply ret_inv in G as (ttl & w1 & G1 & G). apply ttl_same in G1. subst w1.
  destruct (_ || _ || _); [discriminate G|].
  apply ret_inv in G as ([om types] & w1 & G1 & G). apply lift_inv in G1. subst w1.
  apply ret_inv in G as ([sd dm] & w1 & G1 & G). apply input_tells in G1 as (entry & unlock & v & T1 & A & B & C & D & F); [|exact T].
  apply ret_inv in G as (mnk & w2 & G1 & G). apply lift_inv in G1. subst w2.
  apply ret_inv in G as (pw & w2 & G1 & G). assert (T2 : tells (if ro_encrypt_keys o then [Ask true] else []) w1 w2).
  { destruct (ro_encrypt_keys o); [eapply tells_ask; [|exact G1]; destruct T1 as (X & _); congruence|]. injection G1 as _ <-. apply tells_same, same_refl. }
  clear G1. apply ret_inv in G as (armor & w3 & G1 & G). apply with_random_same, tells_same in G1. injection G as <-.
  exists entry, unlock, (armor ++ [10]), v. split; [|auto]. unfold recover_tasks. rewrite app_assoc.
  eapply tells_trans; [exact T1|]. eapply tells_trans; [exact T2|].
  replace [Print (armor ++ [10])] with ([] ++ [Print (armor ++ [10])]) by reflexivity. eapply tells_trans; [exact G1|].
  unfold tells. cbn. rewrite Nat.add_0_r. repeat split. exists []. split; [reflexivity|]. intros more. destruct (answers more (w_stdin w3)); reflexivity.
Qed.
Lemma convert_tells E o w w' : decode_and_convert E o w = (Ret tt, w') -> w_tty w = true ->
  exists entry unlock v, tells (convert_tasks entry unlock (co_encrypt o)) v w' /\
    w_tty v = w_tty w /\ w_prompts v = w_prompts w /\ w_stdout v = w_stdout w /\
    (io_simple (co_input o) = false \/ io_in_file (co_input o) <> [] -> w_stdin v = w_stdin w) /\
    (forall n, entry = Some n -> (n <= length (w_stdin v))%nat /\ io_simple (co_input o) = false /\ io_in_file (co_input o) = []).
Proof.
  intros G T. unfold decode_and_convert in G.
  apply ret_inv in G as ([sd dm] & w1 & G1 & G). apply input_tells in G1 as (entry & unlock & v & T1 & A & B & C & D & F); [|exact T].
  apply ret_inv in G as (words & w2 & G1 & G). assert (T2 : tells (if co_encrypt o then [Ask true] else []) w1 w2).
  { destruct (co_encrypt o); [|apply lift_inv in G1; subst; apply tells_same, same_refl]. apply ret_inv in G1 as (pw2 & w4 & G1 & G2). injection G2 as _ <-.
    eapply tells_ask; [|exact G1]. destruct T1 as (X & _). congruence. }
  assert (S3 : same_terminal w2 w'). { destruct (io_in_file (co_input o)); [eapply show_same|eapply save_same]; exact G. }
  exists entry, unlock, v. split; [|auto]. unfold convert_tasks. rewrite app_assoc, <- (app_nil_r (_ ++ (if co_encrypt o then _ else _))).
  eapply tells_trans; [|apply tells_same; exact S3]. eapply tells_trans; [exact T1|exact T2].
Qed.

(** every schedule *)
Lemma merged_length {A} (a b l : list A) : merged a b l -> length l = (length a + length b)%nat.
Proof. induction 1; rewrite ?app_length; cbn [length]; rewrite ?app_length in *; cbn [length]; lia. Qed.
Lemma merged_right {A} (b l : list A) : merged [] b l -> l = b.
Proof. intros M. remember (@nil A) as a. revert Heqa. induction M as [|x a b l M IH|x a b l M IH]; intros Q; [reflexivity|destruct a; discriminate|rewrite (IH Q); reflexivity]. Qed.
Lemma filter_most {A} (f : A -> bool) l : (length (filter f l) <= length l)%nat.
Proof. induction l as [|a l IH]; cbn [filter length]; [lia|]. destruct (f a); cbn [length]; lia. Qed.
Lemma schedule_all t ts es s : term_run (start_system t ts) es s -> undisturbed es -> ~ In Entry_fails es -> s_main s = Main_gone ->
  answers ts (keys_typed s) = (s_passwords s, s_queue s) /\ s_attrs s = t /\
  (length (s_passwords s) = asks_in ts -> exists n, (n <= asks_in ts)%nat /\ merged (prints_in ts) (repeat [10] n) (s_stdout s)).
Proof.
  intros R U NE G. pose proof (to_come_run t ts es s R U NE [] ltac:(auto)) as P. unfold to_come in P. rewrite G, !app_nil_r in P. cbn [fst snd] in P.
  split; [exact P|]. split.
  { destruct (calm_run t ts es s R U) as (_ & _ & _ & _ & X & Y). rewrite G in X, Y. destruct X as [X _]. rewrite X in Y. exact Y. }
  intros L. destruct (output_run t ts es s R) as (LE & past & more & PP & M & T). pose proof (asks_run t ts es s R) as AI. unfold asks_inv in AI. rewrite G in *. cbn [left_tasks] in *.
  exists (newlines s). split; [unfold newlines; pose proof (filter_most gave_newline (s_watchers s)); lia|].
  assert (X : existsb stops es = false).
  { apply not_true_iff_false. intros X. apply existsb_exists in X as (e & I & E). destruct e; try discriminate E; try (apply U; exact I); try (apply NE; exact I).
    assert (Y : existsb gave_up es = true) by (apply existsb_exists; eauto). rewrite Y in AI. lia. }
  rewrite X in T. rewrite (T eq_refl) in PP. cbn [prints_in flat_map] in PP. rewrite !app_nil_r in PP. rewrite PP. exact M.
Qed.
Definition enterless (ts : list task) : bool := forallb (fun t => match t with Enter _ => false | _ => true end) ts.
Lemma enterless_run t ts es s : enterless ts = true -> term_run (start_system t ts) es s -> ~ In Entry_fails es.
Proof.
  intros N R. assert (X : (~ In Entry_fails es) /\ match s_main s with Main_entry _ _ _ => False | m => enterless (left_tasks m) = true end); [|apply X].
  remember (start_system t ts) as s0. induction R as [s0|s0 es s1 e s2 R IH H]; [subst; split; [intros []|exact N]|].
  destruct (IH Heqs0) as [I1 I2]. clear R Heqs0 IH. destruct s1 as [at_ qu cl lg mn cf rd er it ws so ps]. tidy.
  assert (NE : e <> Entry_fails). { intros ->. unfold happen in H. tidy. destruct mn; try discriminate H. contradiction. }
  split; [intros X; apply in_app_or in X as [X|[X|[]]]; [auto|congruence]|].
  destruct e; step_cases H; tidy; subst; cbn [left_tasks enterless forallb] in *; try contradiction; auto; discriminate.
Qed.
Lemma tells_schedule ts v w' t es s : tells ts v w' -> term_run (start_system t ts) es s -> undisturbed es -> ~ In Entry_fails es ->
  s_main s = Main_gone -> keys_typed s = w_stdin v ->
  s_queue s = w_stdin w' /\ length (s_passwords s) = asks_in ts /\ s_attrs s = t /\ exists n, (n <= asks_in ts)%nat /\ merged (prints_in ts) (repeat [10] n) (s_stdout s).
Proof.
  intros (_ & _ & _ & ps & L & A) R U NE G K. destruct (schedule_all t ts es s R U NE G) as (P & Q & O). specialize (A []). rewrite app_nil_r in A. cbn [answers fst snd] in A.
  rewrite app_nil_r, <- K, P in A. injection A as Ps Qu. rewrite <- Ps in L. split; [exact Qu|]. split; [exact L|]. split; [exact Q|exact (O L)].
Qed.

(** a run to the end *)
Definition no_entry (s : system) : Prop := match s_main s with Main_entry _ _ _ => False | m => enterless (left_tasks m) = true end.
Lemma no_entry_step e s s' : no_entry s -> happen e s = Some s' -> no_entry s'.
Proof.
  intros I H. destruct s as [at_ qu cl lg mn cf rd er it ws so ps]. unfold no_entry in *. tidy.
  destruct e; step_cases H; tidy; subst; cbn [left_tasks enterless forallb] in *; try contradiction; auto; discriminate.
Qed.
Lemma program_keeps e s s' : of_program e = true -> happen e s = Some s' -> s_log s' = s_log s /\ s_closed s' = s_closed s.
Proof. intros P H. destruct s as [at_ qu cl lg mn cf rd er it ws so ps]. destruct e; try discriminate P; step_cases H; split; reflexivity. Qed.
Lemma run_cons s e s1 es s2 : happen e s = Some s1 -> term_run s1 es s2 -> term_run s (e :: es) s2.
Proof. intros H R. apply run_play. cbn [play]. rewrite H. apply run_play, R. Qed.
Lemma run_app s es s1 es2 s2 : term_run s es s1 -> term_run s1 es2 s2 -> term_run s (es ++ es2) s2.
Proof. intros R R2. induction R2 as [s1|s1 es2 s2 e s3 R2 IH H]; [rewrite app_nil_r; exact R|]. rewrite app_assoc. econstructor; [apply IH; exact R|exact H]. Qed.
Lemma finish : forall k s, (work s <= k)%nat -> s_closed s = true -> lively s -> no_entry s ->
  exists es s', term_run s es s' /\ forallb of_program es = true /\ ~ In Entry_fails es /\ s_main s' = Main_gone /\ s_log s' = s_log s.
Proof.
  induction k as [|k IH]; intros s W C L N.
  all: assert (D : s_main s = Main_gone \/ s_main s <> Main_gone) by (destruct (s_main s); auto; right; discriminate).
  all: destruct D as [D|D]; [exists [], s; repeat split; auto; constructor|].
  all: destruct (progress s L C D) as (e & s1 & P & H); pose proof (work_step _ _ _ P H).
  - lia.
  - destruct (program_keeps _ _ _ P H) as [K1 K2]. destruct (IH s1) as (es & s2 & R & F & NE & G & LG); [lia|congruence|eapply lively_step; eassumption|eapply no_entry_step; eassumption|].
    exists (e :: es), s2. split; [eapply run_cons; eassumption|]. split; [cbn [forallb]; rewrite P; exact F|]. split; [|split; [exact G|congruence]].
    intros [X|X]; [|contradiction]. subst e. unfold happen in H. unfold no_entry in N. destruct (s_main s); try discriminate H. contradiction.
Qed.
Lemma typed_run : forall stdin s, s_closed s = false -> s_main s <> Main_gone -> exists s', term_run s (map Key stdin ++ [Close]) s' /\
  s_closed s' = true /\ s_queue s' = s_queue s ++ stdin /\ keys_typed s' = keys_typed s ++ stdin /\ s_main s' = s_main s.
Proof.
  induction stdin as [|k stdin IH]; intros s C G.
  - exists (set_closed s true). split; [apply run_play; cbn [map app play]; unfold happen; destruct (s_main s); try reflexivity; contradiction|]. rewrite !app_nil_r. repeat split.
  - assert (H : exists s1, happen (Key k) s = Some s1 /\ s_closed s1 = false /\ s_queue s1 = s_queue s ++ [k] /\ keys_typed s1 = keys_typed s ++ [k] /\ s_main s1 = s_main s).
    { eexists. split; [unfold happen; rewrite C; destruct (s_main s); try reflexivity; contradiction|]. cbn. repeat split; [exact C|]. unfold keys_typed. cbn. rewrite map_app. reflexivity. }
    destruct H as (s1 & H & C1 & Q1 & K1 & M1). destruct (IH s1 C1 ltac:(congruence)) as (s2 & R & C2 & Q2 & K2 & M2).
    exists s2. split; [cbn [map app]; eapply run_cons; eassumption|]. split; [exact C2|]. rewrite Q2, Q1, K2, K1, <- !app_assoc. repeat split. congruence.
Qed.
Lemma schedule_exists_all t entry ts stdin : enterless ts = true -> (forall n, entry = Some n -> (n <= length stdin)%nat) ->
  exists es s, term_run (start_system t (entry_tasks entry ++ ts)) es s /\ undisturbed es /\ ~ In Entry_fails es /\ s_main s = Main_gone /\ keys_typed s = stdin.
Proof.
  intros N L. set (s0 := start_system t (entry_tasks entry ++ ts)). destruct (typed_run stdin s0 eq_refl ltac:(discriminate)) as (s1 & R1 & C1 & Q1 & K1 & M1). cbn [s0 start_system s_queue s_main keys_typed s_log map app] in *.
  assert (G : exists es2 s2, term_run s1 es2 s2 /\ undisturbed es2 /\ ~ In Entry_fails es2 /\ no_entry s2 /\ s_closed s2 = true /\ s_log s2 = s_log s1).
  { destruct entry as [n|]; [|exists [], s1; split; [apply Term_start|]; split; [intros []|]; split; [intros []|]; split; [unfold no_entry; rewrite M1; exact N|auto]].
    assert (H : exists s2, play [Begin; Entered] s1 = Some s2 /\ s_main s2 = Main_next ts /\ s_closed s2 = true /\ s_log s2 = s_log s1).
    { specialize (L n eq_refl). apply Nat.leb_le in L. destruct s1 as [at_ qu cl lg mn cf rd er it ws so ps]. tidy. subst. eexists. cbn [play]. unfold happen. tidy. cbn [entry_tasks app]. tidy. rewrite L. split; [reflexivity|]. repeat split. }
    destruct H as (s2 & P & M & C & LG). exists [Begin; Entered], s2. split; [apply run_play, P|]. split; [unfold undisturbed; cbn; intuition discriminate|]. split; [cbn; intuition discriminate|].
    split; [unfold no_entry; rewrite M; exact N|auto]. }
  destruct G as (es2 & s2 & R2 & U2 & NE2 & N2 & C2 & LG2).
  pose proof (run_app _ _ _ _ _ R1 R2) as R12. destruct (finish (work s2) s2 (le_n _) C2 (lively_run _ _ _ _ R12) N2) as (es3 & s3 & R3 & F3 & NE3 & G3 & LG3).
  exists ((map Key stdin ++ [Close]) ++ es2 ++ es3), s3. split; [rewrite app_assoc; eapply run_app; eassumption|].
  assert (U1 : forall e, In e (map Key stdin ++ [Close]) -> e <> Signal /\ e <> Entry_fails).
  { intros e I. apply in_app_or in I as [I|[<-|[]]]; [|split; discriminate]. apply in_map_iff in I as (k & <- & _). split; discriminate. }
  split; [|split; [|split; [exact G3|unfold keys_typed in *; rewrite LG3, LG2; exact K1]]].
  - intros I. apply in_app_or in I as [I|I]; [apply U1 in I; tauto|]. apply in_app_or in I as [I|I]; [exact (U2 I)|]. rewrite forallb_forall in F3. specialize (F3 _ I). discriminate F3.
  - intros I. apply in_app_or in I as [I|I]; [apply U1 in I; tauto|]. apply in_app_or in I as [I|I]; [exact (NE2 I)|exact (NE3 I)].
Qed.
