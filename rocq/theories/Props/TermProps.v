(** Runs at a terminal: what is echoed, how the terminal is left, and that the outcome does not depend
    on how the goroutines are scheduled. *)
From Coq Require Import Lia ZifyBool ZifyNat.
From Verif.Model Require Import GoBase Env Version GoTime Seed Encoding Recovery PgpKeys Mnemonikey CliText CliInput CliFlags CliMain CliTerm.
From Verif.Spec Require Import EnvSpec InputSpec EndSpec TermSpec.
From Verif.Proofs Require Import BitsP InputP TermP TermMainP EnvInst CliInst.
From Verif.Props Require Import EndProps ArmorProps ConvertProps.

(** a user who types a line *)
Definition types (text : bytes) : list event := map Key text ++ [Key 10].
(** one question: the reader calls ReadPassword, the user types, the reader goes on *)
Definition question (text : bytes) : list event := [Call] ++ types text ++ [Read; Restore].
Definition prompt_events (text : bytes) : list event := [Begin] ++ question text ++ question text ++ [Receive].
Definition usual : attrs := mk_attrs true true true.

(** * C84: keys typed while a password or, in raw mode, the phrase is read are not echoed *)
Theorem password_unseen : forall t ts es s, settled_run (start_system t ts) es s -> undisturbed es -> unseen s.
Proof. intros t ts es s R U. apply (hidden_run t ts es s R U). Qed.
Print Assumptions password_unseen.
Theorem password_unseen_once : forall t ts es s, one_prompt ts = true -> term_run (start_system t ts) es s -> undisturbed es -> unseen s.
Proof. intros t ts es s O R U. apply (hidden_run t ts es s (lone_run t ts es s O R) U). Qed.
Print Assumptions password_unseen_once.
(** which commands ask at most once *)
Theorem one_prompt_commands : forall entry unlock keys phrase key,
  one_prompt (generate_tasks keys phrase key) = negb (keys && phrase) /\
  one_prompt (recover_tasks entry unlock keys key) = (unlock + (if keys then 1 else 0) <=? 1)%nat /\
  one_prompt (convert_tasks entry unlock phrase) = (unlock + (if phrase then 1 else 0) <=? 1)%nat.
Proof.
  intros entry unlock keys phrase key. split; [destruct keys, phrase; reflexivity|].
  split; destruct entry as [n|], unlock as [|[|k]], keys, phrase; reflexivity.
Qed.
Print Assumptions one_prompt_commands.
(** not so with two prompts: the watcher of the first switches echo on again during the second.  Nor
    once a prompt is interrupted, while the process lives. *)
Definition late_watcher : list event :=
  prompt_events (bs "a") ++ [Begin; Call; Watch 0; Watch 0; Key (hd 0 (bs "b"))].
Theorem password_unseen_refuted :
  (forall key, exists es s, term_run (start_system usual (generate_tasks true true key)) es s /\ undisturbed es /\ ~ unseen s) /\
  (forall key, exists es s, term_run (start_system usual (generate_tasks true false key)) es s /\ ~ unseen s).
Proof.
  assert (X : forall s k l, s_log s = l ++ [k] -> k_secret k = true -> k_echoed k = true -> ~ unseen s).
  { intros s k l Q A B U. unfold unseen in U. rewrite Q in U. apply Forall_app in U as [_ U]. inversion U as [|? ? W]. specialize (W A). congruence. }
  split; intros key.
  - exists late_watcher. eexists. split; [apply run_play; vm_compute; reflexivity|]. split.
    + unfold undisturbed, late_watcher. cbn. intuition discriminate.
    + apply X with (k := mk_keystroke 98 true true) (l := map (fun k => mk_keystroke k false true) [97; 10; 97; 10]); reflexivity.
  - exists [Begin; Call; Signal; Watch 0; Watch 0; Key 98]. eexists. split; [apply run_play; vm_compute; reflexivity|].
    apply X with (k := mk_keystroke 98 true true) (l := []); reflexivity.
Qed.
Print Assumptions password_unseen_refuted.
(** cases: both prompts of generate, the first watcher at rest before the second password is read; and
    recovering with the phrase typed in raw mode and one password, the watcher in the middle of printing *)
Definition settled_events : list event :=
  prompt_events (bs "a") ++ [Watch 0; Watch 0] ++ prompt_events (bs "b") ++ [Begin; Watch 1; Leave].
Example password_unseen_case : forall key, exists s, settled_run (start_system usual (generate_tasks true true key)) settled_events s /\
  undisturbed settled_events /\ s_passwords s = [bs "a"; bs "b"] /\ length (filter k_secret (s_log s)) = 8%nat /\ unseen s.
Proof.
  intros key. destruct (settled_play settled_events (start_system usual (generate_tasks true true key))) as [s|] eqn:Q; [|vm_compute in Q; discriminate Q].
  apply settled_play_ok in Q as R. exists s. split; [exact R|].
  assert (U : undisturbed settled_events) by (unfold undisturbed, settled_events; cbn; intuition discriminate).
  split; [exact U|]. pose proof (password_unseen _ _ _ _ R U) as V. clear R. vm_compute in Q. injection Q as <-.
  split; [reflexivity|]. split; [reflexivity|exact V].
Qed.
Definition one_events : list event :=
  [Begin] ++ map Key (bs "word") ++ [Entered; Begin] ++ question (bs "wrong") ++ [Receive; Watch 0; Begin; Leave].
Example password_unseen_once_case : forall key, exists s, term_run (start_system usual (recover_tasks (Some 4%nat) 1 false key)) one_events s /\
  s_passwords s = [bs "wrong"] /\ length (filter k_secret (s_log s)) = 10%nat /\ s_stdout s = [[10]; key].
Proof. intros key. eexists. split; [apply run_play; vm_compute; reflexivity|]. repeat split. Qed.

(** * C85: the terminal is left as it was *)
Theorem terminal_restored : forall t ts es s, term_run (start_system t ts) es s -> undisturbed es -> s_main s = Main_gone -> s_attrs s = t.
Proof.
  intros t ts es s R U G. destruct (calm_run t ts es s R U) as (_ & _ & _ & _ & X & Y). rewrite G in X, Y. destruct X as [X _]. rewrite X in Y. exact Y.
Qed.
Print Assumptions terminal_restored.
(** whenever main is between two tasks, too *)
Theorem terminal_restored_between : forall t ts es s rest, term_run (start_system t ts) es s -> undisturbed es -> s_main s = Main_next rest -> s_attrs s = t.
Proof.
  intros t ts es s rest R U G. destruct (calm_run t ts es s R U) as (_ & _ & _ & _ & X & Y). rewrite G in X, Y. destruct X as [X _]. rewrite X in Y. exact Y.
Qed.
Print Assumptions terminal_restored_between.
(** not so when a prompt is interrupted: main may leave before the watcher has restored the terminal,
    and even when the watcher came to rest, the reader may switch echo off after it; nor when a signal
    from elsewhere kills the process in raw mode *)
Theorem terminal_restored_refuted : forall c n,
  (exists es s, term_run (start_system usual [Ask c]) es s /\ s_main s = Main_gone /\ s_attrs s = hushed_attrs usual /\ s_stdout s = []) /\
  (exists es s, term_run (start_system usual [Ask c]) es s /\ s_main s = Main_gone /\ s_attrs s = hushed_attrs usual /\ Forall at_rest (s_watchers s)) /\
  (exists es s, term_run (start_system usual [Enter n]) es s /\ s_main s = Main_gone /\ s_attrs s = raw_attrs usual).
Proof.
  intros c n. split; [|split].
  - exists [Begin; Call; Signal; Abort; Leave]. eexists. split; [apply run_play; vm_compute; reflexivity|]. repeat split.
  - exists [Begin; Signal; Watch 0; Watch 0; Call; Abort; Leave]. eexists. split; [apply run_play; vm_compute; reflexivity|]. repeat split. repeat constructor.
  - exists [Begin; Signal]. eexists. split; [apply run_play; vm_compute; reflexivity|]. repeat split.
Qed.
Print Assumptions terminal_restored_refuted.
(** case: phrase entry given up; the input ends at the second prompt *)
Example terminal_restored_case :
  (exists s, term_run (start_system usual [Enter 40%nat; Ask true]) [Begin; Key 3; Entry_fails; Leave] s /\ s_main s = Main_gone) /\
  (exists s, term_run (start_system usual [Ask false; Ask true]) ([Begin] ++ question (bs "a") ++ [Receive; Begin; Call; Close; Read; Restore; Send_error; Watch 0; Fail_prompt; Leave]) s /\
     s_main s = Main_gone /\ s_passwords s = [bs "a"] /\ s_attrs s = usual).
Proof. split; eexists; (split; [apply run_play; vm_compute; reflexivity|]); repeat split. Qed.

(** * C86: the outcome does not depend on the schedule *)
(** the passwords are those the prompts return one after the other, and the same input is left *)
Theorem schedule_passwords : forall t ts es s, term_run (start_system t ts) es s -> undisturbed es -> ~ In Entry_fails es -> s_main s = Main_gone ->
  answers ts (keys_typed s) = (s_passwords s, s_queue s).
Proof. intros t ts es s R U NE G. apply (schedule_all t ts es s R U NE G). Qed.
Print Assumptions schedule_passwords.
(** if they are all there, what main prints gets printed, with at most one newline for each prompt
    somewhere in between, before or after *)
Theorem schedule_output : forall t ts es s, term_run (start_system t ts) es s -> undisturbed es -> ~ In Entry_fails es -> s_main s = Main_gone ->
  length (fst (answers ts (keys_typed s))) = asks_in ts ->
  exists n, (n <= asks_in ts)%nat /\ merged (prints_in ts) (repeat [10] n) (s_stdout s).
Proof. intros t ts es s R U NE G L. destruct (schedule_all t ts es s R U NE G) as (A & _ & O). rewrite A in L. exact (O L). Qed.
Print Assumptions schedule_output.
(** once the input has ended, the program is never stuck and takes a bounded number of steps, however
    scheduled, interrupted or not *)
Theorem schedule_ends : forall t ts es s, term_run (start_system t ts) es s -> s_closed s = true ->
  exists bound, forall es' s', term_run s es' s' -> forallb of_program es' = true ->
    (length es' <= bound)%nat /\ (s_main s' <> Main_gone -> exists e s2, of_program e = true /\ happen e s' = Some s2).
Proof.
  intros t ts es s R C. exists (work s). intros es' s' R' P. split; [pose proof (work_run _ _ _ R' P); lia|].
  intros N. apply progress; [|clear P N; induction R'; [exact C|]|exact N].
  - assert (X : term_run (start_system t ts) (es ++ es') s').
    { clear P N. induction R' as [s|s es1 s1 e s2 R1 IH H]; [rewrite app_nil_r; exact R|]. rewrite app_assoc. econstructor; [apply IH; assumption|exact H]. }
    exact (lively_run _ _ _ _ X).
  - specialize (IHR' R C). clear R R'. destruct s1 as [at_ qu cl lg mn cf rd er it ws so ps]. tidy. subst cl. destruct e; step_cases H; reflexivity.
Qed.
Print Assumptions schedule_ends.

(** there is such a run for every input, with the phrase entry first if there is one *)
Theorem schedule_exists : forall t entry ts stdin, enterless ts = true -> (forall n, entry = Some n -> (n <= length stdin)%nat) ->
  exists es s, term_run (start_system t (entry_tasks entry ++ ts)) es s /\ undisturbed es /\ ~ In Entry_fails es /\ s_main s = Main_gone /\ keys_typed s = stdin.
Proof. exact schedule_exists_all. Qed.
Print Assumptions schedule_exists.
Lemma asks_enterless k ts : enterless (repeat (Ask false) k ++ ts) = enterless ts.
Proof. induction k as [|k IH]; [reflexivity|exact IH]. Qed.
Lemma recover_schedule_exists t entry unlock keys key stdin : (forall n, entry = Some n -> (n <= length stdin)%nat) ->
  exists es s, term_run (start_system t (recover_tasks entry unlock keys key)) es s /\ undisturbed es /\ ~ In Entry_fails es /\ s_main s = Main_gone /\ keys_typed s = stdin.
Proof. intros L. apply (schedule_exists t entry); [rewrite asks_enterless; destruct keys; reflexivity|exact L]. Qed.
Lemma convert_schedule_exists t entry unlock phrase stdin : (forall n, entry = Some n -> (n <= length stdin)%nat) ->
  exists es s, term_run (start_system t (convert_tasks entry unlock phrase)) es s /\ undisturbed es /\ ~ In Entry_fails es /\ s_main s = Main_gone /\ keys_typed s = stdin.
Proof. intros L. apply (schedule_exists t entry); [rewrite asks_enterless; destruct phrase; reflexivity|exact L]. Qed.

(** the commands: a run of Model/CliMain.v that succeeds at a terminal stands for every schedule *)
Theorem generate_schedules : forall E g w w', Forall byte (w_stdin w) -> generate_and_print E g w = (Ret tt, w') -> w_tty w = true ->
  exists key, w_stdout w' = w_stdout w ++ [key] /\
  let ts := generate_tasks (go_encrypt_keys g) (go_encrypt_phrase g) key in
  w_prompts w' = (w_prompts w + asks_in ts)%nat /\
  forall t es s, term_run (start_system t ts) es s -> undisturbed es -> s_main s = Main_gone ->
    (go_entropy g <> bs "-" -> keys_typed s = w_stdin w) -> (go_entropy g = bs "-" -> keys_typed s = skipn 16 (w_stdin w)) ->
    s_queue s = w_stdin w' /\ length (s_passwords s) = asks_in ts /\ s_attrs s = t /\
    exists n, (n <= asks_in ts)%nat /\ merged [key] (repeat [10] n) (s_stdout s).
Proof.
  intros E g w w' BY G T. destruct (generate_tells E g w w' BY G T) as (key & v & TL & A & B & C & D1 & D2). exists key.
  assert (PR : prints_in (generate_tasks (go_encrypt_keys g) (go_encrypt_phrase g) key) = [key]) by (destruct (go_encrypt_keys g), (go_encrypt_phrase g); reflexivity).
  pose proof TL as (_ & X & Y & _). rewrite B in X. rewrite C, PR in Y. split; [exact Y|]. split; [exact X|].
  intros t es s R U GO K1 K2. rewrite <- PR. apply (tells_schedule _ v w' t es s TL R U); [|exact GO|].
  - eapply enterless_run; [|exact R]. destruct (go_encrypt_keys g), (go_encrypt_phrase g); reflexivity.
  - destruct (bytes_eqb (go_entropy g) (bs "-")) eqn:Q; [apply bytes_eqb_eq in Q; rewrite D2 by exact Q; auto|apply bytes_eqb_neq in Q; rewrite D1 by exact Q; auto].
Qed.
Print Assumptions generate_schedules.
(** [entry]: how many keys the phrase took in raw mode, if it was typed so; [unlock]: how often the
    password of the phrase was asked for *)
Theorem recover_schedules : forall E o w w', recover_and_print E o w = (Ret tt, w') -> w_tty w = true ->
  exists key entry unlock input, w_stdout w' = w_stdout w ++ [key] /\
  (io_simple (ro_input o) = false \/ io_in_file (ro_input o) <> [] -> input = w_stdin w) /\
  (forall n, entry = Some n -> (n <= length input)%nat /\ io_simple (ro_input o) = false /\ io_in_file (ro_input o) = []) /\
  let ts := recover_tasks entry unlock (ro_encrypt_keys o) key in
  w_prompts w' = (w_prompts w + asks_in ts)%nat /\
  forall t es s, term_run (start_system t ts) es s -> undisturbed es -> ~ In Entry_fails es -> s_main s = Main_gone -> keys_typed s = input ->
    s_queue s = w_stdin w' /\ length (s_passwords s) = asks_in ts /\ s_attrs s = t /\
    exists n, (n <= asks_in ts)%nat /\ merged [key] (repeat [10] n) (s_stdout s).
Proof.
  intros E o w w' G T. destruct (recover_tells E o w w' G T) as (entry & unlock & key & v & TL & A & B & C & D & F). exists key, entry, unlock, (w_stdin v).
  assert (PR : prints_in (recover_tasks entry unlock (ro_encrypt_keys o) key) = [key]).
  { unfold recover_tasks. rewrite !prints_in_app. replace (prints_in (repeat (Ask false) unlock)) with (@nil bytes) by (clear; induction unlock as [|n IH]; [reflexivity|exact IH]).
    destruct entry, (ro_encrypt_keys o); reflexivity. }
  pose proof TL as (_ & X & Y & _). rewrite B in X. rewrite C, PR in Y. split; [exact Y|]. split; [exact D|]. split; [exact F|]. split; [exact X|].
  intros t es s R U NE GO K. rewrite <- PR. exact (tells_schedule _ v w' t es s TL R U NE GO K).
Qed.
Print Assumptions recover_schedules.
Theorem convert_schedules : forall E o w w', decode_and_convert E o w = (Ret tt, w') -> w_tty w = true ->
  exists entry unlock input, w_stdout w' = w_stdout w /\
  (io_simple (co_input o) = false \/ io_in_file (co_input o) <> [] -> input = w_stdin w) /\
  (forall n, entry = Some n -> (n <= length input)%nat /\ io_simple (co_input o) = false /\ io_in_file (co_input o) = []) /\
  let ts := convert_tasks entry unlock (co_encrypt o) in
  w_prompts w' = (w_prompts w + asks_in ts)%nat /\
  forall t es s, term_run (start_system t ts) es s -> undisturbed es -> ~ In Entry_fails es -> s_main s = Main_gone -> keys_typed s = input ->
    s_queue s = w_stdin w' /\ length (s_passwords s) = asks_in ts /\ s_attrs s = t /\
    exists n, (n <= asks_in ts)%nat /\ s_stdout s = repeat [10] n.
Proof.
  intros E o w w' G T. destruct (convert_tells E o w w' G T) as (entry & unlock & v & TL & A & B & C & D & F). exists entry, unlock, (w_stdin v).
  assert (PR : prints_in (convert_tasks entry unlock (co_encrypt o)) = []).
  { unfold convert_tasks. rewrite !prints_in_app. replace (prints_in (repeat (Ask false) unlock)) with (@nil bytes) by (clear; induction unlock as [|n IH]; [reflexivity|exact IH]).
    destruct entry, (co_encrypt o); reflexivity. }
  pose proof TL as (_ & X & Y & _). rewrite B in X. rewrite C, PR, app_nil_r in Y. split; [exact Y|]. split; [exact D|]. split; [exact F|]. split; [exact X|].
  intros t es s R U NE GO K. destruct (tells_schedule _ v w' t es s TL R U NE GO K) as (Q1 & Q2 & Q3 & n & L & M). rewrite PR in M.
  split; [exact Q1|]. split; [exact Q2|]. split; [exact Q3|]. exists n. split; [exact L|]. exact (merged_right _ _ M).
Qed.
Print Assumptions convert_schedules.

(** the bytes of standard output do depend on it: the same input, three outputs *)
Definition asked_once : list event := prompt_events (bs "a").
Theorem output_refuted : forall key, key <> [10] -> exists s1 s2 s3,
  let start := start_system usual (generate_tasks true false key) in
  term_run start (asked_once ++ [Watch 0; Begin; Leave]) s1 /\ term_run start (asked_once ++ [Begin; Watch 0; Leave]) s2 /\
  term_run start (asked_once ++ [Begin; Leave]) s3 /\
  s_passwords s1 = [bs "a"] /\ s_passwords s2 = [bs "a"] /\ s_passwords s3 = [bs "a"] /\
  s_stdout s1 = [[10]; key] /\ s_stdout s2 = [key; [10]] /\ s_stdout s3 = [key] /\ s_stdout s1 <> s_stdout s2.
Proof.
  intros key N. eexists. eexists. eexists. cbv zeta. split; [apply run_play; vm_compute; reflexivity|]. split; [apply run_play; vm_compute; reflexivity|]. split; [apply run_play; vm_compute; reflexivity|].
  repeat split. cbn [s_stdout]. intros Q. injection Q as Q _. apply N. symmetry. exact Q.
Qed.
Print Assumptions output_refuted.

(** cases: three wrong schedulings of two prompts, the passwords mistyped; the encrypted phrase of
    EndProps.v with its password asked for at a terminal *)
Definition mistyped : bytes := bs "a" ++ [10] ++ bs "b" ++ [10] ++ [10] ++ bs "c" ++ [10] ++ bs "c" ++ [10] ++ bs "d" ++ [10] ++ bs "d" ++ [10].
Definition ahead : list event :=
  map Key mistyped ++ [Close; Begin; Call; Read; Restore; Call; Read; Restore; Call; Read; Restore; Call; Read; Restore; Call; Read; Restore; Receive;
    Begin; Call; Watch 0; Read; Restore; Call; Read; Restore; Watch 0; Receive; Begin; Watch 1; Leave].
Example schedule_case : forall key, exists s, term_run (start_system usual (generate_tasks true true key)) ahead s /\ undisturbed ahead /\ ~ In Entry_fails ahead /\
  s_main s = Main_gone /\ keys_typed s = mistyped /\ s_passwords s = [bs "c"; bs "d"] /\ s_stdout s = [[10]; key; [10]] /\
  answers (generate_tasks true true key) mistyped = ([bs "c"; bs "d"], []).
Proof.
  intros key. eexists. split; [apply run_play; vm_compute; reflexivity|].
  split; [unfold undisturbed; vm_compute; intuition discriminate|]. split; [vm_compute; intuition discriminate|]. repeat split.
Qed.
Example schedule_ends_case : exists s, term_run (start_system usual [Ask true]) [Begin; Close] s /\ s_closed s = true /\ s_main s <> Main_gone.
Proof. eexists. split; [apply run_play; vm_compute; reflexivity|]. split; [reflexivity|discriminate]. Qed.
Example generate_schedules_case : exists w' key es s, generate_and_print toy_env (case_generate true (bs "phrase")) case_start = (Ret tt, w') /\
  w_stdout w' = [key] /\ term_run (start_system usual (generate_tasks false true key)) es s /\ undisturbed es /\ s_main s = Main_gone /\
  keys_typed s = w_stdin case_start /\ merged [key] [[10]] (s_stdout s).
Proof.
  destruct (case_works true (bs "phrase")) as (w' & G & _).
  destruct (generate_schedules toy_env (case_generate true (bs "phrase")) case_start w' (proj1 (proj2 case_start_ok)) G eq_refl) as (key & O & _).
  exists w', key, (prompt_events (bs "pw") ++ [Watch 0; Begin; Leave]). eexists. split; [exact G|]. split; [exact O|].
  split; [apply run_play; vm_compute; reflexivity|]. split; [unfold undisturbed; vm_compute; intuition discriminate|]. repeat split.
  cbn [s_stdout]. apply (Merged_left key [] [[10]] [[10]]), (Merged_right [10] [] [] []), Merged_none.
Qed.
Example recover_schedules_case : exists v v' key entry unlock es s, recover_and_print toy_env subkeys_recover v = (Ret tt, v') /\ w_tty v = true /\
  term_run (start_system usual (recover_tasks entry unlock true key)) es s /\ undisturbed es /\ ~ In Entry_fails es /\ s_main s = Main_gone /\ keys_typed s = w_stdin v /\
  w_stdout v' = w_stdout v ++ [key] /\ (length (s_passwords s) = unlock + 1)%nat.
Proof.
  destruct recover_prints_case as (v & v' & packets & m & R & T & _).
  destruct (recover_schedules toy_env subkeys_recover v v' R T) as (key & entry & unlock & input & O & I & F & P & S).
  assert (Q : input = w_stdin v) by (apply I; right; discriminate). subst input.
  destruct (recover_schedule_exists usual entry unlock true key (w_stdin v)) as (es & s & R1 & U & NE & G & K); [intros n X; apply (F n X)|].
  exists v, v', key, entry, unlock, es, s. destruct (S usual es s R1 U NE G K) as (_ & L & _). repeat (split; [assumption|]).
  rewrite L. unfold recover_tasks. rewrite !asks_in_app. replace (asks_in (repeat (Ask false) unlock)) with unlock by (clear; induction unlock as [|n IH]; [reflexivity|exact (f_equal S IH)]). destruct entry; cbn; lia.
Qed.
Example convert_schedules_case : exists words w' entry unlock es s, decode_and_convert toy_env case_convert (case_world words case_lines) = (Ret tt, w') /\
  term_run (start_system usual (convert_tasks entry unlock true)) es s /\ undisturbed es /\ ~ In Entry_fails es /\ s_main s = Main_gone /\
  keys_typed s = w_stdin (case_world words case_lines) /\ (length (s_passwords s) = unlock + 1)%nat.
Proof.
  destruct converted_case as (words & new & dm & w' & _ & G & _).
  destruct (convert_schedules toy_env case_convert _ w' G eq_refl) as (entry & unlock & input & O & I & F & P & S).
  assert (Q : input = w_stdin (case_world words case_lines)) by (apply I; left; reflexivity). subst input.
  destruct (convert_schedule_exists usual entry unlock true (w_stdin (case_world words case_lines))) as (es & s & R1 & U & NE & E & K); [intros n X; apply (F n X)|].
  exists words, w', entry, unlock, es, s. destruct (S usual es s R1 U NE E K) as (_ & L & _). repeat (split; [assumption|]).
  rewrite L. unfold convert_tasks. cbn [co_encrypt case_convert]. rewrite !asks_in_app. replace (asks_in (repeat (Ask false) unlock)) with unlock by (clear; induction unlock as [|n IH]; [reflexivity|exact (f_equal S IH)]). destruct entry; cbn; lia.
Qed.
