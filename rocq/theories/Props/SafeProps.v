(** The program always ends, and never by a panic (C91). *)
From Coq Require Import Lia ZifyBool ZifyNat.
From Verif.Model Require Import GoBase Env Version Seed Recovery Mnemonikey CliText CliInput CliFlags CliMain.
From Verif.Spec Require Import EnvSpec CliEnvSpec TextSpec InputSpec FileSpec MainSpec FlagSpec EndSpec.
From Verif.Spec Require Import RealEnv LoopSpec.
From Verif.Proofs Require Import BitsP InputP MainP FlagP EnvInst CliInst SafeP.
From Verif.Props Require Import TextProps MainProps FlagProps EndProps LifeProps RealProps RuntimeProps TraceProps.
Ltac Zify.zify_post_hook ::= Z.div_mod_to_equations.

(** ** C91 *)
(** the commands with their options *)
Definition option_tables : list (bytes * FlagSpec.table) :=
  [(bs "generate", generate_table); (bs "recover", recover_table); (bs "convert", convert_table)].
(** something is wrong with the options, before or after the name of the command *)
Definition misused (args : list bytes) : Prop :=
  wrong_line [] args \/
  exists name tab rest, In (name, tab) option_tables /\ command_line [] [] args (name :: rest) /\ wrong_line tab rest.

Lemma in_tables name tab : In (name, tab) option_tables <-> exists flags, In (name, (flags, tab)) tables.
Proof.
  split.
  - intros [H|[H|[H|[]]]]; injection H as <- <-; eexists; unfold tables; cbn [In]; [left; reflexivity|right; left; reflexivity|right; right; left; reflexivity].
  - intros (flags & [H|[H|[H|[]]]]); injection H as <- <- <-; [left|right; left|right; right; left]; reflexivity.
Qed.
(** how parse_flags sorts the arguments *)
Lemma sorted flags tab args : table_of flags tab -> names_ok tab -> (forall n, (exists k, In (n, k) tab) \/ forall k, ~ In (n, k) tab) ->
  match parse_flags flags args with
  | Parsed _ rest => (exists s, command_line tab s args rest) /\ ~ wrong_line tab args
  | Help => ~ wrong_line tab args /\ forall s rest, ~ command_line tab s args rest
  | Bad_flags => wrong_line tab args
  end.
Proof.
  intros T O D.
  assert (PW : wrong_line tab args -> parse_flags flags args = Bad_flags).
  { intros (s & more & S & X). unfold parse_flags. destruct (parse_settings tab s args _ S flags _ T O (Nat.lt_succ_diag_r _)) as (f & L & -> & T'). apply (parse_wrong tab); auto. }
  assert (PC : forall s rest, command_line tab s args rest -> parse_flags flags args = Parsed (put_all flags s) rest).
  { intros s rest (more & S & X). unfold parse_flags. destruct (parse_settings tab s args more S flags _ T O (Nat.lt_succ_diag_r _)) as (f & L & -> & _). apply parse_end; auto. }
  assert (PH : help_line tab args -> parse_flags flags args = Help).
  { intros (s & a & n & rest & S & N & H & K). unfold parse_flags. destruct (parse_settings tab s args _ S flags _ T O (Nat.lt_succ_diag_r _)) as (f & L & -> & T').
    destruct f as [|f]; [lia|]. apply (parse_help a n); auto. destruct (flag_get (put_all flags s) n) as [v|] eqn:G; [|reflexivity]. destruct (K (kind_of v)). apply T'. eauto. }
  destruct (sorts tab O D (length args) args ltac:(lia)) as [(s & rest & C)|[C|C]].
  - rewrite (PC s rest C). split; [eauto|]. intros X. rewrite PW in PC by exact X. specialize (PC s rest C). discriminate.
  - rewrite (PH C). specialize (PH C). split; [intros X; rewrite PW in PH by exact X; discriminate|]. intros s rest X. rewrite (PC s rest X) in PH. discriminate.
  - rewrite (PW C). exact C.
Qed.

Definition ends (bad : Prop) (o : outcome unit) : Prop :=
  match o with Ret _ | Fail _ => ~ bad | Exit c => c = 0 /\ ~ bad \/ c = 2 /\ bad | _ => False end.
Lemma usage_width t : keeps w_width (usage t). Proof. intros w. reflexivity. Qed.
Lemma run_width t flags exec args : (forall fs rest, keeps w_width (exec fs rest)) -> keeps w_width (run_command t flags exec args).
Proof.
  intros K w. unfold run_command.
  assert (U : forall A (f : unit -> action A) w, keeps w_width (f tt) -> w_width (snd (andthen (usage t) f w)) = w_width w).
  { intros T f v Kf. unfold andthen. pose proof (usage_width t v) as U. destruct (usage t v) as [[[]|e| | |c] v']; cbn [snd] in *; auto. rewrite Kf. exact U. }
  assert (P : forall w, w_width (snd (match parse_flags flags args with Help => do _ <- usage t; fun w => (Exit 0, w) | Bad_flags => do _ <- usage t; fun w => (Exit 2, w)
     | Parsed fs rest => fun w => match exec fs rest w with (Fail ErrPrintUsage, w) => (do _ <- usage t; fail ErrOther) w | r => r end end w)) = w_width w).
  { intros v. destruct (parse_flags flags args) as [fs rest| |]; [|apply U; intros x; reflexivity..].
    specialize (K fs rest v). destruct (exec fs rest v) as [[u|e| | |c] v']; cbn [snd] in *; auto. destruct e; auto. rewrite U; [exact K|intros x; reflexivity]. }
  destruct args as [|a [|b l]]; [apply P| |apply P]. destruct (bytes_eqb a (bs "help")); [apply usage_width|apply P].
Qed.
Lemma run_ends (bad : Prop) t flags exec args w : In t [root_text; generate_text; recover_text; convert_text] -> wide w ->
  (forall fs rest, keeps w_width (exec fs rest)) -> (args = [bs "help"] -> ~ bad) ->
  match parse_flags flags args with
  | Parsed fs rest => ends bad (fst (exec fs rest w))
  | Help => ~ bad
  | Bad_flags => bad
  end -> ends bad (fst (run_command t flags exec args w)).
Proof.
  intros T WD K HB P. unfold run_command.
  assert (G : ends bad (fst (match parse_flags flags args with Help => do _ <- usage t; fun w => (Exit 0, w) | Bad_flags => do _ <- usage t; fun w => (Exit 2, w)
     | Parsed fs rest => fun w => match exec fs rest w with (Fail ErrPrintUsage, w) => (do _ <- usage t; fail ErrOther) w | r => r end end w))).
  { destruct (parse_flags flags args) as [fs rest| |].
    - specialize (K fs rest w). destruct (exec fs rest w) as [[u|e| | |c] w']; cbn [fst snd] in *; auto. destruct e; auto.
      unfold andthen. rewrite usage_wide; [exact P|exact T|]. unfold wide. rewrite K. exact WD.
    - unfold andthen. rewrite usage_wide by auto. left. auto.
    - unfold andthen. rewrite usage_wide by auto. right. auto. }
  destruct args as [|a [|b l]]; [exact G| |exact G]. destruct (bytes_eqb a (bs "help")) eqn:Q; [|exact G].
  apply bytes_eqb_eq in Q. subst a. rewrite usage_wide by auto. apply HB. reflexivity.
Qed.
Lemma sane_ends {R} (a : action unit) w : sane R a w -> ends False (fst (a w)).
Proof. unfold sane. destruct (a w) as [[u|e| | |c] w']; cbn; auto; contradiction. Qed.
Lemma ends_same (p q : Prop) o : (p <-> q) -> ends p o -> ends q o.
Proof. intros PQ. destruct o; cbn; tauto. Qed.

(** The external functions behave, and standard input, the random source and the files are made of bytes. *)
Record tame (E : Env) : Prop := {
  tame_words : wordlist_ok E; tame_search : search_ok E; tame_argon : argon_ok E; tame_aes : aes_ok E;
  tame_hkdf : hkdf_ok E; tame_hash : hash_ok E; tame_rand : rand_ok E
}.
Lemma body_ends E name flags body fs w : tame E -> In (name, (flags, body)) (bodies E) -> world_ok w -> wide w -> ends False (fst (body fs w)).
Proof.
  intros [T1 T2 T3 T4 T5 T6 T7] [H|[H|[H|[]]]] B WD; injection H as <- <- <-; eapply sane_ends.
  - apply sane_generate; auto.
  - apply sane_recover; auto.
  - apply sane_convert; auto. apply B.
Qed.
Lemma command_ends E name flags tab args w : tame E -> In (name, (flags, tab)) tables -> world_ok w -> wide w ->
  exists run, subcommand E name = Some run /\ command_name name /\ ends (wrong_line tab args) (fst (run args w)) /\ keeps w_width (run args).
Proof.
  intros TE I B WD. destruct (tables_ok name flags tab I) as (T & O & D). destruct (tables_bodies E name flags tab I) as (body & BI).
  destruct (body_command E name flags body BI) as (t & T1 & C & S & Q). eexists. split; [exact S|]. split; [exact C|].
  pose proof (sorted flags tab args T O D) as SR. split.
  - apply run_ends; auto.
    + intros fs _. apply Q.
    + intros ->. rewrite parse_positional in SR by discriminate. apply SR.
    + destruct (parse_flags flags args) as [fs rest| |]; auto; [|apply SR]. eapply ends_same; [|eapply body_ends; eauto]. tauto.
  - apply run_width. intros fs _. apply Q.
Qed.
Lemma root_sorted args : match parse_flags [] args with
  | Parsed _ rest => command_line [] [] args rest /\ ~ wrong_line [] args
  | Help => ~ wrong_line [] args /\ forall rest, ~ command_line [] [] args rest
  | Bad_flags => wrong_line [] args
  end.
Proof.
  destruct root_table as [T O]. pose proof (sorted [] [] args T O ltac:(intros n; right; intros k [])) as S.
  destruct (parse_flags [] args) as [fs rest| |]; [|split; [|intros rest]; apply S|exact S]. destruct S as [(s & more & S & X) N]. split; [|exact N]. inversion S; subst; [|contradiction].
  exists more. split; [constructor|exact X].
Qed.
Lemma root_line_fun args r1 r2 : command_line [] [] args r1 -> command_line [] [] args r2 -> r1 = r2.
Proof.
  assert (P : ~ plain_argument [45; 45]).
  { intros [H|[H|(c & r & H & N)]]; try discriminate. injection H as <- <-. congruence. }
  intros (m1 & S1 & X1) (m2 & S2 & X2). inversion S1 as [x1 E1 E2 E3|]; inversion S2 as [x2 F1 F2 F3|]; subst.
  inversion X1 as [G1|y1 G1|a1 y1 A1 G1]; subst; inversion X2 as [H1|z1 H1|b1 z1 B1 H1]; subst; try reflexivity; exfalso; auto.
Qed.

Lemma root_ends E args w : tame E -> world_ok w -> wide w -> ends (misused args) (fst (root_command (subcommand E) args w)).
Proof.
  intros TE B WD. pose proof (root_sorted args) as SR. unfold root_command.
  assert (KW : forall fs rest, keeps w_width ((fun (_ : flag_set) a => root_execute (subcommand E) a) fs rest)).
  { intros _ rest v. unfold root_execute. destruct rest as [|a more]; [reflexivity|]. destruct (bytes_eqb a (bs "help")); [reflexivity|]. destruct (subcommand E a) as [run|] eqn:S; [|reflexivity].
    pose proof (proj1 (proj1 (commands E a))) as C. rewrite S in C. specialize (C ltac:(discriminate)).
    assert (I : exists flags body, In (a, (flags, body)) (bodies E)).
    { destruct C as [<-|[<-|[<-|[]]]]; do 2 eexists; unfold bodies; cbn [In]; [left; reflexivity|right; left; reflexivity|right; right; left; reflexivity]. }
    destruct I as (flags & body & I). destruct (body_command E a flags body I) as (t & _ & _ & S' & Q). rewrite S in S'. injection S' as ->.
    apply run_width. intros fs _. apply Q. }
  apply run_ends; auto; [left; reflexivity| |].
  - intros ->. rewrite parse_positional in SR by discriminate. intros [M|(name & tab & rest & I & C & _)]; [apply SR, M|].
    pose proof (root_line_fun _ _ _ C (proj1 SR)) as Q. injection Q as -> ->. destruct I as [I|[I|[I|[]]]]; injection I as I _; discriminate.
  - destruct (parse_flags [] args) as [fs rest| |].
    + destruct SR as [C N]. assert (M : misused args <-> exists name tab more, In (name, tab) option_tables /\ rest = name :: more /\ wrong_line tab more).
      { split.
        - intros [M|(name & tab & more & I & C' & M)]; [contradiction|]. exists name, tab, more. split; [exact I|]. split; [|exact M]. eapply root_line_fun; eauto.
        - intros (name & tab & more & I & -> & M). right. eauto 8. }
      unfold root_execute. destruct rest as [|a more]; [cbn; rewrite M; intros (? & ? & ? & _ & Q & _); discriminate|].
      destruct (bytes_eqb a (bs "help")) eqn:Q.
      { apply bytes_eqb_eq in Q. subst a. cbn [fail fst ends]. rewrite M. intros (name & tab & m & I & [= <- <-] & _). destruct I as [I|[I|[I|[]]]]; injection I as I _; discriminate. }
      destruct (in_dec (list_eq_dec Z.eq_dec) a [bs "generate"; bs "recover"; bs "convert"]) as [K|K].
      * assert (I : exists tab, In (a, tab) option_tables).
        { destruct K as [<-|[<-|[<-|[]]]]; eexists; [left|right; left|right; right; left]; reflexivity. }
        destruct I as (tab & I). pose proof I as I'. apply in_tables in I' as (flags & I'). destruct (command_ends E a flags tab more w TE I' B WD) as (run & S & _ & R & _).
        rewrite S. eapply ends_same; [|exact R]. rewrite M. split.
        -- intros X. exists a, tab, more. auto.
        -- intros (name & tab' & m & J & [= <- <-] & X). replace tab with tab'; [exact X|].
           destruct I as [I|[I|[I|[]]]]; injection I as <- <-; destruct J as [J|[J|[J|[]]]]; apply pair_equal_spec in J as [J1 J2]; try discriminate J1; auto.
      * destruct (subcommand E a) as [run|] eqn:S; [destruct K; apply (proj1 (commands E a)); congruence|].
        cbn [fail fst ends]. rewrite M. intros (name & tab & m & I & [= <- <-] & _). apply K. destruct I as [I|[I|[I|[]]]]; injection I as <- _; cbn; auto.
    + destruct SR as [N1 N2]. intros [M|(name & tab & rest & I & C & M)]; [exact (N1 M)|exact (N2 _ C)].
    + left. exact SR.
Qed.

(** For every list of arguments, whatever is typed and whatever the files contain, on a terminal that is at
    least 42 columns wide (or whose width is unknown): the program ends, and not by a panic.  Its status is 0,
    1 or 2, and 2 exactly if something is wrong with the options. *)
Theorem program_never_crashes : forall E args w, tame E -> world_ok w -> wide w ->
  fst (root_command (subcommand E) args w) <> Crash /\ fst (root_command (subcommand E) args w) <> Hang.
Proof. intros E args w T B WD. pose proof (root_ends E args w T B WD) as R. destruct (fst (root_command _ _ _)); cbn in R; split; try discriminate; contradiction. Qed.
Print Assumptions program_never_crashes.
Theorem program_ends : forall E args w, tame E -> world_ok w -> wide w ->
  exists status w', mnemonikey_main E args w = (Some status, w') /\ (status = 0 \/ status = 1 \/ status = 2) /\ (status = 2 <-> misused args).
Proof.
  intros E args w T B WD. pose proof (root_ends E args w T B WD) as R. unfold mnemonikey_main, run_main.
  destruct (root_command (subcommand E) args w) as [o w']. cbn [fst] in R. destruct o as [u|e| | |c]; cbn [ends] in R; try contradiction.
  - exists 0, w'. split; [reflexivity|]. split; [auto|]. split; [discriminate|tauto].
  - destruct (exit_status (@Fail unit e)) as [st|] eqn:Q; [|destruct e; discriminate]. exists st, w'. split; [reflexivity|].
    assert (S : st = 0 \/ st = 1) by (destruct e; injection Q as <-; auto). split; [tauto|]. split; [lia|tauto].
  - exists c, w'. split; [reflexivity|]. destruct R as [[-> R]|[-> R]]; (split; [auto|]); split; try tauto; discriminate.
Qed.
Print Assumptions program_ends.
(** The same for the program with its standard error, -verbose included *)
Theorem trace_ends : forall E H args w, tame E -> world_ok w -> wide w ->
  exists status w' err, CliTrace.t_main E H args w = ((Some status, w'), err) /\ (status = 0 \/ status = 1 \/ status = 2) /\ (status = 2 <-> misused args).
Proof.
  intros E H args w T B WD. destruct (program_ends E args w T B WD) as (st & w' & M & S). pose proof (trace_erases E H args w) as X. rewrite M in X.
  exists st, w', (snd (CliTrace.t_main E H args w)). split; [|exact S]. rewrite <- X. destruct (CliTrace.t_main E H args w); reflexivity.
Qed.
Print Assumptions trace_ends.

(** The loops of the code have no bound on the number of turns, those of the model have; any larger bound
    gives the same result. *)
Theorem turns_enough : forall E, tame E -> forall more,
  (forall stdin, simple_loop E (S (length stdin) + more) 0 1 [] stdin = user_input_mnemonic_simple E stdin) /\
  (forall confirm stdin, prompt_loop (length stdin + 2 + more) confirm At_prompt stdin = user_input_password true confirm stdin) /\
  (forall ws dm w, decode_mnemonic E ws = Ok dm ->
     decrypt_loop E (S (S (length (w_stdin w))) + more) dm w = decrypt_loop E (S (S (length (w_stdin w)))) dm w) /\
  (forall src, rand_int_loop (S (length src) + more) src 16 8 (2 ^ 128) = rand_int src (2 ^ 128)) /\
  (forall flags args, flag_parse (S (length args) + more) flags args = parse_flags flags args).
Proof.
  intros E [T1 T2 T3 T4 T5 T6 T7] more. split; [|split; [|split; [|split]]].
  - intros stdin. apply simple_loop_turns; lia.
  - intros confirm stdin. unfold user_input_password. rewrite !prompt_loop_fuel by lia. reflexivity.
  - intros ws dm w D. apply (decrypt_turns E ws dm T1 D); lia.
  - intros src. change (rand_int src (2 ^ 128)) with (rand_int_loop (S (length src)) src 16 8 (2 ^ 128)). apply rand_int_turns; lia.
  - intros flags args. apply flag_parse_turns; lia.
Qed.
Print Assumptions turns_enough.

(** A larger bound cannot tell a loop that never ends from one that fails at the bound.  Without bounds: every loop
    ends, and with the result of the model. *)
Lemma loops_one {S R} (turn : S -> S + R) s r r' : loops turn s r -> loops turn s r' -> r = r'.
Proof.
  intros H. induction H as [s r T|s s' r T H IH]; intros H'; inversion H'; subst; try congruence.
  apply IH. congruence.
Qed.
Theorem loops_end : forall E, tame E ->
  (forall stdin, forall r, loops (simple_turn E) (0, 1, [], stdin) r <-> r = user_input_mnemonic_simple E stdin) /\
  (forall confirm stdin r, loops (prompt_turn confirm) (At_prompt, stdin) r <-> r = user_input_password true confirm stdin) /\
  (forall ws dm w, decode_mnemonic E ws = Ok dm ->
     forall r, loops (decrypt_turn E dm) w r <-> r = decrypt_loop E (S (S (length (w_stdin w)))) dm w) /\
  (forall src r, loops draw_turn src r <-> r = rand_int src (2 ^ 128)).
Proof.
  intros E [T1 T2 T3 T4 T5 T6 T7].
  assert (G : forall S R (turn : S -> S + R) s x, loops turn s x -> forall r, loops turn s r <-> r = x)
    by (intros S R turn s x X r; split; [intros Y; exact (loops_one turn s r x Y X)|intros ->; exact X]).
  split; [|split; [|split]].
  - intros stdin. apply G. apply simple_loops; lia.
  - intros confirm stdin. apply G. unfold user_input_password. apply (prompt_loops confirm (length stdin)); lia.
  - intros ws dm w D. apply G. apply (decrypt_loops E ws dm T1 D). lia.
  - intros src. apply G. change (rand_int src (2 ^ 128)) with (rand_int_loop (S (length src)) src 16 8 (2 ^ 128)). apply draw_loops. lia.
Qed.
Print Assumptions loops_end.
(** a loop that never ends has no result *)
Example endless : forall r : nat, ~ loops (fun b : bool => inl b) true r.
Proof. intros r H. remember true as b. induction H as [s r T|s s' r T H IH]; [discriminate|]. injection T as <-. exact (IH Heqb). Qed.

(** Without the width the claim is false: see help_narrow_refuted and reminder_narrow_refuted; here for the
    whole program. *)
Theorem narrow_terminal_refuted : exists args w, world_ok w /\ w_width w = Some 41 /\ forall E, fst (mnemonikey_main E args w) = None.
Proof.
  exists [bs "recover"; bs "-h"], (set_stdin (mk_world (fun _ => Closed) [] true (Some 41) [] 0 [] 0%nat [] 0%nat) []).
  split; [split; [constructor|split; [constructor|discriminate]]|]. split; [reflexivity|]. intros E. vm_compute. reflexivity.
Qed.
Print Assumptions narrow_terminal_refuted.

(** With the algorithms of Spec/RealEnv.v only the word list is left to assume. *)
Lemma std_tame E0 : wordlist_ok E0 -> search_ok E0 -> tame (std_env E0).
Proof.
  intros W S. destruct (std_runtime E0) as (R & _ & _ & _ & A & X & H & _ & W' & S' & _). destruct (std_primitives E0) as (_ & _ & _ & _ & HH & _).
  constructor; auto.
Qed.
Theorem std_program_ends : forall E0 args w, wordlist_ok E0 -> search_ok E0 -> world_ok w -> wide w ->
  exists status w', mnemonikey_main (std_env E0) args w = (Some status, w') /\ (status = 0 \/ status = 1 \/ status = 2) /\ (status = 2 <-> misused args).
Proof. intros E0 args w W S B WD. exact (program_ends (std_env E0) args w (std_tame E0 W S) B WD). Qed.
Print Assumptions std_program_ends.

Example tame_case : tame toy_env /\ world_ok case_start /\ wide case_start.
Proof.
  split; [|split; [exact case_start_ok|]].
  - constructor; [exact toy_wordlist_ok|exact toy_search_ok|exact toy_argon_ok|exact toy_aes_ok|exact toy_hkdf_ok|apply toy_env_ok|exact toy_rand_ok].
  - intros width Q. vm_compute in Q. first [discriminate | injection Q as <-; discriminate].
Qed.
(** one command line of each sort, and what the program does with them *)
Example status_cases :
  misused [bs "--"; bs "recover"; bs "-name"; bs "x"; bs "-ttl"] /\ misused [bs "-x"] /\ ~ misused [bs "generate"; bs "-only"; bs "nonsense"] /\
  fst (mnemonikey_main toy_env [bs "--"; bs "recover"; bs "-name"; bs "x"; bs "-ttl"] case_start) = Some 2 /\
  fst (mnemonikey_main toy_env [bs "-x"] case_start) = Some 2 /\
  fst (mnemonikey_main toy_env [bs "generate"; bs "-only"; bs "nonsense"] case_start) = Some 1 /\
  fst (mnemonikey_main toy_env [bs "convert"; bs "-help"] case_start) = Some 0.
Proof.
  destruct tame_case as (T & B & WD).
  assert (S1 : fst (mnemonikey_main toy_env [bs "--"; bs "recover"; bs "-name"; bs "x"; bs "-ttl"] case_start) = Some 2) by (vm_compute; reflexivity).
  assert (S2 : fst (mnemonikey_main toy_env [bs "-x"] case_start) = Some 2) by (vm_compute; reflexivity).
  assert (S3 : fst (mnemonikey_main toy_env [bs "generate"; bs "-only"; bs "nonsense"] case_start) = Some 1) by (vm_compute; reflexivity).
  assert (S4 : fst (mnemonikey_main toy_env [bs "convert"; bs "-help"] case_start) = Some 0) by (vm_compute; reflexivity).
  assert (M : forall args st, fst (mnemonikey_main toy_env args case_start) = Some st -> (st = 2 <-> misused args)).
  { intros args st Q. destruct (program_ends toy_env args case_start T B WD) as (st' & w' & P & _ & I). rewrite P in Q. injection Q as ->. exact I. }
  split; [apply (M _ 2 S1); reflexivity|]. split; [apply (M _ 2 S2); reflexivity|]. split; [intros X; apply (M _ 1 S3) in X; discriminate|]. auto.
Qed.
