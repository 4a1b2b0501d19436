(** Dispatch of commands and subkey indices (C55, C44). *)
From Coq Require Import Lia ZifyBool ZifyNat.
From Verif.Model Require Import GoBase Env Version Seed Encoding Recovery Mnemonikey CliText CliInput CliFlags CliMain.
From Verif.Spec Require Import EnvSpec CliEnvSpec TextSpec InputSpec MainSpec.
From Verif.Proofs Require Import BitsP PgpP TextP InputP EntryP MainP CleanP EnvInst.
From Verif.Props Require Import TextProps.
Ltac Zify.zify_post_hook ::= Z.div_mod_to_equations.

(** ** C55 *)
Lemma parse_positional fs a rest : (forall r, a <> 45 :: r) -> parse_flags fs (a :: rest) = Parsed fs (a :: rest).
Proof.
  intros N. unfold parse_flags. cbn [length flag_parse]. destruct a as [|m [|c s]]; try reflexivity.
  destruct (Z.eqb_spec m 45) as [->|]; [destruct (N (c :: s)); reflexivity|]. reflexivity.
Qed.
Lemma name_not_help a : command_name a -> bytes_eqb a (bs "help") = false.
Proof. intros [N _]. apply not_true_iff_false. intros X. apply bytes_eqb_eq in X. contradiction. Qed.
Lemma root_named sub name rest w : command_name name ->
  root_command sub (name :: rest) w =
  match root_execute sub (name :: rest) w with
  | (Fail ErrPrintUsage, w) => (do _ <- usage root_text; fail ErrOther) w
  | r => r
  end.
Proof.
  intros C. unfold root_command, run_command. rewrite parse_positional by apply C. rewrite (name_not_help _ C). destruct rest; reflexivity.
Qed.

(** The named command runs with the remaining arguments, whatever it does, and its outcome decides
    the exit status. *)
Theorem dispatch_named : forall sub name run rest w o w', command_name name -> sub name = Some run ->
  run rest w = (o, w') -> o <> Fail ErrPrintUsage -> run_main sub (name :: rest) w = (exit_status o, w').
Proof.
  intros sub name run rest w o w' C S R N. unfold run_main. rewrite root_named by auto. unfold root_execute.
  rewrite (name_not_help _ C), S, R. destruct o as [u|e| | |c]; try reflexivity. destruct e; try reflexivity. destruct N. reflexivity.
Qed.
Print Assumptions dispatch_named.

(** which commands there are *)
Theorem commands : forall E name,
  (subcommand E name <> None <-> In name [bs "generate"; bs "recover"; bs "convert"]) /\
  subcommand E (bs "generate") = Some (generate_command E) /\ subcommand E (bs "recover") = Some (recover_command E) /\
  subcommand E (bs "convert") = Some (convert_command E).
Proof.
  intros E name. split; [|auto]. unfold subcommand.
  destruct (bytes_eqb name (bs "generate")) eqn:A; [apply bytes_eqb_eq in A; subst; split; [intros _; left; reflexivity|discriminate]|].
  destruct (bytes_eqb name (bs "recover")) eqn:B; [apply bytes_eqb_eq in B; subst; split; [intros _; right; left; reflexivity|discriminate]|].
  destruct (bytes_eqb name (bs "convert")) eqn:C; [apply bytes_eqb_eq in C; subst; split; [intros _; right; right; left; reflexivity|discriminate]|].
  split; [congruence|]. intros [<-|[<-|[<-|[]]]]; rewrite bytes_eqb_refl in *; discriminate.
Qed.
Print Assumptions commands.

Definition wide (w : world) : Prop := forall width, w_width w = Some width -> 42 <= width.
Lemma usage_wide t w : In t [root_text; generate_text; recover_text; convert_text] -> wide w ->
  usage t w = (Ret tt, set_usage w (S (w_usage w))).
Proof.
  intros T W. pose proof (help_wide_enough t (w_width w) T W w eq_refl) as H. unfold usage in *. cbn [fst] in H. rewrite H. reflexivity.
Qed.
(** No command, or an unknown one: the usage text, once, and failure. *)
Theorem dispatch_unknown : forall sub args w, wide w ->
  args = [] \/ (exists name rest, args = name :: rest /\ command_name name /\ sub name = None) ->
  run_main sub args w = (Some 1, set_usage w (S (w_usage w))).
Proof.
  intros sub args w W [->|(name & rest & -> & C & N)].
  - unfold run_main, root_command, run_command. change (parse_flags [] []) with (Parsed [] []). cbn iota beta. cbn [root_execute fail].
    unfold andthen. rewrite usage_wide by (cbn; auto). reflexivity.
  - unfold run_main. rewrite root_named by auto. unfold root_execute. rewrite (name_not_help _ C), N. cbn [fail].
    unfold andthen. rewrite usage_wide by (cbn; auto). reflexivity.
Qed.
Print Assumptions dispatch_unknown.

(** Asked for help: the usage text, once, and success. *)
Theorem dispatch_help : forall sub a rest w, wide w ->
  (a = bs "help" /\ rest = []) \/ In a [bs "-h"; bs "--h"; bs "-help"; bs "--help"] ->
  run_main sub (a :: rest) w = (Some 0, set_usage w (S (w_usage w))).
Proof.
  intros sub a rest w W H.
  assert (X : root_command sub (a :: rest) w = (Ret tt, set_usage w (S (w_usage w))) \/
              root_command sub (a :: rest) w = (Exit 0, set_usage w (S (w_usage w)))).
  { destruct H as [[-> ->]|H].
    - left. unfold root_command, run_command. rewrite bytes_eqb_refl. apply usage_wide; cbn; auto.
    - right. unfold root_command, run_command.
      assert (Q : parse_flags [] (a :: rest) = Help) by (destruct H as [<-|[<-|[<-|[<-|[]]]]]; reflexivity).
      assert (N : bytes_eqb a (bs "help") = false) by (destruct H as [<-|[<-|[<-|[<-|[]]]]]; reflexivity).
      rewrite Q, N. destruct rest; cbn iota; unfold andthen; rewrite usage_wide by (cbn; auto); reflexivity. }
  unfold run_main. destruct X as [X|X]; rewrite X; reflexivity.
Qed.
Print Assumptions dispatch_help.

(** The same for the commands. *)
Theorem command_help : forall E name a rest w, wide w -> In name [bs "generate"; bs "recover"; bs "convert"] ->
  (a = bs "help" /\ rest = []) \/ In a [bs "-h"; bs "--h"; bs "-help"; bs "--help"] ->
  mnemonikey_main E (name :: a :: rest) w = (Some 0, set_usage w (S (w_usage w))).
Proof.
  intros E name a rest w W I H.
  assert (X : forall t fs ex, In t [root_text; generate_text; recover_text; convert_text] ->
              flag_get fs (bs "h") = None -> flag_get fs (bs "help") = None ->
              run_command t fs ex (a :: rest) w = (Ret tt, set_usage w (S (w_usage w))) \/
              run_command t fs ex (a :: rest) w = (Exit 0, set_usage w (S (w_usage w)))).
  { intros t fs ex T N1 N2. destruct H as [[-> ->]|H].
    - left. unfold run_command. rewrite bytes_eqb_refl. apply usage_wide; auto.
    - right. unfold run_command.
      assert (Q : parse_flags fs (a :: rest) = Help).
      { unfold parse_flags. destruct H as [<-|[<-|[<-|[<-|[]]]]]; cbn [flag_parse length bs]; 
        change (flag_get fs (fst (split_flag (bs "h")))) with (flag_get fs (bs "h")) in *.
        all: cbn - [flag_get bytes_eqb] ; fold (bs "h") (bs "help") ; first [change (flag_get fs [104]) with (flag_get fs (bs "h")); rewrite N1 | change (flag_get fs [104;101;108;112]) with (flag_get fs (bs "help")); rewrite N2]; reflexivity. }
      assert (N : bytes_eqb a (bs "help") = false) by (destruct H as [<-|[<-|[<-|[<-|[]]]]]; reflexivity).
      rewrite Q, N. destruct rest; cbn iota; unfold andthen; rewrite usage_wide by auto; reflexivity. }
  unfold mnemonikey_main. destruct I as [<-|[<-|[<-|[]]]].
  - destruct (X generate_text generate_flags (fun fs _ => generate_and_print E (generate_options_of fs))) as [Y|Y]; [cbn; auto|reflexivity|reflexivity| |];
    (erewrite (dispatch_named (subcommand E) (bs "generate") (generate_command E) (a :: rest) w); [|split; [discriminate|discriminate]|reflexivity|exact Y|discriminate]; reflexivity).
  - destruct (X recover_text recover_flags (fun fs _ => recover_and_print E (recover_options_of fs))) as [Y|Y]; [cbn; auto|reflexivity|reflexivity| |];
    (erewrite (dispatch_named (subcommand E) (bs "recover") (recover_command E) (a :: rest) w); [|split; [discriminate|discriminate]|reflexivity|exact Y|discriminate]; reflexivity).
  - destruct (X convert_text convert_flags (fun fs _ => decode_and_convert E (convert_options_of fs))) as [Y|Y]; [cbn; auto 6|reflexivity|reflexivity| |];
    (erewrite (dispatch_named (subcommand E) (bs "convert") (convert_command E) (a :: rest) w); [|split; [discriminate|discriminate]|reflexivity|exact Y|discriminate]; reflexivity).
Qed.
Print Assumptions command_help.

(** "mnemonikey help generate" asks for help as well, but nothing is printed; the status claims success. *)
Theorem help_topic_refuted : forall sub a rest w, run_main sub (bs "help" :: a :: rest) w = (Some 0, w).
Proof. intros. reflexivity. Qed.
Print Assumptions help_topic_refuted.

(** The usage text is printed at most once. *)
Lemma usage_once t w : w_usage (snd (usage t w)) = S (w_usage w).
Proof. reflexivity. Qed.
Lemma command_usage t fs ex args w : (forall f a, keeps w_usage (ex f a)) ->
  let r := run_command t fs ex args w in
  (w_usage (snd r) = w_usage w \/ w_usage (snd r) = S (w_usage w)) /\ fst r <> Fail ErrPrintUsage.
Proof.
  intros K.
  assert (P : let r := (match parse_flags fs args with
    | Help => do _ <- usage t; fun w => (Exit 0, w)
    | Bad_flags => do _ <- usage t; fun w => (Exit 2, w)
    | Parsed fs rest =>
        fun w => match ex fs rest w with
                 | (Fail ErrPrintUsage, w) => (do _ <- usage t; fail ErrOther) w
                 | r => r
                 end
    end w : outcome unit * world) in
    (w_usage (snd r) = w_usage w \/ w_usage (snd r) = S (w_usage w)) /\ fst r <> Fail ErrPrintUsage).
  { assert (U : forall (k : action unit) v, (forall v, w_usage (snd (k v)) = w_usage v /\ fst (k v) <> Fail ErrPrintUsage) ->
       w_usage (snd (andthen (usage t) (fun _ => k) v)) = S (w_usage v) /\ fst (andthen (usage t) (fun _ => k) v) <> Fail ErrPrintUsage).
    { intros k v Hk. unfold andthen, usage. destruct (all_justified _) as [u|e| | |c] eqn:J; cbn [fst snd]; try (split; [reflexivity|discriminate]).
      - destruct (Hk (set_usage v (S (w_usage v)))) as [H1 H2]. rewrite H1. auto.
      - exfalso. revert J. generalize (justify_terminal_width (w_width v) 2 (ct_description t) :: map (fun d => justify_option_description (w_width v) (faint d)) (ct_options t)).
        induction l as [|j l IH]; cbn [all_justified]; [discriminate|]. destruct j; cbn [of_justified]; try discriminate. auto. }
    destruct (parse_flags fs args) as [f rest| |]; cbv zeta.
    - pose proof (K f rest w) as Kw. destruct (ex f rest w) as [[u|e| | |c] v]; cbn [fst snd] in *; try (split; [auto|discriminate]).
      assert (F : forall v, w_usage (snd (@fail unit ErrOther v)) = w_usage v /\ fst (@fail unit ErrOther v) <> Fail ErrPrintUsage) by (intros; split; [reflexivity|discriminate]).
      destruct e; cbn [fst snd]; try (split; [auto|discriminate]).
      destruct (U (fail ErrOther) v F) as [U1 U2]. split; [right; congruence|auto].
    - destruct (U (fun w => (Exit 0, w)) w) as [U1 U2]; [intros; split; [reflexivity|discriminate]|]. auto.
    - destruct (U (fun w => (Exit 2, w)) w) as [U1 U2]; [intros; split; [reflexivity|discriminate]|]. auto. }
  unfold run_command. destruct args as [|a [|b args]]; try exact P.
  destruct (bytes_eqb a (bs "help")); [|exact P]. cbv zeta. split; [right; reflexivity|].
  unfold usage. cbn [fst]. generalize (justify_terminal_width (w_width w) 2 (ct_description t) :: map (fun d => justify_option_description (w_width w) (faint d)) (ct_options t)).
  induction l as [|j l IH]; cbn [all_justified]; [discriminate|]. destruct j; cbn [of_justified]; try discriminate. auto.
Qed.
Lemma sub_usage E name run args w : subcommand E name = Some run ->
  (w_usage (snd (run args w)) = w_usage w \/ w_usage (snd (run args w)) = S (w_usage w)) /\ fst (run args w) <> Fail ErrPrintUsage.
Proof.
  unfold subcommand. intros H.
  destruct (bytes_eqb name (bs "generate")); [|destruct (bytes_eqb name (bs "recover")); [|destruct (bytes_eqb name (bs "convert")); [|discriminate]]];
  injection H as <-; apply command_usage; intros f a.
  - apply generate_body; [apply blind_usage|intros; apply keeps_usage_print|intros; apply keeps_usage_phrase|intros; apply keeps_usage_save].
  - apply recover_body; [apply blind_usage|intros; apply keeps_usage_print].
  - apply convert_body; [apply blind_usage|intros; apply keeps_usage_phrase|intros; apply keeps_usage_save].
Qed.
Theorem usage_at_most_once : forall E args w st w', mnemonikey_main E args w = (st, w') ->
  w_usage w' = w_usage w \/ w_usage w' = S (w_usage w).
Proof.
  intros E args w st w' H. unfold mnemonikey_main, run_main in H.
  assert (G : w_usage (snd (root_command (subcommand E) args w)) = w_usage w \/ w_usage (snd (root_command (subcommand E) args w)) = S (w_usage w)).
  { clear H. unfold root_command, run_command.
    assert (P : let r := (match parse_flags [] args with
      | Help => do _ <- usage root_text; fun w => (Exit 0, w)
      | Bad_flags => do _ <- usage root_text; fun w => (Exit 2, w)
      | Parsed fs rest =>
        fun w => match root_execute (subcommand E) rest w with
                 | (Fail ErrPrintUsage, w) => (do _ <- usage root_text; fail ErrOther) w
                 | r => r
                 end
      end w : outcome unit * world) in w_usage (snd r) = w_usage w \/ w_usage (snd r) = S (w_usage w)).
    { assert (U : forall (k : action unit) v, (forall v, w_usage (snd (k v)) = w_usage v) -> w_usage (snd (andthen (usage root_text) (fun _ => k) v)) = S (w_usage v)).
      { intros k v Hk. unfold andthen, usage. destruct (all_justified _); cbn [snd]; try reflexivity. rewrite Hk. reflexivity. }
      cbv zeta. destruct (parse_flags [] args) as [f rest| |]; [|right; apply U; reflexivity|right; apply U; reflexivity].
      assert (R : (exists e, root_execute (subcommand E) rest w = (Fail e, w)) \/
                  exists run as', root_execute (subcommand E) rest w = run as' w /\ exists n, subcommand E n = Some run).
      { unfold root_execute. destruct rest as [|a rest]; [left; unfold fail; eauto|]. destruct (bytes_eqb a (bs "help")); [left; unfold fail; eauto|].
        destruct (subcommand E a) as [run|] eqn:S1; [right; exists run, rest; eauto|left; unfold fail; eauto]. }
      destruct R as [(e & R)|(run & as' & R & n & S1)]; rewrite R.
      - destruct e; try (left; reflexivity). right. apply U. reflexivity.
      - destruct (sub_usage E n run as' w S1) as [U1 U2]. destruct (run as' w) as [[u|e| | |c] v]; cbn [fst snd] in *; auto.
        destruct e; auto. destruct U2. reflexivity. }
    destruct args as [|a [|b args]]; try exact P. destruct (bytes_eqb a (bs "help")); [right; reflexivity|exact P]. }
  destruct (root_command (subcommand E) args w) as [o v]. injection H as _ <-. exact G.
Qed.
Print Assumptions usage_at_most_once.

(** The commands, their options and what they do. *)
Definition bodies (E : Env) : list (bytes * (flag_set * (flag_set -> action unit))) :=
  [(bs "generate", (generate_flags, fun fs => generate_and_print E (generate_options_of fs)));
   (bs "recover", (recover_flags, fun fs => recover_and_print E (recover_options_of fs)));
   (bs "convert", (convert_flags, fun fs => decode_and_convert E (convert_options_of fs)))].
Lemma body_command E name flags body : In (name, (flags, body)) (bodies E) ->
  exists t, In t [root_text; generate_text; recover_text; convert_text] /\ command_name name /\
    subcommand E name = Some (run_command t flags (fun fs _ => body fs)) /\
    forall fs, polite (body fs) /\ keeps w_width (body fs).
Proof.
  intros [H|[H|[H|[]]]]; injection H as <- <- <-.
  - exists generate_text. split; [cbn; auto|]. split; [split; discriminate|]. split; [reflexivity|].
    intros fs. split; [apply polite_generate|]. apply generate_body; [apply blind_width|intros t w; reflexivity|intros ws w; reflexivity|].
    intros ws p _ _ w. rewrite save_cases. destruct (w_files w p) as [[room|]| | | |]; try reflexivity. destruct (Nat.ltb _ _); reflexivity.
  - exists recover_text. split; [cbn; auto|]. split; [split; discriminate|]. split; [reflexivity|].
    intros fs. split; [apply polite_recover|]. apply recover_body; [apply blind_width|intros t w; reflexivity].
  - exists convert_text. split; [cbn; auto 6|]. split; [split; discriminate|]. split; [reflexivity|].
    intros fs. split; [apply polite_convert|]. apply convert_body; [apply blind_width|intros ws w; reflexivity|].
    intros ws _ w. rewrite save_cases. destruct (w_files w _) as [[room|]| | | |]; try reflexivity. destruct (Nat.ltb _ _); reflexivity.
Qed.

(** The whole program.  With options that parse, the status is 0 exactly if the command did its
    work; the usage text is printed exactly if the command asks for it. *)
Theorem status_exact : forall E name flags body args fs rest w o w', In (name, (flags, body)) (bodies E) ->
  parse_flags flags args = Parsed fs rest -> args <> [bs "help"] -> body fs w = (o, w') ->
  (o <> Fail ErrPrintUsage ->
     mnemonikey_main E (name :: args) w = (exit_status o, w') /\ (exit_status o = Some 0 <-> o = Ret tt)) /\
  (o = Fail ErrPrintUsage -> wide w -> mnemonikey_main E (name :: args) w = (Some 1, set_usage w' (S (w_usage w')))).
Proof.
  intros E name flags body args fs rest w o w' I P NH B.
  destruct (body_command E name flags body I) as (t & T & C & S & Q). destruct (Q fs) as [Q1 Q2]. specialize (Q1 w). specialize (Q2 w). rewrite B in Q1, Q2. cbn [fst snd] in Q1, Q2.
  assert (R : run_command t flags (fun fs _ => body fs) args w =
              match body fs w with (Fail ErrPrintUsage, w) => (do _ <- usage t; fail ErrOther) w | r => r end).
  { unfold run_command. rewrite P. destruct args as [|a [|b l]]; try reflexivity.
    destruct (bytes_eqb a (bs "help")) eqn:X; [apply bytes_eqb_eq in X; congruence|reflexivity]. }
  rewrite B in R. split.
  - intros N. split.
    + apply (dispatch_named (subcommand E) name _ args w o w' C S); [|exact N]. rewrite R.
      destruct o as [u|e| | |c]; try reflexivity. destruct e; try reflexivity. destruct N. reflexivity.
    + split; [|intros ->; reflexivity]. destruct o as [[]|e| | |c]; cbn [exit_status]; try discriminate; auto.
      * destruct e; try discriminate. destruct Q1 as [Q1 _]. destruct Q1. reflexivity.
      * destruct Q1 as [_ Q1]. destruct (Q1 c). reflexivity.
  - intros -> W.
    assert (U : run_command t flags (fun fs _ => body fs) args w = (Fail ErrOther, set_usage w' (Datatypes.S (w_usage w')))).
    { rewrite R. unfold andthen. rewrite usage_wide; [reflexivity|auto|]. intros width Hw. apply W. congruence. }
    unfold mnemonikey_main. rewrite (dispatch_named (subcommand E) name _ args w _ _ C S U) by discriminate. reflexivity.
Qed.
Print Assumptions status_exact.
(** In a window of any width, options that are refused by the command do not end with status 0. *)
Theorem status_usage : forall E name flags body args fs rest w w', In (name, (flags, body)) (bodies E) ->
  parse_flags flags args = Parsed fs rest -> args <> [bs "help"] -> body fs w = (Fail ErrPrintUsage, w') ->
  exists c, mnemonikey_main E (name :: args) w = (c, set_usage w' (S (w_usage w'))) /\ c <> Some 0.
Proof.
  intros E name flags body args fs rest w w1 I P NH B. destruct (body_command E name flags body I) as (t & T & C & S & _).
  assert (R : run_command t flags (fun fs _ => body fs) args w = (do _ <- usage t; fail ErrOther) w1).
  { unfold run_command. rewrite P. destruct args as [|a [|b l]]; try (rewrite B; reflexivity).
    destruct (bytes_eqb a (bs "help")) eqn:X; [apply bytes_eqb_eq in X; congruence|rewrite B; reflexivity]. }
  assert (J : forall l, match all_justified l with Fail _ | Exit _ => False | _ => True end).
  { induction l as [|j l IH]; cbn [all_justified]; [exact Logic.I|]. destruct j; cbn [of_justified]; try exact Logic.I; exact IH. }
  assert (U : exists q : outcome unit, (do _ <- usage t; fail ErrOther) w1 = (q, set_usage w1 (Datatypes.S (w_usage w1))) /\ exit_status q <> Some 0 /\ q <> Fail ErrPrintUsage).
  { unfold andthen, usage. specialize (J (justify_terminal_width (w_width w1) 2 (ct_description t) :: map (fun d => justify_option_description (w_width w1) (faint d)) (ct_options t))).
    destruct (all_justified _) as [[]|e| | |q]; try destruct J; (eexists; split; [reflexivity|split; discriminate]). }
  destruct U as (q & U & N & N2). rewrite U in R. exists (exit_status q). split; [|exact N].
  apply (dispatch_named (subcommand E) name _ args w _ _ C S R N2).
Qed.
Print Assumptions status_usage.

(** Options that do not parse: the usage text and status 2, and nothing else happens. *)
Theorem status_bad_flags : forall E name flags body args w, In (name, (flags, body)) (bodies E) ->
  parse_flags flags args = Bad_flags -> wide w ->
  mnemonikey_main E (name :: args) w = (Some 2, set_usage w (S (w_usage w))).
Proof.
  intros E name flags body args w I P W.
  destruct (body_command E name flags body I) as (t & T & C & S & Q).
  assert (U : run_command t flags (fun fs _ => body fs) args w = (Exit 2, set_usage w (Datatypes.S (w_usage w)))).
  { unfold run_command. rewrite P. destruct args as [|a [|b l]]; try (unfold andthen; rewrite usage_wide by auto; reflexivity).
    destruct (bytes_eqb a (bs "help")) eqn:X; [apply bytes_eqb_eq in X; subst a|unfold andthen; rewrite usage_wide by auto; reflexivity].
    rewrite parse_positional in P by discriminate. discriminate. }
  unfold mnemonikey_main. rewrite (dispatch_named (subcommand E) name _ args w _ _ C S U) by discriminate. reflexivity.
Qed.
Print Assumptions status_bad_flags.

(** ** C44 *)
Lemma base_ten q : Forall is_digit q -> forall n u, 0 <= n ->
  base_digits 10 n u q =
  if n * 10 ^ Z.of_nat (length q) + decimal q <=? max_uint64 then Some (n * 10 ^ Z.of_nat (length q) + decimal q, u)
  else if n <=? max_uint64 then None else match q with [] => Some (n, u) | _ => None end.
Proof.
  induction q as [|c q IH]; intros F n u N.
  - cbn [base_digits length decimal]. change (10 ^ Z.of_nat 0) with 1. rewrite Z.mul_1_r, Z.add_0_r. destruct (n <=? max_uint64); reflexivity.
  - inversion F as [|? ? F1 F2]; subst. unfold is_digit in F1. cbn [base_digits length decimal].
    replace (c =? 95) with false by lia. replace ((48 <=? c) && (c <=? 57)) with true by lia. cbn iota.
    replace (c - 48 >=? 10) with false by lia. rewrite Nat2Z.inj_succ, Z.pow_succ_r by lia.
    pose proof (decimal_nonneg q F2) as D. assert (P : 0 < 10 ^ Z.of_nat (length q)) by (apply Z.pow_pos_nonneg; lia).
    set (p := 10 ^ Z.of_nat (length q)) in *. clearbody p. change max_uint64 with 18446744073709551615 in *.
    change (18446744073709551615 / 10 + 1) with 1844674407370955162.
    replace (n * (10 * p) + ((c - 48) * p + decimal q)) with ((n * 10 + (c - 48)) * p + decimal q) by ring.
    destruct (n >=? 1844674407370955162) eqn:A.
    + replace ((n * 10 + (c - 48)) * p + decimal q <=? 18446744073709551615) with false by nia.
      destruct (n <=? 18446744073709551615); reflexivity.
    + cbv zeta. destruct (n * 10 + (c - 48) >? 18446744073709551615) eqn:B.
      * replace ((n * 10 + (c - 48)) * p + decimal q <=? 18446744073709551615) with false by nia.
        destruct (n <=? 18446744073709551615); reflexivity.
      * rewrite IH by (auto; lia). destruct ((n * 10 + (c - 48)) * p + decimal q <=? 18446744073709551615); [reflexivity|].
        replace (n * 10 + (c - 48) <=? 18446744073709551615) with true by lia. replace (n <=? 18446744073709551615) with true by lia. reflexivity.
Qed.
(** A number written the usual way is read as that number. *)
Theorem number_exact : forall q, plain_number q ->
  parse_uint0 q = if decimal q <? 2 ^ 64 then Some (decimal q) else None.
Proof.
  intros q (N & F & Z). destruct q as [|c q]; [congruence|]. destruct Z as [Z|Z]; [injection Z as -> ->; reflexivity|].
  assert (C : c <> 48) by (intros ->; apply (Z q); reflexivity).
  unfold parse_uint0. replace (c =? 48) with false by lia. rewrite base_ten by (auto; lia).
  rewrite Z.mul_0_l, Z.add_0_l. change max_uint64 with (2 ^ 64 - 1).
  destruct (Z.ltb_spec (decimal (c :: q)) (2 ^ 64)); destruct (Z.leb_spec (decimal (c :: q)) (2 ^ 64 - 1)); try lia; reflexivity.
Qed.
Print Assumptions number_exact.
(** A leading zero makes it octal: "010" is 8. *)
Theorem leading_zero_refuted : exists q, q <> [] /\ Forall is_digit q /\ decimal q = 10 /\ parse_uint0 q = Some 8.
Proof. exists (bs "010"). split; [discriminate|]. split; [repeat constructor; unfold is_digit; cbn; lia|]. split; reflexivity. Qed.
Print Assumptions leading_zero_refuted.

(** An index above 65535 is refused before anything is read or printed. *)
Theorem index_refused : forall E o w,
  65535 < ro_enc_index o \/ 65535 < ro_auth_index o \/ 65535 < ro_sign_index o ->
  exists e, recover_and_print E o w = (Fail e, w).
Proof.
  intros E o w H. unfold recover_and_print, andthen, ttl_option, max_subkey_index.
  assert (B : (ro_enc_index o >? 0xFFFF) || (ro_auth_index o >? 0xFFFF) || (ro_sign_index o >? 0xFFFF) = true) by lia. rewrite B.
  destruct (ro_ttl o); [eexists; reflexivity|]. destruct (parse_ttl E _); eexists; reflexivity.
Qed.
Print Assumptions index_refused.

(** Otherwise whatever is printed is the key with exactly the given indices. *)
Definition printed_key (E : Env) (m : mnemonikey) (out : bytes) : Prop :=
  exists pw tape rest, mnk_encode_pgp_armor E m pw tape = Ok (out, rest) \/
                       exists c, mnk_encode_subkeys_pgp_armor E m pw c tape = Ok (out, rest).
Theorem index_exact : forall E o w r w', 0 <= ro_enc_index o -> 0 <= ro_auth_index o -> 0 <= ro_sign_index o ->
  recover_and_print E o w = (r, w') ->
  w_stdout w' = w_stdout w \/
  exists s dm w1 m ko out, decode_mnemonic_from_input E (ro_input o) w = (Ret (s, dm), w1) /\
    mnk_new E s (dm_creation dm) (Some ko) = Ok m /\ printed_key E m out /\ w_stdout w' = w_stdout w ++ [out ++ [10]] /\
    ko_name ko = trim_space E (ro_name o) /\ ko_email ko = trim_space E (ro_email o) /\
    ko_enc_index ko = ro_enc_index o /\ ko_auth_index ko = ro_auth_index o /\ ko_sign_index ko = ro_sign_index o.
Proof.
  intros E o w r w' N1 N2 N3 H. unfold recover_and_print in H.
  set (big := (ro_enc_index o >? max_subkey_index) || (ro_auth_index o >? max_subkey_index) || (ro_sign_index o >? max_subkey_index)) in *.
  destruct big eqn:B; unfold big, max_subkey_index in B.
  { left. assert (K : keeps w_stdout (andthen (ttl_option E (ro_ttl o)) (fun _ => @fail unit ErrSubkeyIndex))) by (keeping blind_stdout).
    specialize (K w). rewrite H in K. exact K. }
  assert (U1 : u16 (ro_enc_index o) = ro_enc_index o) by (unfold u16; apply Z.mod_small; lia).
  assert (U2 : u16 (ro_auth_index o) = ro_auth_index o) by (unfold u16; apply Z.mod_small; lia).
  assert (U3 : u16 (ro_sign_index o) = ro_sign_index o) by (unfold u16; apply Z.mod_small; lia).
  rewrite U1, U2, U3 in H.
  pose proof (keeps_ttl (fun w => w) E (ro_ttl o) w) as K1. unfold andthen at 1 in H.
  destruct (ttl_option E (ro_ttl o) w) as [[ttl|e| | |c] w1]; cbn [snd] in K1; [|left; injection H as _ <-; congruence..].
  unfold andthen at 1 in H. pose proof (keeps_lift (fun w => w) (decode_only_key_types (ro_only o)) w1) as K2.
  destruct (lift (decode_only_key_types (ro_only o)) w1) as [[[master types]|e| | |c] w2]; cbn [snd] in K2; [|left; injection H as _ <-; congruence..].
  unfold andthen at 1 in H. pose proof (keeps_input _ blind_stdout E (ro_input o) w2) as K3.
  destruct (decode_mnemonic_from_input E (ro_input o) w2) as [[[s dm]|e| | |c] w3] eqn:D; cbn [snd] in K3; [|left; injection H as _ <-; congruence..].
  unfold andthen at 1 in H. unfold lift in H.
  set (ko := mk_opts _ _ _ _ _ _ _) in H.
  destruct (mnk_new E s (dm_creation dm) (Some ko)) as [m|e|] eqn:N; cbn [of_res] in H; [|left; injection H as _ <-; congruence..].
  unfold andthen at 1 in H.
  assert (K4 : keeps w_stdout (if ro_encrypt_keys o then ask_password true else ret [])) by (keeping blind_stdout). specialize (K4 w3).
  destruct ((if ro_encrypt_keys o then ask_password true else ret []) w3) as [[pw|e| | |c] w4]; cbn [snd] in K4; [|left; injection H as _ <-; congruence..].
  unfold andthen, with_random in H.
  destruct ((if master then mnk_encode_pgp_armor E m pw else mnk_encode_subkeys_pgp_armor E m pw (ro_self_cert o)) (w_random w4)) as [[out rest]|e|] eqn:X;
    [|left; injection H as _ <-; congruence..].
  right. exists s, dm, w3, m, ko, out. split; [congruence|]. split; [exact N|]. split.
  - exists pw, (w_random w4), rest. destruct master; [left; exact X|right; eauto].
  - unfold print_out in H. injection H as _ <-. cbn [set_stdout w_stdout set_random].
    split; [f_equal; congruence|]. repeat split; reflexivity.
Qed.
Print Assumptions index_exact.

(** At the command line. *)
Definition index_names : list bytes := [bs "enc-index"; bs "auth-index"; bs "sig-index"].
Definition index_field (name : bytes) (o : recover_options) : Z :=
  if bytes_eqb name (bs "enc-index") then ro_enc_index o
  else if bytes_eqb name (bs "auth-index") then ro_auth_index o else ro_sign_index o.
Lemma index_flags name q : In name index_names ->
  match parse_uint0 q with
  | None => parse_flags recover_flags [45 :: name; q] = Bad_flags
  | Some n => exists fs, parse_flags recover_flags [45 :: name; q] = Parsed fs [] /\
      index_field name (recover_options_of fs) = n /\
      forall name', In name' index_names -> name' <> name -> index_field name' (recover_options_of fs) = 0
  end.
Proof.
  intros [<-|[<-|[<-|[]]]]; (destruct (parse_uint0 q) as [n|] eqn:P; [eexists; split|]);
  try (unfold parse_flags; cbn; rewrite P; reflexivity);
  (split; [reflexivity|]; intros n' [<-|[<-|[<-|[]]]]; congruence || reflexivity).
Qed.
Theorem index_option_refused : forall E name q w, In name index_names -> plain_number q -> 65535 < decimal q -> wide w ->
  exists st w', mnemonikey_main E [bs "recover"; 45 :: name; q] w = (Some st, w') /\ st <> 0 /\
    (w' = w \/ w' = set_usage w (S (w_usage w))).
Proof.
  intros E name q w I P L W. pose proof (index_flags name q I) as F. rewrite number_exact in F by auto.
  assert (B : In (bs "recover", (recover_flags, fun fs => recover_and_print E (recover_options_of fs))) (bodies E)) by (cbn; auto).
  destruct (decimal q <? 2 ^ 64).
  - destruct F as (fs & F & V & _).
    destruct (index_refused E (recover_options_of fs) w) as (e & R).
    { unfold index_field in V. destruct (bytes_eqb name (bs "enc-index")); [lia|]. destruct (bytes_eqb name (bs "auth-index")); lia. }
    destruct (status_exact E _ _ _ _ fs [] w (Fail e) w B F) as [S1 S2]; [discriminate|exact R|].
    assert (D : e = ErrPrintUsage \/ e <> ErrPrintUsage) by (destruct e; auto; right; discriminate). destruct D as [->|D].
    + rewrite S2 by auto. do 2 eexists. split; [reflexivity|]. split; [lia|auto].
    + destruct S1 as [S1 S3]; [congruence|]. rewrite S1.
      destruct (exit_status (Fail e : outcome unit)) as [st|] eqn:X; [|destruct e; discriminate].
      exists st, w. split; [reflexivity|]. split; [|auto]. intros ->. assert (Y : @Fail unit e = Ret tt) by (apply S3; reflexivity). discriminate.
  - rewrite (status_bad_flags E _ _ _ _ w B F W). do 2 eexists. split; [reflexivity|]. split; [lia|auto].
Qed.
Print Assumptions index_option_refused.
Theorem index_option_exact : forall E name q w, In name index_names -> plain_number q -> decimal q <= 65535 ->
  exists fs, parse_flags recover_flags [45 :: name; q] = Parsed fs [] /\
    index_field name (recover_options_of fs) = decimal q /\
    (forall name', In name' index_names -> name' <> name -> index_field name' (recover_options_of fs) = 0) /\
    (forall o w', recover_and_print E (recover_options_of fs) w = (o, w') -> o <> Fail ErrPrintUsage ->
       mnemonikey_main E [bs "recover"; 45 :: name; q] w = (exit_status o, w')).
Proof.
  intros E name q w I P L. pose proof (index_flags name q I) as F. rewrite number_exact in F by auto.
  assert (B : In (bs "recover", (recover_flags, fun fs => recover_and_print E (recover_options_of fs))) (bodies E)) by (cbn; auto).
  replace (decimal q <? 2 ^ 64) with true in F by (symmetry; apply Z.ltb_lt; lia).
  destruct F as (fs & F & V & O). exists fs. split; [auto|]. split; [auto|]. split; [auto|].
  intros o w' R N. apply (status_exact E _ _ _ _ fs [] w o w' B F); [discriminate|exact R|exact N].
Qed.
Print Assumptions index_option_exact.

(** ** Cases *)
Definition case_screen : world := mk_world (fun _ => Absent None) (bs "abc") false None [] 0 [] 0 [] 0.
Lemma case_wide : wide case_screen.
Proof. discriminate. Qed.
Example unknown_case : command_name (bs "generat") /\
  mnemonikey_main toy_env [bs "generat"; bs "-ttl"; bs "1y"] case_screen = (Some 1, set_usage case_screen 1).
Proof.
  assert (C : command_name (bs "generat")) by (split; [discriminate|intros r; discriminate]). split; [exact C|].
  apply (dispatch_unknown _ _ case_screen case_wide). right. exists (bs "generat"), [bs "-ttl"; bs "1y"]. split; [reflexivity|]. split; [exact C|reflexivity].
Qed.
Example named_case : command_name (bs "recover") /\ subcommand toy_env (bs "recover") = Some (recover_command toy_env) /\
  mnemonikey_main toy_env [bs "recover"; bs "-only"; bs "nothing"] case_screen = (Some 1, set_usage case_screen 1).
Proof.
  assert (C : command_name (bs "recover")) by (split; [discriminate|intros r; discriminate]).
  assert (S : subcommand toy_env (bs "recover") = Some (recover_command toy_env)) by apply (commands toy_env []).
  split; [exact C|]. split; [exact S|].
  apply (dispatch_named (subcommand toy_env) (bs "recover") (recover_command toy_env) [bs "-only"; bs "nothing"] case_screen (Fail ErrOther) (set_usage case_screen 1) C S); [vm_compute; reflexivity|discriminate].
Qed.
Example status_case : exists fs, parse_flags generate_flags [bs "-ttl"; bs "1x"] = Parsed fs [] /\
  generate_and_print toy_env (generate_options_of fs) case_screen = (Fail ErrPrintUsage, case_screen) /\
  mnemonikey_main toy_env [bs "generate"; bs "-ttl"; bs "1x"] case_screen = (Some 1, set_usage case_screen 1).
Proof.
  destruct (parse_flags generate_flags [bs "-ttl"; bs "1x"]) as [fs rest| |] eqn:P; [|discriminate P|discriminate P].
  assert (Q : rest = []) by (vm_compute in P; injection P as _ <-; reflexivity). subst rest. exists fs. split; [reflexivity|].
  assert (G : generate_and_print toy_env (generate_options_of fs) case_screen = (Fail ErrPrintUsage, case_screen)).
  { vm_compute in P. injection P as <-. reflexivity. }
  split; [exact G|].
  refine (proj2 (status_exact toy_env (bs "generate") generate_flags _ _ fs [] case_screen _ case_screen _ P _ G) eq_refl case_wide);
    [cbn; auto|discriminate].
Qed.
Example bad_flag_case : parse_flags recover_flags [bs "-sig-index"; bs "-1"] = Bad_flags /\
  mnemonikey_main toy_env [bs "recover"; bs "-sig-index"; bs "-1"] case_screen = (Some 2, set_usage case_screen 1).
Proof.
  split; [reflexivity|]. apply (status_bad_flags toy_env (bs "recover") recover_flags (fun fs => recover_and_print toy_env (recover_options_of fs)));
    [cbn; auto|reflexivity|exact case_wide].
Qed.
Example index_case : plain_number (bs "65536") /\ decimal (bs "65536") = 65536 /\
  (exists st w', mnemonikey_main toy_env [bs "recover"; bs "-enc-index"; bs "65536"] case_screen = (Some st, w') /\ st <> 0) /\
  plain_number (bs "65535") /\ decimal (bs "65535") = 65535 /\ In (bs "enc-index") index_names.
Proof.
  assert (P : forall q, In q [bs "65536"; bs "65535"] -> plain_number q).
  { intros q [<-|[<-|[]]]; (split; [discriminate|]; split; [|right; intros r; discriminate]); repeat constructor; vm_compute; congruence. }
  split; [apply P; left; auto|]. split; [reflexivity|]. split; [|split; [apply P; right; left; auto|split; [reflexivity|left; auto]]].
  destruct (index_option_refused toy_env (bs "enc-index") (bs "65536") case_screen) as (st & w' & M & N & _);
    [left; auto|apply P; left; auto|vm_compute; reflexivity|exact case_wide|eauto].
Qed.
