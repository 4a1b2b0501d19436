(** Standard error: what the program says, when, and what it keeps to itself (C79-C82). *)
From Coq Require Import Lia ZifyBool ZifyNat.
From Verif.Model Require Import GoBase Env Version GoTime Seed Encoding Recovery PgpKeys Mnemonikey.
From Verif.Model Require Import CliText CliInput CliFlags CliMain CliHelp CliScreen CliTrace.
From Verif.Spec Require Import EnvSpec PhraseSpec DecodeSpec KeySpec ExportSpec CliEnvSpec TextSpec InputSpec FileSpec MainSpec EndSpec FlagSpec TraceSpec.
From Verif.Proofs Require Import BitsP InputP EntryP FlagP TraceP SpeakP TalkP StderrP AskP EnvInst CliInst.
From Verif.Proofs Require CleanP.
From Verif.Props Require Import TextProps MainProps FlagProps HelpProps EndProps.
Ltac Zify.zify_post_hook ::= Z.div_mod_to_equations.

(** ** C79, C80 *)
(** Writing to standard error changes nothing else. *)
Theorem trace_erases : forall E H args w, fst (t_main E H args w) = mnemonikey_main E args w.
Proof. exact erases_main. Qed.
Print Assumptions trace_erases.

(** the options of a command line *)
Definition generate_settings (s : list (bytes * setting)) : generate_options :=
  mk_gen (text_of s "name" (bs "anonymous")) (text_of s "email" []) (text_of s "ttl" [])
    (switch_of s "encrypt-keys" false) (text_of s "only" []) (text_of s "out-word-file" [])
    (switch_of s "encrypt-phrase" false) (text_of s "unsafe-entropy" []).
Definition recover_settings (s : list (bytes * setting)) : recover_options :=
  mk_rec (text_of s "name" (bs "anonymous")) (text_of s "email" []) (text_of s "ttl" [])
    (switch_of s "encrypt-keys" false) (text_of s "only" []) (mk_in (switch_of s "simple" false) (text_of s "in-word-file" []))
    (switch_of s "self-cert" true) (number_of s "enc-index" 0) (number_of s "auth-index" 0) (number_of s "sig-index" 0).
Definition convert_settings (s : list (bytes * setting)) : convert_options :=
  mk_conv (mk_in (switch_of s "simple" false) (text_of s "in-word-file" [])) (switch_of s "encrypt-phrase" false) (text_of s "out-word-file" []).
Ltac settle I C := repeat first
  [ rewrite (line_text _ _ _ _ _ _ I C "name" (bs "anonymous")) by (try reflexivity; cbv [generate_table recover_table convert_table In]; tauto)
  | rewrite (line_text _ _ _ _ _ _ I C "email" []) by (try reflexivity; cbv [generate_table recover_table convert_table In]; tauto)
  | rewrite (line_text _ _ _ _ _ _ I C "ttl" []) by (try reflexivity; cbv [generate_table recover_table convert_table In]; tauto)
  | rewrite (line_text _ _ _ _ _ _ I C "only" []) by (try reflexivity; cbv [generate_table recover_table convert_table In]; tauto)
  | rewrite (line_text _ _ _ _ _ _ I C "out-word-file" []) by (try reflexivity; cbv [generate_table recover_table convert_table In]; tauto)
  | rewrite (line_text _ _ _ _ _ _ I C "in-word-file" []) by (try reflexivity; cbv [generate_table recover_table convert_table In]; tauto)
  | rewrite (line_text _ _ _ _ _ _ I C "unsafe-entropy" []) by (try reflexivity; cbv [generate_table recover_table convert_table In]; tauto)
  | rewrite (line_switch _ _ _ _ _ _ I C "encrypt-keys" false) by (try reflexivity; cbv [generate_table recover_table convert_table In]; tauto)
  | rewrite (line_switch _ _ _ _ _ _ I C "encrypt-phrase" false) by (try reflexivity; cbv [generate_table recover_table convert_table In]; tauto)
  | rewrite (line_switch _ _ _ _ _ _ I C "simple" false) by (try reflexivity; cbv [generate_table recover_table convert_table In]; tauto)
  | rewrite (line_switch _ _ _ _ _ _ I C "self-cert" true) by (try reflexivity; cbv [generate_table recover_table convert_table In]; tauto)
  | rewrite (line_switch _ _ _ _ _ _ I C "verbose" false) by (try reflexivity; cbv [generate_table recover_table convert_table In]; tauto)
  | rewrite (line_number _ _ _ _ _ _ I C "enc-index" 0) by (try reflexivity; cbv [generate_table recover_table convert_table In]; tauto)
  | rewrite (line_number _ _ _ _ _ _ I C "auth-index" 0) by (try reflexivity; cbv [generate_table recover_table convert_table In]; tauto)
  | rewrite (line_number _ _ _ _ _ _ I C "sig-index" 0) by (try reflexivity; cbv [generate_table recover_table convert_table In]; tauto) ].
Lemma generate_parsed s args rest : command_line generate_table s args rest -> exists fs, parse_flags generate_flags args = Parsed fs rest /\
  generate_options_of fs = generate_settings s /\ verbose_of fs = switch_of s "verbose" false.
Proof.
  intros C. assert (I : In (bs "generate", (generate_flags, generate_table)) tables) by (left; reflexivity). destruct (parse_line _ _ _ s args rest I C) as [P _].
  eexists. split; [exact P|]. unfold generate_options_of, generate_settings, verbose_of. settle I C. split; reflexivity.
Qed.
Lemma recover_parsed s args rest : command_line recover_table s args rest -> exists fs, parse_flags recover_flags args = Parsed fs rest /\
  recover_options_of fs = recover_settings s /\ verbose_of fs = switch_of s "verbose" false.
Proof.
  intros C. assert (I : In (bs "recover", (recover_flags, recover_table)) tables) by (right; left; reflexivity). destruct (parse_line _ _ _ s args rest I C) as [P _].
  eexists. split; [exact P|]. unfold recover_options_of, input_options_of, recover_settings, verbose_of. settle I C. split; reflexivity.
Qed.
Lemma convert_parsed s args rest : command_line convert_table s args rest -> exists fs, parse_flags convert_flags args = Parsed fs rest /\
  convert_options_of fs = convert_settings s /\ verbose_of fs = switch_of s "verbose" false.
Proof.
  intros C. assert (I : In (bs "convert", (convert_flags, convert_table)) tables) by (right; right; left; reflexivity). destruct (parse_line _ _ _ s args rest I C) as [P _].
  eexists. split; [exact P|]. unfold convert_options_of, input_options_of, convert_settings, verbose_of. settle I C. split; reflexivity.
Qed.

(** [reported d C w st err out]: [err] is [out] followed by the report of a failure with status 1,
    preceded by the help text when the options were wrong *)
Definition reported (d : command_doc) (C : err -> bytes -> Prop) (w : world) (out err : bytes) : Prop :=
  exists e text, C e text /\
    (e <> ErrPrintUsage -> err = out ++ bs "ERROR: " ++ text ++ [10]) /\
    (e = ErrPrintUsage -> out = [] /\ exists help, help_output d (w_width w) = Text help /\ err = help ++ bs "ERROR: " ++ text ++ [10]).

(** an option the command refuses is refused before anything is done *)
Lemma refused_option E H ttl only t w : option_complaint E H ttl only ErrPrintUsage t ->
  ttl_option E ttl w = (Fail ErrPrintUsage, w) \/ decode_only_key_types only = Err ErrPrintUsage.
Proof.
  intros C. inversion C; subst.
  - left. unfold ttl_option. destruct ttl as [|c r]; [congruence|]. destruct (parse_ttl E (c :: r)) as [d| |] eqn:P; [destruct (H1 d); reflexivity|reflexivity..].
  - right. rewrite (only_refused (comma_list (before ++ x :: after)) (before ++ x :: after) x H0 H2 eq_refl); [reflexivity|apply in_or_app; right; left; reflexivity| |].
    + intros ->. apply H4. left. reflexivity.
    + unfold key_type_name. intros K. apply H4. cbn [In] in *. intuition.
Qed.
Lemma ttl_option_world E ttl w : exists o, ttl_option E ttl w = (o, w) /\ forall e, o = Fail e -> e = ErrPrintUsage.
Proof. unfold ttl_option. destruct ttl; [eexists; split; [reflexivity|discriminate]|]. destruct (parse_ttl E _); (eexists; split; [reflexivity|]); cbn; congruence. Qed.
Lemma then_fails {A B} (a : traced A) (k : A -> traced B) w e w1 t : a w = ((Fail e, w1), t) -> t_then a k w = ((Fail e, w1), t).
Proof. intros Q. unfold t_then. rewrite Q. reflexivity. Qed.
Lemma then_returns {A B} (a : traced A) (k : A -> traced B) w x w1 out t : a w = ((Ret x, w1), (out, t)) ->
  t_then a k w = (fst (k x w1), (out ++ fst (snd (k x w1)), snd (snd (k x w1)))).
Proof. intros Q. unfold t_then. rewrite Q. destruct (k x w1) as [r [o u]]. reflexivity. Qed.
Lemma ttl_step E H ttl w : (exists d, t_ttl_option E H ttl w = ((Ret d, w), ([], []))) \/
  t_ttl_option E H ttl w = ((Fail ErrPrintUsage, w), ([], ttl_text H ttl)).
Proof. unfold t_ttl_option, quiet, ttl_option. destruct ttl as [|c r]; [left; eexists; reflexivity|]. destruct (parse_ttl E (c :: r)) as [d|e|]; [left; eexists; reflexivity|right; reflexivity..]. Qed.
Lemma only_step H only w : decode_only_key_types only = Err ErrPrintUsage -> t_only H only w = ((Fail ErrPrintUsage, w), ([], only_text H only)).
Proof. intros R. unfold t_only, quiet, lift. rewrite R. reflexivity. Qed.
Lemma ttl_refused E H ttl w : ttl_option E ttl w = (Fail ErrPrintUsage, w) -> t_ttl_option E H ttl w = ((Fail ErrPrintUsage, w), ([], ttl_text H ttl)).
Proof. intros R. unfold t_ttl_option, quiet. rewrite R. reflexivity. Qed.
Lemma generate_refused E H v o w t w1 out u : option_complaint E H (go_ttl o) (go_only o) ErrPrintUsage t ->
  t_generate E H v o w = ((Fail ErrPrintUsage, w1), (out, u)) -> w1 = w /\ out = [].
Proof.
  intros C Q. unfold t_generate in Q. destruct (refused_option E H _ _ t w C) as [R|R].
  - rewrite (then_fails _ _ _ _ _ _ (ttl_refused E H _ _ R)) in Q. injection Q as <- <- _. auto.
  - destruct (ttl_step E H (go_ttl o) w) as [[d T]|T].
    + rewrite (then_returns _ _ _ _ _ _ _ T) in Q. rewrite (then_fails _ _ _ _ _ _ (only_step H _ _ R)) in Q. cbn [fst snd app] in Q. injection Q as <- <- _. auto.
    + rewrite (then_fails _ _ _ _ _ _ T) in Q. injection Q as <- <- _. auto.
Qed.
Lemma recover_refused E H v o w t w1 out u : option_complaint E H (ro_ttl o) (ro_only o) ErrPrintUsage t ->
  t_recover E H v o w = ((Fail ErrPrintUsage, w1), (out, u)) -> w1 = w /\ out = [].
Proof.
  intros C Q. unfold t_recover in Q. destruct (refused_option E H _ _ t w C) as [R|R].
  - rewrite (then_fails _ _ _ _ _ _ (ttl_refused E H _ _ R)) in Q. injection Q as <- <- _. auto.
  - destruct (ttl_step E H (ro_ttl o) w) as [[d T]|T].
    + rewrite (then_returns _ _ _ _ _ _ _ T) in Q. destruct (_ || _); [unfold t_fail in Q; cbn [fst snd app] in Q; discriminate Q|].
      rewrite (then_fails _ _ _ _ _ _ (only_step H _ _ R)) in Q. cbn [fst snd app] in Q. injection Q as <- <- _. auto.
    + rewrite (then_fails _ _ _ _ _ _ T) in Q. injection Q as <- <- _. auto.
Qed.
Lemma prompt_error H tty c e t : prompt_complaint H tty c e t -> e <> ErrPrintUsage /\ e <> ErrPrintUsageGraceful. Proof. intros []; split; discriminate. Qed.
Lemma save_error H p n e t : save_complaint H p n e t -> e <> ErrPrintUsage /\ e <> ErrPrintUsageGraceful. Proof. intros []; split; discriminate. Qed.
Lemma file_error E H p n e t : file_complaint E H p n e t -> e <> ErrPrintUsage /\ e <> ErrPrintUsageGraceful. Proof. intros []; split; discriminate. Qed.
Lemma phrase_error E H o w e t : phrase_complaint E H o w e t -> e <> ErrPrintUsage /\ e <> ErrPrintUsageGraceful.
Proof. intros []; try (split; discriminate); [eapply file_error; eauto|eapply prompt_error; eauto]. Qed.
Lemma option_error E H a b e t : option_complaint E H a b e t -> e <> ErrPrintUsageGraceful. Proof. intros []; discriminate. Qed.
Lemma generate_error E H o w e t : generate_complaint E H o w e t ->
  e <> ErrPrintUsageGraceful /\ (e = ErrPrintUsage -> option_complaint E H (go_ttl o) (go_only o) ErrPrintUsage t).
Proof.
  intros [e' t' C| | | | |e' t' _ C| | |e' t' _ C]; try (split; discriminate).
  - split; [eapply option_error; eauto|intros ->; exact C].
  - apply prompt_error in C as [A B]. split; [exact B|contradiction].
  - apply save_error in C as [A B]. split; [exact B|contradiction].
Qed.
Lemma recover_error E H o w e t : recover_complaint E H o w e t ->
  e <> ErrPrintUsageGraceful /\ (e = ErrPrintUsage -> option_complaint E H (ro_ttl o) (ro_only o) ErrPrintUsage t).
Proof.
  intros [e' t' C|e' t' C Q| |e' t' C|e' t' _ C|]; try (split; discriminate).
  - split; [eapply option_error; eauto|intros ->; exact C].
  - subst e'. split; discriminate.
  - apply phrase_error in C as [A B]. split; [exact B|contradiction].
  - apply prompt_error in C as [A B]. split; [exact B|contradiction].
Qed.
Lemma convert_error E H o w e t : convert_complaint E H o w e t -> e <> ErrPrintUsageGraceful /\ e <> ErrPrintUsage.
Proof.
  intros [e' t' C|e' t' _ C| |e' t' _ C]; try (split; discriminate); [apply phrase_error in C|apply prompt_error in C|apply save_error in C]; tauto.
Qed.

Lemma command_reports E H name d t flags x fs rest args w (S : bytes -> Prop) (C : err -> bytes -> Prop) (R : unit -> world -> bytes -> Prop) a st w' err :
  docs_of name d t -> t_subcommand E H name = Some (t_run_command H d t flags x) -> parse_flags flags args = Parsed fs rest -> args <> [bs "help"] ->
  speaks S C R (x fs rest) w -> erases (x fs rest) a -> CleanP.polite a -> (forall e t, C e t -> e <> ErrPrintUsageGraceful) ->
  (forall w1 out text, x fs rest w = ((Fail ErrPrintUsage, w1), (out, text)) -> C ErrPrintUsage text -> w1 = w /\ out = []) ->
  wide w -> t_main E H (name :: args) w = ((st, w'), err) ->
  exists out, S out /\ (st = Some 0 -> err = out /\ R tt w' err) /\ (st = Some 1 -> reported d C w out err) /\ (st <> Some 0 -> st <> Some 1 -> err = out).
Proof.
  intros D SB P N [SP SR] ER PL CG U WD M. specialize (ER w). specialize (PL w). rewrite <- ER in PL. clear ER.
  destruct (x fs rest w) as [[oc w1] [out text]] eqn:T. cbn [fst snd] in SP, SR, PL.
  destruct (main_command E H name d t flags x args fs rest w oc w1 out text D SB P N T) as [M1 M2].
  exists out. split; [exact SP|].
  destruct oc as [[]|e| | |c].
  - rewrite M1 in M by discriminate. cbn [concluded exit_status] in M. rewrite app_nil_r in M. injection M as <- <- <-. split; [auto|]. split; [discriminate|congruence].
  - pose proof (CG e text SR) as G. assert (DE : e = ErrPrintUsage \/ e <> ErrPrintUsage) by (destruct e; try (right; discriminate); left; reflexivity). destruct DE as [->|NE].
    + destruct (U w1 out text eq_refl SR) as [-> ->].
      destruct (M2 eq_refl WD) as (help & H1 & H2). rewrite H2 in M. injection M as <- <- <-. split; [discriminate|]. split; [|congruence].
      intros _. exists ErrPrintUsage, text. split; [exact SR|]. split; [congruence|]. intros _. split; [reflexivity|]. exists help. auto.
    + rewrite M1 in M by congruence. assert (Q : exists st0, concluded ((Fail e, w1), (out, text)) = ((st0, w1), out ++ line (bs "ERROR: " ++ text)) /\ st0 = Some 1).
      { unfold concluded. destruct e; try (eexists; split; reflexivity); congruence. }
      destruct Q as (st0 & Q & ->). rewrite Q in M. assert (QS : st = Some 1) by congruence. assert (QE : err = out ++ line (bs "ERROR: " ++ text)) by congruence. subst st err.
      split; [discriminate|]. split; [|congruence]. intros _. exists e, text. split; [exact SR|]. split; [|congruence].
      intros _. unfold line. rewrite <- app_assoc. reflexivity.
  - rewrite M1 in M by discriminate. cbn [concluded exit_status] in M. rewrite app_nil_r in M. injection M as <- <- <-. split; [discriminate|]. split; [discriminate|auto].
  - rewrite M1 in M by discriminate. cbn [concluded exit_status] in M. rewrite app_nil_r in M. injection M as <- <- <-. split; [discriminate|]. split; [discriminate|auto].
  - destruct PL as [_ PL]. destruct (PL c). reflexivity.
Qed.

(** What a run of "mnemonikey generate" with these settings writes to standard error: after success
    the transcript; with status 1, what was said until then and the report of a complaint; else
    (a panic, or a loop that does not end) what was said until then. *)
Theorem generate_stderr : forall E H s args rest w st w' err, wordlist_ok E -> argon_ok E -> aes_ok E -> hkdf_ok E -> hash_ok E ->
  world_ok w -> wide w -> command_line generate_table s args rest -> args <> [bs "help"] ->
  t_main E H (bs "generate" :: args) w = ((st, w'), err) ->
  let o := generate_settings s in
  let v := switch_of s "verbose" false in
  exists out, generate_says E H v o w out /\
    (st = Some 0 -> err = out /\ generate_transcript E H v o w w' err) /\
    (st = Some 1 -> reported generate_doc (generate_complaint E H o w) w out err) /\
    (st <> Some 0 -> st <> Some 1 -> err = out).
Proof.
  intros E H s args rest w st w' err W A X HK HH WO WD L N M o v. destruct (generate_parsed s args rest L) as (fs & P & Q1 & Q2).
  eapply (command_reports E H (bs "generate") generate_doc generate_text generate_flags) with (fs := fs) (R := fun _ w' x => generate_transcript E H v o w w' x);
    [left; reflexivity|apply sub_named|exact P|exact N|cbv beta; rewrite Q1, Q2; apply (speaks_generate E H W A X HK HH v o w WO)
    |cbv beta; apply erases_generate|apply CleanP.polite_generate|intros e t C; apply (generate_error E H o w e t C)| |exact WD|exact M].
  cbv beta. rewrite Q1, Q2. intros w1 out text T C. exact (generate_refused E H v o w text w1 out text (proj2 (generate_error E H o w _ _ C) eq_refl) T).
Qed.
Print Assumptions generate_stderr.
Theorem recover_stderr : forall E H s args rest w st w' err, wordlist_ok E -> search_ok E -> argon_ok E -> aes_ok E -> hkdf_ok E -> hash_ok E ->
  world_ok w -> wide w -> command_line recover_table s args rest -> args <> [bs "help"] ->
  t_main E H (bs "recover" :: args) w = ((st, w'), err) ->
  let o := recover_settings s in
  let v := switch_of s "verbose" false in
  exists out, recover_says E H v o w out /\
    (st = Some 0 -> err = out /\ recover_transcript E H v o w w' err) /\
    (st = Some 1 -> reported recover_doc (recover_complaint E H o w) w out err) /\
    (st <> Some 0 -> st <> Some 1 -> err = out).
Proof.
  intros E H s args rest w st w' err W SO A X HK HH WO WD L N M o v. destruct (recover_parsed s args rest L) as (fs & P & Q1 & Q2).
  eapply (command_reports E H (bs "recover") recover_doc recover_text recover_flags) with (fs := fs) (R := fun _ w' x => recover_transcript E H v o w w' x);
    [right; left; reflexivity|apply sub_named|exact P|exact N|cbv beta; rewrite Q1, Q2; apply (speaks_recover E H W SO A X HK HH v o w (proj1 WO))
    |cbv beta; apply erases_recover|apply CleanP.polite_recover|intros e t C; apply (recover_error E H o w e t C)| |exact WD|exact M].
  cbv beta. rewrite Q1, Q2. intros w1 out text T C. exact (recover_refused E H v o w text w1 out text (proj2 (recover_error E H o w _ _ C) eq_refl) T).
Qed.
Print Assumptions recover_stderr.
Theorem convert_stderr : forall E H s args rest w st w' err, wordlist_ok E -> search_ok E -> argon_ok E -> aes_ok E ->
  world_ok w -> wide w -> command_line convert_table s args rest -> args <> [bs "help"] ->
  t_main E H (bs "convert" :: args) w = ((st, w'), err) ->
  let o := convert_settings s in
  let v := switch_of s "verbose" false in
  exists out, convert_says E H v o w out /\
    (st = Some 0 -> err = out /\ convert_transcript E H v o w w' err) /\
    (st = Some 1 -> reported convert_doc (convert_complaint E H o w) w out err) /\
    (st <> Some 0 -> st <> Some 1 -> err = out).
Proof.
  intros E H s args rest w st w' err W SO A X WO WD L N M o v. destruct (convert_parsed s args rest L) as (fs & P & Q1 & Q2).
  eapply (command_reports E H (bs "convert") convert_doc convert_text convert_flags) with (fs := fs) (R := fun _ w' x => convert_transcript E H v o w w' x);
    [right; right; left; reflexivity|apply sub_named|exact P|exact N|cbv beta; rewrite Q1, Q2; apply (speaks_convert E H W SO A X v o w (proj1 WO))
    |cbv beta; apply erases_convert|apply CleanP.polite_convert|intros e t C; apply (convert_error E H o w e t C)| |exact WD|exact M].
  cbv beta. rewrite Q1, Q2. intros w1 out text T C. destruct (convert_error E H o w _ _ C) as [_ R]. congruence.
Qed.
Print Assumptions convert_stderr.

(** ** C80: what standard error keeps to itself *)
Lemma dialogue_renamed c q f : renaming f -> forall n ts, (length ts <= n)%nat ->
  dialogue c q (map f ts) = dialogue c q ts /\ texts_used c (map f ts) = texts_used c ts.
Proof.
  intros [F0 FI]. induction n as [|n IH]; intros ts L; [destruct ts; [auto|cbn in L; lia]|].
  destruct ts as [|t ts]; [auto|]. cbn [length] in L. cbn [map]. destruct t as [|b t].
  - rewrite F0. cbn [dialogue texts_used]. destruct (IH ts ltac:(lia)) as [-> ->]. auto.
  - destruct (f (b :: t)) as [|b' t'] eqn:Q; [rewrite <- F0 in Q; apply FI in Q; discriminate|]. cbn [dialogue texts_used]. destruct c; [|auto].
    destruct ts as [|u us]; [auto|]. cbn [map]. cbn [length] in L. rewrite <- Q.
    replace (bytes_eqb (f (b :: t)) (f u)) with (bytes_eqb (b :: t) u).
    + destruct (IH us ltac:(lia)) as [-> ->]. auto.
    + apply eq_true_iff_eq. rewrite !bytes_eqb_eq. split; [intros ->; reflexivity|apply FI].
Qed.
Lemma dialogue_same c q f ts : renaming f -> dialogue c q (map f ts) = dialogue c q ts.
Proof. intros F. exact (proj1 (dialogue_renamed c q f F _ ts (Nat.le_refl _))). Qed.
Lemma used_same c f ts : renaming f -> texts_used c (map f ts) = texts_used c ts.
Proof. intros F. exact (proj2 (dialogue_renamed c [] f F _ ts (Nat.le_refl _))). Qed.
Lemma skipn_map_ {A B} (f : A -> B) n l : skipn n (map f l) = map f (skipn n l).
Proof. revert l. induction n; intros [|a l]; cbn [skipn map]; auto. Qed.
Lemma unlocking_same r1 r2 f ts : renaming f -> (forall t, In t ts -> r2 (f t) = r1 t) ->
  unlocking r2 (map f ts) = unlocking r1 ts /\ unlock_used r2 (map f ts) = unlock_used r1 ts.
Proof.
  intros [F0 FI] R. induction ts as [|t ts IH]; [auto|]. destruct (IH (fun u U => R u (or_intror U))) as [I1 I2]. pose proof (R t (or_introl eq_refl)) as RT. cbn [map].
  destruct t as [|b t].
  - rewrite F0. cbn [unlocking unlock_used]. rewrite I1, I2. auto.
  - destruct (f (b :: t)) as [|b' t'] eqn:Q; [rewrite <- F0 in Q; apply FI in Q; discriminate|]. cbn [unlocking unlock_used]. rewrite RT, I1, I2. auto.
Qed.

(** Saved to a file and without -verbose, two runs of generate that succeed write the same: whatever
    the seed, the keys, the phrase and the clock, and whatever was typed as a password, but for which
    texts were empty and which were alike. *)
Theorem generate_secret : forall E H s args rest w1 w2 w1' w2' err1 err2 f, wordlist_ok E -> argon_ok E -> aes_ok E -> hkdf_ok E -> hash_ok E ->
  world_ok w1 -> world_ok w2 -> wide w1 -> wide w2 -> command_line generate_table s args rest -> args <> [bs "help"] ->
  text_of s "out-word-file" [] <> [] -> switch_of s "verbose" false = false -> renaming f ->
  let keys w := if bytes_eqb (text_of s "unsafe-entropy" []) (bs "-") then skipn 16 (w_stdin w) else w_stdin w in
  typed_texts (keys w2) = map f (typed_texts (keys w1)) ->
  t_main E H (bs "generate" :: args) w1 = ((Some 0, w1'), err1) -> t_main E H (bs "generate" :: args) w2 = ((Some 0, w2'), err2) ->
  err1 = err2.
Proof.
  intros E H s args rest w1 w2 w1' w2' err1 err2 f W A X HK HH O1 O2 D1 D2 L N OF V F keys K M1 M2.
  assert (T : forall w w' err, world_ok w -> wide w -> t_main E H (bs "generate" :: args) w = ((Some 0, w'), err) ->
    err = when (TraceSpec.nonempty (text_of s "unsafe-entropy" [])) entropy_notice ++
          when (switch_of s "encrypt-keys" false) (dialogue true key_question (typed_texts (keys w))) ++
          when (switch_of s "encrypt-phrase" false)
             (dialogue true phrase_question (skipn (if switch_of s "encrypt-keys" false then texts_used true (typed_texts (keys w)) else 0) (typed_texts (keys w)))) ++
          magenta_on ++ colour_off).
  { intros w w' err O D M. destruct (generate_stderr E H s args rest w (Some 0) w' err W A X HK HH O D L N M) as (out & _ & R & _).
    destruct (R eq_refl) as [_ (rows & block & TS & B & TX)]. unfold table_shown in TS. rewrite V in TS. unfold generate_settings in B, TX.
    cbn [go_out_file go_entropy go_encrypt_keys go_encrypt_phrase] in B, TX. destruct (text_of s "out-word-file" []); [congruence|]. subst rows block.
    cbv zeta in TX. cbn [app] in TX. rewrite app_nil_r in TX. exact TX. }
  rewrite (T w1 w1' err1 O1 D1 M1), (T w2 w2' err2 O2 D2 M2). rewrite K, used_same, skipn_map_, !dialogue_same by exact F. reflexivity.
Qed.
Print Assumptions generate_secret.

(** The same for recover from word files: beside that, standard error tells whether the phrase is
    encrypted and which of the passwords typed for it was wrong. *)
Theorem recover_secret : forall E H s args rest w1 w2 w1' w2' err1 err2 f words1 words2 dm1 dm2,
  wordlist_ok E -> search_ok E -> argon_ok E -> aes_ok E -> hkdf_ok E -> hash_ok E ->
  world_ok w1 -> world_ok w2 -> wide w1 -> wide w2 -> command_line recover_table s args rest -> args <> [bs "help"] ->
  let path := text_of s "in-word-file" [] in
  path <> [] -> switch_of s "verbose" false = false -> renaming f ->
  read_word_file E path w1 = (Ret words1, w1) -> read_word_file E path w2 = (Ret words2, w2) ->
  decode_mnemonic E words1 = Ok dm1 -> decode_mnemonic E words2 = Ok dm2 -> dm_encrypted dm2 = dm_encrypted dm1 ->
  typed_texts (w_stdin w2) = map f (typed_texts (w_stdin w1)) ->
  (dm_encrypted dm1 = true -> forall t, In t (typed_texts (w_stdin w1)) -> opens E dm2 (f t) = opens E dm1 t) ->
  t_main E H (bs "recover" :: args) w1 = ((Some 0, w1'), err1) -> t_main E H (bs "recover" :: args) w2 = ((Some 0, w2'), err2) ->
  err1 = err2.
Proof.
  intros E H s args rest w1 w2 w1' w2' err1 err2 f words1 words2 dm1 dm2 W SO A X HK HH O1 O2 D1 D2 L N path PN V F RD1 RD2 DC1 DC2 EN K RT M1 M2.
  assert (T : forall w w' err words dm, world_ok w -> wide w -> read_word_file E path w = (Ret words, w) -> decode_mnemonic E words = Ok dm ->
    t_main E H (bs "recover" :: args) w = ((Some 0, w'), err) ->
    err = when (dm_encrypted dm) (unlocking (opens E dm) (typed_texts (w_stdin w))) ++
          when (switch_of s "encrypt-keys" false) (dialogue true key_question (texts_after E dm w)) ++ magenta_on ++ colour_off).
  { intros w w' err words dm O D RD DC M. destruct (recover_stderr E H s args rest w (Some 0) w' err W SO A X HK HH O D L N M) as (out & _ & R & _).
    destruct (R eq_refl) as [_ (ws & v & d & entry & rows & RP & DM & ET & TS & TX)]. unfold table_shown in TS. rewrite V in TS, TX. subst rows.
    unfold read_phrase in RP. unfold entry_text in ET. unfold recover_settings in RP, ET, TX. cbn [ro_input io_in_file io_simple ro_encrypt_keys] in RP, ET, TX. fold path in RP, ET.
    destruct path as [|c path']; [congruence|]. rewrite RD in RP. injection RP as <- <-. rewrite DC in DM. injection DM as <-. subst entry.
    unfold decode_transcript in TX. cbn [when app] in TX. exact TX. }
  rewrite (T w1 w1' err1 words1 dm1 O1 D1 RD1 DC1 M1), (T w2 w2' err2 words2 dm2 O2 D2 RD2 DC2 M2). unfold texts_after. rewrite K, EN.
  destruct (dm_encrypted dm1).
  - destruct (unlocking_same (opens E dm1) (opens E dm2) f (typed_texts (w_stdin w1)) F (RT eq_refl)) as [-> ->].
    rewrite skipn_map_, dialogue_same by exact F. reflexivity.
  - rewrite skipn_map_, dialogue_same by exact F. reflexivity.
Qed.
Print Assumptions recover_secret.

(** ** C81: wrong command lines, help *)
Definition pages : list (bytes * (command_doc * table)) :=
  [(bs "generate", (generate_doc, generate_table)); (bs "recover", (recover_doc, recover_table)); (bs "convert", (convert_doc, convert_table))].
Lemma page_parts E H name d tab : In (name, (d, tab)) pages -> exists flags t x,
  In (name, (flags, tab)) tables /\ docs_of name d t /\ t_subcommand E H name = Some (t_run_command H d t flags x).
Proof.
  intros [Q|[Q|[Q|[]]]]; injection Q as <- <- <-; [exists generate_flags, generate_text|exists recover_flags, recover_text|exists convert_flags, convert_text];
    eexists; (split; [cbv [tables In]; auto|]); (split; [cbv [docs_of In]; auto|]); apply sub_named.
Qed.
Lemma bad_run H d t flags x args w reason : In (d, t) docs -> wide w -> parse_flags flags args = Bad_flags -> reason = flag_error H (S (length args)) flags args ->
  exists help, help_output d (w_width w) = Text help /\
    t_run_command H d t flags x args w = ((Exit 2, set_usage w (S (w_usage w))), (reason ++ [10] ++ help, [])).
Proof.
  intros I W P ->. destruct (doc_help d t w I W) as (help & H1 & H2). exists help. split; [exact H1|].
  assert (Q : (tell _ <- say (line (flag_error H (S (length args)) flags args)); tell _ <- t_usage d t; t_exit 2) w =
    (@Exit unit 2, set_usage w (S (w_usage w)), (flag_error H (S (length args)) flags args ++ [10] ++ help, []))).
  { unfold t_then, say. rewrite H2. unfold t_exit, line. cbn [fst snd]. rewrite app_nil_r, <- app_assoc. reflexivity. }
  unfold t_run_command. rewrite P. destruct args as [|a [|b l]]; [exact Q| |exact Q].
  destruct (bytes_eqb a (bs "help")) eqn:B; [|exact Q]. apply bytes_eqb_eq in B. subst a. rewrite parse_positional in P by discriminate. discriminate.
Qed.
Lemma help_run H d t flags x args w : In (d, t) docs -> wide w -> args = [bs "help"] \/ parse_flags flags args = Help ->
  exists help o, help_output d (w_width w) = Text help /\ exit_status o = Some 0 /\ (forall e, o <> Fail e) /\
    t_run_command H d t flags x args w = ((o, set_usage w (S (w_usage w))), (help, [])).
Proof.
  intros I W P. destruct (doc_help d t w I W) as (help & H1 & H2). exists help. destruct P as [->|P].
  - exists (Ret tt). split; [exact H1|]. split; [reflexivity|]. split; [discriminate|]. unfold t_run_command. rewrite bytes_eqb_refl. exact H2.
  - exists (Exit 0). split; [exact H1|]. split; [reflexivity|]. split; [discriminate|].
    assert (Q : (tell _ <- t_usage d t; t_exit 0) w = (@Exit unit 0, set_usage w (S (w_usage w)), (help, []))).
    { unfold t_then. rewrite H2. unfold t_exit. cbn [fst snd]. rewrite app_nil_r. reflexivity. }
    unfold t_run_command. rewrite P. destruct args as [|a [|b l]]; [exact Q| |exact Q].
    destruct (bytes_eqb a (bs "help")) eqn:B; [|exact Q]. apply bytes_eqb_eq in B. subst a. rewrite parse_positional in P by discriminate. discriminate.
Qed.
Lemma help_parsed tab flags args : table_of flags tab -> names_ok tab -> help_line tab args -> parse_flags flags args = Help.
Proof.
  intros T O (s & a & n & rest & S & N & H & K). unfold parse_flags. destruct (parse_settings tab s args _ S flags _ T O (Nat.lt_succ_diag_r _)) as (f & L & -> & T').
  destruct f as [|f]; [lia|]. apply (parse_help a n); auto. destruct (flag_get (put_all flags s) n) as [v|] eqn:G; [|reflexivity].
  destruct (K (kind_of v)). apply T'. eauto.
Qed.
Lemma root_table : table_of [] [] /\ names_ok [].
Proof. split; [intros n k; split; [intros []|intros (v & Q & _); discriminate]|intros n k []]. Qed.
(** a command line with something wrong: the reason, then the help text of the command; status 2 *)
Theorem wrong_line_stderr : forall E H name d tab args w, In (name, (d, tab)) pages -> wrong_line tab args -> wide w ->
  exists reason help, wrong_reason H tab args reason /\ help_output d (w_width w) = Text help /\
    t_main E H (name :: args) w = ((Some 2, set_usage w (S (w_usage w))), reason ++ [10] ++ help).
Proof.
  intros E H name d tab args w I WL WD. destruct (page_parts E H name d tab I) as (flags & t & x & T & D & SB). destruct (tables_ok name flags tab T) as (TO & NO & _).
  destruct (message_line H flags tab args TO NO WL) as [P R]. destruct (docs_in name d t D) as [DI C].
  destruct (bad_run H d t flags x args w _ DI WD P eq_refl) as (help & H1 & H2). eexists _, help. split; [exact R|]. split; [exact H1|].
  rewrite (main_named E H name _ args w C SB); [rewrite H2; unfold concluded; cbn [exit_status]; rewrite app_nil_r; reflexivity|]. intros w' y Q. rewrite H2 in Q. discriminate.
Qed.
Print Assumptions wrong_line_stderr.
Theorem wrong_root_stderr : forall E H args w, wrong_line [] args -> wide w ->
  exists reason help, wrong_reason H [] args reason /\ help_output root_doc (w_width w) = Text help /\
    t_main E H args w = ((Some 2, set_usage w (S (w_usage w))), reason ++ [10] ++ help).
Proof.
  intros E H args w WL WD. destruct root_table as [TO NO]. destruct (message_line H [] [] args TO NO WL) as [P R].
  destruct (bad_run H root_doc root_text [] (fun _ args => t_root_execute H (t_subcommand E H) args) args w _ (or_introl eq_refl) WD P eq_refl) as (help & H1 & H2).
  eexists _, help. split; [exact R|]. split; [exact H1|]. unfold t_main. rewrite H2. cbn [exit_status]. rewrite app_nil_r. reflexivity.
Qed.
Print Assumptions wrong_root_stderr.
(** a request for help: exactly the help text *)
Theorem help_stderr : forall E H name d tab args w, In (name, (d, tab)) pages -> args = [bs "help"] \/ help_line tab args -> wide w ->
  exists help, help_output d (w_width w) = Text help /\ t_main E H (name :: args) w = ((Some 0, set_usage w (S (w_usage w))), help).
Proof.
  intros E H name d tab args w I HL WD. destruct (page_parts E H name d tab I) as (flags & t & x & T & D & SB). destruct (tables_ok name flags tab T) as (TO & NO & _).
  destruct (docs_in name d t D) as [DI C]. assert (P : args = [bs "help"] \/ parse_flags flags args = Help) by (destruct HL; [auto|right; eapply help_parsed; eauto]).
  destruct (help_run H d t flags x args w DI WD P) as (help & o & H1 & H2 & H3 & H4). exists help. split; [exact H1|].
  rewrite (main_named E H name _ args w C SB); [rewrite H4; unfold concluded; rewrite H2|intros w' y Q; rewrite H4 in Q; injection Q as Q _ _; destruct (H3 _ Q)].
  destruct o as [u|e| | |c]; [|destruct (H3 e); reflexivity|..]; rewrite app_nil_r; reflexivity.
Qed.
Print Assumptions help_stderr.
Theorem root_help_stderr : forall E H args w, args = [bs "help"] \/ help_line [] args -> wide w ->
  exists help, help_output root_doc (w_width w) = Text help /\ t_main E H args w = ((Some 0, set_usage w (S (w_usage w))), help).
Proof.
  intros E H args w HL WD. destruct root_table as [TO NO]. assert (P : args = [bs "help"] \/ parse_flags [] args = Help) by (destruct HL; [auto|right; eapply help_parsed; eauto]).
  destruct (help_run H root_doc root_text [] (fun _ args => t_root_execute H (t_subcommand E H) args) args w (or_introl eq_refl) WD P) as (help & o & H1 & H2 & H3 & H4). exists help. split; [exact H1|].
  unfold t_main. rewrite H4, H2. destruct o as [u|e| | |c]; [|destruct (H3 e); reflexivity|..]; rewrite app_nil_r; reflexivity.
Qed.
Print Assumptions root_help_stderr.
(** a command that is missing or unknown: the help text, then the error; status 1.  The word "help"
    followed by anything is answered with nothing and status 0. *)
Theorem root_stderr : forall E H args rest w, command_line [] [] args rest -> args <> [bs "help"] -> wide w ->
  exists help, help_output root_doc (w_width w) = Text help /\
  (rest = [] -> t_main E H args w = ((Some 1, set_usage w (S (w_usage w))), help ++ bs "ERROR: incorrect usage: missing subcommand" ++ [10])) /\
  (forall a more, rest = a :: more -> ~ In a [bs "help"; bs "generate"; bs "recover"; bs "convert"] ->
    t_main E H args w = ((Some 1, set_usage w (S (w_usage w))), help ++ bs "ERROR: incorrect usage: unknown subcommand " ++ h_quote H a ++ [10])) /\
  (forall more, rest = bs "help" :: more -> t_main E H args w = ((Some 0, w), [])).
Proof.
  intros E H args rest w (more & S & O) N WD. inversion S; subst. assert (P : parse_flags [] more = Parsed [] rest).
  { destruct O as [|rest|a rest [->|[->|(c & r & -> & C)]]]; try reflexivity. apply parse_positional. intros x [= Q _]. congruence. }
  destruct (doc_help root_doc root_text w (or_introl eq_refl) WD) as (help & H1 & _). exists help. split; [exact H1|].
  set (x := fun (_ : flag_set) args => t_root_execute H (t_subcommand E H) args).
  assert (U : forall text, x [] rest w = ((Fail ErrPrintUsage, w), ([], text)) -> t_main E H more w = ((Some 1, set_usage w (Datatypes.S (w_usage w))), help ++ bs "ERROR: " ++ text ++ [10])).
  { intros text X. destruct (run_parsed H root_doc root_text [] x more [] rest w _ w [] text P N X) as [_ R]. destruct (R eq_refl (or_introl eq_refl) WD) as (h & G1 & G2).
    assert (h = help) by congruence. subst h. unfold t_main. fold x. rewrite G2. cbn [exit_status app]. unfold line. rewrite <- app_assoc. reflexivity. }
  split; [|split].
  - intros ->. rewrite (U _ eq_refl). reflexivity.
  - intros a m -> NI. assert (X : x [] (a :: m) w = ((Fail ErrPrintUsage, w), ([], incorrect_usage ++ bs ": unknown subcommand " ++ h_quote H a))).
    { unfold x, t_root_execute, t_subcommand. cbn [In] in NI.
      destruct (bytes_eqb a (bs "help")) eqn:B0; [apply bytes_eqb_eq in B0; subst; tauto|]. destruct (bytes_eqb a (bs "generate")) eqn:B1; [apply bytes_eqb_eq in B1; subst; tauto|].
      destruct (bytes_eqb a (bs "recover")) eqn:B2; [apply bytes_eqb_eq in B2; subst; tauto|]. destruct (bytes_eqb a (bs "convert")) eqn:B3; [apply bytes_eqb_eq in B3; subst; tauto|]. reflexivity. }
    rewrite (U _ X). rewrite <- !app_assoc. reflexivity.
  - intros m ->. assert (X : x [] (bs "help" :: m) w = ((Fail ErrPrintUsageGraceful, w), ([], incorrect_usage))) by (unfold x, t_root_execute; rewrite bytes_eqb_refl; reflexivity).
    destruct (run_parsed H root_doc root_text [] x more [] _ w _ w [] incorrect_usage P N X) as [R _]. unfold t_main. fold x. rewrite R by discriminate. reflexivity.
Qed.
Print Assumptions root_stderr.

(** ** C82: -verbose *)
(** settings that differ in -verbose only *)
Definition but_verbose (s1 s2 : list (bytes * setting)) : Prop := forall n, n <> bs "verbose" -> last_setting s1 n = last_setting s2 n.
Theorem verbose_harmless : forall E H name d tab s1 s2 args1 args2 rest1 rest2 w, In (name, (d, tab)) pages ->
  command_line tab s1 args1 rest1 -> command_line tab s2 args2 rest2 -> args1 <> [bs "help"] -> args2 <> [bs "help"] -> but_verbose s1 s2 ->
  fst (t_main E H (name :: args1) w) = fst (t_main E H (name :: args2) w).
Proof.
  intros E H name d tab s1 s2 args1 args2 rest1 rest2 w I L1 L2 N1 N2 B. rewrite !trace_erases.
  assert (RC : forall t flags body args fs rest w, parse_flags flags args = Parsed fs rest -> args <> [bs "help"] -> run_command t flags (fun fs _ => body fs) args w =
     match body fs w with (Fail ErrPrintUsage, w) => (do _ <- CliMain.usage t; fail ErrOther) w | r => r end).
  { intros t flags body args fs rest w0 P N. unfold run_command. rewrite P. destruct args as [|a [|b l]]; [reflexivity| |reflexivity].
    destruct (bytes_eqb a (bs "help")) eqn:Q; [apply bytes_eqb_eq in Q; subst; congruence|reflexivity]. }
  assert (RM : forall name args1 args2 run, command_name name -> subcommand E name = Some run -> run args1 w = run args2 w -> mnemonikey_main E (name :: args1) w = mnemonikey_main E (name :: args2) w).
  { intros n a1 a2 run C S Q. unfold mnemonikey_main, run_main. rewrite !root_named by auto. unfold root_execute. rewrite !(name_not_help _ C), !S, Q. reflexivity. }
  assert (SW : forall n df, bs n <> bs "verbose" -> switch_of s1 n df = switch_of s2 n df) by (intros n df Q; unfold switch_of; rewrite (B _ Q); reflexivity).
  assert (TX : forall n df, bs n <> bs "verbose" -> text_of s1 n df = text_of s2 n df) by (intros n df Q; unfold text_of; rewrite (B _ Q); reflexivity).
  assert (NM : forall n df, bs n <> bs "verbose" -> number_of s1 n df = number_of s2 n df) by (intros n df Q; unfold number_of; rewrite (B _ Q); reflexivity).
  destruct I as [Q|[Q|[Q|[]]]]; injection Q as <- <- <-.
  - destruct (generate_parsed _ _ _ L1) as (f1 & P1 & Q1 & _). destruct (generate_parsed _ _ _ L2) as (f2 & P2 & Q2 & _).
    assert (QS : generate_settings s1 = generate_settings s2) by (unfold generate_settings; rewrite !SW, !TX by discriminate; reflexivity).
    eapply RM; [split; [vm_compute; discriminate|intros r; vm_compute; discriminate]|reflexivity|]. unfold generate_command. rewrite (RC _ _ _ _ _ _ _ P1 N1), (RC _ _ _ _ _ _ _ P2 N2), Q1, Q2, QS. reflexivity.
  - destruct (recover_parsed _ _ _ L1) as (f1 & P1 & Q1 & _). destruct (recover_parsed _ _ _ L2) as (f2 & P2 & Q2 & _).
    assert (QS : recover_settings s1 = recover_settings s2) by (unfold recover_settings; rewrite !SW, !TX, !NM by discriminate; reflexivity).
    eapply RM; [split; [vm_compute; discriminate|intros r; vm_compute; discriminate]|reflexivity|]. unfold recover_command. rewrite (RC _ _ _ _ _ _ _ P1 N1), (RC _ _ _ _ _ _ _ P2 N2), Q1, Q2, QS. reflexivity.
  - destruct (convert_parsed _ _ _ L1) as (f1 & P1 & Q1 & _). destruct (convert_parsed _ _ _ L2) as (f2 & P2 & Q2 & _).
    assert (QS : convert_settings s1 = convert_settings s2) by (unfold convert_settings; rewrite !SW, !TX by discriminate; reflexivity).
    eapply RM; [split; [vm_compute; discriminate|intros r; vm_compute; discriminate]|reflexivity|]. unfold convert_command. rewrite (RC _ _ _ _ _ _ _ P1 N1), (RC _ _ _ _ _ _ _ P2 N2), Q1, Q2, QS. reflexivity.
Qed.
Print Assumptions verbose_harmless.

(** ** C83: the questions of simple entry *)
Theorem simple_questions : forall E ls, wordlist_ok E -> search_ok E -> Forall (fun p => line_ok (fst p)) ls ->
  exists text, simple_entry E (text_of_lines ls) = simple_title ++ text /\ asks E (fun _ => []) [] (map fst ls) text.
Proof.
  intros E ls W SO F. eexists. split; [reflexivity|]. pose proof (asks_writes E W SO ls [] (S (length (text_of_lines ls))) F) as A.
  apply A. pose proof (text_of_lines_length ls). lia.
Qed.
Print Assumptions simple_questions.
(** the same on the screen of C63, with the echo of the terminal *)
Theorem simple_screen_questions : forall E lines, wordlist_ok E -> search_ok E ->
  asks E (fun l => l ++ [10]) [] lines (simple_output E 0 1 (map (fun l => (l, true)) lines)).
Proof. intros E lines W SO. exact (asks_output E W SO lines []). Qed.
Print Assumptions simple_screen_questions.

(** Cases: Props/TraceCases.v *)
