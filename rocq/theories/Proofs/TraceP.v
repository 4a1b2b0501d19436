(** What the commands write to standard error. *)
From Coq Require Import Lia ZifyBool ZifyNat.
From Verif.Model Require Import GoBase Env Version GoTime Seed Encoding Recovery PgpKeys Mnemonikey.
From Verif.Model Require Import CliText CliInput CliFlags CliMain CliHelp CliScreen CliTrace.
From Verif.Proofs Require Import ShowP.
From Verif.Spec Require Import ScreenSpec TextSpec.
Ltac Zify.zify_post_hook ::= Z.div_mod_to_equations.

(** *** forgetting the text *)
Definition erases {A} (t : traced A) (a : action A) : Prop := forall w, fst (t w) = a w.
Lemma erases_ret {A} (a : A) : erases (t_ret a) (ret a). Proof. intros w. reflexivity. Qed.
Lemma erases_fail {A} e x : erases (@t_fail A e x) (fail e). Proof. intros w. reflexivity. Qed.
Lemma erases_quiet {A} (a : action A) x : erases (quiet a x) a. Proof. intros w. reflexivity. Qed.
Lemma erases_then {A B} (m : traced A) m' (f : A -> traced B) f' :
  erases m m' -> (forall a, erases (f a) (f' a)) -> erases (t_then m f) (andthen m' f').
Proof.
  intros M F w. unfold t_then, andthen. rewrite <- (M w). destruct (m w) as [[o w'] [out x]]. cbn [fst].
  destruct o; try reflexivity. rewrite <- (F a w'). destruct (f a w') as [r t]. reflexivity.
Qed.
Lemma erases_say {B} x (f : unit -> traced B) f' : erases (f tt) f' -> erases (t_then (say x) f) f'.
Proof. intros F w. unfold t_then, say. rewrite <- (F w). destruct (f tt w). reflexivity. Qed.
Lemma erases_after {B} (m : traced unit) (f : unit -> traced B) f' :
  erases m (ret tt) -> erases (f tt) f' -> erases (t_then m f) f'.
Proof.
  intros M F w. unfold t_then. specialize (M w). destruct (m w) as [[o w'] [out x]]. cbn [fst] in M. unfold ret in M.
  assert (o = Ret tt) by congruence. assert (w' = w) by congruence. subst. rewrite <- (F w). destruct (f tt w). reflexivity.
Qed.
Lemma erases_fun {A} (t : world -> traced A) (a : world -> action A) :
  (forall w, erases (t w) (a w)) -> erases (fun w => t w w) (fun w => a w w).
Proof. intros K w. apply K. Qed.

Lemma erases_password H p c : erases (t_password H p c) (ask_password c). Proof. intros w. reflexivity. Qed.
Lemma erases_word_file E H path : erases (t_read_word_file E H path) (read_word_file E path).
Proof. apply erases_then; intros; apply erases_quiet. Qed.
Lemma erases_read_phrase E H o : erases (t_read_phrase E H o) (read_phrase E o).
Proof.
  intros w. unfold t_read_phrase, read_phrase. destruct (io_in_file o) as [|b path]; [|apply erases_word_file].
  destruct (io_simple o || negb (w_tty w)); [apply (erases_say (B:=list bytes))|apply (erases_say (B:=list bytes))]; apply erases_quiet.
Qed.
Lemma erases_decrypt E H fuel dm : erases (t_decrypt_loop E H fuel dm) (decrypt_loop E fuel dm).
Proof.
  induction fuel as [|f IH]; intros w; [reflexivity|]. cbn [t_decrypt_loop decrypt_loop].
  apply (erases_then (B:=seed)).
  - destruct (dm_encrypted dm); [apply erases_password|apply erases_ret].
  - intros p w'. destruct (dm_decrypt_seed E dm p) as [s|e|]; try reflexivity. destruct e; try reflexivity.
    apply (erases_say (B:=seed)). exact IH.
Qed.

Lemma debug_info_ok (values : list (bytes * bytes)) : Forall (fun p => ascii (fst p)) values -> exists out, print_debug_info values = Ok out.
Proof.
  intros F. unfold print_debug_info. destruct (fold_max_ge (fun p : bytes * bytes => rune_count (fst p)) values 0) as [_ M].
  set (m := fold_left _ values 0) in *. clearbody m. induction values as [|p l IH]; [exists []; reflexivity|].
  apply Forall_cons_iff in F as [Fp F]. apply Forall_cons_iff in M as [Mp M]. destruct (IH F M) as [out Q].
  cbn [debug_lines]. rewrite rune_count_ascii in Mp by exact Fp. unfold debug_line.
  replace (m - zlen (fst p) + 1 <? 0) with false by lia. cbn [bind]. rewrite Q. eexists. reflexivity.
Qed.
Lemma ascii_bs_check l : forallb (fun b => (0 <=? b) && (b <? 128)) l = true -> ascii l.
Proof. intros K. rewrite forallb_forall in K. apply Forall_forall. intros b B. specialize (K b B). lia. Qed.
Lemma phrase_info_ok dm : exists out, print_debug_info (phrase_info dm) = Ok out.
Proof. apply debug_info_ok. repeat constructor; cbn; lia. Qed.
Lemma subkey_info_ok E m : exists infos, subkey_info E m (mnk_subkey_types m) = Ok infos /\ Forall (fun p => ascii (fst p)) infos.
Proof.
  assert (K : forall types, Forall (fun t => t = type_encryption \/ t = type_authentication \/ t = type_signing) types ->
    exists infos, subkey_info E m types = Ok infos /\ Forall (fun p => ascii (fst p)) infos).
  { induction 1 as [|t l T F (infos & Q & A)]; [exists []; split; [reflexivity|constructor]|]. cbn [subkey_info].
    destruct T as [-> | [-> | ->]]; cbn [capitalize type_encryption type_authentication type_signing bs bind]; rewrite Q; cbn [bind];
    (eexists; split; [reflexivity|constructor; [|exact A]]; cbn [fst]; apply ascii_bs_check; reflexivity). }
  apply K. unfold mnk_subkey_types. repeat (apply Forall_app; split);
    (match goal with |- Forall _ (match ?x with _ => _ end) => destruct x end); constructor; auto.
Qed.
Lemma key_info_ok E q f m : exists out, print_key_debug_info E q f m = Ok out.
Proof.
  destruct (subkey_info_ok E m) as (infos & Q & A). unfold print_key_debug_info, key_debug_info. rewrite Q. cbn [bind].
  apply debug_info_ok. apply Forall_app. split; [repeat (constructor; [apply ascii_bs_check; reflexivity|]); constructor|]. apply Forall_app. split; [|exact A].
  destruct (is_zero_time _); constructor; [apply ascii_bs_check; reflexivity|constructor].
Qed.
Lemma erases_table title rows : (exists out, rows = Ok out) -> erases (table title rows) (ret tt).
Proof. intros [out ->] w. reflexivity. Qed.

Lemma erases_decode E H v o : erases (t_decode_mnemonic_from_input E H v o) (decode_mnemonic_from_input E o).
Proof.
  apply erases_then; [apply erases_read_phrase|]. intros words. apply erases_then; [apply erases_quiet|]. intros dm.
  apply erases_after; [destruct v; [apply erases_table, phrase_info_ok|apply erases_ret]|].
  apply erases_then; [|intros s; apply erases_ret]. intros w. apply erases_decrypt.
Qed.
Lemma erases_print_mnemonic words : erases (t_print_mnemonic words) (print_mnemonic words). Proof. intros w. reflexivity. Qed.
Lemma erases_save H words path : erases (t_save_mnemonic H words path) (save_mnemonic words path). Proof. intros w. reflexivity. Qed.
Lemma erases_seed H o : erases (t_seed_from_source H o) (seed_from_source o).
Proof. destruct o; [apply erases_quiet|]. apply erases_say. apply erases_quiet. Qed.
Lemma erases_print_key armor : erases (t_print_key armor) (print_out (armor ++ [10])).
Proof. intros w. reflexivity. Qed.
Lemma erases_key_table E H title m : erases (key_table E H title m) (ret tt).
Proof. apply erases_table, key_info_ok. Qed.
Lemma erases_generate E H v o : erases (t_generate E H v o) (generate_and_print E o).
Proof.
  intros w. unfold t_generate, generate_and_print. set (c := w_now w). clearbody c. revert w.
  change (erases (tell ttl <- t_ttl_option E H (go_ttl o); _) (do ttl <- ttl_option E (go_ttl o); _)) || idtac.
  apply erases_then; [apply erases_quiet|]. intros ttl. apply erases_then; [apply erases_quiet|]. intros [om types].
  apply erases_then; [apply erases_seed|]. intros sd. apply erases_then; [apply erases_quiet|]. intros m.
  apply erases_then; [destruct (go_encrypt_keys o); [apply erases_password|apply erases_ret]|]. intros pw.
  apply erases_then; [apply erases_quiet|]. intros armor.
  apply erases_then; [destruct (go_encrypt_phrase o); [apply erases_then; [apply erases_password|intros; apply erases_quiet]|apply erases_quiet]|].
  intros words. apply erases_then; [destruct (go_out_file o); [apply erases_ret|apply erases_save]|]. intros [].
  apply erases_after; [destruct v; [apply erases_key_table|apply erases_ret]|].
  apply erases_then; [apply erases_print_key|]. intros []. destruct (go_out_file o); [apply erases_print_mnemonic|apply erases_ret].
Qed.
Lemma erases_recover E H v o : erases (t_recover E H v o) (recover_and_print E o).
Proof.
  apply erases_then; [apply erases_quiet|]. intros ttl. destruct (_ || _); [apply erases_fail|].
  apply erases_then; [apply erases_quiet|]. intros [om types].
  apply erases_then; [apply erases_decode|]. intros [s dm]. apply erases_then; [apply erases_quiet|]. intros m.
  apply erases_then; [destruct (ro_encrypt_keys o); [apply erases_password|apply erases_ret]|]. intros pw.
  apply erases_then; [apply erases_quiet|]. intros armor.
  apply erases_after; [destruct v; [apply erases_key_table|apply erases_ret]|]. apply erases_print_key.
Qed.
Lemma erases_convert E H v o : erases (t_convert E H v o) (decode_and_convert E o).
Proof.
  apply erases_then; [apply erases_decode|]. intros [s dm].
  apply erases_then; [destruct (co_encrypt o); [apply erases_then; [apply erases_password|intros; apply erases_quiet]|apply erases_quiet]|].
  intros words. destruct (io_in_file (co_input o)); [apply erases_print_mnemonic|apply erases_save].
Qed.
Lemma erases_usage d t : erases (t_usage d t) (usage t). Proof. intros w. reflexivity. Qed.
Lemma erases_exit {A} c : erases (@t_exit A c) (fun w => (Exit c, w)). Proof. intros w. reflexivity. Qed.
Lemma erases_run H d t flags x x' args : (forall fs rest, erases (x fs rest) (x' fs rest)) ->
  erases (t_run_command H d t flags x args) (run_command t flags x' args).
Proof.
  intros X. unfold t_run_command, run_command.
  assert (P : erases
    match parse_flags flags args with
    | Parsed fs rest => fun w => match x fs rest w with
                 | ((Fail ErrPrintUsage, w), (out, text)) => (tell _ <- say out; tell _ <- t_usage d t; t_fail ErrOther text) w
                 | r => r end
    | Help => tell _ <- t_usage d t; t_exit 0
    | Bad_flags => tell _ <- say (line (flag_error H (S (length args)) flags args)); tell _ <- t_usage d t; t_exit 2
    end
    match parse_flags flags args with
    | Parsed fs rest => fun w => match x' fs rest w with
                 | (Fail ErrPrintUsage, w) => (do _ <- usage t; fail ErrOther) w
                 | r => r end
    | Help => do _ <- usage t; fun w => (Exit 0, w)
    | Bad_flags => do _ <- usage t; fun w => (Exit 2, w)
    end).
  { destruct (parse_flags flags args) as [fs rest| |].
    - intros w. rewrite <- (X fs rest w). destruct (x fs rest w) as [[o w'] [out text]]. cbn [fst].
      destruct o as [|e| | |]; try reflexivity. destruct e; try reflexivity.
      apply (erases_say (B:=unit)). apply erases_then; [apply erases_usage|intros; apply erases_fail].
    - apply erases_then; [apply erases_usage|intros; apply erases_exit].
    - apply erases_say. apply erases_then; [apply erases_usage|intros; apply erases_exit]. }
  destruct args as [|a [|b r]]; try exact P. destruct (bytes_eqb a (bs "help")); [apply erases_usage|exact P].
Qed.
Lemma erases_sub E H name : match t_subcommand E H name, subcommand E name with
  | Some t, Some a => forall args, erases (t args) (a args) | None, None => True | _, _ => False end.
Proof.
  unfold t_subcommand, subcommand. destruct (bytes_eqb name (bs "generate")); [|destruct (bytes_eqb name (bs "recover")); [|destruct (bytes_eqb name (bs "convert"))]];
    try exact I; intros args; apply erases_run; intros fs rest; [apply erases_generate|apply erases_recover|apply erases_convert].
Qed.
Lemma erases_root E H args : erases (t_root_execute H (t_subcommand E H) args) (root_execute (subcommand E) args).
Proof.
  unfold t_root_execute, root_execute. destruct args as [|a rest]; [apply erases_fail|].
  destruct (bytes_eqb a (bs "help")); [apply erases_fail|]. pose proof (erases_sub E H a) as S.
  destruct (t_subcommand E H a), (subcommand E a); try contradiction; [apply S|apply erases_fail].
Qed.
Lemma erases_main E H args w : fst (t_main E H args w) = mnemonikey_main E args w.
Proof.
  unfold t_main, mnemonikey_main, run_main, root_command.
  pose proof (erases_run H root_doc root_text [] (fun _ args => t_root_execute H (t_subcommand E H) args)
    (fun _ args => root_execute (subcommand E) args) args (fun _ rest => erases_root E H rest) w) as R.
  rewrite <- R. destruct (t_run_command _ _ _ _ _ _ w) as [[o w'] [out text]]. reflexivity.
Qed.
