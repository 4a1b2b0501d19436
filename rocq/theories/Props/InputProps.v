(** Phrase entry, the password prompt and the retry loop (C49, C50, C51, C52, C53). *)
From Coq Require Import Lia ZifyBool ZifyNat.
From Verif.Model Require Import GoBase Env Version Seed Encoding Recovery CliText CliInput CliFlags CliMain.
From Verif.Spec Require Import EnvSpec CliEnvSpec InputSpec.
From Verif.Proofs Require Import BitsP PgpP EnvInst InputP CliInst EntryP.

(** ** C49: raw entry *)
Theorem raw_entry_sound : forall E stdin ws rest, search_ok E ->
  user_input_mnemonic E stdin = (Ok ws, rest) ->
  Forall (fun w => In w (wl_words E)) ws /\
  exists consumed, stdin = consumed ++ rest /\
    (~ In 68 consumed -> exists w t, ws = w :: t /\ supported_first E w = true /\ zlen ws = phrase_size E w).
Proof.
  intros E stdin ws rest SO H. destruct (enter_inv E SO _ 0 _ _ _ (inv_start E) H) as (c & -> & F & _ & D).
  split; [auto|]. exists c. split; [reflexivity|]. intros N.
  assert (L : lefts c = 0).
  { unfold lefts. replace (filter _ c) with (@nil Z); [reflexivity|]. symmetry.
    destruct (filter (fun b => b =? 68) c) as [|x l] eqn:Q; [reflexivity|]. exfalso. apply N.
    assert (X : In x (filter (fun b => b =? 68) c)) by (rewrite Q; left; auto).
    apply filter_In in X as [X Y]. apply Z.eqb_eq in Y. subst. auto. }
  destruct (D ltac:(lia)) as (w & t & v & -> & V & Z1). exists w, t. split; [reflexivity|].
  unfold version_of in V. unfold supported_first, phrase_size. rewrite V. split; [|auto].
  apply in_list_true. inversion F; auto.
Qed.
Print Assumptions raw_entry_sound.

(** The exact result of any key sequence without Ctrl-C, Ctrl-D and left arrow. *)
Theorem raw_entry_exact : forall E keys, search_ok E -> Forall (fun k => ~ In k [3; 4; 68]) keys ->
  fst (user_input_mnemonic E keys) =
  match submitted E true [] keys with
  | [] => Err ErrInputEOF
  | (w :: _) as s => if zlen s <? phrase_size E w then Err ErrInputEOF else Ok (firstn (Z.to_nat (phrase_size E w)) s)
  end.
Proof. intros E keys SO F. apply entry_submitted; auto. Qed.
Print Assumptions raw_entry_exact.

(** Typing the words of a phrase one by one returns them and reads no further. *)
Theorem raw_entry_typed : forall E groups ws w0 rest, search_ok E ->
  Forall2 (enters E) groups ws -> hd_error ws = Some w0 -> supported_first E w0 = true -> zlen ws = phrase_size E w0 ->
  user_input_mnemonic E (concat groups ++ rest) = (Ok ws, rest).
Proof.
  intros E groups ws w0 rest SO F H S Z1. destruct F as [|g w gs ws G F]; [discriminate|].
  cbn [hd_error] in H. injection H as <-. unfold supported_first, phrase_size in *.
  destruct (parse_mnemonic_version E w) as [v|e|] eqn:V; [|discriminate|discriminate].
  cbn [concat]. rewrite <- app_assoc. unfold user_input_mnemonic, entry_start.
  rewrite (enter_first E 1 [] g w _ v) by auto. rewrite zlen_cons in Z1. pose proof (zlen_nonneg ws).
  pose proof (size_supported v (parse_version_cases _ _ _ V)) as Z2.
  assert (14 <= mnemonic_size v) by (destruct (parse_version_cases _ _ _ V); lia).
  replace (1 <? mnemonic_size v) with true by lia. rewrite enter_words with (news := ws) by (auto; lia).
  replace (1 + zlen ws <? mnemonic_size v) with false by lia.
  destruct ws; [unfold zlen in Z1; cbn [length] in Z1; lia|]. reflexivity.
Qed.
Print Assumptions raw_entry_typed.

Theorem raw_entry_aborts : forall E before k after, k = 3 \/ k = 4 ->
  fst (user_input_mnemonic E before) = Err ErrInputEOF ->
  user_input_mnemonic E (before ++ k :: after) = (Err ErrAborted, after).
Proof. intros. apply enter_abort; auto. Qed.
Print Assumptions raw_entry_aborts.

(** ** C50: the left arrow *)
Theorem raw_entry_length : forall E stdin ws rest, search_ok E ->
  user_input_mnemonic E stdin = (Ok ws, rest) ->
  exists consumed w, stdin = consumed ++ rest /\ In w ws /\ supported_first E w = true /\
    zlen ws = phrase_size E w + Z.of_nat (count_occ Z.eq_dec consumed 68).
Proof.
  intros E stdin ws rest SO H. destruct (enter_inv E SO _ 0 _ _ _ (inv_start E) H) as (c & -> & F & (v & w & I & V & L) & _).
  exists c, w. split; [reflexivity|]. split; [auto|]. unfold version_of in V. unfold supported_first, phrase_size. rewrite V.
  split; [apply in_list_true; rewrite Forall_forall in F; auto|]. rewrite L. f_equal. unfold lefts. cbn [Z.add].
  clear. unfold zlen. f_equal. induction c as [|b c IH]; [reflexivity|]. cbn [filter count_occ].
  destruct (Z.eq_dec b 68) as [->|N]; [cbn [Z.eqb Pos.eqb length]; lia|]. replace (b =? 68) with false by lia. auto.
Qed.
Print Assumptions raw_entry_length.

(** After using it once, or three times or more, the phrase that comes out is never accepted. *)
Theorem left_arrow_rejected : forall E stdin ws rest, search_ok E ->
  user_input_mnemonic E stdin = (Ok ws, rest) ->
  (forall consumed, stdin = consumed ++ rest -> ~ In (count_occ Z.eq_dec consumed 68) [0; 2]%nat) ->
  exists e, decode_mnemonic E ws = Err e.
Proof.
  intros E stdin ws rest SO H N. destruct (raw_entry_length E stdin ws rest SO H) as (c & w & Q & I & S & L).
  specialize (N c Q). cbn [In] in N. unfold supported_first, phrase_size in *.
  destruct (parse_mnemonic_version E w) as [v|e|] eqn:V; [|discriminate|discriminate].
  pose proof (size_supported v (parse_version_cases _ _ _ V)) as Z1. pose proof (parse_version_cases _ _ _ V) as V01.
  destruct ws as [|w0 t]; [destruct I|]. unfold decode_mnemonic.
  destruct (parse_mnemonic_version E w0) as [v0|e|] eqn:V0; cbn [bind]; [|eauto|].
  - pose proof (size_supported v0 (parse_version_cases _ _ _ V0)) as Z0. pose proof (parse_version_cases _ _ _ V0) as V00.
    unfold version_check, version_latest. replace (v0 >? 1) with false by lia. cbn [bind].
    set (n := count_occ Z.eq_dec c 68) in *. clearbody n.
    replace (zlen (w0 :: t) =? mnemonic_size v0) with false by lia. cbn [negb]. eauto.
  - exfalso. revert V0. unfold parse_mnemonic_version, parse_version_raw. destruct (word_map E _); [|discriminate].
    unfold version_check. destruct (_ >? _); discriminate.
Qed.
Print Assumptions left_arrow_rejected.

(** For every phrase typed with one correction: the corrected word does not replace the old one,
    the entry ends too early with both in the phrase, and the phrase is refused. *)
Theorem left_arrow_refuted : forall E g0 w0 gs1 ws1 old g new gs2 ws2 rest, search_ok E ->
  enters E g0 w0 -> supported_first E w0 = true ->
  Forall2 (enters E) gs1 (ws1 ++ [old]) -> enters E g new -> Forall2 (enters E) gs2 ws2 ->
  ws2 <> [] -> 1 + zlen ws1 + 1 + zlen ws2 = phrase_size E w0 ->
  let corrected := w0 :: ws1 ++ [new] ++ ws2 in
  let got := w0 :: ws1 ++ [old] ++ [new] ++ ws2 in
  user_input_mnemonic E (g0 ++ concat gs1 ++ [68] ++ g ++ concat gs2 ++ rest) = (Ok got, rest) /\
  got <> corrected /\ decode_mnemonic E got = Err ErrInvalidWordCount.
Proof.
  intros E g0 w0 gs1 ws1 old g new gs2 ws2 rest SO G0 S F1 G F2 NE L corrected got.
  unfold supported_first, phrase_size in *.
  destruct (parse_mnemonic_version E w0) as [v|e|] eqn:V; [|discriminate|discriminate].
  pose proof (zlen_nonneg ws1).
  assert (0 < zlen ws2) by (destruct ws2 as [|x ws2]; [destruct (NE eq_refl)|rewrite zlen_cons; pose proof (zlen_nonneg ws2); lia]).
  pose proof (size_supported v (parse_version_cases _ _ _ V)) as Z1. pose proof (parse_version_cases _ _ _ V) as V01.
  assert (LG : zlen got = mnemonic_size v + 1).
  { unfold got. rewrite zlen_cons, !zlen_app. change (zlen [old]) with 1. change (zlen [new]) with 1. lia. }
  split; [|split].
  - unfold user_input_mnemonic, entry_start. rewrite (enter_first E 1 [] g0 w0 _ v) by auto.
    replace (1 <? mnemonic_size v) with true by lia. cbn [app].
    rewrite enter_words with (news := ws1 ++ [old]) by (auto; try lia; rewrite zlen_app; change (zlen [old]) with 1; lia).
    rewrite zlen_app. change (zlen [old]) with 1.
    replace (1 + (zlen ws1 + 1) <? mnemonic_size v) with true by lia.
    rewrite enter_left by lia. replace (1 + (zlen ws1 + 1) - 1) with (1 + zlen ws1) by lia.
    rewrite enter_word with (w := new) by (auto; lia).
    replace (1 + zlen ws1 + 1 <? mnemonic_size v) with true by lia.
    rewrite enter_words with (news := ws2) by (auto; lia).
    replace (1 + zlen ws1 + 1 + zlen ws2 <? mnemonic_size v) with false by lia.
    destruct ws2; [destruct (NE eq_refl)|]. unfold got. cbn [app]. rewrite <- !app_assoc. reflexivity.
  - intros X. apply (f_equal zlen) in X. rewrite LG in X. unfold corrected in X. rewrite zlen_cons, !zlen_app in X.
    change (zlen [new]) with 1 in X. lia.
  - unfold decode_mnemonic. unfold got at 1. rewrite V. cbn [bind].
    unfold version_check, version_latest. replace (v >? 1) with false by lia. cbn [bind].
    replace (zlen got =? mnemonic_size v) with false by lia. reflexivity.
Qed.
Print Assumptions left_arrow_refuted.

(** ** C51: simple entry *)
(** What comes out of lines, all of them ended by a newline *)
Theorem simple_exact : forall E ls, search_ok E -> Forall (fun p => line_ok (fst p)) ls ->
  fst (user_input_mnemonic_simple E (text_of_lines ls)) =
  match accepted_words E (map fst ls) with
  | [] => Err ErrInputEOF
  | (w :: _) as acc => if zlen acc <? phrase_size E w then Err ErrInputEOF else Ok (firstn (Z.to_nat (phrase_size E w)) acc)
  end.
Proof.
  intros E ls SO F. unfold user_input_mnemonic_simple.
  pose proof (simple_loop_all E SO ls (S (length (text_of_lines ls))) [] F) as H. rewrite app_nil_r in H.
  specialize (H ltac:(pose proof (text_of_lines_length ls); lia)). cbv zeta in H.
  destruct (accepted_words E (map fst ls)) as [|w acc].
  - rewrite H. rewrite simple_loop_end by lia. reflexivity.
  - destruct H as [H1 H2]. destruct (zlen (w :: acc) <? phrase_size E w) eqn:B.
    + rewrite H2 by lia. rewrite simple_loop_end by lia. reflexivity.
    + destruct H1 as (u & n & _ & H1); [lia|]. rewrite H1. reflexivity.
Qed.
Print Assumptions simple_exact.

(** The last line need not be ended. *)
Theorem simple_last_line : forall E ls l, search_ok E -> Forall (fun p => line_ok (fst p)) ls -> line_ok l -> l <> [] ->
  fst (user_input_mnemonic_simple E (text_of_lines ls ++ l)) =
  fst (user_input_mnemonic_simple E (text_of_lines (ls ++ [(l, false)]))).
Proof.
  intros E ls l SO F L N. unfold user_input_mnemonic_simple.
  pose proof (simple_loop_last E (l, false) L) as H. unfold last_line in H. cbn [fst snd] in H. rewrite app_nil_r in H.
  specialize (H N ls (S (length (text_of_lines ls ++ l))) 0 1 [] F). rewrite H.
  (* the fuel differs by one *)
  pose proof (simple_exact E (ls ++ [(l, false)]) SO) as X.
  assert (F2 : Forall (fun p => line_ok (fst p)) (ls ++ [(l, false)])) by (apply Forall_app; auto).
  specialize (X F2). unfold user_input_mnemonic_simple in X. rewrite X.
  pose proof (simple_loop_all E SO (ls ++ [(l, false)]) (S (length (text_of_lines ls ++ l))) [] F2) as Y. rewrite app_nil_r in Y.
  specialize (Y ltac:(rewrite !app_length; pose proof (text_of_lines_length ls); cbn [length]; destruct l; [destruct (N eq_refl)|cbn [length]; lia])).
  cbv zeta in Y. destruct (accepted_words E _) as [|w acc].
  - rewrite Y. rewrite simple_loop_end by lia. reflexivity.
  - destruct Y as [H1 H2]. destruct (zlen (w :: acc) <? phrase_size E w) eqn:B.
    + rewrite H2 by lia. rewrite simple_loop_end by lia. reflexivity.
    + destruct H1 as (u & n & _ & H1); [lia|]. rewrite H1. reflexivity.
Qed.
Print Assumptions simple_last_line.

(** It stops reading at the line of the last word. *)
Theorem simple_leaves_rest : forall E used w acc rest, search_ok E -> Forall (fun p => line_ok (fst p)) used ->
  accepted_words E (map fst used) = w :: acc -> zlen (w :: acc) = phrase_size E w ->
  exists before after, used = before ++ after /\
    user_input_mnemonic_simple E (text_of_lines used ++ rest) = (Ok (w :: acc), text_of_lines after ++ rest).
Proof.
  intros E used w acc rest SO F A Z1. unfold user_input_mnemonic_simple.
  pose proof (simple_loop_all E SO used (S (length (text_of_lines used ++ rest))) rest F) as H.
  specialize (H ltac:(rewrite app_length; pose proof (text_of_lines_length used); lia)). cbv zeta in H. rewrite A in H.
  destruct H as [H _]. destruct H as (u & n & Q & H); [lia|]. exists u, n. split; [auto|]. rewrite H.
  rewrite <- Z1. unfold zlen. rewrite Nat2Z.id, firstn_all. reflexivity.
Qed.
Print Assumptions simple_leaves_rest.

(** ** C52: the password prompt, under every interleaving *)
Theorem prompt_one_result : forall confirm p q r, prompt_run confirm p q ->
  pr_result p = Some r -> pr_result q = Some r.
Proof.
  intros confirm p q r R H. induction R as [p|p q s R IH S]; auto. specialize (IH H).
  inversion S; subst; cbn [pr_result]; congruence.
Qed.
Print Assumptions prompt_one_result.

Theorem prompt_password_typed : forall confirm stdin p pass,
  prompt_run confirm (prompt_start stdin) p -> pr_result p = Some (Ok pass) ->
  pass <> [] /\ (if confirm then typed_twice stdin pass else typed_once stdin pass).
Proof.
  intros confirm stdin p pass R H. destruct (prompt_inv_run _ _ _ R) as (_ & _ & _ & _ & _ & I & _).
  destruct (I _ H) as [[X _]|[[X _]|(q & X & T & _)]]; try discriminate. injection X as <-. exact T.
Qed.
Print Assumptions prompt_password_typed.

(** An error is the abort after an interrupt, or the end of the input; a prompt whose reader has
    not finished can only have been aborted. *)
Theorem prompt_errors : forall confirm stdin p r,
  prompt_run confirm (prompt_start stdin) p -> pr_result p = Some r ->
  r <> Panic /\
  (r = Err ErrAborted -> pr_interrupted p = true) /\
  (forall e, r = Err e -> e = ErrAborted \/ e = ErrInputEOF) /\
  (pr_reader p <> Finished -> r = Err ErrAborted).
Proof.
  intros confirm stdin p r R H. destruct (prompt_inv_run _ _ _ R) as (_ & _ & _ & _ & _ & I & _).
  destruct (I _ H) as [[-> X]|[[-> X]|(q & -> & T & X)]].
  - split; [discriminate|]. split; [auto|]. split; [|auto]. intros e Q. injection Q as <-. auto.
  - split; [discriminate|]. split; [discriminate|]. split; [|intros N; destruct (N X)]. intros e Q. injection Q as <-. auto.
  - split; [discriminate|]. split; [discriminate|]. split; [discriminate|]. intros N; destruct (N X).
Qed.
Print Assumptions prompt_errors.

(** After an interrupt the prompt can return at once, with an error. *)
Theorem prompt_interruptible : forall confirm stdin p,
  prompt_run confirm (prompt_start stdin) p -> pr_interrupted p = true -> pr_result p = None ->
  exists q, prompt_step confirm p q /\ pr_result q = Some (Err ErrAborted).
Proof. intros confirm stdin p R I N. eexists. split; [apply Step_abort; auto|reflexivity]. Qed.
Print Assumptions prompt_interruptible.

(** Without interrupt, as long as it has not returned a step is possible that changes the state,
    and there are at most 4 n + 8 of those for n bytes of input: it returns. *)
Theorem prompt_progress : forall confirm stdin p,
  prompt_run confirm (prompt_start stdin) p -> pr_result p = None ->
  exists q, prompt_step confirm p q /\ q <> p /\ pr_interrupted q = pr_interrupted p.
Proof.
  intros confirm stdin p R N. destruct (prompt_inv_run _ _ _ R) as (I1 & I2 & I3 & I4 & _).
  destruct (pr_reader p) as [|p1| |pass|] eqn:Q.
  - destruct (proj2 (reader_step_waiting confirm At_prompt (pr_stdin p)) (or_introl eq_refl)) as ([r rest] & S).
    eexists. split; [apply Step_reader; rewrite Q; eauto|]. split; [|reflexivity].
    intros X. pose proof (remaining_step confirm p _ (Step_reader confirm p r rest ltac:(rewrite Q; eauto))) as [Y|Y].
    + destruct (reader_step_length _ _ _ _ _ S) as [L|[L Z1]]; [apply (f_equal (fun q => length (pr_stdin q))) in X; cbn in X; lia|].
      apply (f_equal pr_reader) in X. cbn in X. congruence.
    + rewrite X in Y. lia.
  - destruct (proj2 (reader_step_waiting confirm (At_confirm p1) (pr_stdin p)) (or_intror (ex_intro _ p1 eq_refl))) as ([r rest] & S).
    eexists. split; [apply Step_reader; rewrite Q; eauto|]. split; [|reflexivity].
    intros X. destruct (reader_step_length _ _ _ _ _ S) as [L|[L Z1]]; [apply (f_equal (fun q => length (pr_stdin q))) in X; cbn in X; lia|].
    apply (f_equal pr_reader) in X. cbn in X. congruence.
  - assert (E0 : pr_errors p = 0%nat).
    { destruct (pr_errors p); auto. specialize (I2 ltac:(lia)). discriminate. }
    eexists. split; [apply Step_send_error; auto|]. split; [|reflexivity].
    intros X. apply (f_equal pr_reader) in X. cbn in X. congruence.
  - eexists. split; [eapply Step_receive; eauto|]. split; [|reflexivity].
    intros X. apply (f_equal pr_result) in X. cbn in X. congruence.
  - eexists. split; [eapply (Step_fail confirm p 0); auto|]. split; [|reflexivity].
    intros X. apply (f_equal pr_result) in X. cbn in X. congruence.
Qed.
Print Assumptions prompt_progress.

Inductive changing_steps (confirm : bool) : nat -> prompt -> prompt -> Prop :=
| Steps_none p : changing_steps confirm 0 p p
| Steps_more n p q r : changing_steps confirm n p q -> prompt_step confirm q r -> r <> q -> changing_steps confirm (S n) p r.
Theorem prompt_bounded : forall confirm stdin n p,
  changing_steps confirm n (prompt_start stdin) p -> (n <= 4 * length stdin + 8)%nat.
Proof.
  intros confirm stdin n p R. assert (G : (n + remaining p <= remaining (prompt_start stdin))%nat).
  { remember (prompt_start stdin) as s. induction R as [p|n p q r R IH S N]; [lia|]. specialize (IH Heqs).
    destruct (remaining_step _ _ _ S) as [X|X]; [destruct (N X)|lia]. }
  unfold remaining at 2 in G. cbn [prompt_start pr_stdin pr_reader pr_errors pr_watcher pr_result pr_interrupted reader_weight] in G. lia.
Qed.
Print Assumptions prompt_bounded.

(** Without interrupt the result is a function of the input: the password chosen from its lines.  The steps of such a run are
    all but the one of the signal; a run that is interrupted later can be cut there. *)
Inductive undisturbed (confirm : bool) : prompt -> prompt -> Prop :=
| Undisturbed_nil p : undisturbed confirm p p
| Undisturbed_step p q r : undisturbed confirm p q -> prompt_step confirm q r -> pr_interrupted r = pr_interrupted q -> undisturbed confirm p r.
Theorem prompt_uninterrupted : forall confirm stdin p,
  (undisturbed confirm (prompt_start stdin) p -> pr_interrupted p = false) /\
  (prompt_run confirm (prompt_start stdin) p -> pr_interrupted p = false -> forall r, pr_result p = Some r -> r = fst (user_input_password true confirm stdin)).
Proof.
  intros confirm stdin p. split.
  - intros U. remember (prompt_start stdin) as s. induction U as [p|p q r U IH S I]; subst; [reflexivity|]. rewrite I. apply IH. reflexivity.
  - intros R I r H. destruct (prompt_inv_run _ _ _ R) as (_ & _ & _ & _ & V & _). specialize (V I). rewrite H in V. exact V.
Qed.
Print Assumptions prompt_uninterrupted.

Theorem prompt_chooses : forall confirm ls, Forall (fun l => ~ In 10 l) ls ->
  fst (user_input_password true confirm (password_lines ls)) =
  match chosen confirm (map pass_text ls) with Some p => Ok p | None => Err ErrInputEOF end.
Proof. intros. apply value_lines; auto. Qed.
Print Assumptions prompt_chooses.

(** The prompt writes at most one newline to standard output, where the exported key goes; once
    everything has come to rest it has written one. *)
Theorem prompt_output : forall confirm stdin p,
  prompt_run confirm (prompt_start stdin) p -> pr_stdout p = [] \/ pr_stdout p = [10].
Proof.
  intros confirm stdin p R. destruct (prompt_inv_run _ _ _ R) as (_ & _ & _ & _ & _ & _ & O & _).
  rewrite O. destruct (pr_watcher p); auto.
Qed.
Print Assumptions prompt_output.
Theorem prompt_clean_output_refuted : forall confirm stdin p,
  prompt_run confirm (prompt_start stdin) p -> (forall q, prompt_step confirm p q -> q = p) ->
  (exists r, pr_result p = Some r) /\ pr_stdout p = [10].
Proof.
  intros confirm stdin p R T.
  assert (N : pr_result p <> None).
  { intros N. destruct (prompt_progress _ _ _ R N) as (q & S & Q & _). apply Q, T, S. }
  destruct (pr_result p) as [r|] eqn:Q; [|destruct (N eq_refl)]. split; [eauto|].
  destruct (prompt_inv_run _ _ _ R) as (_ & _ & _ & _ & _ & _ & O & _).
  rewrite O. destruct (pr_watcher p) eqn:W; auto.
  pose proof (T _ (Step_print confirm p W ltac:(unfold ctx_done; rewrite Q; apply orb_true_r))) as X.
  apply (f_equal pr_watcher) in X. cbn in X. congruence.
Qed.
Print Assumptions prompt_clean_output_refuted.

(** ** C53: asking again *)
(** [w1] is the world after the phrase was read; the passwords on the lines [ls] are wrong (or the
    lines are empty), the one on [l] is right. *)
Theorem retry_first : forall E o w words w1 dm ls l rest s,
  read_phrase E o w = (Ret words, w1) -> decode_mnemonic E words = Ok dm -> dm_encrypted dm = true ->
  w_tty w1 = true -> w_stdin w1 = password_lines ls ++ l ++ [10] ++ rest -> Forall (fun l => ~ In 10 l) (l :: ls) ->
  Forall (fun l => pass_text l = [] \/ dm_decrypt_seed E dm (pass_text l) = Err ErrMnemonicDecryption) ls ->
  pass_text l <> [] -> dm_decrypt_seed E dm (pass_text l) = Ok s ->
  decode_mnemonic_from_input E o w =
  (Ret (s, dm), set_prompts (set_stdin w1 rest) (w_prompts w1 + length (filter nonblank ls) + 1)).
Proof.
  intros E o w words w1 dm ls l rest s R D EN T S N X P G. inversion N as [|? ? N1 N2]; subst.
  unfold decode_mnemonic_from_input, andthen. rewrite R. unfold lift. rewrite D. cbn [of_res].
  destruct (decrypt_lines E dm EN ls (Datatypes.S (Datatypes.S (length (w_stdin w1)))) w1 (l ++ [10] ++ rest) T S N2 X) as (f & F & L).
  { rewrite S. rewrite app_length. pose proof (password_lines_length ls). lia. }
  rewrite F. destruct f as [|f]; [rewrite S, app_length in L; pose proof (password_lines_length ls); lia|].
  rewrite decrypt_loop_unfold by auto. rewrite (ask_line _ l rest) by auto. rewrite G.
  unfold ret. rewrite Nat.add_1_r. reflexivity.
Qed.
Print Assumptions retry_first.

Theorem retry_exhausted : forall E o w words w1 dm ls,
  read_phrase E o w = (Ret words, w1) -> decode_mnemonic E words = Ok dm -> dm_encrypted dm = true ->
  w_tty w1 = true -> w_stdin w1 = password_lines ls -> Forall (fun l => ~ In 10 l) ls ->
  Forall (fun l => pass_text l = [] \/ dm_decrypt_seed E dm (pass_text l) = Err ErrMnemonicDecryption) ls ->
  fst (decode_mnemonic_from_input E o w) = Fail ErrInputEOF.
Proof.
  intros E o w words w1 dm ls R D EN T S N X.
  unfold decode_mnemonic_from_input, andthen. rewrite R. unfold lift. rewrite D. cbn [of_res].
  destruct (decrypt_lines E dm EN ls (Datatypes.S (Datatypes.S (length (w_stdin w1)))) w1 [] T) as (f & F & L); auto.
  { rewrite app_nil_r. auto. }
  { rewrite S. pose proof (password_lines_length ls). lia. }
  rewrite F. destruct f as [|f]; [rewrite S in L; pose proof (password_lines_length ls); lia|].
  rewrite decrypt_loop_unfold by auto. unfold ask_password. cbn [set_prompts set_stdin w_tty w_stdin]. rewrite T.
  reflexivity.
Qed.
Print Assumptions retry_exhausted.

(** A plaintext phrase: nothing is asked and nothing more is read. *)
Theorem retry_plain : forall E o w words w1 dm,
  read_phrase E o w = (Ret words, w1) -> decode_mnemonic E words = Ok dm -> dm_encrypted dm = false ->
  decode_mnemonic_from_input E o w = (of_res (let* s := dm_seed dm in Ok (s, dm)), w1).
Proof.
  intros E o w words w1 dm R D EN.
  unfold decode_mnemonic_from_input, andthen. rewrite R. unfold lift. rewrite D. cbn [of_res].
  cbn [decrypt_loop]. unfold andthen. rewrite EN. unfold ret, dm_decrypt_seed. rewrite EN. cbn [negb].
  pose proof (plain_seed_error dm EN). destruct (dm_seed dm) as [s|e|]; cbn [bind of_res]; [reflexivity| |reflexivity].
  destruct e; try reflexivity. destruct H. reflexivity.
Qed.
Print Assumptions retry_plain.

(** A result always comes from the phrase that was read and a password that decrypts it. *)
Theorem retry_sound : forall E o w s dm w', decode_mnemonic_from_input E o w = (Ret (s, dm), w') ->
  exists words w1 password, read_phrase E o w = (Ret words, w1) /\ decode_mnemonic E words = Ok dm /\
    dm_decrypt_seed E dm password = Ok s.
Proof.
  intros E o w s dm w' H. unfold decode_mnemonic_from_input, andthen in H.
  destruct (read_phrase E o w) as [[words|e| | |c] w1] eqn:R; try discriminate. unfold lift in H.
  destruct (decode_mnemonic E words) as [dm'|e|] eqn:D; cbn [of_res] in H; try discriminate.
  assert (G : forall fuel w2 s2 w3, decrypt_loop E fuel dm' w2 = (Ret s2, w3) -> exists p, dm_decrypt_seed E dm' p = Ok s2).
  { induction fuel as [|f IH]; intros w2 s2 w3 Q; cbn [decrypt_loop] in Q; [discriminate|]. unfold andthen in Q.
    destruct ((if dm_encrypted dm' then ask_password false else ret []) w2) as [[p|e| | |c] w4]; try discriminate.
    destruct (dm_decrypt_seed E dm' p) as [s3|e|] eqn:Z1; try discriminate.
    - injection Q as <- <-. eauto.
    - destruct e; try discriminate. eauto. }
  destruct (decrypt_loop E _ dm' w1) as [[s2|e| | |c] w2] eqn:L; try discriminate. unfold ret in H. injection H as <- <- <-.
  destruct (G _ _ _ _ L) as (p & P). exists words, w1, p. auto.
Qed.
Print Assumptions retry_sound.

(** ** Cases: the hypotheses can be met *)
Lemma toy_in w : in_list toy_env w = true -> In w toy_words.
Proof. unfold in_list. intros H. apply existsb_exists in H as (x & X & Q). apply bytes_eqb_eq in Q. subst. auto. Qed.
Lemma toy_types ws : forallb (in_list toy_env) ws = true -> Forall2 (enters toy_env) (map (fun w => w ++ [13]) ws) ws.
Proof.
  induction ws as [|w ws IH]; intros H; cbn [map]; constructor; cbn [forallb] in H; apply andb_true_iff in H as [H1 H2].
  - apply toy_enters, toy_in. auto.
  - auto.
Qed.
Definition case_words : list bytes :=
  [[97;97;98];[99;100;101];[102;103;104];[105;106;107];[108;109;110];[111;112;97];[98;99;100];
   [101;102;103];[104;105;106];[107;108;109];[110;111;112];[97;97;99];[103;108;105];[105;97;107]].
Lemma case_words_ok : forallb (in_list toy_env) case_words = true.
Proof. vm_compute. reflexivity. Qed.

Example raw_entry_case : exists keys, search_ok toy_env /\
  user_input_mnemonic toy_env keys = (Ok case_words, [33]) /\ zlen case_words = 14.
Proof.
  exists (concat (map (fun w => w ++ [13]) case_words) ++ [33]). split; [apply toy_search_ok|]. split; [|reflexivity].
  apply (raw_entry_typed toy_env _ case_words [97;97;98]);
    [apply toy_search_ok|apply toy_types, case_words_ok|reflexivity|vm_compute; reflexivity|vm_compute; reflexivity].
Qed.

(** the seventh word is corrected *)
Example left_arrow_case : exists keys,
  user_input_mnemonic toy_env keys =
    (Ok (firstn 6 case_words ++ [bs "abc"] ++ skipn 6 case_words), []) /\
  decode_mnemonic toy_env (firstn 6 case_words ++ [bs "abc"] ++ skipn 6 case_words) = Err ErrInvalidWordCount.
Proof.
  set (ty := map (fun w : bytes => w ++ [13])).
  pose proof (left_arrow_refuted toy_env ([97;97;98] ++ [13]) [97;97;98]
    (ty (firstn 5 (tl case_words) ++ [bs "abc"])) (firstn 5 (tl case_words)) (bs "abc")
    ([98;99;100] ++ [13]) [98;99;100] (ty (skipn 7 case_words)) (skipn 7 case_words) [] toy_search_ok) as H.
  pose proof case_words_ok as W. rewrite forallb_forall in W.
  cbv zeta in H. destruct H as (H & _ & D).
  - apply toy_enters, toy_in, W. vm_compute. auto.
  - vm_compute. reflexivity.
  - apply toy_types. vm_compute. reflexivity.
  - apply toy_enters, toy_in, W. vm_compute. tauto.
  - apply toy_types. vm_compute. reflexivity.
  - discriminate.
  - vm_compute. reflexivity.
  - eexists. split; [exact H|exact D].
Qed.

(** upper case, blanks, a carriage return, lines that are not words, a first word of an unsupported
    version, and text after the phrase *)
Definition case_lines : list (bytes * bool) :=
  [(bs "hello", false); (bs "ppp", false); (bs " AaB  ", true); ([], false)]
  ++ map (fun w => (w, true)) (tl case_words) ++ [(bs "aaa", false)].
Example simple_case : Forall (fun p => line_ok (fst p)) case_lines /\
  accepted_words toy_env (map fst case_lines) = case_words ++ [bs "aaa"] /\
  fst (user_input_mnemonic_simple toy_env (text_of_lines case_lines)) = Ok case_words.
Proof.
  assert (L : Forall (fun p => line_ok (fst p)) case_lines).
  { assert (B : forallb (fun p => forallb (fun b => negb (b =? 10) && negb (b =? 13)) (fst p) && (zlen (fst p) <? 65535)) case_lines = true)
      by (vm_compute; reflexivity).
    rewrite forallb_forall in B. apply Forall_forall. intros p P. specialize (B p P).
    apply andb_true_iff in B as [B1 B2]. rewrite forallb_forall in B1. split; [|split; [|apply Z.ltb_lt; exact B2]].
    - intros X. specialize (B1 _ X). discriminate.
    - intros a X. assert (Y : In 13 (fst p)) by (rewrite X; apply in_or_app; right; left; auto). specialize (B1 13 Y). discriminate. }
  assert (A : accepted_words toy_env (map fst case_lines) = case_words ++ [bs "aaa"]) by (vm_compute; reflexivity).
  split; [exact L|]. split; [exact A|]. rewrite simple_exact by (auto; apply toy_search_ok). rewrite A. vm_compute. reflexivity.
Qed.

(** an empty line, a pair that differs, then the password twice with a corrected slip *)
Definition case_passwords : list bytes := [[]; bs "ab"; bs "abc"; bs "hunter2"; bs "hunter3" ++ [8] ++ bs "2"].
Example prompt_case : Forall (fun l => ~ In 10 l) case_passwords /\
  chosen true (map pass_text case_passwords) = Some (bs "hunter2") /\
  chosen false (map pass_text case_passwords) = Some (bs "ab") /\
  user_input_password true true (password_lines case_passwords) = (Ok (bs "hunter2"), []).
Proof.
  split; [|split; [|split]; vm_compute; reflexivity].
  assert (B : forallb (forallb (fun b => negb (b =? 10))) case_passwords = true) by (vm_compute; reflexivity).
  apply Forall_forall. intros l L X. rewrite forallb_forall in B. specialize (B l L). rewrite forallb_forall in B.
  specialize (B 10 X). discriminate.
Qed.
(** a run that returns the password, interrupted too late, and one that is aborted in time *)
Example prompt_runs : exists p q,
  prompt_run true (prompt_start [120; 10; 120; 10]) p /\ pr_result p = Some (Ok [120]) /\
    pr_interrupted p = true /\ pr_stdout p = [10] /\
  prompt_run true (prompt_start [120; 10; 120; 10]) q /\ pr_result q = Some (Err ErrAborted) /\
    pr_reader q = At_confirm [120].
Proof.
  set (p1 := mk_prompt [120; 10] (At_confirm [120]) Watching 0 false None []).
  set (p2 := mk_prompt [] (Sending [120]) Watching 0 false None []).
  set (p3 := mk_prompt [] Finished Watching 0 false (Some (Ok [120])) []).
  set (p4 := mk_prompt [] Finished Watching 0 true (Some (Ok [120])) []).
  set (p5 := mk_prompt [] Finished Printed 0 true (Some (Ok [120])) [10]).
  set (q2 := mk_prompt [120; 10] (At_confirm [120]) Watching 0 true None []).
  set (q3 := mk_prompt [120; 10] (At_confirm [120]) Watching 0 true (Some (Err ErrAborted)) []).
  assert (R1 : prompt_run true (prompt_start [120; 10; 120; 10]) p1).
  { eapply Run_step; [apply Run_nil|]. apply (Step_reader true (prompt_start [120; 10; 120; 10]) (At_confirm [120]) [120; 10]). reflexivity. }
  exists p5, q3. split; [|repeat split; try reflexivity].
  - apply Run_step with p4; [|apply (Step_print true p4); reflexivity].
    apply Run_step with p3; [|apply (Step_interrupt true p3)].
    apply Run_step with p2; [|apply (Step_receive true p2 [120]); reflexivity].
    apply Run_step with p1; [exact R1|]. apply (Step_reader true p1 (Sending [120]) []). reflexivity.
  - apply Run_step with q2; [|apply (Step_abort true q2); reflexivity].
    apply Run_step with p1; [exact R1|]. apply (Step_interrupt true p1).
Qed.

(** an encrypted phrase in a file, with a wrong password, an empty line and the right password *)
Definition words_of (r : res (list bytes)) : list bytes := match r with Ok ws => ws | _ => [] end.
Definition case_phrase : list bytes :=
  words_of (encode_mnemonic_encrypted toy_env (mk_seed 0 12345678901234567890) 77 (bs "pw") [255; 1; 2; 3]).
Definition case_world : world :=
  mk_world (fun _ => File (word_file_content case_phrase)) (password_lines [bs "pv"; []] ++ bs "pw" ++ [10] ++ bs "rest")
    true (Some 80) [] 0 [] 0 [] 0.
Example retry_case : exists dm w, decode_mnemonic_from_input toy_env (mk_in false (bs "f")) case_world =
  (Ret (mk_seed 0 12345678901234567890, dm), w) /\ w_prompts w = 2%nat /\ w_stdin w = bs "rest".
Proof.
  assert (R : read_phrase toy_env (mk_in false (bs "f")) case_world = (Ret case_phrase, case_world)).
  { unfold read_phrase, read_word_file, andthen, open_file, lift. cbn [io_in_file bs w_files case_world].
    change (bs "f") with [102]. cbv iota.
    replace (parse_word_file toy_env (word_file_content case_phrase)) with (Ok case_phrase) by (vm_compute; reflexivity).
    reflexivity. }
  destruct (decode_mnemonic toy_env case_phrase) as [dm|e|] eqn:D.
  2,3: exfalso; assert (X : match decode_mnemonic toy_env case_phrase with Ok _ => true | _ => false end = true)
         by (vm_compute; reflexivity); rewrite D in X; discriminate.
  assert (X : match decode_mnemonic toy_env case_phrase with
              | Ok dm => dm_encrypted dm = true /\ dm_decrypt_seed toy_env dm (bs "pv") = Err ErrMnemonicDecryption /\
                         dm_decrypt_seed toy_env dm (bs "pw") = Ok (mk_seed 0 12345678901234567890)
              | _ => False end) by (vm_compute; auto).
  rewrite D in X. destruct X as (X1 & X2 & X3).
  exists dm. eexists. split; [eapply retry_first with (ls := [bs "pv"; []]) (l := bs "pw") (rest := bs "rest")|].
  - exact R.
  - exact D.
  - exact X1.
  - reflexivity.
  - reflexivity.
  - repeat constructor; intros Y; vm_compute in Y; intuition discriminate.
  - constructor; [right; exact X2|constructor; [left; reflexivity|constructor]].
  - discriminate.
  - exact X3.
  - split; reflexivity.
Qed.
