(** Converting, end to end (C74): what the user types decides what phrase is shown. *)
From Coq Require Import Lia ZifyBool ZifyNat.
From Verif.Model Require Import GoBase Env Version Seed Encoding GoTime Recovery PgpKeys Mnemonikey CliText CliInput CliFlags CliMain.
From Verif.Spec Require Import EnvSpec DecodeSpec KeySpec CliEnvSpec InputSpec FileSpec EndSpec.
From Verif.Proofs Require Import WordsP RoundtripP InputP EntryP FileP MainP EnvInst CliInst.
From Verif.Props Require Import PhraseProps SeedProps KeyProps ExportProps LifeProps TextProps InputProps FileProps EndProps ArmorProps.

(** ** What a prompt leaves of the input *)
Definition leaves (stdin rest : bytes) : Prop := exists c, stdin = c ++ rest /\ (whole_lines c \/ rest = []).
Lemma leaves_refl s : leaves s s.
Proof. exists []. split; [reflexivity|]. left. left. reflexivity. Qed.
Lemma whole_lines_both a b : whole_lines a -> whole_lines b -> whole_lines (a ++ b).
Proof. intros A [->|(c & ->)]; [rewrite app_nil_r; exact A|]. right. exists (a ++ c). apply app_assoc. Qed.
Lemma leaves_trans a b c : leaves a b -> leaves b c -> leaves a c.
Proof.
  intros (x & -> & X) (y & -> & Y). exists (x ++ y). split; [apply app_assoc|].
  destruct X as [X|X]; [destruct Y as [Y|Y]; [left; apply whole_lines_both; auto|auto]|].
  right. destruct y; [exact X|discriminate].
Qed.
Lemma read_password_leaves stdin p rest : read_password stdin [] = (Ok p, rest) -> leaves stdin rest.
Proof.
  intros R. destruct (read_password_line _ _ _ R) as (keys & last & S & _ & La & _ & Nl). exists keys. split; [exact S|].
  destruct last; [right; auto|]. left. right. auto.
Qed.
Lemma reader_leaves confirm r stdin r' rest : reader_step confirm r stdin = Some (r', rest) -> r' = Failing \/ leaves stdin rest.
Proof.
  intros H. destruct r as [|p1| | |]; cbn [reader_step] in H; try discriminate;
  destruct (read_password stdin []) as [[p|e|] rs] eqn:R; try (injection H as <- <-; left; reflexivity);
  apply read_password_leaves in R; right.
  - destruct p; [|destruct confirm]; injection H as <- <-; exact R.
  - destruct (bytes_eqb p1 p); injection H as <- <-; exact R.
Qed.
Lemma prompt_loop_leaves confirm : forall f r stdin p rest, prompt_loop f confirm r stdin = (Ok p, rest) -> leaves stdin rest.
Proof.
  induction f as [|f IH]; intros r stdin p rest H.
  - destruct r; cbn [prompt_loop] in H; try discriminate. injection H as _ <-. apply leaves_refl.
  - assert (D : (exists q, r = Sending q) \/ r = Failing \/ r = Finished \/ (r = At_prompt \/ exists q, r = At_confirm q))
      by (destruct r; eauto 6).
    destruct D as [(q & ->)|[->|[->|D]]]; try discriminate; [injection H as _ <-; apply leaves_refl|].
    rewrite prompt_loop_unfold in H by exact D. destruct (reader_step confirm r stdin) as [[r' rs]|] eqn:R; [|discriminate].
    destruct (reader_leaves _ _ _ _ _ R) as [->|L]; [destruct f; discriminate|].
    eapply leaves_trans; [exact L|]. eapply IH. exact H.
Qed.
Lemma prompt_loop_typed confirm stdin0 : forall f r stdin p rest, reader_inv confirm stdin0 r stdin ->
  prompt_loop f confirm r stdin = (Ok p, rest) -> typed confirm stdin0 p.
Proof.
  induction f as [|f IH]; intros r stdin p rest I H.
  - destruct r; cbn [prompt_loop] in H; try discriminate. injection H as <- _. exact I.
  - assert (D : (exists q, r = Sending q) \/ r = Failing \/ r = Finished \/ (r = At_prompt \/ exists q, r = At_confirm q))
      by (destruct r; eauto 6).
    destruct D as [(q & ->)|[->|[->|D]]]; try discriminate; [injection H as <- _; exact I|].
    rewrite prompt_loop_unfold in H by exact D. destruct (reader_step confirm r stdin) as [[r' rs]|] eqn:R; [|discriminate].
    eapply IH; [|exact H]. exact (proj1 (reader_step_inv _ _ _ _ _ _ I R)).
Qed.
Lemma asked_typed confirm w p w' : ask_password confirm w = (Ret p, w') ->
  w_tty w = true /\ typed confirm (w_stdin w) p /\ leaves (w_stdin w) (w_stdin w').
Proof.
  unfold ask_password, user_input_password. destruct (w_tty w) eqn:T; [|discriminate].
  destruct (prompt_loop (length (w_stdin w) + 2) confirm At_prompt (w_stdin w)) as [[q|e|] rest] eqn:L; cbn [of_res]; try discriminate.
  intros H. injection H as <- <-. split; [reflexivity|]. split.
  - eapply prompt_loop_typed; [|exact L]. exact (leaves_refl _).
  - cbn [set_stdin w_tty]. destruct (w_tty w); exact (prompt_loop_leaves _ _ _ _ _ _ L).
Qed.
Lemma typed_later a b p : leaves a b -> typed false b p -> typed false a p.
Proof.
  intros (c & -> & C) [N (before & keys & after & last & S & W & P & La)]. split; [exact N|]. destruct C as [C|C].
  - exists (c ++ before), keys, after, last. split; [rewrite S, app_assoc; reflexivity|]. split; [apply whole_lines_both; auto|]. auto.
  - exfalso. rewrite C in S. destruct before; [|discriminate]. destruct keys; [|discriminate].
    destruct P as (l & _ & P & K & P2). destruct last; [|destruct l; discriminate]. subst l. apply N. rewrite <- P. reflexivity.
Qed.
Lemma decrypt_typed E dm : dm_encrypted dm = true -> forall f w s w', decrypt_loop E f dm w = (Ret s, w') ->
  exists pw, typed false (w_stdin w) pw /\ dm_decrypt_seed E dm pw = Ok s.
Proof.
  intros EN. induction f as [|f IH]; intros w s w' H; [discriminate|]. rewrite decrypt_loop_unfold in H by exact EN.
  destruct (ask_password false w) as [[p|e| | |c] w1] eqn:K; try discriminate. destruct (asked_typed _ _ _ _ K) as (_ & T & L).
  destruct (dm_decrypt_seed E dm p) as [s1|e|] eqn:D; try discriminate.
  - injection H as <- _. eauto.
  - destruct e; try discriminate. destruct (IH _ _ _ H) as (pw & T2 & D2). exists pw. split; [|exact D2]. eapply typed_later; eauto.
Qed.

(** The phrase that was read, and the password for it that was typed after it. *)
Theorem input_typed : forall E o w s dm w', decode_mnemonic_from_input E o w = (Ret (s, dm), w') ->
  exists words w1, read_phrase E o w = (Ret words, w1) /\ decode_mnemonic E words = Ok dm /\
    (if dm_encrypted dm then exists pw, pw <> [] /\ typed_once (w_stdin w1) pw /\ dm_decrypt_seed E dm pw = Ok s
     else dm_seed dm = Ok s).
Proof.
  intros E o w s dm w' H. pose proof H as H0. unfold decode_mnemonic_from_input, andthen in H.
  destruct (read_phrase E o w) as [[words|e| | |c] w1] eqn:R; try discriminate. unfold lift in H.
  destruct (decode_mnemonic E words) as [dm'|e|] eqn:D; cbn [of_res] in H; try discriminate.
  destruct (decrypt_loop E _ dm' w1) as [[s2|e| | |c] w2] eqn:L; try discriminate. unfold ret in H. injection H as <- <- <-.
  exists words, w1. split; [reflexivity|]. split; [exact D|]. destruct (dm_encrypted dm') eqn:EN.
  - destruct (decrypt_typed E dm' EN _ _ _ _ L) as (pw & [N T] & Q). eauto.
  - rewrite (retry_plain E o w words w1 dm' R D EN) in H0. destruct (dm_seed dm') as [s'|e|]; cbn [bind of_res] in H0; try discriminate.
    injection H0 as -> _. reflexivity.
Qed.
Print Assumptions input_typed.

(** ** C74 *)
Lemma shown_once {A} (l : list A) a b : l ++ [a] = l ++ [b] -> a = b.
Proof. intros H. apply app_inv_head in H. injection H as ->. reflexivity. Qed.
Lemma not_shown {A} (l : list A) a : l = l ++ [a] -> False.
Proof. intros H. apply (f_equal (@length A)) in H. rewrite app_length in H. cbn in H. lia. Qed.
(** the phrase shown is for the seed and the time of the phrase that was read; with the option it is
    encrypted with a password typed twice after everything that was read for the old phrase, without
    the option it is not encrypted *)
Theorem convert_sound : forall E o w r w' new, wordlist_ok E -> argon_ok E -> aes_ok E -> Forall byte (w_random w) ->
  decode_and_convert E o w = (r, w') -> w_shown w' = w_shown w ++ [new] ->
  exists old dm s v pw dm', decode_mnemonic_from_input E (co_input o) w = (Ret (s, dm), v) /\
    fst (read_phrase E (co_input o) w) = Ret old /\ decode_mnemonic E old = Ok dm /\
    decode_mnemonic E new = Ok dm' /\ dm_encrypted dm' = co_encrypt o /\ dm_creation dm' = dm_creation dm /\
    dm_decrypt_seed E dm' pw = Ok s /\
    (if co_encrypt o then pw <> [] /\ typed_twice (w_stdin v) pw else True).
Proof.
  intros E o w r w' new W A X B H SH.
  destruct (io_in_file (co_input o)) as [|b path] eqn:I.
  2:{ exfalso. destruct (convert_writes_no_file_refuted E o w r w' H) as [_ K]. rewrite I in K.
      destruct (K ltac:(discriminate)) as [_ K2]. rewrite K2 in SH. exact (not_shown _ _ SH). }
  unfold decode_and_convert in H. rewrite I in H. unfold andthen at 1 in H.
  pose proof (keeps_input _ blind_shown E (co_input o) w) as KS. pose proof (random_input E (co_input o) w) as KR.
  destruct (decode_mnemonic_from_input E (co_input o) w) as [[[s dm]|e| | |c] v] eqn:D; cbn [snd] in KS, KR;
    try (exfalso; injection H as _ <-; rewrite KS in SH; exact (not_shown _ _ SH)).
  destruct (retry_sound _ _ _ _ _ _ D) as (old & w1 & pw0 & R & DM & DS).
  pose proof (decoded_offset _ _ _ W DM) as Of. pose proof (decrypted_seed_ok _ _ _ _ _ W A X DM DS) as SO.
  exists old, dm, s, v. unfold andthen at 1 in H. destruct (co_encrypt o).
  - unfold andthen at 1 in H. destruct (ask_password true v) as [op v2] eqn:K.
    pose proof (keeps_ask _ blind_shown true v) as KS2. rewrite K in KS2. cbn [snd] in KS2.
    destruct op as [pw|e| | |c]; try (exfalso; injection H as _ <-; rewrite KS2, KS in SH; exact (not_shown _ _ SH)).
    destruct (asked_typed _ _ _ _ K) as (_ & [N T] & _).
    destruct (Nat.le_gt_cases 3 (length (w_random v2))) as [L|L].
    + assert (B2 : Forall byte (w_random v2)).
      { unfold ask_password in K. destruct (user_input_password _ _ _) as [q rest]. injection K as _ <-. cbn [set_stdin w_tty w_random].
        destruct (w_tty v); cbn [set_prompts set_stdin w_random]; rewrite KR; exact B. }
      destruct (encrypted_roundtrip E s (dm_offset dm) pw (w_random v2) W A X SO Of N B2 L) as (ws & dm' & Q & _ & _ & D2 & _ & En & Of2 & De).
      rewrite Q in H. cbn [of_res] in H. unfold print_mnemonic in H. injection H as _ <-. cbn [set_shown w_shown] in SH.
      rewrite KS2, KS in SH. apply shown_once in SH. subst new. exists pw, dm'.
      split; [reflexivity|]. split; [rewrite R; reflexivity|]. split; [exact DM|]. split; [exact D2|]. split; [exact En|].
      split; [unfold dm_creation; rewrite Of2; reflexivity|]. split; [exact De|]. split; [exact N|exact T].
    + exfalso. destruct (encode_mnemonic_encrypted E s (dm_offset dm) pw (w_random v2)) as [ws|e|] eqn:Q.
      * unfold encode_mnemonic_encrypted in Q. destruct SO as [Era _]. rewrite Era in Q. change (era_check 0) with (Ok tt) in Q. cbn [bind] in Q.
        destruct (zlen pw =? 0); [discriminate|].
        destruct (BitBuffer.new_bitbuf 1 version_bits); cbn [bind] in Q; try discriminate.
        rewrite rand_int_salt_short in Q by auto. discriminate.
      * cbn [of_res] in H. injection H as _ <-. rewrite KS2, KS in SH. exact (not_shown _ _ SH).
      * cbn [of_res] in H. injection H as _ <-. rewrite KS2, KS in SH. exact (not_shown _ _ SH).
  - destruct (plaintext_roundtrip E s (dm_offset dm) W SO Of) as (ws & dm' & Q & _ & _ & D2 & _ & En & Of2 & Se).
    unfold lift in H. rewrite Q in H. cbn [of_res] in H. unfold print_mnemonic in H. injection H as _ <-. cbn [set_shown w_shown] in SH.
    rewrite KS in SH. apply shown_once in SH. subst new. exists [], dm'.
    split; [reflexivity|]. split; [rewrite R; reflexivity|]. split; [exact DM|]. split; [exact D2|]. split; [exact En|].
    split; [unfold dm_creation; rewrite Of2; reflexivity|]. split; [|exact Logic.I]. unfold dm_decrypt_seed. rewrite En. exact Se.
Qed.
Print Assumptions convert_sound.

(** The other way round: when a phrase can be decoded and the password prompt can be answered, the
    conversion is shown.  The lines typed are judged by [chosen]: empty ones are skipped, a pair that
    differs is dropped, and the first repeated one is taken. *)
Definition confirmed (o : convert_options) (v : world) (answer : option bytes) : Prop :=
  co_encrypt o = true -> w_tty v = true /\ exists ls, w_stdin v = password_lines ls /\ Forall (fun l => ~ In 10 l) ls /\
    chosen true (map pass_text ls) = answer.
Theorem convert_works : forall E o w s dm v pw, wordlist_ok E -> argon_ok E -> aes_ok E -> Forall byte (w_random w) ->
  decode_mnemonic_from_input E (co_input o) w = (Ret (s, dm), v) -> io_in_file (co_input o) = [] ->
  (forall width, w_width w = Some width -> 17 <= width) -> (3 <= length (w_random w))%nat -> confirmed o v (Some pw) ->
  exists new w' dm', decode_and_convert E o w = (Ret tt, w') /\ w_shown w' = w_shown w ++ [new] /\
    decode_mnemonic E new = Ok dm' /\ dm_decrypt_seed E dm' pw = Ok s.
Proof.
  intros E o w s dm v pw W A X B D I WD L C. destruct (retry_sound _ _ _ _ _ _ D) as (old & w1 & pw0 & R & DM & DS).
  pose proof (decoded_offset _ _ _ W DM) as Of. pose proof (decrypted_seed_ok _ _ _ _ _ W A X DM DS) as SO.
  pose proof (keeps_input _ blind_shown E (co_input o) w) as KS. pose proof (random_input E (co_input o) w) as KR.
  pose proof (keeps_input _ blind_width E (co_input o) w) as KW. rewrite D in KS, KR, KW. cbn [snd] in KS, KR, KW.
  unfold decode_and_convert. rewrite I. unfold andthen at 1. rewrite D. unfold andthen at 1.
  unfold confirmed in C. destruct (co_encrypt o).
  - destruct (C eq_refl) as (T & ls & S & N & Ch). pose proof (prompt_chooses true ls N) as P. rewrite Ch in P.
    unfold andthen at 1. unfold ask_password. rewrite T, S. destruct (user_input_password true true (password_lines ls)) as [q rest] eqn:U.
    cbn [fst] in P. subst q. cbn [of_res]. cbn [set_stdin w_tty]. rewrite T.
    assert (NE : pw <> []).
    { destruct (asked_typed true (set_stdin v (password_lines ls)) pw (set_prompts (set_stdin v rest) (Datatypes.S (w_prompts v)))) as (_ & [Y _] & _); [|exact Y].
      unfold ask_password. cbn [set_stdin w_tty w_stdin]. rewrite T, U. reflexivity. }
    destruct (encrypted_roundtrip E s (dm_offset dm) pw (w_random v) W A X SO Of NE) as (ws & dm' & Q & _ & _ & D2 & _ & En & Of2 & De);
      [rewrite KR; exact B|rewrite KR; exact L|].
    cbn [set_prompts set_stdin w_random]. rewrite Q. cbn [of_res]. unfold print_mnemonic. cbn [set_prompts set_stdin w_shown w_width].
    rewrite KW. pose proof (reminder_wide_enough ws w WD) as RW. unfold print_mnemonic in RW. cbn [fst] in RW. rewrite RW.
    eexists ws, _, dm'. split; [reflexivity|]. cbn [set_shown w_shown]. rewrite KS. auto.
  - destruct (plaintext_roundtrip E s (dm_offset dm) W SO Of) as (ws & dm' & Q & _ & _ & D2 & _ & En & Of2 & Se).
    unfold lift. rewrite Q. cbn [of_res]. unfold print_mnemonic. rewrite KW.
    pose proof (reminder_wide_enough ws w WD) as RW. unfold print_mnemonic in RW. cbn [fst] in RW. rewrite RW.
    eexists ws, _, dm'. split; [reflexivity|]. cbn [set_shown w_shown]. rewrite KS. split; [reflexivity|]. split; [exact D2|].
    unfold dm_decrypt_seed. rewrite En. exact Se.
Qed.
Print Assumptions convert_works.

(** A new password that is not repeated gives nothing: no phrase is shown and no file is written. *)
Theorem convert_unconfirmed : forall E o w s dm v, co_encrypt o = true ->
  decode_mnemonic_from_input E (co_input o) w = (Ret (s, dm), v) -> confirmed o v None ->
  exists w', decode_and_convert E o w = (Fail ErrInputEOF, w') /\ w_shown w' = w_shown w /\ w_files w' = w_files w.
Proof.
  intros E o w s dm v EN D C. destruct (C EN) as (T & ls & S & N & Ch). pose proof (prompt_chooses true ls N) as P. rewrite Ch in P.
  pose proof (keeps_input _ blind_shown E (co_input o) w) as KS. pose proof (keeps_input _ blind_files E (co_input o) w) as KF.
  rewrite D in KS, KF. cbn [snd] in KS, KF.
  unfold decode_and_convert. unfold andthen at 1. rewrite D. unfold andthen at 1. rewrite EN. unfold andthen at 1. unfold ask_password.
  rewrite T, S. destruct (user_input_password true true (password_lines ls)) as [q rest]. cbn [fst] in P. subst q. cbn [of_res set_stdin w_tty].
  rewrite T. eexists. split; [reflexivity|]. cbn [set_prompts set_stdin w_shown w_files]. auto.
Qed.
Print Assumptions convert_unconfirmed.

(** ** Cases: a plaintext phrase typed word by word, then the new password, mistyped once and then
    twice the same; or never the same. *)
Definition case_world (words : list bytes) (lines : list bytes) : world :=
  mk_world (fun _ => Absent None) (concat (map (fun w => w ++ [13]) words) ++ password_lines lines) true (Some 80) case_tape 0 [] 0 [] 0.
Definition case_convert : convert_options := mk_conv (mk_in false []) true [].
Lemma case_input words dm s lines : phrase_ok toy_env words -> decode_mnemonic toy_env words = Ok dm -> dm_encrypted dm = false -> dm_seed dm = Ok s ->
  decode_mnemonic_from_input toy_env (co_input case_convert) (case_world words lines) =
  (Ret (s, dm), set_stdin (case_world words lines) (password_lines lines)).
Proof.
  intros P D EN S. change (co_input case_convert) with (mk_in false []). rewrite (retry_plain toy_env (mk_in false []) (case_world words lines) words (set_stdin (case_world words lines) (password_lines lines)) dm); auto.
  - rewrite S. reflexivity.
  - destruct P as (F & w & t & -> & SF & SZ). unfold read_phrase. cbn [io_in_file io_simple orb negb case_world w_tty].
    unfold from_stdin. cbn [w_stdin case_world]. rewrite (raw_entry_typed toy_env (map (fun w => w ++ [13]) (w :: t)) (w :: t) w (password_lines lines) toy_search_ok);
      [reflexivity|apply toy_types|reflexivity|exact SF|exact SZ].
    rewrite forallb_forall. intros u U. rewrite Forall_forall in F. apply in_list_true, F, U.
Qed.
Definition case_lines : list bytes := [bs "secret"; bs "sercet"; []; bs "secret"; bs "secret"].
Lemma case_lines_ok : Forall (fun l => ~ In 10 l) case_lines.
Proof. repeat constructor; vm_compute; intuition discriminate. Qed.
Example converted_case : exists words new dm' w', length words = 14%nat /\ decode_and_convert toy_env case_convert (case_world words case_lines) = (Ret tt, w') /\
  w_shown w' = [new] /\ decode_mnemonic toy_env new = Ok dm' /\ dm_encrypted dm' = true /\ dm_decrypt_seed toy_env dm' (bs "secret") = Ok (mk_seed 0 5).
Proof.
  destruct case_plain as (words & dm & P & L & D & EN & O & S).
  pose proof (case_input words dm _ case_lines P D EN S) as DI.
  assert (BR : Forall byte (w_random (case_world words case_lines))) by apply case_start_ok.
  destruct (convert_works toy_env case_convert (case_world words case_lines) _ dm _ (bs "secret") toy_wordlist_ok toy_argon_ok toy_aes_ok BR DI eq_refl) as (new & w' & dm' & G & SH & D2 & De).
  - intros width Q. injection Q as <-. lia.
  - vm_compute. lia.
  - intros _. split; [reflexivity|]. exists case_lines. split; [reflexivity|]. split; [exact case_lines_ok|vm_compute; reflexivity].
  - exists words, new, dm', w'. split; [exact L|]. split; [exact G|]. split; [exact SH|]. split; [exact D2|]. split; [|exact De].
    destruct (convert_sound toy_env case_convert _ _ _ new toy_wordlist_ok toy_argon_ok toy_aes_ok BR G SH) as (? & ? & ? & ? & ? & dm2 & _ & _ & _ & D3 & En & _).
    rewrite D2 in D3. apply ok_inj in D3. subst dm2. exact En.
Qed.
Example unconfirmed_case : exists words w', length words = 14%nat /\
  decode_and_convert toy_env case_convert (case_world words [bs "secret"; bs "sercet"]) = (Fail ErrInputEOF, w') /\ w_shown w' = [].
Proof.
  destruct case_plain as (words & dm & P & L & D & EN & O & S).
  destruct (convert_unconfirmed toy_env case_convert (case_world words [bs "secret"; bs "sercet"]) _ dm _ eq_refl (case_input words dm _ _ P D EN S)) as (w' & G & SH & _).
  - intros _. split; [reflexivity|]. exists [bs "secret"; bs "sercet"]. split; [reflexivity|].
    split; [repeat constructor; vm_compute; intuition discriminate|vm_compute; reflexivity].
  - exists words, w'. auto.
Qed.
