(** Word files (C45, C46, C47, C48). *)
From Coq Require Import Lia ZifyBool ZifyNat.
From Verif.Model Require Import GoBase Env Version Seed Encoding Recovery CliText CliInput CliFlags CliMain.
From Verif.Spec Require Import EnvSpec DecodeSpec CliEnvSpec InputSpec FileSpec.
From Verif.Proofs Require Import BitsP PgpP WordsP KeysP EnvInst InputP EntryP CliInst FileP MainP.
From Verif.Props Require Import PhraseProps KeyProps InputProps.

(** ** C45 *)
(** the phrases this is about: in particular every phrase the encoders produce *)
Theorem decodable_phrase_ok : forall E ws dm, wordlist_ok E -> Forall (fun w => In w (wl_words E)) ws ->
  decode_mnemonic E ws = Ok dm -> phrase_ok E ws.
Proof.
  intros E ws dm W F D. split; [auto|]. unfold decode_mnemonic in D. destruct ws as [|w t]; [discriminate|].
  exists w, t. split; [reflexivity|]. unfold supported_first, phrase_size. inversion F; subst. rewrite in_list_true by auto.
  destruct (parse_mnemonic_version E w) as [v|e|]; cbn [bind] in D; [|discriminate|discriminate].
  destruct (version_check v); cbn [bind] in D; [|discriminate|discriminate].
  destruct (zlen (w :: t) =? mnemonic_size v) eqn:Q; cbn [negb] in D; [|discriminate]. split; [reflexivity|lia].
Qed.
Print Assumptions decodable_phrase_ok.

(** Saved and read back. *)
Theorem word_file_roundtrip : forall E ws path w w', wordlist_ok E -> words_short E -> phrase_ok E ws ->
  save_mnemonic ws path w = (Ret tt, w') -> read_word_file E path w' = (Ret ws, w').
Proof.
  intros E ws path w w' W SH P S.
  assert (C : w_files w' path = File (word_file_content ws)).
  { rewrite save_cases in S. destruct (w_files w path) as [[room|]| | | |]; try discriminate;
    [destruct (Nat.ltb room _); [discriminate|]|]; injection S as <-; cbn [set_files w_files]; apply put_same. }
  unfold read_word_file, andthen, open_file. rewrite C. unfold lift.
  assert (R : parse_word_file E (word_file_content ws) = Ok ws).
  { apply (parse_tokens E W). split; [|auto]. destruct P as (F & _).
    pose proof (scan_content E W SH ws [] F) as Q. rewrite app_nil_r in Q. rewrite Q.
    change (scan_words [] 0 []) with (@nil bytes). rewrite app_nil_r. symmetry. apply map_lower_words; auto. }
  rewrite R. reflexivity.
Qed.
Print Assumptions word_file_roundtrip.

(** The phrase may be written in any layout and in upper case. *)
Theorem word_file_exact : forall E content tokens ws, wordlist_ok E -> separated content tokens ->
  (parse_word_file E content = Ok ws <-> ws = map (to_lower E) tokens /\ phrase_ok E ws).
Proof. intros E c ts ws W S. rewrite (parse_tokens E W). rewrite (scan_separated c ts S). reflexivity. Qed.
Print Assumptions word_file_exact.

(** Whatever the file contains, reading it gives a phrase of the right length made of words of the
    list, or fails; nothing changes. *)
Theorem word_file_sound : forall E path w r w', wordlist_ok E -> read_word_file E path w = (r, w') ->
  w' = w /\ ((exists e, r = Fail e) \/ exists ws, r = Ret ws /\ phrase_ok E ws).
Proof.
  intros E path w r w' W H. unfold read_word_file, andthen, open_file in H.
  destruct (w_files w path) as [room| |content| |]; [injection H as <- <-; eauto|injection H as <- <-; eauto| |injection H as <- <-; eauto|injection H as <- <-; eauto]. unfold lift in H.
  destruct (parse_word_file E content) as [ws|e|] eqn:P; cbn [of_res] in H; injection H as <- <-.
  - split; [reflexivity|]. right. exists ws. split; [reflexivity|]. apply (parse_tokens E W) in P. tauto.
  - eauto.
  - exfalso. unfold parse_word_file in P.
    assert (N : forall ts n, word_file_loop E n ts <> Panic).
    { induction ts as [|t ts IH]; intros n; cbn [word_file_loop]; [discriminate|]. destruct (word_map E _); [|discriminate].
      destruct (n + 1 >? 100); [discriminate|]. specialize (IH (n + 1)). destruct (word_file_loop E (n + 1) ts); cbn [bind]; congruence. }
    specialize (N (scan_words content 0 []) 0). destruct (word_file_loop E 0 _) as [l|e|]; cbn [bind] in P; try discriminate; [|congruence].
    destruct l as [|w0 t]; [discriminate|]. destruct (parse_version_raw E w0). destruct (negb _); discriminate.
Qed.
Print Assumptions word_file_sound.

(** "The file should contain the exact words": not enforced.  After a token of 64 KiB or more,
    anything may follow and is ignored. *)
Theorem word_file_junk_refuted : forall E ws junk rest, wordlist_ok E -> words_short E -> phrase_ok E ws ->
  Forall (fun b => 0 <= b < 128 /\ ~ blank b) junk -> 65536 <= zlen junk ->
  parse_word_file E (word_file_content ws ++ junk ++ rest) = Ok ws.
Proof.
  intros E ws junk rest W SH P J L. apply (parse_tokens E W). split; [|auto]. destruct P as (F & _).
  rewrite (scan_content E W SH) by auto. rewrite scan_too_long by auto. rewrite app_nil_r. symmetry. apply map_lower_words; auto.
Qed.
Print Assumptions word_file_junk_refuted.

(** ** C46 *)
Theorem save_keeps_existing : forall ws path w, (forall room, w_files w path <> Absent room) ->
  exists e, save_mnemonic ws path w = (Fail e, w) \/
            (w_files w path = Uncreatable /\ fst (save_mnemonic ws path w) = Fail e /\
             forall p, w_files (snd (save_mnemonic ws path w)) p = w_files w p).
Proof.
  intros ws path w N. rewrite save_cases. destruct (w_files w path) as [room| |content| |] eqn:Q.
  - destruct (N room). reflexivity.
  - exists ErrFileInaccessible. right. split; [reflexivity|]. split; [reflexivity|]. intros p. cbn [snd set_files w_files]. unfold put_file.
    destruct (bytes_eqb p path) eqn:B; [|reflexivity]. apply bytes_eqb_eq in B. subst. auto.
  - eexists. left. reflexivity.
  - eexists. left. reflexivity.
  - eexists. left. reflexivity.
Qed.
Print Assumptions save_keeps_existing.

Theorem save_success : forall ws path w w', save_mnemonic ws path w = (Ret tt, w') ->
  (exists room, w_files w path = Absent room) /\
  w_files w' path = File (word_file_content ws) /\ (forall p, p <> path -> w_files w' p = w_files w p) /\
  set_files w' (w_files w) = w.
Proof.
  intros ws path w w' S. rewrite save_cases in S. destruct (w_files w path) as [[room|]| | | |]; try discriminate;
  [destruct (Nat.ltb room _); [discriminate|]|]; injection S as <-; cbn [set_files w_files];
  (split; [eauto|]; split; [apply put_same|]; split; [intros; apply put_other; auto|]; destruct w; reflexivity).
Qed.
Print Assumptions save_success.

(** With enough room the save succeeds. *)
Theorem save_possible : forall ws path w,
  w_files w path = Absent None -> exists w', save_mnemonic ws path w = (Ret tt, w').
Proof. intros ws path w N. rewrite save_cases, N. eauto. Qed.
Print Assumptions save_possible.

(** A file created by another process between the check and the write is lost, whatever it
    contains, and the save reports success. *)
Theorem save_race_refuted : forall ws path w old, (exists room, w_files w path = Absent room) ->
  let other fs := put_file fs path (File old) in
  exists w', save_mnemonic_with other ws path w = (Ret tt, w') /\
    other (w_files w) path = File old /\ w_files w' path = File (word_file_content ws).
Proof.
  intros ws path w old (room & N) other. unfold save_mnemonic_with, write_file. rewrite N. cbn [set_files w_files].
  unfold other at 1. rewrite put_same. cbn [write_node of_res]. eexists. split; [reflexivity|].
  split; [apply put_same|]. cbn [set_files w_files]. apply put_same.
Qed.
Print Assumptions save_race_refuted.

(** generate: if the file already exists nothing is printed and nothing is overwritten.  The same
    when no file can be created. *)
Theorem generate_keeps_existing : forall E o w r w', go_out_file o <> [] ->
  (forall room, w_files w (go_out_file o) <> Absent room) ->
  generate_and_print E o w = (r, w') ->
  r <> Ret tt /\ w_stdout w' = w_stdout w /\ w_shown w' = w_shown w /\ forall p, w_files w' p = w_files w p.
Proof.
  intros E o w r w' NE N H.
  assert (S : forall ws, refuses w (save_mnemonic ws (go_out_file o))).
  { intros ws v V. rewrite <- V in N. split; [|split; [apply keeps_stdout_save|split; [apply keeps_shown_save|]]].
    - intros u. destruct (save_keeps_existing ws (go_out_file o) v N) as (e & [Q|(_ & Q & _)]); rewrite Q; discriminate.
    - intros p. destruct (save_keeps_existing ws (go_out_file o) v N) as (e & [Q|(_ & _ & Q)]); [rewrite Q; reflexivity|apply Q]. }
  assert (G : refuses w (generate_and_print E o)).
  { intros v V. unfold generate_and_print. cbv zeta. generalize (w_now v) as c. intros c. revert v V.
    match goal with |- forall v, w_files v = w_files w -> (forall u, fst (?a v) <> Ret u) /\ _ => change (refuses w a) end.
    do 7 (apply refuses_after; [keeping blind_files|keeping blind_stdout|keeping blind_shown|intros ?];
            match goal with |- refuses _ (let '(_, _) := ?x in _) => destruct x | _ => idtac end).
    apply refuses_first. destruct (go_out_file o); [congruence|apply S]. }
  destruct (G w eq_refl) as (G1 & G2 & G3 & G4). rewrite H in *. cbn [fst snd] in *. auto.
Qed.
Print Assumptions generate_keeps_existing.

(** ** C47 *)
(** The process is killed while saving. *)
Theorem killed_save : forall E ws path w fs r w', wordlist_ok E -> words_short E -> prefix_free E -> phrase_ok E ws ->
  (exists room, w_files w path = Absent room) -> save_killed ws path (w_files w) fs ->
  read_word_file E path (set_files w fs) = (r, w') ->
  (exists e, r = Fail e) \/ r = Ret ws.
Proof.
  intros E ws path w fs r w' W SH PF P (room & N) K H. unfold read_word_file, andthen, open_file in H. cbn [set_files w_files] in H.
  destruct K as [|room' n R L]; [rewrite N in H; injection H as <- _; eauto|]. rewrite put_same in H. unfold lift in H.
  destruct (parse_word_file E (firstn n (word_file_content ws))) as [rs|e|] eqn:Q; cbn [of_res] in H; injection H as <- _.
  - right. rewrite (parse_cut E W SH PF ws n rs P Q). reflexivity.
  - eauto.
  - exfalso. destruct (word_file_sound E path (set_files w (put_file (w_files w) path (File (firstn n (word_file_content ws))))) Crash
      (set_files w (put_file (w_files w) path (File (firstn n (word_file_content ws)))))) as (_ & [(e & X)|(x & X & _)]); auto; try discriminate.
    unfold read_word_file, andthen, open_file. cbn [set_files w_files]. rewrite put_same. unfold lift. rewrite Q. reflexivity.
Qed.
Print Assumptions killed_save.

(** The same when the disk is full: the save fails and leaves such a file. *)
Theorem disk_full_save : forall E ws path w e w' r w'', wordlist_ok E -> words_short E -> prefix_free E -> phrase_ok E ws ->
  save_mnemonic ws path w = (Fail e, w') -> (exists room, w_files w path = Absent room) ->
  read_word_file E path w' = (r, w'') ->
  (exists e, r = Fail e) \/ r = Ret ws.
Proof.
  intros E ws path w e w' r w'' W SH PF P S (room & N) H. rewrite save_cases, N in S.
  destruct room as [room|]; [|discriminate]. destruct (Nat.ltb_spec room (length (word_file_content ws))) as [L|L]; [|discriminate].
  injection S as _ <-. eapply (killed_save E ws path w); eauto. eapply Killed_writing; eauto. lia.
Qed.
Print Assumptions disk_full_save.

(** Both outcomes occur: killed at once and killed after the last byte. *)
Theorem killed_save_outcomes : forall E ws, wordlist_ok E -> words_short E -> phrase_ok E ws ->
  parse_word_file E (firstn 0 (word_file_content ws)) = Err ErrWordFileEmpty /\
  parse_word_file E (firstn (length (word_file_content ws)) (word_file_content ws)) = Ok ws.
Proof.
  intros E ws W SH P. split; [reflexivity|]. rewrite firstn_all. apply (parse_tokens E W). split; [|auto]. destruct P as (F & _).
  pose proof (scan_content E W SH ws [] F) as Q. rewrite app_nil_r in Q. rewrite Q.
  change (scan_words [] 0 []) with (@nil bytes). rewrite app_nil_r. symmetry. apply map_lower_words; auto.
Qed.
Print Assumptions killed_save_outcomes.

(** ** C48 *)
(** The output option has no effect whatever. *)
Theorem convert_output_ignored_refuted : forall E i e f g w,
  decode_and_convert E (mk_conv i e f) w = decode_and_convert E (mk_conv i e g) w.
Proof. reflexivity. Qed.
Print Assumptions convert_output_ignored_refuted.

(** No conversion creates or changes a file. *)
Theorem convert_writes_no_file_refuted : forall E o w r w', decode_and_convert E o w = (r, w') ->
  (forall p, w_files w' p = w_files w p) /\ (io_in_file (co_input o) <> [] -> r <> Ret tt /\ w_shown w' = w_shown w).
Proof.
  intros E o w r w' H. destruct (io_in_file (co_input o)) as [|b path] eqn:I.
  - split; [|congruence]. intros p. assert (K : keeps w_files (decode_and_convert E o)).
    { apply convert_body; [apply blind_files|apply keeps_files_phrase|congruence]. }
    specialize (K w). rewrite H in K. cbn [snd] in K. rewrite K. reflexivity.
  - assert (G : refuses w (decode_and_convert E o) \/ exists e, decode_and_convert E o w = (Fail e, w)).
    { destruct (w_files w (b :: path)) as [room| |content| |] eqn:N;
      try (right; exists ErrFileNotFound; unfold decode_and_convert, decode_mnemonic_from_input, read_phrase; rewrite I;
           unfold read_word_file, open_file, andthen; rewrite N; reflexivity).
      left. unfold decode_and_convert. rewrite I.
      apply refuses_after; [keeping blind_files|keeping blind_stdout|keeping blind_shown|intros [s dm]].
      apply refuses_after; [keeping blind_files|keeping blind_stdout|keeping blind_shown|intros ws].
      intros v V. rewrite save_cases. rewrite V, N. cbn [fst snd]. split; [discriminate|]. rewrite V. auto. }
    destruct G as [G|(e & G)].
    + destruct (G w eq_refl) as (G1 & G2 & G3 & G4). rewrite H in *. cbn [fst snd] in *. auto.
    + rewrite G in H. injection H as <- <-. split; [auto|]. intros _. split; [discriminate|reflexivity].
Qed.
Print Assumptions convert_writes_no_file_refuted.

(** At the command line: convert -in-word-file F -out-word-file G for a valid phrase in F fails
    and G is not written. *)
Theorem convert_file_to_file_refuted : forall E f g w ws dm s, wordlist_ok E -> argon_ok E -> aes_ok E ->
  f <> [] -> read_word_file E f w = (Ret ws, w) ->
  decode_mnemonic E ws = Ok dm -> dm_seed dm = Ok s ->
  mnemonikey_main E [bs "convert"; bs "-in-word-file"; f; bs "-out-word-file"; g] w = (Some 1, w).
Proof.
  intros E f g w ws dm s W A X F R D S.
  assert (EN : dm_encrypted dm = false) by (unfold dm_seed in S; destruct (dm_encrypted dm); [discriminate|reflexivity]).
  assert (H : decode_and_convert E (mk_conv (mk_in false f) false g) w = (Fail ErrFileExists, w)).
  { unfold decode_and_convert. unfold andthen at 1. cbn [co_input co_encrypt].
    assert (RP : read_phrase E (mk_in false f) w = (Ret ws, w))
      by (unfold read_phrase; cbn [io_in_file]; destruct f as [|b f]; [contradiction|exact R]).
    rewrite (retry_plain E (mk_in false f) w ws w dm) by auto.
    rewrite S. cbn [bind of_res]. unfold andthen, lift.
    pose proof (decoded_offset _ _ _ W D) as Of.
    assert (SO : seed_ok s) by (apply (decrypted_seed_ok E ws dm [] s W A X D); unfold dm_decrypt_seed; rewrite EN; exact S).
    destruct (plaintext_roundtrip E s (dm_offset dm) W SO Of) as (ws2 & dm2 & Q & _). rewrite Q. cbn [of_res io_in_file].
    destruct f as [|b f]; [congruence|]. rewrite save_cases.
    unfold read_word_file, andthen, open_file in R. destruct (w_files w (b :: f)); try discriminate. reflexivity. }
  unfold mnemonikey_main, run_main, root_command, run_command.
  change (parse_flags [] [bs "convert"; bs "-in-word-file"; f; bs "-out-word-file"; g])
    with (Parsed [] [bs "convert"; bs "-in-word-file"; f; bs "-out-word-file"; g]).
  cbn iota beta. unfold root_execute.
  change (bytes_eqb (bs "convert") (bs "help")) with false. cbn iota.
  change (subcommand E (bs "convert")) with (Some (convert_command E)). cbn iota.
  unfold convert_command, run_command.
  change (parse_flags convert_flags [bs "-in-word-file"; f; bs "-out-word-file"; g])
    with (Parsed [(bs "verbose", Bool false); (bs "simple", Bool false); (bs "in-word-file", Str f); (bs "out-word-file", Str g); (bs "encrypt-phrase", Bool false)] []).
  cbn iota beta. 
  change (convert_options_of [(bs "verbose", Bool false); (bs "simple", Bool false); (bs "in-word-file", Str f); (bs "out-word-file", Str g); (bs "encrypt-phrase", Bool false)])
    with (mk_conv (mk_in false f) false g).
  rewrite H. reflexivity.
Qed.
Print Assumptions convert_file_to_file_refuted.

(** With a terminal phrase and no file the conversion works: it shows a phrase for the same key. *)
Theorem convert_shows : forall E o w words w1 dm s, wordlist_ok E -> argon_ok E -> aes_ok E ->
  io_in_file (co_input o) = [] -> co_encrypt o = false ->
  read_phrase E (co_input o) w = (Ret words, w1) -> decode_mnemonic E words = Ok dm -> dm_seed dm = Ok s ->
  exists ws', encode_mnemonic_plaintext E s (dm_offset dm) = Ok ws' /\
    decode_and_convert E o w = (fst (print_mnemonic ws' w1), set_shown w1 (w_shown w1 ++ [ws'])).
Proof.
  intros E o w ws w1 dm s W A X I C R D S.
  assert (EN : dm_encrypted dm = false) by (unfold dm_seed in S; destruct (dm_encrypted dm); [discriminate|reflexivity]).
  pose proof (decoded_offset _ _ _ W D) as Of.
  assert (SO : seed_ok s) by (apply (decrypted_seed_ok E ws dm [] s W A X D); unfold dm_decrypt_seed; rewrite EN; exact S).
  destruct (plaintext_roundtrip E s (dm_offset dm) W SO Of) as (ws2 & dm2 & Q & _). exists ws2. split; [auto|].
  unfold decode_and_convert. unfold andthen at 1. rewrite (retry_plain E _ w ws w1 dm) by auto. rewrite S. cbn [bind of_res].
  unfold andthen, lift. rewrite C, Q. cbn [of_res]. rewrite I. reflexivity.
Qed.
Print Assumptions convert_shows.

(** ** Cases *)
Lemma toy_words_short : words_short toy_env.
Proof. apply Forall_forall. intros w H. apply toy_word_length in H. unfold zlen. lia. Qed.
Lemma case_plain : exists ws dm, phrase_ok toy_env ws /\ length ws = 14%nat /\ decode_mnemonic toy_env ws = Ok dm /\
  dm_encrypted dm = false /\ dm_offset dm = 77 /\ dm_seed dm = Ok (mk_seed 0 5).
Proof.
  destruct (plaintext_roundtrip toy_env (mk_seed 0 5) 77 toy_wordlist_ok) as (ws & dm & _ & L & F & D & _ & N & O & S).
  - split; vm_compute; intuition congruence.
  - vm_compute. intuition congruence.
  - exists ws, dm. split; [apply (decodable_phrase_ok toy_env ws dm); auto; apply toy_wordlist_ok|auto].
Qed.
Definition empty_world (fs : files) : world := mk_world fs [] true (Some 80) [] 0 [] 0 [] 0.

Example save_and_read_case : exists ws w', length ws = 14%nat /\
  save_mnemonic ws (bs "f") (empty_world (fun _ => Absent (Some 1000%nat))) = (Ret tt, w') /\
  read_word_file toy_env (bs "f") w' = (Ret ws, w').
Proof.
  destruct case_plain as (ws & dm & P & L & D & N & O & S).
  assert (Z : (length (word_file_content ws) <= 1000)%nat).
  { destruct P as (F & _). unfold word_file_content. rewrite app_length. cbn [length].
    assert (J : (length (join [32%Z] ws) <= 4 * length ws)%nat); [|rewrite L in J; lia].
    clear - F. induction ws as [|w ws IH]; [cbn; lia|]. inversion F as [|? ? F1 F2]; subst. specialize (IH F2).
    apply toy_word_length in F1. destruct ws as [|v ws]; cbn [join length] in *; [lia|]. rewrite !app_length. cbn [length]. lia. }
  assert (Q : exists w', save_mnemonic ws (bs "f") (empty_world (fun _ => Absent (Some 1000%nat))) = (Ret tt, w')).
  { rewrite save_cases. cbn [empty_world w_files]. destruct (Nat.ltb_spec 1000 (length (word_file_content ws))); [lia|]. eauto. }
  destruct Q as (w' & Q). exists ws, w'. split; [auto|]. split; [auto|].
  eapply word_file_roundtrip; eauto; [apply toy_wordlist_ok|apply toy_words_short].
Qed.

(** three words spread over lines, with leading blanks *)
Example layout_case : separated ([32; 10] ++ bs "AaB" ++ 9 :: ([13; 10] ++ bs "cde" ++ 32 :: ([] ++ bs "fgH")))
  [bs "AaB"; bs "cde"; bs "fgH"] /\ map (to_lower toy_env) [bs "AaB"; bs "cde"; bs "fgH"] = [bs "aab"; bs "cde"; bs "fgh"].
Proof.
  assert (T : forall t, In t [bs "AaB"; bs "cde"; bs "fgH"] -> token t).
  { intros t [<-|[<-|[<-|[]]]]; (split; [discriminate|split; [|reflexivity]]); cbn [bs];
    repeat (apply Forall_cons; [split; [vm_compute; intuition congruence|unfold blank; vm_compute; intuition congruence]|]); constructor. }
  split; [|vm_compute; reflexivity].
  apply Sep_more; [repeat constructor; unfold blank; lia|apply T; left; auto|unfold blank; lia|].
  apply Sep_more; [repeat constructor; unfold blank; lia|apply T; right; left; auto|unfold blank; lia|].
  apply Sep_last; [constructor|apply T; right; right; left; auto].
Qed.

Example junk_case : exists ws junk, length ws = 14%nat /\ zlen junk = 65536 /\
  parse_word_file toy_env (word_file_content ws ++ junk ++ bs " anything") = Ok ws.
Proof.
  destruct case_plain as (ws & dm & P & L & _). exists ws, (repeat 120 (Z.to_nat 65536)). split; [auto|].
  assert (Z : zlen (repeat 120 (Z.to_nat 65536)) = 65536) by (unfold zlen; rewrite repeat_length; apply Z2Nat.id; lia).
  split; [exact Z|]. apply word_file_junk_refuted; auto; [apply toy_wordlist_ok|apply toy_words_short| |lia].
  apply Forall_forall. intros b B. apply repeat_spec in B. subst. unfold blank. lia.
Qed.

(** cut in the middle of the second word *)
Lemma case_words_phrase : phrase_ok toy_env case_words.
Proof.
  split.
  - pose proof case_words_ok as H. rewrite forallb_forall in H. apply Forall_forall. intros w Hw. apply toy_in. auto.
  - exists [97;97;98], (tl case_words). split; [reflexivity|]. split; vm_compute; reflexivity.
Qed.
Example killed_case : exists fs, phrase_ok toy_env case_words /\
  save_killed case_words (bs "f") (fun _ => Absent None) fs /\ fs (bs "f") = File (bs "aab cd") /\
  fst (read_word_file toy_env (bs "f") (empty_world fs)) = Fail ErrWordFileWord.
Proof.
  exists (put_file (fun _ => Absent None) (bs "f") (File (firstn 6 (word_file_content case_words)))).
  split; [apply case_words_phrase|]. split; [eapply Killed_writing; [reflexivity|]; vm_compute; lia|].
  split; [reflexivity|]. vm_compute. reflexivity.
Qed.
Example disk_full_case : exists w', phrase_ok toy_env case_words /\
  save_mnemonic case_words (bs "f") (empty_world (fun _ => Absent (Some 8%nat))) = (Fail ErrFileInaccessible, w') /\
  w_files w' (bs "f") = File (bs "aab cde ") /\ fst (read_word_file toy_env (bs "f") w') = Fail ErrWordFileCount.
Proof.
  set (fs := put_file (fun _ => Absent (Some 8%nat)) (bs "f") (File (firstn 8 (word_file_content case_words)))).
  exists (empty_world fs). split; [apply case_words_phrase|]. split; [reflexivity|]. split; [reflexivity|]. vm_compute. reflexivity.
Qed.
Example race_case : exists w', save_mnemonic_with (fun fs => put_file fs (bs "f") (File (bs "precious")))
  case_words (bs "f") (empty_world (fun _ => Absent None)) = (Ret tt, w') /\
  w_files w' (bs "f") = File (word_file_content case_words).
Proof.
  destruct (save_race_refuted case_words (bs "f") (empty_world (fun _ => Absent None)) (bs "precious")) as (w' & S & _ & N);
    [eexists; reflexivity|eauto].
Qed.
Example convert_case : exists ws, length ws = 14%nat /\
  let w := empty_world (fun p => if bytes_eqb p (bs "in") then File (word_file_content ws) else Absent None) in
  mnemonikey_main toy_env [bs "convert"; bs "-in-word-file"; bs "in"; bs "-out-word-file"; bs "out"] w = (Some 1, w).
Proof.
  destruct case_plain as (ws & dm & P & L & D & N & O & S). exists ws. split; [auto|]. cbv zeta.
  set (w := empty_world _). apply (convert_file_to_file_refuted toy_env (bs "in") (bs "out") w ws dm (mk_seed 0 5)); auto;
    [apply toy_wordlist_ok|apply toy_argon_ok|apply toy_aes_ok|discriminate|].
  unfold read_word_file, andthen, open_file. change (w_files w (bs "in")) with (File (word_file_content ws)). cbn iota. unfold lift.
  pose proof (killed_save_outcomes toy_env ws toy_wordlist_ok toy_words_short P) as (_ & Q). rewrite firstn_all in Q. rewrite Q. reflexivity.
Qed.
