(** Cases for the theorems of TraceProps.v. *)
From Coq Require Import Lia ZifyBool ZifyNat.
From Verif.Model Require Import GoBase Env Version GoTime Seed Encoding Recovery PgpKeys Mnemonikey.
From Verif.Model Require Import CliText CliInput CliFlags CliMain CliHelp CliScreen CliTrace.
From Verif.Spec Require Import EnvSpec PhraseSpec DecodeSpec KeySpec ExportSpec CliEnvSpec TextSpec InputSpec FileSpec MainSpec EndSpec FlagSpec TraceSpec.
From Verif.Proofs Require Import BitsP WordsP InputP FlagP TraceP SpeakP TalkP StderrP AskP EnvInst CliInst.
From Verif.Props Require Import PhraseProps TextProps InputProps FileProps MainProps FlagProps HelpProps EndProps LifeProps ArmorProps ConvertProps TraceProps.
Ltac Zify.zify_post_hook ::= Z.div_mod_to_equations.

Definition case_host : host :=
  mk_host (fun b => [34] ++ b ++ [34]) (fun _ => bs "2023-11-14T22:13:20Z") (fun p => bs "open " ++ p ++ bs ": no such file or directory") (fun p => bs "stat " ++ p ++ bs ": permission denied")
    (fun p => bs "open " ++ p ++ bs ": no such file or directory") (bs "unexpected EOF") (bs "failed to build key packet: EOF") (bs "EOF") (bs "inappropriate ioctl for device") (fun _ => []).
(** two runs of generate with -encrypt-phrase and -out-word-file, with other random bytes, at another
    time and with another password *)
Definition secret_line : list (bytes * setting) := [(bs "email", Txt (bs "username@email.com")); (bs "out-word-file", Txt (bs "phrase")); (bs "encrypt-phrase", On true)].
Definition secret_args : list bytes := [bs "-email=username@email.com"; bs "-out-word-file"; bs "phrase"; bs "--encrypt-phrase=1"].
Lemma secret_line_ok : command_line generate_table secret_line secret_args [].
Proof.
  exists []. split; [|constructor].
  apply (Set_one generate_table (bs "email") Words _ [bs "-email=username@email.com"]); [cbv [generate_table In]; tauto|apply Spell_equals with (t := bs "username@email.com"); constructor|].
  apply (Set_one generate_table (bs "out-word-file") Words _ [bs "-out-word-file"; bs "phrase"]); [cbv [generate_table In]; tauto|apply Spell_next; [discriminate|constructor|constructor]|].
  apply (Set_one generate_table (bs "encrypt-phrase") Switch _ [bs "--encrypt-phrase=1"]); [cbv [generate_table In]; tauto|apply Spell_equals with (t := bs "1"); constructor; cbv [true_texts In]; tauto|].
  constructor.
Qed.
Definition secret_world (random : Z) (now : Z) (pw : bytes) : world :=
  mk_world (fun _ => Absent None) (pw ++ [10] ++ pw ++ [10]) true (Some 80) (repeat random 100) (now * second) [] 0 [] 0.
Lemma secret_runs random now pw : 0 <= random < 256 -> 1700000000 <= now <= 1800000000 -> pw = bs "open" \/ pw = bs "sesame" ->
  exists w' err, world_ok (secret_world random now pw) /\ (exists words, w_files w' (bs "phrase") = File (word_file_content words)) /\ t_main toy_env case_host (bs "generate" :: secret_args) (secret_world random now pw) = ((Some 0, w'), err).
Proof.
  intros R T PW. assert (WO : world_ok (secret_world random now pw)).
  { split; [|split].
    - apply Forall_forall. intros x Hx. apply repeat_spec in Hx. subst. exact R.
    - destruct PW as [-> | ->]; repeat constructor; vm_compute; congruence.
    - discriminate. }
  destruct (generate_works toy_env toy_verify (generate_settings secret_line) (secret_world random now pw) 0 true None) as (w' & G & _);
    [apply toy_wordlist_ok|apply toy_argon_ok|apply toy_aes_ok|apply toy_hkdf_ok|apply toy_env_ok|exact WO|reflexivity
    |reflexivity|lia|vm_compute; reflexivity|vm_compute; reflexivity| |reflexivity|vm_compute; lia| | | |].
  - cbn [secret_world w_now]. unfold first_second, last_second, second. lia.
  - intros _. exists pw. split; [destruct PW as [-> | ->]; discriminate|]. destruct PW as [-> | ->]; vm_compute; reflexivity.
  - discriminate.
  - reflexivity.
  - destruct (generate_line toy_env secret_line secret_args [] (secret_world random now pw) secret_line_ok ltac:(discriminate) _ w' G) as [M _].
    specialize (M ltac:(discriminate)). destruct M as [M _]. pose proof (trace_erases toy_env case_host (bs "generate" :: secret_args) (secret_world random now pw)) as TE. rewrite M in TE.
    destruct (t_main toy_env case_host (bs "generate" :: secret_args) (secret_world random now pw)) as [[st w1] err]. cbn [fst exit_status] in TE. injection TE as -> ->.
    exists w', err. split; [exact WO|]. split; [|reflexivity].
    destruct (generate_facts toy_env _ _ _ _ WO G eq_refl) as [(F & _)|(ttl & ma & ty & s & m & ws & out & _ & _ & _ & _ & _ & _ & _ & _ & FC)]; [destruct F; reflexivity|].
    destruct (FC ltac:(discriminate)) as (_ & _ & FC'). exists ws. exact FC'.
Qed.
Definition swap (a b x : bytes) : bytes := if bytes_eqb x a then b else if bytes_eqb x b then a else x.
Lemma swap_renames a b : a <> [] -> b <> [] -> renaming (swap a b).
Proof.
  intros A B. unfold swap. split.
  - destruct (bytes_eqb [] a) eqn:Q; [apply bytes_eqb_eq in Q; congruence|]. destruct (bytes_eqb [] b) eqn:Q'; [apply bytes_eqb_eq in Q'; congruence|reflexivity].
  - assert (E : forall x y, bytes_eqb x y = true \/ bytes_eqb x y = false /\ x <> y).
    { intros x y. destruct (bytes_eqb x y) eqn:Q; [auto|]. right. split; [reflexivity|]. intros ->. rewrite bytes_eqb_refl in Q. discriminate. }
    intros x y. destruct (E x a) as [Q1|[Q1 N1]]; rewrite Q1; [apply bytes_eqb_eq in Q1; subst x|]; (destruct (E y a) as [Q2|[Q2 N2]]; rewrite Q2; [apply bytes_eqb_eq in Q2; subst y|]); auto.
    + destruct (E y b) as [Q3|[Q3 N3]]; rewrite Q3; [apply bytes_eqb_eq in Q3; subst y; congruence|congruence].
    + destruct (E x b) as [Q3|[Q3 N3]]; rewrite Q3; [apply bytes_eqb_eq in Q3; subst x; congruence|congruence].
    + destruct (E x b) as [Q3|[Q3 N3]]; rewrite Q3; [apply bytes_eqb_eq in Q3; subst x|]; (destruct (E y b) as [Q4|[Q4 N4]]; rewrite Q4; [apply bytes_eqb_eq in Q4; subst y|]); congruence.
Qed.
Example generate_secret_case : exists w1 w2 words1 words2 err,
  w_files w1 (bs "phrase") = File (word_file_content words1) /\ w_files w2 (bs "phrase") = File (word_file_content words2) /\
  t_main toy_env case_host (bs "generate" :: secret_args) (secret_world 7 1700000000 (bs "open")) = ((Some 0, w1), err) /\
  t_main toy_env case_host (bs "generate" :: secret_args) (secret_world 200 1800000000 (bs "sesame")) = ((Some 0, w2), err).
Proof.
  destruct (secret_runs 7 1700000000 (bs "open")) as (w1 & e1 & O1 & (ws1 & F1) & M1); [lia|lia|auto|].
  destruct (secret_runs 200 1800000000 (bs "sesame")) as (w2 & e2 & O2 & (ws2 & F2) & M2); [lia|lia|auto|].
  assert (Q : e1 = e2).
  { refine (generate_secret toy_env case_host secret_line secret_args [] _ _ w1 w2 e1 e2 (swap (bs "open") (bs "sesame"))
      toy_wordlist_ok toy_argon_ok toy_aes_ok toy_hkdf_ok toy_hash_env_ok O1 O2 _ _ secret_line_ok _ _ eq_refl _ _ M1 M2);
      [intros x [= <-]; lia|intros x [= <-]; lia|discriminate|discriminate|apply swap_renames; discriminate|vm_compute; reflexivity]. }
  subst e2. exists w1, w2, ws1, ws2, e1. auto.
Qed.
(** two recoveries from word files with different plaintext phrases; the key password is mistyped once *)
Definition file_line : list (bytes * setting) := [(bs "in-word-file", Txt (bs "phrase")); (bs "encrypt-keys", On true)].
Definition file_args : list bytes := [bs "-in-word-file=phrase"; bs "-encrypt-keys"].
Lemma file_line_ok : command_line recover_table file_line file_args [].
Proof.
  exists []. split; [|constructor].
  apply (Set_one recover_table (bs "in-word-file") Words _ [bs "-in-word-file=phrase"]); [cbv [recover_table In]; tauto|apply Spell_equals with (t := bs "phrase"); constructor|].
  apply (Set_one recover_table (bs "encrypt-keys") Switch _ [bs "-encrypt-keys"]); [cbv [recover_table In]; tauto|apply Spell_bare; constructor|].
  constructor.
Qed.
Definition file_world (words : list bytes) (pw : bytes) : world :=
  mk_world (fun _ => File (word_file_content words)) (pw ++ [10] ++ bs "x" ++ [10; 10] ++ pw ++ [10] ++ pw ++ [10]) true (Some 80) (repeat 3 100) 0 [] 0 [] 0.
Lemma toy_word_bytes w : In w (wl_words toy_env) -> Forall byte w.
Proof.
  intros I. pose proof (proj1 (Forall_forall _ _) (wlo_letters _ toy_wordlist_ok) w I) as R.
  eapply Forall_impl; [|exact R]. intros b. unfold byte, lower_letter. lia.
Qed.
Lemma phrase_bytes ws : Forall (fun w => In w (wl_words toy_env)) ws -> Forall byte (word_file_content ws).
Proof.
  intros F. pose proof toy_word_bytes as B.
  unfold word_file_content. apply Forall_app. split; [|repeat constructor; vm_compute; congruence].
  induction F as [|w ws I F IH]; [constructor|]. destruct ws as [|v ws]; cbn [join]; [apply B, I|].
  apply Forall_app. split; [apply B, I|]. constructor; [vm_compute; intuition congruence|exact IH].
Qed.
Lemma file_runs value offset pw : 0 <= value < 2 ^ 128 -> 0 <= offset < 2 ^ 31 -> pw = bs "open" \/ pw = bs "sesame" ->
  exists words dm w' err, world_ok (file_world words pw) /\ read_word_file toy_env (bs "phrase") (file_world words pw) = (Ret words, file_world words pw) /\
    decode_mnemonic toy_env words = Ok dm /\ dm_encrypted dm = false /\ dm_seed dm = Ok (mk_seed 0 value) /\
    t_main toy_env case_host (bs "recover" :: file_args) (file_world words pw) = ((Some 0, w'), err).
Proof.
  intros V O PW. destruct (plaintext_roundtrip toy_env (mk_seed 0 value) offset toy_wordlist_ok) as (ws & dm & _ & L & F & D & _ & N & OF & S); [split; [reflexivity|exact V]|exact O|].
  pose proof (decodable_phrase_ok toy_env ws dm toy_wordlist_ok F D) as PH. set (v := file_world ws pw).
  assert (WO : world_ok v).
  { split; [|split].
    - apply Forall_forall. intros x Hx. apply repeat_spec in Hx. subst. unfold byte. lia.
    - destruct PW as [-> | ->]; repeat constructor; vm_compute; congruence.
    - intros p c Q. injection Q as <-. apply phrase_bytes, F. }
  assert (RW : read_word_file toy_env (bs "phrase") v = (Ret ws, v)).
  { unfold read_word_file, andthen, open_file. change (w_files v (bs "phrase")) with (File (word_file_content ws)). cbn iota. unfold lift.
    destruct (killed_save_outcomes toy_env ws toy_wordlist_ok toy_words_short PH) as [_ K]. rewrite firstn_all in K. rewrite K. reflexivity. }
  assert (RP : read_phrase toy_env (ro_input (recover_settings file_line)) v = (Ret ws, v)) by exact RW.
  pose proof (retry_plain toy_env (ro_input (recover_settings file_line)) v ws v dm RP D N) as DI. rewrite S in DI. cbn [bind of_res] in DI.
  destruct (recover_works toy_env toy_verify (recover_settings file_line) v 0 true None (mk_seed 0 value) dm v pw) as (v' & R);
    [apply toy_wordlist_ok|apply toy_argon_ok|apply toy_aes_ok|apply toy_hkdf_ok|apply toy_env_ok|apply WO|
    |cbn; lia|cbn; lia|cbn; lia|reflexivity|lia|vm_compute; reflexivity|exact DI| | |intros _; vm_compute; lia|].
  - split; [|split]; [repeat constructor; vm_compute; congruence|repeat constructor; vm_compute; congruence|vm_compute; reflexivity].
  - destruct PW as [-> | ->]; (split; [discriminate|vm_compute; reflexivity]).
  - destruct PW as [-> | ->]; vm_compute; congruence.
  - destruct (recover_line toy_env file_line file_args [] v file_line_ok ltac:(discriminate) _ v' R) as [M _].
    specialize (M ltac:(discriminate)). destruct M as [M _]. pose proof (trace_erases toy_env case_host (bs "recover" :: file_args) v) as TE. rewrite M in TE.
    destruct (t_main toy_env case_host (bs "recover" :: file_args) v) as [[st w1] err] eqn:Q. cbn [fst exit_status] in TE. injection TE as -> ->.
    exists ws, dm, v', err. auto 10.
Qed.
Example recover_secret_case : exists v1 v2 w1 w2 err, v1 <> v2 /\
  t_main toy_env case_host (bs "recover" :: file_args) v1 = ((Some 0, w1), err) /\
  t_main toy_env case_host (bs "recover" :: file_args) v2 = ((Some 0, w2), err).
Proof.
  destruct (file_runs 5 77 (bs "open")) as (ws1 & d1 & w1 & e1 & O1 & R1 & D1 & N1 & S1 & M1); [lia|lia|auto|].
  destruct (file_runs 1234567890123 99 (bs "sesame")) as (ws2 & d2 & w2 & e2 & O2 & R2 & D2 & N2 & S2 & M2); [lia|lia|auto|].
  assert (Q : e1 = e2).
  { refine (recover_secret toy_env case_host file_line file_args [] _ _ w1 w2 e1 e2 (swap (bs "open") (bs "sesame")) ws1 ws2 d1 d2
      toy_wordlist_ok toy_search_ok toy_argon_ok toy_aes_ok toy_hkdf_ok toy_hash_env_ok O1 O2 _ _ file_line_ok _ _ eq_refl _ R1 R2 D1 D2 _ _ _ M1 M2);
      [intros x [= <-]; lia|intros x [= <-]; lia|discriminate|discriminate|apply swap_renames; discriminate|congruence|vm_compute; reflexivity|congruence]. }
  subst e2. exists (file_world ws1 (bs "open")), (file_world ws2 (bs "sesame")), w1, w2, e1. split; [|auto].
  intros Q. assert (bs "open" = bs "sesame") by (apply (f_equal (fun w => firstn 4 (w_stdin w))) in Q; discriminate Q). discriminate.
Qed.
(** convert: the phrase typed word by word, the new password mistyped once *)
Definition convert_case_line : list (bytes * setting) := [(bs "encrypt-phrase", On true)].
Lemma convert_case_line_ok : command_line convert_table convert_case_line [bs "-encrypt-phrase"] [].
Proof.
  exists []. split; [|constructor].
  apply (Set_one convert_table (bs "encrypt-phrase") Switch _ [bs "-encrypt-phrase"]); [cbv [convert_table In]; tauto|apply Spell_bare; constructor|constructor].
Qed.
Lemma case_world_ok words lines : Forall (fun w => In w (wl_words toy_env)) words -> Forall (Forall byte) lines -> world_ok (case_world words lines).
Proof.
  intros F L. split; [|split]; [exact (proj1 case_start_ok)| |discriminate].
  cbn [w_stdin case_world]. apply Forall_app. split.
  - apply Forall_concat, Forall_map. eapply Forall_impl; [|exact F]. intros w I. apply Forall_app. split; [apply toy_word_bytes, I|repeat constructor; vm_compute; congruence].
  - unfold password_lines. rewrite flat_map_concat_map. apply Forall_concat, Forall_map. eapply Forall_impl; [|exact L]. intros l B. apply Forall_app. split; [exact B|repeat constructor; vm_compute; congruence].
Qed.
Example convert_stderr_case : exists words w' err, length words = 14%nat /\
  t_main toy_env case_host [bs "convert"; bs "-encrypt-phrase"] (case_world words case_lines) = ((Some 0, w'), err) /\
  convert_transcript toy_env case_host false (convert_settings convert_case_line) (case_world words case_lines) w' err.
Proof.
  destruct case_plain as (words & dm & P & L & D & EN & O & S).
  pose proof (case_input words dm _ case_lines P D EN S) as DI. destruct P as [F _].
  assert (WO : world_ok (case_world words case_lines)) by (apply case_world_ok; [exact F|repeat constructor; vm_compute; congruence]).
  destruct (convert_works toy_env case_convert (case_world words case_lines) _ dm _ (bs "secret") toy_wordlist_ok toy_argon_ok toy_aes_ok (proj1 WO) DI eq_refl) as (new & w' & dm' & G & _).
  - intros width Q. injection Q as <-. lia.
  - vm_compute. lia.
  - intros _. split; [reflexivity|]. exists case_lines. split; [reflexivity|]. split; [exact case_lines_ok|vm_compute; reflexivity].
  - destruct (convert_line toy_env convert_case_line [bs "-encrypt-phrase"] [] (case_world words case_lines) convert_case_line_ok ltac:(discriminate) _ w' G) as [M _].
    specialize (M ltac:(discriminate)). destruct M as [M _]. pose proof (trace_erases toy_env case_host [bs "convert"; bs "-encrypt-phrase"] (case_world words case_lines)) as TE. rewrite M in TE.
    destruct (t_main toy_env case_host [bs "convert"; bs "-encrypt-phrase"] (case_world words case_lines)) as [[st w1] err] eqn:Q. cbn [fst exit_status] in TE. injection TE as -> ->.
    assert (WD : wide (case_world words case_lines)) by (intros x [= <-]; lia).
    destruct (convert_stderr toy_env case_host convert_case_line [bs "-encrypt-phrase"] [] _ _ _ _ toy_wordlist_ok toy_search_ok toy_argon_ok toy_aes_ok WO WD convert_case_line_ok ltac:(discriminate) Q) as (out & _ & T & _).
    exists words, w', err. split; [exact L|]. split; [exact Q|]. exact (proj2 (T eq_refl)).
Qed.
(** a run that fails: the word file does not exist *)
Example recover_fails_case :
  let w := secret_world 7 1700000000 (bs "open") in
  t_main toy_env case_host [bs "recover"; bs "-in-word-file"; bs "phrase"] w = ((Some 1, w), bs "ERROR: open phrase: no such file or directory" ++ [10]).
Proof. vm_compute. reflexivity. Qed.
(** wrong command lines *)
Definition help_at (d : command_doc) : bytes := match help_output d (Some 80) with Text h => h | _ => [] end.
Example wrong_line_case : exists help, help_output generate_doc (Some 80) = Text help /\
  let w := secret_world 7 1700000000 (bs "open") in
  t_main toy_env case_host [bs "generate"; bs "-verbose"; bs "-sig-index"; bs "1"] w =
    ((Some 2, set_usage w 1%nat), bs "flag provided but not defined: -sig-index" ++ [10] ++ help).
Proof. exists (help_at generate_doc). split; vm_compute; reflexivity. Qed.
Example wrong_line_case_ok : wrong_line generate_table [bs "-verbose"; bs "-sig-index"; bs "1"].
Proof.
  exists [(bs "verbose", On true)], [bs "-sig-index"; bs "1"]. split.
  - apply (Set_one generate_table (bs "verbose") Switch _ [bs "-verbose"]); [cbv [generate_table In]; tauto|apply Spell_bare; constructor|constructor].
  - apply Wrong_name with (n := bs "sig-index"); [|intros k; cbv [generate_table In]; intuition discriminate|cbv [help_names In]; intuition discriminate].
    apply Names_bare; [|constructor]. exists 115, (bs "ig-index"). split; [reflexivity|]. split; [discriminate|]. cbv [In bs]. vm_compute. intuition discriminate.
Qed.
Example root_stderr_case : exists help, help_output root_doc (Some 80) = Text help /\
  command_line [] [] [bs "frobnicate"] [bs "frobnicate"] /\ ~ In (bs "frobnicate") [bs "help"; bs "generate"; bs "recover"; bs "convert"] /\
  let w := secret_world 7 1700000000 (bs "open") in
  t_main toy_env case_host [bs "frobnicate"] w =
    ((Some 1, set_usage w 1%nat), help ++ bs "ERROR: incorrect usage: unknown subcommand ""frobnicate""" ++ [10]).
Proof.
  exists (help_at root_doc). split; [vm_compute; reflexivity|]. split; [|split; [cbn [In]; intuition discriminate|vm_compute; reflexivity]].
  exists [bs "frobnicate"]. split; [constructor|]. apply End_plain. right. right. exists 102, (bs "robnicate"). split; [reflexivity|discriminate].
Qed.
(** -verbose given or not *)
Example verbose_case : command_line generate_table (secret_line ++ [(bs "verbose", On true)]) (secret_args ++ [bs "-verbose"]) [] /\
  command_line generate_table secret_line secret_args [] /\ but_verbose (secret_line ++ [(bs "verbose", On true)]) secret_line.
Proof.
  split; [|split; [exact secret_line_ok|]].
  - exists []. split; [|constructor].
    apply (Set_one generate_table (bs "email") Words _ [bs "-email=username@email.com"]); [cbv [generate_table In]; tauto|apply Spell_equals with (t := bs "username@email.com"); constructor|].
    apply (Set_one generate_table (bs "out-word-file") Words _ [bs "-out-word-file"; bs "phrase"]); [cbv [generate_table In]; tauto|apply Spell_next; [discriminate|constructor|constructor]|].
    apply (Set_one generate_table (bs "encrypt-phrase") Switch _ [bs "--encrypt-phrase=1"]); [cbv [generate_table In]; tauto|apply Spell_equals with (t := bs "1"); constructor; cbv [true_texts In]; tauto|].
    apply (Set_one generate_table (bs "verbose") Switch _ [bs "-verbose"]); [cbv [generate_table In]; tauto|apply Spell_bare; constructor|constructor].
  - intros n N. cbn [last_setting secret_line app]. destruct (list_eq_dec Z.eq_dec (bs "verbose") n); [congruence|reflexivity].
Qed.
(** simple entry: the lines of InputProps, with an unknown word and an early phrase word among them *)
Example simple_questions_case : exists text, simple_entry toy_env (text_of_lines InputProps.case_lines) = simple_title ++ text /\
  asks toy_env (fun _ => []) [] (map fst InputProps.case_lines) text.
Proof. exact (simple_questions toy_env InputProps.case_lines toy_wordlist_ok toy_search_ok (proj1 simple_case)). Qed.
