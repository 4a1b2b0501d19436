(** Any number of conversions between generating and recovering (C93). *)
From Coq Require Import Lia ZifyBool ZifyNat Relations.
From Verif.Model Require Import GoBase Env Version Seed Encoding GoTime Recovery PgpKeys Mnemonikey CliText CliInput CliFlags CliMain.
From Verif.Spec Require Import EnvSpec DecodeSpec KeySpec ExportSpec CliEnvSpec InputSpec FileSpec EndSpec ChainSpec.
From Verif.Proofs Require Import BitsP WordsP RoundtripP S2kP KeysP InputP EntryP FileP MainP EnvInst CliInst.
From Verif.Props Require Import PhraseProps SeedProps KeyProps ExportProps LifeProps TextProps InputProps FileProps EndProps ArmorProps ConvertProps.
Ltac Zify.zify_post_hook ::= Z.div_mod_to_equations.

(** ** C93 *)
Lemma opened_input E i v h s offset : enters_held E i v h -> opens E h s offset ->
  exists dm v2, decode_mnemonic_from_input E i v = (Ret (s, dm), v2) /\ decode_mnemonic E (fst h) = Ok dm /\ dm_offset dm = offset.
Proof.
  intros (v1 & RP & PW) (dm & D & O & S). destruct h as [words [pw|]]; cbn [fst snd] in *.
  - destruct S as (EN & NE & DS). destruct PW as (TTY & ls & l & rest & I & NL & PT & WR). exists dm. eexists. split; [|split; [exact D|exact O]].
    subst pw. eapply retry_first with (ls := ls) (l := l) (rest := rest); eauto.
  - destruct S as (EN & DS). exists dm, v1. split; [|split; [exact D|exact O]]. rewrite (retry_plain E i v words v1 dm RP D EN), DS. reflexivity.
Qed.
Lemma opens_seed E h s offset : wordlist_ok E -> argon_ok E -> aes_ok E -> opens E h s offset -> seed_ok s /\ 0 <= offset < 2 ^ 31.
Proof.
  intros W A X (dm & D & O & S). split; [|rewrite <- O; eapply decoded_offset; eauto].
  destruct h as [words [pw|]]; cbn [fst snd] in *.
  - destruct S as (EN & NE & DS). eapply decrypted_seed_ok; eauto.
  - destruct S as (EN & DS). apply (decrypted_seed_ok E words dm [] s W A X D). unfold dm_decrypt_seed. rewrite EN. exact DS.
Qed.
Lemma convert_step E h h' s offset : wordlist_ok E -> argon_ok E -> aes_ok E -> convert_session E h h' -> opens E h s offset ->
  opens E h' s offset /\ Forall (fun w => In w (wl_words E)) (fst h').
Proof.
  intros W A X C OP. destruct C as [o w r w' old new pw B EN H SH P]. cbn [fst].
  destruct (opened_input E (co_input o) w old s offset EN OP) as (dm & v & D & DM & OF).
  destruct (opens_seed E old s offset W A X OP) as [SO OB].
  destruct (io_in_file (co_input o)) as [|b path] eqn:I.
  2:{ exfalso. destruct (convert_writes_no_file_refuted E o w r w' H) as [_ K]. rewrite I in K.
      destruct (K ltac:(discriminate)) as [_ K2]. rewrite K2 in SH. exact (not_shown _ _ SH). }
  unfold decode_and_convert in H. rewrite I in H. unfold andthen at 1 in H. rewrite D in H.
  pose proof (keeps_input _ blind_shown E (co_input o) w) as KS. pose proof (random_input E (co_input o) w) as KR.
  rewrite D in KS, KR. cbn [snd] in KS, KR. unfold andthen at 1 in H. rewrite OF in H. destruct (co_encrypt o).
  - destruct P as (s1 & dm1 & v1 & p & D1 & P & ->). rewrite D in D1. injection D1 as <- <- <-.
    unfold andthen at 1 in H. destruct (ask_password true v) as [op v2] eqn:K.
    pose proof (keeps_ask _ blind_shown true v) as KS2. rewrite K in KS2. cbn [snd] in KS2.
    destruct op as [p2|e| | |c]; try (exfalso; injection H as _ <-; rewrite KS2, KS in SH; exact (not_shown _ _ SH)).
    assert (PE : p2 = p).
    { unfold ask_password in K. destruct (user_input_password (w_tty v) true (w_stdin v)) as [q rest]. cbn [fst] in P. subst q. injection K as K _. congruence. }
    subst p2. destruct (asked_typed _ _ _ _ K) as (_ & [N T] & _).
    destruct (Nat.le_gt_cases 3 (length (w_random v2))) as [L|L].
    + assert (B2 : Forall byte (w_random v2)).
      { unfold ask_password in K. destruct (user_input_password _ _ _) as [q rest]. injection K as _ <-. cbn [set_stdin w_tty w_random].
        destruct (w_tty v); cbn [set_prompts set_stdin w_random]; rewrite KR; exact B. }
      destruct (encrypted_roundtrip E s offset p (w_random v2) W A X SO OB N B2 L) as (ws & dm' & Q & _ & F & D2 & _ & En & Of2 & De).
      rewrite Q in H. cbn [of_res] in H. unfold print_mnemonic in H. injection H as _ <-. cbn [set_shown w_shown] in SH.
      rewrite KS2, KS in SH. apply shown_once in SH. subst new. split; [exists dm'; cbn [fst snd]; auto 10|exact F].
    + exfalso. assert (Q : exists e, encode_mnemonic_encrypted E s offset p (w_random v2) = Err e).
      { unfold encode_mnemonic_encrypted. destruct SO as [Era _]. rewrite Era. change (era_check 0) with (Ok tt). cbn [bind].
        destruct (zlen p =? 0); [eexists; reflexivity|]. destruct (BitBuffer.new_bitbuf 1 version_bits) eqn:NB; cbn [bind]; try (vm_compute in NB; discriminate NB).
        rewrite rand_int_salt_short by auto. eexists. reflexivity. }
      destruct Q as (e & Q). rewrite Q in H. cbn [of_res] in H. injection H as _ <-. rewrite KS2, KS in SH. exact (not_shown _ _ SH).
  - subst pw. destruct (plaintext_roundtrip E s offset W SO OB) as (ws & dm' & Q & _ & F & D2 & _ & En & Of2 & Se).
    unfold lift in H. rewrite Q in H. cbn [of_res] in H. unfold print_mnemonic in H. injection H as _ <-. cbn [set_shown w_shown] in SH.
    rewrite KS in SH. apply shown_once in SH. subst new. split; [exists dm'; cbn [fst snd]; auto 10|exact F].
Qed.
(** Converting, again and again, with whatever passwords, keeps the seed and the creation time. *)
Theorem conversions_keep : forall E h h' s offset, wordlist_ok E -> argon_ok E -> aes_ok E ->
  convert_sessions E h h' -> opens E h s offset -> opens E h' s offset.
Proof.
  intros E h h' s offset W A X C. induction C as [h h' C|h|a b c _ IH1 _ IH2]; [|auto|auto]. intros OP. apply (convert_step E h h' s offset W A X C OP).
Qed.
Print Assumptions conversions_keep.

Lemma created dm offset : 0 <= offset < 2 ^ 31 -> dm_offset dm = offset -> dm_creation dm = (first_second + offset) * second.
Proof. intros B <-. destruct dm as [a b c d o]. cbn [dm_offset] in *. apply dm_creation_ok. exact B. Qed.
Lemma armor_any E master m cert tape : key_armor E master m [] cert tape = res_map (fun r => (fst r, tape)) (key_armor E master m [] cert []).
Proof.
  unfold key_armor. destruct master; unfold mnk_encode_pgp_armor, mnk_encode_subkeys_pgp_armor, mnk_encode_pgp, mnk_encode_subkeys_pgp.
  - change (encode_packets E) with (export E Full). rewrite export_tape_free.
    destruct (export E Full (mnk_keys m) [] []) as [[p t]|e|]; reflexivity.
  - change (encode_subkey_packets E (mnk_keys m) [] cert tape) with (export E (Subkeys_only cert) (mnk_keys m) [] tape). rewrite export_tape_free.
    change (encode_subkey_packets E (mnk_keys m) [] cert []) with (export E (Subkeys_only cert) (mnk_keys m) [] []).
    destruct (export E (Subkeys_only cert) (mnk_keys m) [] []) as [[p t]|e|]; reflexivity.
Qed.
(** What recover prints, with whatever options (keys not encrypted), is the same before and after conversions. *)
Theorem conversions_recover : forall E o i h h' s offset v r u v' r' u',
  wordlist_ok E -> argon_ok E -> aes_ok E -> ro_encrypt_keys o = false ->
  opens E h s offset -> convert_sessions E h h' -> enters_held E (ro_input o) v h -> enters_held E i v' h' ->
  recover_and_print E o v = (r, u) -> recover_and_print E (other_input o i) v' = (r', u') ->
  r = r' /\ exists out, w_stdout u = w_stdout v ++ out /\ w_stdout u' = w_stdout v' ++ out.
Proof.
  intros E o i h h' s offset v r u v' r' u' W A X PK OP C EN EN' H H'.
  pose proof (conversions_keep E h h' s offset W A X C OP) as OP'. destruct (opens_seed E h s offset W A X OP) as [SO OB].
  destruct (opened_input _ _ _ _ _ _ EN OP) as (dm & v2 & D & _ & OF). destruct (opened_input _ _ _ _ _ _ EN' OP') as (dm' & v2' & D' & _ & OF').
  pose proof (keeps_input _ blind_stdout E (ro_input o) v) as KS. rewrite D in KS. pose proof (keeps_input _ blind_stdout E i v') as KS'. rewrite D' in KS'.
  cbn [snd] in KS, KS'. pose proof (created dm offset OB OF) as CR. pose proof (created dm' offset OB OF') as CR'.
  unfold recover_and_print in H, H'. cbn [other_input ro_ttl ro_enc_index ro_auth_index ro_sign_index ro_only ro_input ro_name ro_email ro_encrypt_keys ro_self_cert] in H'.
  rewrite PK in H, H'. destruct (ttl_option_pure E (ro_ttl o)) as (rt & T). unfold andthen at 1 in H. unfold andthen at 1 in H'. rewrite T in H, H'.
  assert (STOP : forall q : CliMain.outcome unit, (q, v) = (r, u) -> (q, v') = (r', u') -> r = r' /\ exists out, w_stdout u = w_stdout v ++ out /\ w_stdout u' = w_stdout v' ++ out).
  { intros q Q Q'. injection Q as <- <-. injection Q' as <- <-. split; [reflexivity|]. exists []. rewrite !app_nil_r. auto. }
  assert (STOP2 : forall q : CliMain.outcome unit, (q, v2) = (r, u) -> (q, v2') = (r', u') -> r = r' /\ exists out, w_stdout u = w_stdout v ++ out /\ w_stdout u' = w_stdout v' ++ out).
  { intros q Q Q'. injection Q as <- <-. injection Q' as <- <-. split; [reflexivity|]. exists []. rewrite !app_nil_r. auto. }
  destruct rt as [ttl|e| | |c]; try (apply (STOP _ H H')).
  destruct (_ || _) in H, H'; [apply (STOP _ H H')|].
  unfold andthen at 1 in H. unfold lift at 1 in H. unfold andthen at 1 in H'. unfold lift at 1 in H'.
  destruct (decode_only_key_types (ro_only o)) as [[master types]|e|]; cbn [of_res] in H, H'; try (apply (STOP _ H H')).
  unfold andthen at 1 in H. unfold andthen at 1 in H'. rewrite D in H. rewrite D' in H'. rewrite CR in H. rewrite CR' in H'.
  unfold andthen at 1 in H. unfold lift in H. unfold andthen at 1 in H'. unfold lift in H'.
  destruct (mnk_new E s ((first_second + offset) * second) _) as [m|e|]; cbn [of_res] in H, H'; try (apply (STOP2 _ H H')).
  unfold andthen at 1 in H. unfold ret in H. unfold andthen at 1 in H'. unfold ret in H'.
  unfold andthen, with_random in H, H'. fold (key_armor E master m [] (ro_self_cert o)) in H, H'.
  destruct (key_armor E master m [] (ro_self_cert o) (w_random v2)) as [[out rest]|e|] eqn:KA.
  - destruct (armor_tape_free _ _ _ _ _ _ _ KA) as [-> AF]. rewrite AF in H'. unfold print_out in H, H'. injection H as <- <-. injection H' as <- <-.
    split; [reflexivity|]. eexists. cbn [set_stdout set_random w_stdout]. rewrite KS, KS'. split; reflexivity.
  - rewrite armor_any in KA, H'. destruct (key_armor E master m [] (ro_self_cert o) []) as [[out' rest']|e'|]; cbn [res_map] in KA, H'; try discriminate KA.
    injection KA as ->. apply (STOP2 _ H H').
  - rewrite armor_any in KA, H'. destruct (key_armor E master m [] (ro_self_cert o) []) as [[out' rest']|e'|]; cbn [res_map] in KA, H'; try discriminate KA.
    apply (STOP2 _ H H').
Qed.
Print Assumptions conversions_recover.

Lemma phrase_opens E g w m words s opts pw : wordlist_ok E -> argon_ok E -> aes_ok E -> hkdf_ok E -> seed_ok s -> opts_ok (opts_of opts) ->
  mnk_new E s (w_now w) opts = Ok m -> phrase_of E g w m words ->
  (if go_encrypt_phrase g then exists p, fst (user_input_password (w_tty w) true (after_seed g (w_stdin w))) = Ok p /\ pw = Some p else pw = None) ->
  opens E (words, pw) s (w_now w / second - first_second).
Proof.
  intros W A X HK S OK N PO P. destruct (mnk_new_window_only _ _ _ _ _ N) as (_ & T & R). destruct (window_second _ R) as (B1 & B2 & B3).
  rewrite mnk_new_window in N by auto. apply ok_inj in N. subst m. unfold phrase_of in PO. destruct (go_encrypt_phrase g).
  - destruct PO as (p & src & P1 & BS & EN). destruct P as (p' & P2 & ->). rewrite P1 in P2. injection P2 as <-.
    unfold mnk_encode_encrypted in EN. rewrite creation_offset_ok in EN by auto. cbn [mnk_seed] in EN.
    assert (Hp : p <> []).
    { intros ->. unfold encode_mnemonic_encrypted in EN. destruct (era_check _); cbn [bind] in EN; discriminate. }
    assert (Hl : (3 <= length src)%nat).
    { destruct (Nat.le_gt_cases 3 (length src)); auto. exfalso. unfold encode_mnemonic_encrypted in EN. destruct S as [Era _]. rewrite Era in EN.
      change (era_check 0) with (Ok tt) in EN. cbn [bind] in EN. destruct (zlen p =? 0); [discriminate|].
      destruct (BitBuffer.new_bitbuf 1 version_bits); cbn [bind] in EN; try discriminate.
      rewrite rand_int_salt_short in EN by auto. discriminate. }
    destruct (encrypted_roundtrip E s (w_now w / second - first_second) p src W A X S B1 Hp BS Hl) as (ws & dm & Q & _ & F & D & _ & EN' & OF & DS).
    rewrite Q in EN. injection EN as <-. exists dm. cbn [fst snd]. auto 10.
  - subst pw. unfold mnk_encode_plaintext in PO. rewrite creation_offset_ok in PO by auto. cbn [mnk_seed] in PO.
    destruct (plaintext_roundtrip E s (w_now w / second - first_second) W S B1) as (ws & dm & Q & _ & F & D & _ & EN' & OF & DS).
    rewrite Q in PO. injection PO as <-. exists dm. cbn [fst snd]. auto 10.
Qed.
(** generate, then convert any number of times, then recover: the key that generate printed *)
Theorem generate_convert_recover : forall E g o w r w' words pw h' v,
  wordlist_ok E -> argon_ok E -> aes_ok E -> hkdf_ok E -> world_ok w -> same_request g o ->
  generate_and_print E g w = (r, w') -> go_out_file g = [] -> w_shown w' = w_shown w ++ [words] ->
  (if go_encrypt_phrase g then exists p, fst (user_input_password (w_tty w) true (after_seed g (w_stdin w))) = Ok p /\ pw = Some p else pw = None) ->
  convert_sessions E (words, pw) h' -> enters_held E (ro_input o) v h' ->
  exists out v2, w_stdout w' = w_stdout w ++ [out ++ [10]] /\
    recover_and_print E o v = (Ret tt, v2) /\ w_stdout v2 = w_stdout v ++ [out ++ [10]].
Proof.
  intros E g o w r w' words pw h' v W A X HK WO SR G OF SH P C EN.
  destruct (generate_facts E g w r w' WO G (proj1 (sr_plain _ _ SR))) as [(_ & _ & N)|(ttl & master & types & s & m & ws & out & T & O & S & N & AF & PO & SO & S1 & _)].
  { exfalso. rewrite N in SH. exact (not_shown _ _ SH). }
  rewrite (S1 OF) in SH. apply shown_once in SH. subst ws.
  assert (OK : opts_ok (opts_of (request E (go_name g) (go_email g) ttl types))) by (unfold opts_ok; cbn; lia).
  pose proof (phrase_opens E g w m words s _ pw W A X HK S OK N PO P) as OP. apply (conversions_keep E _ _ _ _ W A X C) in OP.
  destruct (opened_input _ _ _ _ _ _ EN OP) as (dm & v2 & D & _ & OFF). destruct (opens_seed E _ _ _ W A X OP) as [_ OB].
  pose proof (created dm _ OB OFF) as CR. pose proof (keeps_input _ blind_stdout E (ro_input o) v) as KS. rewrite D in KS. cbn [snd] in KS.
  assert (NM : mnk_new E s (dm_creation dm) (request E (go_name g) (go_email g) ttl types) = Ok m).
  { destruct (mnk_new_window_only _ _ _ _ _ N) as (_ & TT & R). destruct (window_second _ R) as (B1 & B2 & B3). rewrite mnk_new_window in N by auto. rewrite <- N.
    rewrite Zplus_minus in CR. rewrite CR. rewrite mnk_new_window by auto. rewrite B3. reflexivity. }
  destruct SR as [Q1 Q2 Q3 Q4 [_ Q5] Q6 (I1 & I2 & I3)].
  exists out. unfold recover_and_print. rewrite Q1, Q2, Q3, Q4, Q5, Q6, I1, I2, I3.
  unfold andthen at 1. rewrite T. cbn [Z.gtb Z.compare orb max_subkey_index]. change (0 >? max_subkey_index) with false. cbn [orb].
  unfold andthen at 1. unfold lift at 1. rewrite O. cbn [of_res].
  unfold andthen at 1. rewrite D. unfold andthen at 1. unfold lift. change (u16 0) with 0.
  fold (request E (go_name g) (go_email g) ttl types). rewrite NM. cbn [of_res].
  unfold andthen at 1. unfold ret. unfold andthen, with_random. fold (key_armor E master m [] true). rewrite AF.
  eexists. split; [exact SO|]. split; [reflexivity|]. cbn [set_stdout set_random w_stdout]. f_equal. exact KS.
Qed.
Print Assumptions generate_convert_recover.

(** *** A case: a plaintext phrase is typed into convert and encrypted (the new password is mistyped first); the new
    phrase is typed into convert with its password, after an empty line, and encrypted with another password; the last
    one is typed into recover. *)
Definition chain_world (words : list bytes) (lines : list bytes) : world := case_world words lines.
Definition chain_convert : convert_options := mk_conv (mk_in false []) true [].
Lemma chain_typed words lines : phrase_ok toy_env words ->
  read_phrase toy_env (mk_in false []) (chain_world words lines) = (Ret words, set_stdin (chain_world words lines) (password_lines lines)).
Proof.
  intros (F & w & t & -> & SF & SZ). unfold read_phrase. cbn [io_in_file io_simple orb negb chain_world case_world w_tty].
  unfold from_stdin. cbn [w_stdin chain_world case_world]. rewrite (raw_entry_typed toy_env (map (fun w => w ++ [13]) (w :: t)) (w :: t) w (password_lines lines) toy_search_ok);
    [reflexivity|apply toy_types|reflexivity|exact SF|exact SZ].
  rewrite forallb_forall. intros u U. rewrite Forall_forall in F. apply in_list_true, F, U.
Qed.
Lemma chain_session words pw s offset before news p : phrase_ok toy_env words -> opens toy_env (words, pw) s offset ->
  before = match pw with None => [] | Some q => [[]; q] end -> Forall (fun l => ~ In 10 l) (before ++ news) ->
  match pw with None => True | Some q => pass_text q = q end -> chosen true (map pass_text news) = Some p ->
  exists new w', decode_and_convert toy_env chain_convert (chain_world words (before ++ news)) = (Ret tt, w') /\ w_shown w' = [new] /\
    phrase_ok toy_env new /\ opens toy_env (new, Some p) s offset /\ convert_session toy_env (words, pw) (new, Some p) /\
    enters_held toy_env (mk_in false []) (chain_world words (before ++ news)) (words, pw) /\
    exists x v, decode_mnemonic_from_input toy_env (mk_in false []) (chain_world words (before ++ news)) = (Ret x, v) /\
      fst (user_input_password (w_tty v) true (w_stdin v)) = Ok p.
Proof.
  intros P OP -> NL PT CH. set (before := match pw with None => [] | Some q => [[]; q] end) in *. set (w := chain_world words (before ++ news)).
  assert (BR : Forall byte (w_random w)) by apply case_start_ok. apply Forall_app in NL as [NB NN].
  assert (EN : enters_held toy_env (co_input chain_convert) w (words, pw)).
  { exists (set_stdin w (password_lines (before ++ news))). split; [apply chain_typed; exact P|]. cbn [fst snd]. destruct pw as [q|]; [|exact I].
    split; [reflexivity|]. exists [[]], q, (password_lines news). split.
    - unfold before, password_lines. cbn [set_stdin w_stdin flat_map app]. rewrite <- app_assoc. reflexivity.
    - inversion NB as [|? ? N1 N2]; subst. inversion N2; subst. split; [constructor; [assumption|constructor; [assumption|constructor]]|]. split; [exact PT|].
      intros dm _. constructor; [left; reflexivity|constructor]. }
  destruct (opened_input _ _ _ _ _ _ EN OP) as (dm & v & D & DM & OF).
  assert (V : w_tty v = true /\ w_stdin v = password_lines news).
  { destruct OP as (dm2 & D2 & _ & S). cbn [fst snd] in D2, S, DM. rewrite DM in D2. apply ok_inj in D2. subst dm2.
    pose proof (chain_typed words (before ++ news) P) as RP. change (chain_world words (before ++ news)) with w in RP. destruct pw as [q|].
    - destruct S as (E1 & NE & DS). inversion NB as [|? ? N1 N2]; subst. inversion N2 as [|? ? N3 _]; subst.
      assert (R : decode_mnemonic_from_input toy_env (mk_in false []) w = (Ret (s, dm), set_prompts (set_stdin (set_stdin w (password_lines (before ++ news))) (password_lines news)) (w_prompts (set_stdin w (password_lines (before ++ news))) + length (filter nonblank [[]]) + 1))).
      { apply (retry_first toy_env (mk_in false []) w words _ dm [[]] q (password_lines news) s RP DM E1).
        - reflexivity.
        - unfold before, password_lines. cbn [set_stdin w_stdin flat_map app]. rewrite <- app_assoc. reflexivity.
        - constructor; [assumption|constructor; [assumption|constructor]].
        - constructor; [left; reflexivity|constructor].
        - rewrite PT. exact NE.
        - rewrite PT. exact DS. }
      change (co_input chain_convert) with (mk_in false []) in D. rewrite R in D. apply pair_equal_spec in D as [_ D]. subst v. split; reflexivity.
    - destruct S as (E1 & DS). change (co_input chain_convert) with (mk_in false []) in D. rewrite (retry_plain toy_env (mk_in false []) w words _ dm RP DM E1), DS in D.
      apply pair_equal_spec in D as [_ D]. subst v. split; reflexivity. }
  destruct V as [VT VS]. pose proof (prompt_chooses true news NN) as PC. rewrite CH in PC.
  destruct (convert_works toy_env chain_convert w s dm v p toy_wordlist_ok toy_argon_ok toy_aes_ok BR D eq_refl) as (new & w' & dm' & G & SH & D2 & De).
  - intros width Q. injection Q as <-. lia.
  - vm_compute. lia.
  - intros _. split; [exact VT|]. exists news. auto.
  - assert (CS : convert_session toy_env (words, pw) (new, Some p)).
    { apply (Converted toy_env chain_convert w (Ret tt) w' (words, pw) new (Some p) BR EN G SH). cbn [chain_convert co_encrypt].
      exists s, dm, v, p. split; [exact D|]. split; [rewrite VT, VS; exact PC|reflexivity]. }
    destruct (convert_step toy_env _ _ s offset toy_wordlist_ok toy_argon_ok toy_aes_ok CS OP) as [O2 F]. cbn [fst] in F.
    exists new, w'. split; [exact G|]. split; [exact SH|]. split; [exact (decodable_phrase_ok toy_env new dm' toy_wordlist_ok F D2)|]. split; [exact O2|]. split; [exact CS|]. split; [exact EN|].
    exists (s, dm), v. split; [exact D|rewrite VT, VS; exact PC].
Qed.
Lemma chain_opens words w0 : generate_and_print toy_env (case_generate false []) case_start = (Ret tt, w0) -> w_shown w0 = [words] ->
  exists s offset, opens toy_env (words, None) s offset.
Proof.
  intros G SH.
  destruct (generate_facts toy_env (case_generate false []) case_start (Ret tt) w0 case_start_ok G eq_refl) as [(_ & _ & N)|(ttl & master & types & s & m & ws & out & T & O & SS & N & AF & PO & SO & S1 & _)].
    { exfalso. rewrite N in SH. discriminate SH. }
    specialize (S1 eq_refl). rewrite SH in S1. change (w_shown case_start) with (@nil (list bytes)) in S1. cbn [app] in S1. injection S1 as <-.
    eexists s, _. eapply (phrase_opens toy_env (case_generate false [])); [apply toy_wordlist_ok|apply toy_argon_ok|apply toy_aes_ok|apply toy_hkdf_ok|exact SS| |exact N|exact PO|reflexivity].
    unfold opts_ok; cbn; lia.
Qed.
Definition second_lines : list bytes := [bs "other"; bs "other"].
Example chain_case : exists words w0 new1 w1 new2 w2 v out,
  generate_and_print toy_env (case_generate false []) case_start = (Ret tt, w0) /\ w_shown w0 = [words] /\ w_stdout w0 = [out] /\
  decode_and_convert toy_env chain_convert (chain_world words case_lines) = (Ret tt, w1) /\ w_shown w1 = [new1] /\
  decode_and_convert toy_env chain_convert (chain_world new1 ([[]; bs "secret"] ++ second_lines)) = (Ret tt, w2) /\ w_shown w2 = [new2] /\
  recover_and_print toy_env (case_recover []) (chain_world new2 [bs "other"]) = (Ret tt, v) /\ w_stdout v = [out].
Proof.
  destruct (case_works false []) as (w0 & G & S). destruct (S eq_refl) as (words & SH).
  assert (P : phrase_ok toy_env words)
    by (eapply (shown_phrase_ok toy_env); [apply toy_wordlist_ok|apply toy_argon_ok|apply toy_aes_ok|apply toy_hkdf_ok|apply case_start_ok| |exact G|reflexivity|exact SH]; reflexivity).
  assert (OP : exists s offset, opens toy_env (words, None) s offset) by exact (chain_opens words w0 G SH).
  destruct OP as (s & offset & OP).
  destruct (chain_session words None s offset [] case_lines (bs "secret") P OP eq_refl case_lines_ok I) as (new1 & w1 & G1 & SH1 & P1 & OP1 & C1 & _); [vm_compute; reflexivity|].
  destruct (chain_session new1 (Some (bs "secret")) s offset [[]; bs "secret"] second_lines (bs "other") P1 OP1 eq_refl) as (new2 & w2 & G2 & SH2 & P2 & OP2 & C2 & _);
    [repeat constructor; vm_compute; intuition discriminate|vm_compute; reflexivity|vm_compute; reflexivity|].
  destruct (generate_convert_recover toy_env (case_generate false []) (case_recover []) case_start (Ret tt) w0 words None (new2, Some (bs "other")) (chain_world new2 [bs "other"]))
    as (out & v & O1 & R & O2);
    [apply toy_wordlist_ok|apply toy_argon_ok|apply toy_aes_ok|apply toy_hkdf_ok|apply case_start_ok| |exact G|reflexivity|exact SH|reflexivity| | |].
  - constructor; repeat split; reflexivity.
  - eapply rt_trans; apply rt_step; [exact C1|exact C2].
  - exists (set_stdin (chain_world new2 [bs "other"]) (password_lines [bs "other"])). split; [apply chain_typed; exact P2|]. cbn [fst snd].
    split; [reflexivity|]. exists [], (bs "other"), []. split; [reflexivity|]. split; [repeat constructor; vm_compute; intuition discriminate|]. split; [vm_compute; reflexivity|].
    intros dm _. constructor.
  - exists words, w0, new1, w1, new2, w2, v, (out ++ [10]). split; [exact G|]. split; [exact SH|]. split; [exact O1|]. split; [exact G1|]. split; [exact SH1|].
    split; [exact G2|]. split; [exact SH2|]. split; [exact R|exact O2].
Qed.
