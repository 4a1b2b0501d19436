(** C105: the keys of one phrase, as sessions with the whole program print them, whatever the command lines. *)
From Coq Require Import Lia ZifyBool ZifyNat Relations.
From Verif.Model Require Import GoBase Env Version Seed Encoding GoTime Recovery PgpWire PgpKeys Mnemonikey CliText CliInput CliFlags CliMain.
From Verif.Spec Require Import EnvSpec DecodeSpec PhraseSpec KeySpec PgpSpec ExportSpec ArmorSpec CliEnvSpec InputSpec FileSpec EndSpec FlagSpec ChainSpec OutputSpec EntropySpec SameKeySpec ProgramSpec TwiceSpec.
From Verif.Proofs Require Import BitsP S2kP KeysP ExportP EnvInst CliInst.
From Verif.Props Require Import KeyProps ExportProps LifeProps InputProps FileProps EndProps ArmorProps ConvertProps ChainProps EntropyProps FlagProps ProgramProps.
From Verif.Props Require SameKeyProps.

(** ** Two sessions of recover *)
Definition same_indices (o1 o2 : recover_options) : Prop :=
  ro_enc_index o1 = ro_enc_index o2 /\ ro_auth_index o1 = ro_auth_index o2 /\ ro_sign_index o1 = ro_sign_index o2.
Definition indices_nonneg (o : recover_options) : Prop := 0 <= ro_enc_index o /\ 0 <= ro_auth_index o /\ 0 <= ro_sign_index o.
Lemma indices_bound E o v v' : recover_and_print E o v = (Ret tt, v') -> ro_enc_index o < 65536 /\ ro_auth_index o < 65536 /\ ro_sign_index o < 65536.
Proof.
  intros H. unfold recover_and_print in H. destruct (ttl_option_pure E (ro_ttl o)) as (rt & T). unfold andthen at 1 in H. rewrite T in H.
  destruct rt as [ttl|e| | |c]; try discriminate.
  destruct ((ro_enc_index o >? max_subkey_index) || (ro_auth_index o >? max_subkey_index) || (ro_sign_index o >? max_subkey_index)) eqn:IX; [discriminate|].
  unfold max_subkey_index in IX. lia.
Qed.
Lemma recoveries_same E edv h s offset h1 h2 o1 o2 v1 v1' v2 v2' :
  wordlist_ok E -> argon_ok E -> aes_ok E -> hkdf_ok E -> env_ok E edv -> seconds_ok E -> armor_ok E ->
  opens E h s offset -> convert_sessions E h h1 -> convert_sessions E h h2 ->
  enters_held E (ro_input o1) v1 h1 -> enters_held E (ro_input o2) v2 h2 -> Forall byte (w_random v1) -> Forall byte (w_random v2) ->
  user_id_ok (trim_space E (ro_name o1)) (trim_space E (ro_email o1)) -> user_id_ok (trim_space E (ro_name o2)) (trim_space E (ro_email o2)) ->
  indices_nonneg o1 -> same_indices o1 o2 ->
  recover_and_print E o1 v1 = (Ret tt, v1') -> recover_and_print E o2 v2 = (Ret tt, v2') ->
  exists x1 u1 (kp1 : bytes) x2 u2 (kp2 : bytes),
    decode_mnemonic_from_input E (ro_input o1) v1 = (Ret x1, u1) /\ key_password (ro_encrypt_keys o1) (w_tty u1) (w_stdin u1) kp1 /\
    decode_mnemonic_from_input E (ro_input o2) v2 = (Ret x2, u2) /\ key_password (ro_encrypt_keys o2) (w_tty u2) (w_stdin u2) kp2 /\
    (password_ok kp1 -> password_ok kp2 -> exists packets1 packets2 t1 t2,
      printed (w_stdout v1) (w_stdout v1') packets1 /\ printed (w_stdout v2) (w_stdout v2') packets2 /\
      read_transferable packets1 = Some t1 /\ read_transferable packets2 = Some t2 /\
      same_keys E kp1 t1 kp2 t2 /\
      (ro_name o1 = ro_name o2 -> ro_email o1 = ro_email o2 -> ro_ttl o1 = ro_ttl o2 -> same_signatures t1 t2) /\
      (ro_only o1 = ro_only o2 -> same_subkeys t1 t2 /\ (tk_secret t1 = Stub <-> tk_secret t2 = Stub))).
Proof.
  intros W A X HK HE SE HA OP C1 C2 EN1 EN2 B1 B2 U1 U2 (N1 & N2 & N3) (I1 & I2 & I3) R1 R2.
  destruct (opens_seed E _ _ _ W A X OP) as [SO OB].
  pose proof (conversions_keep E _ _ _ _ W A X C1 OP) as OP1. pose proof (conversions_keep E _ _ _ _ W A X C2 OP) as OP2.
  destruct (opened_input _ _ _ _ _ _ EN1 OP1) as (dm1 & u1 & D1 & _ & F1). destruct (opened_input _ _ _ _ _ _ EN2 OP2) as (dm2 & u2 & D2 & _ & F2).
  assert (CR : dm_creation dm1 = dm_creation dm2) by (rewrite (created dm1 _ OB F1), (created dm2 _ OB F2); reflexivity).
  destruct (recover_draws E edv o1 v1 v1' W A X HK HE SE HA B1 U1 N1 N2 N3 R1) as (ma1 & ty1 & s1 & e1 & u1' & ttl1 & m1 & kp1 & TA1 & OT1 & Q1 & M1 & KP1 & PR1).
  destruct (recover_draws E edv o2 v2 v2' W A X HK HE SE HA B2 U2 ltac:(lia) ltac:(lia) ltac:(lia) R2) as (ma2 & ty2 & s2 & e2 & u2' & ttl2 & m2 & kp2 & TA2 & OT2 & Q2 & M2 & KP2 & PR2).
  assert (s1 = s /\ e1 = dm1 /\ u1' = u1) as (-> & -> & ->) by (rewrite D1 in Q1; repeat split; congruence). clear Q1.
  assert (s2 = s /\ e2 = dm2 /\ u2' = u2) as (-> & -> & ->) by (rewrite D2 in Q2; repeat split; congruence). clear Q2. cbv zeta in PR1, PR2.
  exists (s, dm1), u1, kp1, (s, dm2), u2, kp2. split; [exact D1|]. split; [exact KP1|]. split; [exact D2|]. split; [exact KP2|]. intros P1 P2.
  destruct (PR1 P1) as (packets1 & t1 & Y1 & AP1 & _ & RT1 & _). destruct (PR2 P2) as (packets2 & t2 & Y2 & AP2 & _ & RT2 & _).
  exists packets1, packets2, t1, t2. split; [exact Y1|]. split; [exact Y2|]. split; [exact RT1|]. split; [exact RT2|].
  set (p1 := mk_opts (trim_space E (ro_name o1)) _ _ _ _ _ _) in *. set (p2 := mk_opts (trim_space E (ro_name o2)) _ _ _ _ _ _) in *.
  rewrite api_packets_export in AP1, AP2.
  assert (EX1 : exports E (if ma1 then Full else Subkeys_only (ro_self_cert o1)) (mnk_keys m1) kp1 (w_random v1) t1) by (eexists; eexists; split; [exact AP1|exact RT1]).
  assert (EX2 : exports E (if ma2 then Full else Subkeys_only (ro_self_cert o2)) (mnk_keys m2) kp2 (w_random v2) t2) by (eexists; eexists; split; [exact AP2|exact RT2]).
  destruct (indices_bound _ _ _ _ R1) as (L1 & L2 & L3).
  assert (OK1 : opts_ok (opts_of (Some p1))) by (unfold opts_ok; cbn; lia). assert (OK2 : opts_ok (opts_of (Some p2))) by (unfold opts_ok; cbn; lia).
  destruct U1 as (_ & _ & UL1). destruct U2 as (_ & _ & UL2).
  destruct (SameKeyProps.exports_same_keys E edv s (dm_creation dm1) (dm_creation dm2) (Some p1) (Some p2) m1 m2 _ _ kp1 kp2 (w_random v1) (w_random v2) t1 t2
     HK HE SO OK1 OK2 ltac:(rewrite CR; reflexivity) UL1 UL2 M1 M2 I1 I2 I3 P1 P2 B1 B2 EX1 EX2) as (K1 & K2 & K3).
  split; [exact K1|]. split.
  - intros J1 J2 J3. apply K2; cbn [opts_of p1 p2 ko_name ko_email ko_ttl]; [congruence|congruence|].
    rewrite <- J3 in TA2. unfold ttl_asked in TA1, TA2. destruct (ro_ttl o1); [congruence|]. rewrite TA1 in TA2. apply ok_inj in TA2. exact TA2.
  - intros Q. rewrite <- Q, OT1 in OT2. apply ok_inj in OT2. assert (ma2 = ma1 /\ ty2 = ty1) as [-> ->] by (split; congruence).
    split; [apply K3; reflexivity|].
    pose proof (new_key_set_built E edv s _ _ m1 HK HE SO OK1 UL1 M1) as BU1. pose proof (new_key_set_built E edv s _ _ m2 HK HE SO OK2 UL2 M2) as BU2.
    pose proof (eg_secret _ _ _ _ _ _ _ (exports_inv E edv _ _ _ _ _ HE BU1 B1 P1 EX1)) as S1.
    pose proof (eg_secret _ _ _ _ _ _ _ (exports_inv E edv _ _ _ _ _ HE BU2 B2 P2 EX2)) as S2.
    destruct ma1; [|tauto]. destruct S1 as [S1 _], S2 as [S2 _]. split; intros Z1; rewrite Z1 in *; discriminate.
Qed.

(** ** Command lines *)
Lemma digit_run_nonneg base s v : 0 <= base -> digit_run base s v -> 0 <= v.
Proof. intros B. induction 1 as [c d [D|[D|D]]|s v c d _ IH [D|[D|D]]|s v c d _ IH [D|[D|D]]]; nia. Qed.
Lemma prefixed_nonneg base s v : 0 <= base -> prefixed_run base s v -> 0 <= v.
Proof. intros B [R|(s' & _ & R)]; eapply digit_run_nonneg; eauto. Qed.
Lemma integer_nonneg s v : integer s v -> 0 <= v.
Proof.
  destruct 1 as [|c s v _ R|s v R|p base s v L R]; [lia|exact (digit_run_nonneg 10 _ _ ltac:(lia) R)|exact (prefixed_nonneg 8 _ _ ltac:(lia) R)|].
  refine (prefixed_nonneg base _ _ _ R). destruct L; lia.
Qed.
Lemma setting_nonneg tab s args rest n k : settings_then tab s args rest -> last_setting s n = Some (Num k) -> 0 <= k.
Proof.
  induction 1 as [|m kd v opt s args rest _ SP _ IH]; cbn [last_setting]; [discriminate|]. destruct (last_setting s n) as [w|]; [intros Q; injection Q as ->; auto|].
  destruct (list_eq_dec Z.eq_dec m n); [|discriminate]. intros Q. injection Q as ->.
  assert (M : exists t, means kd t (Num k)) by (inversion SP; subst; eauto). destruct M as (t & M). inversion M; subst. eapply integer_nonneg; eauto.
Qed.
Lemma session_indices E s w c w' : session E (bs "recover") recover_table s w c w' -> indices_nonneg (recover_settings s).
Proof.
  intros (args & rest & (more & S & _) & _). unfold indices_nonneg, recover_settings. cbn [ro_enc_index ro_auth_index ro_sign_index]. unfold number_of.
  repeat split; destruct (last_setting s _) as [[b|k|t]|] eqn:Q; try lia; eapply setting_nonneg; eauto.
Qed.
Lemma recover_session_of E s w c w' : session E (bs "recover") recover_table s w c w' ->
  exists o w1, recover_and_print E (recover_settings s) w = (o, w1) /\ same_effects w1 w' /\ (c = Some 0 <-> o = Ret tt).
Proof.
  intros (args & rest & C & N & M). destruct (recover_and_print E (recover_settings s) w) as [o w1] eqn:B. exists o, w1. split; [reflexivity|].
  exact (runs_effects E _ args _ w o w1 c w' (recover_line E s args rest w C N) B M).
Qed.

Lemma same_option_text s1 s2 n d : same_option s1 s2 (bs n) -> text_of s1 n d = text_of s2 n d.
Proof. unfold same_option, text_of. intros ->. reflexivity. Qed.

(** Two calls of recover, in any spelling, with phrases that any number of conversions made of one phrase: if both end with
    status 0 and the indices agree, both print the same keys, whatever the other options and the passwords. *)
Theorem program_recovers_twice : forall E edv h s offset h1 h2 r1 r2 v1 v1' v2 v2',
  wordlist_ok E -> argon_ok E -> aes_ok E -> hkdf_ok E -> env_ok E edv -> seconds_ok E -> armor_ok E ->
  opens E h s offset -> convert_programs E h h1 -> convert_programs E h h2 ->
  enters_held E (input_of r1) v1 h1 -> enters_held E (input_of r2) v2 h2 -> Forall byte (w_random v1) -> Forall byte (w_random v2) ->
  user_id_ok (trim_space E (name_of r1)) (trim_space E (email_of r1)) -> user_id_ok (trim_space E (name_of r2)) (trim_space E (email_of r2)) ->
  same_index_options r1 r2 ->
  session E (bs "recover") recover_table r1 v1 (Some 0) v1' -> session E (bs "recover") recover_table r2 v2 (Some 0) v2' ->
  exists x1 u1 (kp1 : bytes) x2 u2 (kp2 : bytes),
    decode_mnemonic_from_input E (input_of r1) v1 = (Ret x1, u1) /\ key_password (switch_of r1 "encrypt-keys" false) (w_tty u1) (w_stdin u1) kp1 /\
    decode_mnemonic_from_input E (input_of r2) v2 = (Ret x2, u2) /\ key_password (switch_of r2 "encrypt-keys" false) (w_tty u2) (w_stdin u2) kp2 /\
    (password_ok kp1 -> password_ok kp2 -> exists packets1 packets2 t1 t2,
      printed (w_stdout v1) (w_stdout v1') packets1 /\ printed (w_stdout v2) (w_stdout v2') packets2 /\
      read_transferable packets1 = Some t1 /\ read_transferable packets2 = Some t2 /\
      same_keys E kp1 t1 kp2 t2 /\
      (same_identity_options r1 r2 -> same_signatures t1 t2) /\
      (same_option r1 r2 (bs "only") -> same_subkeys t1 t2 /\ (tk_secret t1 = Stub <-> tk_secret t2 = Stub))).
Proof.
  intros E edv h s offset h1 h2 r1 r2 v1 v1' v2 v2' W A X HK HE SE HA OP C1 C2 EN1 EN2 B1 B2 U1 U2 IX S1 S2.
  pose proof (session_indices _ _ _ _ _ S1) as N1.
  destruct (recover_session_of _ _ _ _ _ S1) as (q1 & y1 & R1 & (O1 & _) & Q1). destruct (recover_session_of _ _ _ _ _ S2) as (q2 & y2 & R2 & (O2 & _) & Q2).
  assert (q1 = Ret tt) by (apply Q1; reflexivity). assert (q2 = Ret tt) by (apply Q2; reflexivity). subst q1 q2.
  destruct (recoveries_same E edv h s offset h1 h2 (recover_settings r1) (recover_settings r2) v1 y1 v2 y2 W A X HK HE SE HA OP
    (convert_programs_sessions _ _ _ C1) (convert_programs_sessions _ _ _ C2) EN1 EN2 B1 B2 U1 U2 N1 IX R1 R2) as (x1 & u1 & kp1 & x2 & u2 & kp2 & D1 & K1 & D2 & K2 & ALL).
  exists x1, u1, kp1, x2, u2, kp2. split; [exact D1|]. split; [exact K1|]. split; [exact D2|]. split; [exact K2|]. intros P1 P2.
  destruct (ALL P1 P2) as (packets1 & packets2 & t1 & t2 & Y1 & Y2 & RT1 & RT2 & SK & SS & SO). exists packets1, packets2, t1, t2.
  rewrite O1, O2. split; [exact Y1|]. split; [exact Y2|]. split; [exact RT1|]. split; [exact RT2|]. split; [exact SK|]. split.
  - intros (I1 & I2 & I3). apply SS; apply same_option_text; assumption.
  - intros I1. apply SO, same_option_text, I1.
Qed.
Print Assumptions program_recovers_twice.

(** The same for generate and recover: the password of the phrase is asked for after that of the keys. *)
Theorem program_recovers_keys : forall E edv g w w',
  wordlist_ok E -> argon_ok E -> aes_ok E -> hkdf_ok E -> env_ok E edv -> seconds_ok E -> armor_ok E -> world_ok w ->
  user_id_ok (trim_space E (name_of g)) (trim_space E (email_of g)) -> session E (bs "generate") generate_table g w (Some 0) w' ->
  exists words (kp1 : bytes), phrase_ok E words /\
    (text_of g "out-word-file" [] = [] -> w_shown w' = w_shown w ++ [words]) /\
    (text_of g "out-word-file" [] <> [] -> w_shown w' = w_shown w /\ w_files w' (text_of g "out-word-file" []) = File (join [32] words ++ [10])) /\
    key_password (switch_of g "encrypt-keys" false) (w_tty w) (seed_drawn g (w_stdin w)) kp1 /\
    forall pw h r v v', phrase_password g (w_tty w) (before_phrase_password g (w_tty w) (w_stdin w)) pw ->
      convert_programs E (words, pw) h -> enters_held E (input_of r) v h -> Forall byte (w_random v) ->
      user_id_ok (trim_space E (name_of r)) (trim_space E (email_of r)) -> same_index_options [] r ->
      session E (bs "recover") recover_table r v (Some 0) v' ->
      exists x u (kp2 : bytes), decode_mnemonic_from_input E (input_of r) v = (Ret x, u) /\
        key_password (switch_of r "encrypt-keys" false) (w_tty u) (w_stdin u) kp2 /\
        (password_ok kp1 -> password_ok kp2 -> exists packets1 packets2 t1 t2,
          printed (w_stdout w) (w_stdout w') packets1 /\ printed (w_stdout v) (w_stdout v') packets2 /\
          read_transferable packets1 = Some t1 /\ read_transferable packets2 = Some t2 /\
          same_keys E kp1 t1 kp2 t2 /\
          (same_identity_options g r -> same_signatures t1 t2) /\
          (same_option g r (bs "only") -> same_subkeys t1 t2 /\ (tk_secret t1 = Stub <-> tk_secret t2 = Stub))).
Proof.
  intros E edv g w w' W A X HK HE SE HA WO U S. destruct (generate_session E g w _ w' S) as (o & w1 & G & (O1 & O2 & O3) & Q). assert (o = Ret tt) by (apply Q; reflexivity). subst o.
  destruct (SameKeyProps.recover_any_protection E edv (generate_settings g) w w1 W A X HK HE SE HA WO U G) as (words & kp1 & PG & PK & KP1 & ALL).
  exists words, kp1. split; [exact PK|]. unfold phrase_given in PG. change (go_out_file (generate_settings g)) with (text_of g "out-word-file" []) in PG. rewrite O1, O2, O3.
  split; [intros OF; rewrite OF in PG; apply PG|]. split; [intros OF; destruct (text_of g "out-word-file" []) as [|b p]; [congruence|]; destruct PG as (P1 & P2 & _); auto|].
  split; [rewrite <- seed_drawn_same; exact KP1|].
  intros pw h r v v' PP C EN B U2 (I1 & I2 & I3) SR. destruct (recover_session_of _ _ _ _ _ SR) as (q & y & R & (Y1 & _) & QQ). assert (q = Ret tt) by (apply QQ; reflexivity). subst q.
  destruct (ALL pw h (recover_settings r) v y) as (s & dm & u & kp2 & D & KP2 & FIN);
    [|apply convert_programs_sessions; exact C|exact EN|exact B|exact U2|repeat split; symmetry; assumption|exact R|].
  { unfold SameKeyProps.phrase_password. unfold phrase_password, before_phrase_password in PP. change (go_encrypt_phrase (generate_settings g)) with (switch_of g "encrypt-phrase" false).
    change (go_encrypt_keys (generate_settings g)) with (switch_of g "encrypt-keys" false). rewrite seed_drawn_same. exact PP. }
  exists (s, dm), u, kp2. split; [exact D|]. split; [exact KP2|]. intros P1 P2. destruct (FIN P1 P2) as (packets1 & packets2 & t1 & t2 & Z1 & Z2 & RT1 & RT2 & SK & SS & SO).
  exists packets1, packets2, t1, t2. rewrite Y1. split; [exact Z1|]. split; [exact Z2|]. split; [exact RT1|]. split; [exact RT2|]. split; [exact SK|]. split.
  - intros (J1 & J2 & J3). apply SS. repeat split; symmetry; apply same_option_text; assumption.
  - intros J1. apply SO. symmetry. apply same_option_text, J1.
Qed.
Print Assumptions program_recovers_keys.

(** ** A case: the sessions of [SameKeyProps.protected_case] from their command lines, and a third one without options *)
Definition all_args : list bytes :=
  [bs "--unsafe-entropy"; bs "dice"; bs "-name= username"; bs "-encrypt-keys"; bs "-email"; bs "username@email.com"; bs "-ttl=1y";
   bs "--only=encryption,signing"; bs "-out-word-file=phrase"; bs "--encrypt-phrase=1"].
Definition all_settings : list (bytes * setting) :=
  [(bs "unsafe-entropy", Txt (bs "dice")); (bs "name", Txt (bs " username")); (bs "encrypt-keys", On true); (bs "email", Txt (bs "username@email.com"));
   (bs "ttl", Txt (bs "1y")); (bs "only", Txt (bs "encryption,signing")); (bs "out-word-file", Txt (bs "phrase")); (bs "encrypt-phrase", On true)].
Ltac set_bare tab n := apply (Set_one tab n Switch (On true)) with (opt := [_]); [cbv [generate_table recover_table In]; tauto|apply Spell_bare; constructor|].
Lemma all_line : command_line generate_table all_settings all_args [].
Proof.
  exists []. split; [|constructor]. set_next generate_table (bs "unsafe-entropy") (bs "dice"). set_eq generate_table (bs "name") (bs " username"). set_bare generate_table (bs "encrypt-keys").
  set_next generate_table (bs "email") (bs "username@email.com"). set_eq generate_table (bs "ttl") (bs "1y"). set_eq generate_table (bs "only") (bs "encryption,signing").
  set_eq generate_table (bs "out-word-file") (bs "phrase").
  apply (Set_one generate_table (bs "encrypt-phrase") Switch (On true)) with (opt := [bs "--encrypt-phrase=1"]);
    [cbv [generate_table In]; tauto|apply (Spell_equals _ _ (bs "1")); constructor; cbv [true_texts In]; tauto|constructor].
Qed.
Definition back_args : list bytes :=
  [bs "-in-word-file=copy"; bs "--encrypt-keys"; bs "-name=username "; bs "-email"; bs "username@email.com"; bs "-ttl=1y"; bs "-only=encryption,authentication";
   bs "-self-cert=false"; bs "-enc-index"; bs "0"].
Definition back_settings : list (bytes * setting) :=
  [(bs "in-word-file", Txt (bs "copy")); (bs "encrypt-keys", On true); (bs "name", Txt (bs "username ")); (bs "email", Txt (bs "username@email.com"));
   (bs "ttl", Txt (bs "1y")); (bs "only", Txt (bs "encryption,authentication")); (bs "self-cert", On false); (bs "enc-index", Num 0)].
Lemma back_line : command_line recover_table back_settings back_args [].
Proof.
  exists []. split; [|constructor]. set_eq recover_table (bs "in-word-file") (bs "copy"). set_bare recover_table (bs "encrypt-keys"). set_eq recover_table (bs "name") (bs "username ").
  set_next recover_table (bs "email") (bs "username@email.com"). set_eq recover_table (bs "ttl") (bs "1y"). set_eq recover_table (bs "only") (bs "encryption,authentication").
  apply (Set_one recover_table (bs "self-cert") Switch (On false)) with (opt := [bs "-self-cert=false"]);
    [cbv [recover_table In]; tauto|apply (Spell_equals _ _ (bs "false")); constructor; cbv [false_texts In]; tauto|].
  apply (Set_one recover_table (bs "enc-index") Number (Num 0)) with (opt := [_; _]); [cbv [recover_table In]; tauto|apply Spell_next; [discriminate|constructor|constructor; [constructor|reflexivity]]|constructor].
Qed.
Definition plain_args : list bytes := [bs "-in-word-file"; bs "copy"].
Definition plain_settings : list (bytes * setting) := [(bs "in-word-file", Txt (bs "copy"))].
Lemma plain_line : command_line recover_table plain_settings plain_args [].
Proof. exists []. split; [|constructor]. set_next recover_table (bs "in-word-file") (bs "copy"). constructor. Qed.
Example program_keys_case : exists w' v v' v3 packets4 packets3 t4 t3 packets1 packets2 t1 t2,
  mnemonikey_main toy_env (bs "generate" :: all_args) case_world = (Some 0, w') /\ w_files v (bs "copy") = w_files w' (bs "phrase") /\
  mnemonikey_main toy_env (bs "recover" :: back_args) v = (Some 0, v') /\
  printed (w_stdout case_world) (w_stdout w') packets1 /\ printed (w_stdout v) (w_stdout v') packets2 /\
  read_transferable packets1 = Some t1 /\ read_transferable packets2 = Some t2 /\ same_keys toy_env (bs "one") t1 (bs "three") t2 /\
  mnemonikey_main toy_env (bs "recover" :: plain_args) v = (Some 0, v3) /\
  printed (w_stdout v) (w_stdout v') packets4 /\ printed (w_stdout v) (w_stdout v3) packets3 /\
  read_transferable packets4 = Some t4 /\ read_transferable packets3 = Some t3 /\ same_keys toy_env (bs "three") t4 [] t3.
Proof.
  destruct SameKeyProps.protected_case as (w' & v' & content & _ & _ & _ & _ & G & FC & R & _).
  assert (WO : world_ok case_world).
  { split; [|split].
    - exact case_tape_bytes.
    - repeat constructor; vm_compute; congruence.
    - intros p c. cbn [case_world w_files]. destruct (bytes_eqb p (bs "dice")); [|discriminate]. intros Q. injection Q as <-. repeat constructor; vm_compute; congruence. }
  assert (U : user_id_ok (trim_space toy_env (name_of all_settings)) (trim_space toy_env (email_of all_settings)))
    by (split; [|split]; [repeat constructor; vm_compute; congruence|repeat constructor; vm_compute; congruence|vm_compute; reflexivity]).
  assert (U2 : user_id_ok (trim_space toy_env (name_of back_settings)) (trim_space toy_env (email_of back_settings)))
    by (split; [|split]; [repeat constructor; vm_compute; congruence|repeat constructor; vm_compute; congruence|vm_compute; reflexivity]).
  set (v := SameKeyProps.case_back_world content) in *.
  assert (BV : Forall byte (w_random v)) by (unfold v, SameKeyProps.case_back_world; cbn [w_random]; exact case_tape_bytes).
  assert (M1 : mnemonikey_main toy_env (bs "generate" :: all_args) case_world = (Some 0, w')).
  { apply (runs_ok toy_env (bs "generate") all_args (generate_and_print toy_env (generate_settings all_settings))).
    - apply (generate_line toy_env all_settings all_args []); [apply all_line|discriminate].
    - change (generate_settings all_settings) with case_all. exact G. }
  assert (M2 : mnemonikey_main toy_env (bs "recover" :: back_args) v = (Some 0, v')).
  { apply (recover_session toy_env back_settings back_args [] v v' back_line); [discriminate|]. change (recover_settings back_settings) with SameKeyProps.case_back. exact R. }
  destruct (program_recovers_keys toy_env toy_verify all_settings case_world w' toy_wordlist_ok toy_argon_ok toy_aes_ok toy_hkdf_ok toy_env_ok toy_seconds_ok toy_armor_ok WO U)
    as (words & kp1 & PK & _ & FILE & KP1 & ALL); [exists all_args, []; split; [exact all_line|split; [discriminate|exact M1]]|].
  destruct FILE as [_ FILE]; [discriminate|].
  assert (CF : File content = File (join [32] words ++ [10])) by (rewrite <- FC; exact FILE). assert (CT : content = join [32] words ++ [10]) by congruence.
  assert (RP : read_phrase toy_env (input_of back_settings) v = (Ret words, v)).
  { change (read_phrase toy_env (input_of back_settings) v) with (read_word_file toy_env (bs "copy") v). unfold read_word_file, andthen, open_file.
    assert (Q : w_files v (bs "copy") = File content) by (subst v; reflexivity). rewrite Q. unfold lift. rewrite CT.
    destruct (killed_save_outcomes toy_env words toy_wordlist_ok toy_words_short PK) as [_ K]. rewrite firstn_all in K. unfold word_file_content in K. rewrite K. reflexivity. }
  assert (EN : enters_held toy_env (input_of back_settings) v (words, Some (bs "two"))).
  { exists v. split; [exact RP|]. cbn [snd fst]. split; [reflexivity|]. exists [], (bs "two"), (bs "three" ++ [10] ++ bs "three" ++ [10]).
    split; [reflexivity|]. split; [repeat constructor; vm_compute; intuition congruence|]. split; [vm_compute; reflexivity|]. intros; constructor. }
  destruct (ALL (Some (bs "two")) (words, Some (bs "two")) back_settings v v') as (x & u & kp2 & D & KP2 & FIN).
  - exists (bs "two"). split; [vm_compute; reflexivity|reflexivity].
  - apply rt_refl.
  - exists v. split; [exact RP|]. cbn [snd fst]. split; [reflexivity|]. exists [], (bs "two"), (bs "three" ++ [10] ++ bs "three" ++ [10]).
    split; [reflexivity|]. split; [repeat constructor; vm_compute; intuition congruence|]. split; [vm_compute; reflexivity|]. intros; constructor.
  - exact BV.
  - exact U2.
  - repeat split.
  - exists back_args, []. split; [exact back_line|]. split; [discriminate|exact M2].
  - destruct KP1 as [_ KP1]. assert (kp1 = bs "one") by (apply ok_inj; rewrite <- KP1; vm_compute; reflexivity). subst kp1.
    destruct (generate_draws toy_env toy_verify case_all case_world w' toy_wordlist_ok toy_argon_ok toy_aes_ok toy_hkdf_ok toy_env_ok toy_seconds_ok toy_armor_ok WO U G)
      as (source & ttl & master & types & m & kp & words2 & dm & _ & _ & _ & _ & _ & _ & PG2 & PK2 & DM & EC & _ & _ & _ & PH).
    assert (R2 : read_phrase toy_env (input_of back_settings) v = (Ret words2, v)).
    { eapply (SameKeyProps.saved_phrase_read toy_env case_all case_world w'); [apply toy_wordlist_ok|apply toy_words_short|exact PK2|exact PG2|discriminate|discriminate|].
      change (go_out_file case_all) with (bs "phrase"). rewrite FC. reflexivity. }
    assert (words2 = words) by (rewrite RP in R2; congruence). subst words2.
    destruct (PH eq_refl) as (ppw & PQ & DS & _). assert (ppw = bs "two") by (apply ok_inj; rewrite <- PQ; vm_compute; reflexivity). subst ppw.
    pose proof (retry_first toy_env (input_of back_settings) v words v dm [] (bs "two") (bs "three" ++ [10] ++ bs "three" ++ [10]) _
      RP DM EC eq_refl eq_refl ltac:(repeat constructor; vm_compute; intuition congruence) ltac:(constructor) ltac:(discriminate) DS) as DI.
    clear PH. rewrite DI in D. pose proof (f_equal snd D) as DU. cbn [snd] in DU. subst u.
    destruct KP2 as [_ KP2]. assert (kp2 = bs "three") by (apply ok_inj; rewrite <- KP2; vm_compute; reflexivity). subst kp2.
    assert (U3 : user_id_ok (trim_space toy_env (name_of plain_settings)) (trim_space toy_env (email_of plain_settings)))
      by (split; [|split]; [repeat constructor; vm_compute; congruence|repeat constructor; vm_compute; congruence|vm_compute; reflexivity]).
    match type of DS with _ = Ok ?x => set (sd := x) in *; clearbody sd end.
    assert (R3 : exists v3, recover_and_print toy_env (recover_settings plain_settings) v = (Ret tt, v3)).
    { match type of DI with _ = (_, ?z) => set (y := z) in *; clearbody y end.
      apply (recover_works toy_env toy_verify (recover_settings plain_settings) v 0 true None sd dm y []
        toy_wordlist_ok toy_argon_ok toy_aes_ok toy_hkdf_ok toy_env_ok BV U3); try exact DI; first [reflexivity|split; [discriminate|reflexivity]|vm_compute; congruence]. }
    destruct R3 as (v3 & R3).
    assert (M3 : mnemonikey_main toy_env (bs "recover" :: plain_args) v = (Some 0, v3)) by (apply (recover_session toy_env plain_settings plain_args [] v v3 plain_line); [discriminate|exact R3]).
    assert (OP : opens toy_env (words, Some (bs "two")) sd (dm_offset dm)) by (exists dm; cbn [fst snd]; split; [exact DM|]; split; [reflexivity|]; split; [exact EC|]; split; [discriminate|exact DS]).
    destruct (program_recovers_twice toy_env toy_verify _ sd _ _ _ back_settings plain_settings v v' v v3 toy_wordlist_ok toy_argon_ok toy_aes_ok toy_hkdf_ok toy_env_ok toy_seconds_ok toy_armor_ok
      OP (rt_refl _ _ _) (rt_refl _ _ _) EN EN BV BV U2 U3) as (x1 & u1 & kpa & x2 & u2 & kpb & E1 & KA & E2 & KB & FIN2);
      [repeat split|exists back_args, []; split; [exact back_line|split; [discriminate|exact M2]]|exists plain_args, []; split; [exact plain_line|split; [discriminate|exact M3]]|].
    rewrite DI in E1. pose proof (f_equal snd E1) as EU. cbn [snd] in EU. subst u1.
    destruct KA as [_ KA]. assert (kpa = bs "three") by (apply ok_inj; rewrite <- KA; vm_compute; reflexivity). cbn in KB. subst kpa kpb.
    destruct FIN2 as (packets4 & packets3 & t4 & t3 & Z1 & Z2 & RT4 & RT3 & SK3 & _); [vm_compute; congruence|vm_compute; congruence|].
    destruct FIN as (packets1 & packets2 & t1 & t2 & Y1 & Y2 & RT1 & RT2 & SK & _); [vm_compute; congruence|vm_compute; congruence|].
    exists w', v, v', v3, packets4, packets3, t4, t3, packets1, packets2, t1, t2. split; [exact M1|]. split; [rewrite FC; reflexivity|]. split; [exact M2|]. split; [exact Y1|]. split; [exact Y2|]. split; [exact RT1|]. split; [exact RT2|]. split; [exact SK|]. split; [exact M3|]. auto 6.
Qed.
