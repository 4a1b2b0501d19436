(** Generating and recovering, end to end (C56). *)
From Coq Require Import Lia ZifyBool ZifyNat.
From Verif.Model Require Import GoBase Env Version Seed Encoding GoTime Recovery PgpKeys Mnemonikey CliText CliInput CliFlags CliMain.
From Verif.Spec Require Import EnvSpec DecodeSpec KeySpec ExportSpec CliEnvSpec InputSpec FileSpec EndSpec.
From Verif.Proofs Require Import BitsP WordsP RoundtripP S2kP KeysP InputP EntryP FileP MainP EnvInst CliInst.
From Verif.Props Require Import PhraseProps SeedProps KeyProps ExportProps LifeProps TextProps InputProps FileProps.
Ltac Zify.zify_post_hook ::= Z.div_mod_to_equations.

Lemma seed_source_ok o w s w1 : world_ok w -> seed_from_source (go_entropy o) w = (Ret s, w1) ->
  seed_ok s /\ Forall byte (w_random w1) /\ w_stdin w1 = after_seed o (w_stdin w) /\ w_tty w1 = w_tty w /\
  w_files w1 = w_files w /\ w_stdout w1 = w_stdout w /\ w_shown w1 = w_shown w.
Proof.
  intros (B1 & B2 & B3) H. unfold seed_from_source in H.
  assert (G : forall src s' rest, Forall byte src -> generate_seed src = Ok (s', rest) -> seed_ok s' /\ rest = skipn 16 src).
  { intros src s' rest B X. destruct (generate_seed_exact src B) as [X1 X2]. destruct (Nat.le_gt_cases 16 (length src)) as [L|L].
    - rewrite X1 in X by auto. injection X as <- <-. split; [|reflexivity]. split; [reflexivity|]. cbn [seed_value].
      assert (Hf : Forall byte (firstn 16 src)) by (apply firstn_byte; auto). pose proof (be_uint_bound _ Hf) as U.
      unfold zlen in U. rewrite firstn_length_le in U by lia. exact U.
    - rewrite X2 in X by auto. discriminate. }
  unfold after_seed. destruct (go_entropy o) as [|c e] eqn:Q.
  - unfold with_random in H. destruct (generate_seed (w_random w)) as [[s' rest]|x|] eqn:X; try discriminate.
    injection H as <- <-. destruct (G _ _ _ B1 X) as [S ->]. cbn [set_random w_random w_stdin w_tty w_files w_stdout w_shown].
    split; [auto|]. split; [apply skipn_byte; auto|]. repeat split; reflexivity.
  - destruct (bytes_eqb (c :: e) (bs "-")) eqn:D.
    + destruct (generate_seed (w_stdin w)) as [[s' rest]|x|] eqn:X; try discriminate.
      injection H as <- <-. destruct (G _ _ _ B2 X) as [S ->]. cbn [set_stdin w_random w_stdin w_tty w_files w_stdout w_shown].
      split; [auto|]. split; [auto|]. repeat split; reflexivity.
    + unfold andthen, open_file in H. destruct (w_files w (c :: e)) as [room| |content| |] eqn:F; try discriminate.
      unfold lift in H. destruct (generate_seed content) as [[s' rest]|x|] eqn:X; cbn [bind of_res] in H; try discriminate.
      injection H as <- <-. destruct (G _ _ _ (B3 _ _ F) X) as [S _]. split; [auto|]. split; [auto|]. repeat split; reflexivity.
Qed.
Definition key_armor (E : Env) (master : bool) (m : mnemonikey) (pw : bytes) (cert : bool) : bytes -> res (bytes * bytes) :=
  if master then mnk_encode_pgp_armor E m pw else mnk_encode_subkeys_pgp_armor E m pw cert.
Lemma armor_tape_free E master m cert tp out rest : key_armor E master m [] cert tp = Ok (out, rest) ->
  rest = tp /\ forall tp', key_armor E master m [] cert tp' = Ok (out, tp').
Proof.
  unfold key_armor. destruct master; unfold mnk_encode_pgp_armor, mnk_encode_subkeys_pgp_armor, mnk_encode_pgp, mnk_encode_subkeys_pgp.
  - change (encode_packets E) with (export E Full). rewrite export_tape_free.
    destruct (export E Full (mnk_keys m) [] []) as [[p t]|e|] eqn:X; cbn [bind res_map fst]; intros H; try discriminate.
    injection H as <- <-. split; [reflexivity|]. intros tp'. rewrite export_tape_free, X. reflexivity.
  - change (fun k p c t => encode_subkey_packets E k p c t) with (fun k p c t => export E (Subkeys_only c) k p t).
    change (encode_subkey_packets E (mnk_keys m) [] cert tp) with (export E (Subkeys_only cert) (mnk_keys m) [] tp). rewrite export_tape_free.
    destruct (export E (Subkeys_only cert) (mnk_keys m) [] []) as [[p t]|e|] eqn:X; cbn [bind res_map fst]; intros H; try discriminate.
    injection H as <- <-. split; [reflexivity|]. intros tp'.
    change (encode_subkey_packets E (mnk_keys m) [] cert tp') with (export E (Subkeys_only cert) (mnk_keys m) [] tp').
    rewrite export_tape_free, X. reflexivity.
Qed.

Definition request (E : Env) (name email : bytes) (ttl : Z) (types : option (list bytes)) : option key_options :=
  Some (mk_opts (trim_space E name) (trim_space E email) ttl 0 0 0 types).
Definition phrase_of (E : Env) (g : generate_options) (w : world) (m : mnemonikey) (words : list bytes) : Prop :=
  if go_encrypt_phrase g
  then exists pw src, fst (user_input_password (w_tty w) true (after_seed g (w_stdin w))) = Ok pw /\
         Forall byte src /\ mnk_encode_encrypted E m pw src = Ok words
  else mnk_encode_plaintext E m = Ok words.

Lemma ttl_option_pure E t : exists r, forall v, ttl_option E t v = (r, v).
Proof. unfold ttl_option. destruct t; [eexists; reflexivity|]. destruct (parse_ttl E _); eexists; reflexivity. Qed.
Lemma generate_facts E g w r w' : world_ok w -> generate_and_print E g w = (r, w') -> go_encrypt_keys g = false ->
  (r <> Ret tt /\ w_stdout w' = w_stdout w /\ w_shown w' = w_shown w) \/
  exists ttl master types s m words out,
    (forall v, ttl_option E (go_ttl g) v = (Ret ttl, v)) /\ decode_only_key_types (go_only g) = Ok (master, types) /\
    seed_ok s /\ mnk_new E s (w_now w) (request E (go_name g) (go_email g) ttl types) = Ok m /\
    (forall tape, key_armor E master m [] true tape = Ok (out, tape)) /\ phrase_of E g w m words /\
    w_stdout w' = w_stdout w ++ [out ++ [10]] /\
    (go_out_file g = [] -> w_shown w' = w_shown w ++ [words]) /\
    (go_out_file g <> [] -> r = Ret tt /\ w_shown w' = w_shown w /\ w_files w' (go_out_file g) = File (word_file_content words)).
Proof.
  intros WO H NE. unfold generate_and_print in H. cbv zeta in H. rewrite NE in H. set (now := w_now w) in *.
  assert (L : forall v, w_stdout v = w_stdout w -> w_shown v = w_shown w -> forall o : CliMain.outcome unit, o <> Ret tt -> (o, v) = (r, w') ->
    r <> Ret tt /\ w_stdout w' = w_stdout w /\ w_shown w' = w_shown w).
  { intros v V1 V2 o O Q. injection Q as <- <-. auto. }
  destruct (ttl_option_pure E (go_ttl g)) as (rt & T). unfold andthen at 1 in H. rewrite T in H.
  destruct rt as [ttl|e| | |c]; [|left; eapply L; [| | |exact H]; auto; discriminate..].
  unfold andthen at 1 in H. unfold lift at 1 in H.
  destruct (decode_only_key_types (go_only g)) as [[master types]|e|] eqn:O; cbn [of_res] in H; [|left; eapply L; [| | |exact H]; auto; discriminate..].
  unfold andthen at 1 in H. destruct (seed_from_source (go_entropy g) w) as [os w1] eqn:SS.
  assert (K1 : w_stdout w1 = w_stdout w /\ w_shown w1 = w_shown w).
  { split; [pose proof (keeps_source _ blind_stdout (go_entropy g) w) as K|pose proof (keeps_source _ blind_shown (go_entropy g) w) as K];
    rewrite SS in K; exact K. }
  destruct K1 as [K1 K1']. destruct os as [s|e| | |c]; [|left; eapply L; [| | |exact H]; auto; discriminate..].
  destruct (seed_source_ok g w s w1 WO SS) as (SO & BR & IN & TT & FF & _ & _).
  unfold andthen at 1 in H. unfold lift at 1 in H.
  fold (request E (go_name g) (go_email g) ttl types) in H.
  destruct (mnk_new E s now (request E (go_name g) (go_email g) ttl types)) as [m|e|] eqn:N; cbn [of_res] in H;
    [|left; eapply L; [| | |exact H]; auto; discriminate..].
  unfold andthen at 1 in H. unfold ret at 1 in H.
  unfold andthen at 1 in H. unfold with_random in H. fold (key_armor E master m [] true) in H.
  destruct (key_armor E master m [] true (w_random w1)) as [[out rest]|e|] eqn:X; [|left; eapply L; [| | |exact H]; auto; discriminate..].
  destruct (armor_tape_free E master m true _ _ _ X) as [-> AF].
  set (w2 := set_random w1 (w_random w1)) in *.
  assert (K2 : w_stdout w2 = w_stdout w /\ w_shown w2 = w_shown w /\ w_files w2 = w_files w) by (split; [exact K1|split; [exact K1'|exact FF]]).
  destruct K2 as (K2 & K2' & K2'').
  unfold andthen at 1 in H.
  destruct ((if go_encrypt_phrase g then do phrase_password <- ask_password true; (fun w => (of_res (mnk_encode_encrypted E m phrase_password (w_random w)), w))
             else lift (mnk_encode_plaintext E m)) w2) as [ow w3] eqn:PH.
  assert (K3 : w_stdout w3 = w_stdout w /\ w_shown w3 = w_shown w /\ w_files w3 = w_files w).
  { assert (KK : forall {X} (f : world -> X), blind f -> f w3 = f w2).
    { intros Y f B. assert (K : keeps f (if go_encrypt_phrase g then do phrase_password <- ask_password true; (fun w => (of_res (mnk_encode_encrypted E m phrase_password (w_random w)), w))
             else lift (mnk_encode_plaintext E m))) by (keeping B). specialize (K w2). rewrite PH in K. exact K. }
    rewrite (KK _ _ blind_stdout), (KK _ _ blind_shown), (KK _ _ blind_files). auto. }
  destruct K3 as (K3 & K3' & K3''). destruct ow as [words|e| | |c]; [|left; eapply L; [| | |exact H]; auto; discriminate..].
  assert (PO : phrase_of E g w m words).
  { unfold phrase_of. destruct (go_encrypt_phrase g).
    - unfold andthen, ask_password in PH. change (w_tty w2) with (w_tty w1) in PH. change (w_stdin w2) with (w_stdin w1) in PH. rewrite TT, IN in PH.
      destruct (user_input_password (w_tty w) true (after_seed g (w_stdin w))) as [[pw|e|] rest]; cbn [of_res fst] in *; [|discriminate|discriminate].
      exists pw, (w_random w1). split; [reflexivity|]. split; [exact BR|].
      assert (PH2 : of_res (mnk_encode_encrypted E m pw (w_random w1)) = Ret words)
        by (destruct (w_tty (set_stdin w2 rest)); injection PH as PH _; exact PH).
      destruct (mnk_encode_encrypted E m pw (w_random w1)); cbn [of_res] in PH2; congruence.
    - unfold lift in PH. destruct (mnk_encode_plaintext E m); cbn [of_res] in PH; congruence. }
  unfold andthen at 1 in H. destruct (go_out_file g) as [|b path] eqn:OF.
  - unfold ret at 1 in H. unfold andthen, print_out in H. right. exists ttl, master, types, s, m, words, out.
    split; [exact T|]. split; [reflexivity|]. split; [exact SO|]. split; [exact N|]. split; [exact AF|]. split; [exact PO|].
    unfold print_mnemonic in H. injection H as _ <-. cbn [set_shown set_stdout w_stdout w_shown].
    split; [f_equal; exact K3|]. split; [intros _; f_equal; exact K3'|congruence].
  - destruct (save_mnemonic words (b :: path) w3) as [[u|e| | |c] w4] eqn:SV.
    2-5: left; eapply L; [| | |exact H]; [pose proof (keeps_stdout_save words (b :: path) w3) as K|pose proof (keeps_shown_save words (b :: path) w3) as K|discriminate];
         rewrite SV in K; cbn [snd] in K; congruence.
    destruct u. destruct (save_success words (b :: path) w3 w4 SV) as (_ & C & _ & RS).
    unfold andthen, print_out, ret in H. right. exists ttl, master, types, s, m, words, out.
    split; [exact T|]. split; [reflexivity|]. split; [exact SO|]. split; [exact N|]. split; [exact AF|]. split; [exact PO|].
    injection H as <- <-. cbn [set_stdout w_stdout w_shown w_files].
    pose proof (keeps_stdout_save words (b :: path) w3) as Q1. pose proof (keeps_shown_save words (b :: path) w3) as Q2. rewrite SV in Q1, Q2. cbn [snd] in Q1, Q2.
    split; [f_equal; congruence|]. split; [discriminate|]. intros _. split; [reflexivity|]. split; [congruence|exact C].
Qed.

Lemma recover_facts E g o w v v1 ttl master types s m words out :
  wordlist_ok E -> argon_ok E -> aes_ok E -> hkdf_ok E -> same_request g o ->
  (forall v, ttl_option E (go_ttl g) v = (Ret ttl, v)) -> decode_only_key_types (go_only g) = Ok (master, types) ->
  seed_ok s -> mnk_new E s (w_now w) (request E (go_name g) (go_email g) ttl types) = Ok m ->
  (forall tape, key_armor E master m [] true tape = Ok (out, tape)) -> phrase_of E g w m words ->
  read_phrase E (ro_input o) v = (Ret words, v1) ->
  (go_encrypt_phrase g = true -> exists pw,
     fst (user_input_password (w_tty w) true (after_seed g (w_stdin w))) = Ok pw /\ answers E words pw v1) ->
  exists v2, recover_and_print E o v = (Ret tt, v2) /\ w_stdout v2 = w_stdout v ++ [out ++ [10]].
Proof.
  intros W A X HK SR T O S N AF PO RP PW.
  assert (OK : opts_ok (opts_of (request E (go_name g) (go_email g) ttl types))) by (unfold opts_ok; cbn; lia).
  assert (D : exists s' dm v2, decode_mnemonic_from_input E (ro_input o) v = (Ret (s', dm), v2) /\ w_stdout v2 = w_stdout v /\
     mnk_new E s' (dm_creation dm) (request E (go_name g) (go_email g) ttl types) = Ok m).
  { assert (KS : w_stdout v1 = w_stdout v) by (pose proof (keeps_read_phrase _ blind_stdout E (ro_input o) v) as K; rewrite RP in K; exact K).
    unfold phrase_of in PO. destruct (go_encrypt_phrase g).
    - destruct (PW eq_refl) as (pw & P1 & (TTY & ls & l & rest & I & NL & PT & WR)).
      destruct PO as (pw' & src & P2 & BS & EN). rewrite P1 in P2. injection P2 as <-.
      assert (Hp : pw <> []).
      { intros ->. unfold mnk_encode_encrypted, encode_mnemonic_encrypted in EN.
        destruct (era_check _); cbn [bind] in EN; try discriminate. }
      assert (SD : mnk_seed m = s).
      { destruct (mnk_new_window_only _ _ _ _ _ N) as (_ & T1 & R1). rewrite mnk_new_window in N by auto. injection N as <-. reflexivity. }
      assert (Hl : (3 <= length src)%nat).
      { destruct (Nat.le_gt_cases 3 (length src)); auto. exfalso.
        unfold mnk_encode_encrypted, encode_mnemonic_encrypted in EN. rewrite SD in EN. destruct S as [Era _]. rewrite Era in EN.
        change (era_check 0) with (Ok tt) in EN. cbn [bind] in EN.
        destruct (zlen pw =? 0); [discriminate|].
        destruct (BitBuffer.new_bitbuf 1 version_bits); cbn [bind] in EN; try discriminate.
        rewrite rand_int_salt_short in EN by auto. discriminate. }
      destruct (recover_from_encrypted E s (w_now w) _ m pw src W A X HK S OK N Hp BS Hl) as (ws & EN2 & RN & RE).
      rewrite EN in EN2. injection EN2 as <-. specialize (RE _ OK).
      specialize (RN (request E (go_name g) (go_email g) ttl types)). unfold recover_plaintext in RN. unfold recover_encrypted in RE. rewrite N in RE.
      destruct (decode_mnemonic E words) as [dm|e|] eqn:DM; cbn [bind] in RN, RE; try discriminate.
      destruct (dm_decrypt_seed E dm pw) as [s'|e|] eqn:DS; cbn [bind] in RE; try discriminate.
      assert (EC : dm_encrypted dm = true).
      { destruct (dm_encrypted dm) eqn:Q; [reflexivity|]. exfalso. unfold dm_decrypt_seed in DS. rewrite Q in DS. cbn [negb] in DS.
        rewrite DS in RN. cbn [bind] in RN. congruence. }
      exists s', dm. eexists. split; [|split; [|exact RE]].
      + subst pw. eapply retry_first with (ls := ls) (l := l) (rest := rest); eauto.
      + cbn [set_prompts set_stdin w_stdout]. exact KS.
    - destruct (recover_from_plaintext E s (w_now w) _ m W HK S OK N) as (ws & EN2 & R).
      rewrite PO in EN2. injection EN2 as <-. destruct (R _ OK) as [R1 _]. rewrite N in R1. unfold recover_plaintext in R1.
      destruct (decode_mnemonic E words) as [dm|e|] eqn:DM; cbn [bind] in R1; try discriminate.
      destruct (dm_seed dm) as [s'|e|] eqn:DS; cbn [bind] in R1; try discriminate.
      assert (EC : dm_encrypted dm = false) by (unfold dm_seed in DS; destruct (dm_encrypted dm); [discriminate|reflexivity]).
      exists s', dm, v1. split; [|split; [exact KS|exact R1]].
      rewrite (retry_plain E (ro_input o) v words v1 dm RP DM EC). rewrite DS. reflexivity. }
  destruct D as (s' & dm & v2 & D & KS & NM). destruct SR as [S1 S2 S3 S4 [_ S5] S6 (I1 & I2 & I3)].
  unfold recover_and_print. rewrite S1, S2, S3, S4, S5, S6, I1, I2, I3.
  unfold andthen at 1. rewrite T. cbn [Z.gtb Z.compare orb max_subkey_index]. change (0 >? max_subkey_index) with false. cbn [orb].
  unfold andthen at 1. unfold lift at 1. rewrite O. cbn [of_res].
  unfold andthen at 1. rewrite D. unfold andthen at 1. unfold lift. change (u16 0) with 0.
  fold (request E (go_name g) (go_email g) ttl types). rewrite NM. cbn [of_res].
  unfold andthen at 1. unfold ret. unfold andthen, with_random. fold (key_armor E master m [] true). rewrite AF.
  eexists. split; [reflexivity|]. cbn [set_stdout set_random w_stdout]. f_equal. exact KS.
Qed.

(** The phrase was shown, and comes back to recover by whatever way: typed, piped or from a file. *)
Theorem generate_then_recover : forall E g o w r w' words v v1,
  wordlist_ok E -> argon_ok E -> aes_ok E -> hkdf_ok E -> world_ok w -> same_request g o ->
  generate_and_print E g w = (r, w') -> go_out_file g = [] -> w_shown w' = w_shown w ++ [words] ->
  read_phrase E (ro_input o) v = (Ret words, v1) ->
  (go_encrypt_phrase g = true -> exists pw,
     fst (user_input_password (w_tty w) true (after_seed g (w_stdin w))) = Ok pw /\ answers E words pw v1) ->
  exists out v2, w_stdout w' = w_stdout w ++ [out ++ [10]] /\
    recover_and_print E o v = (Ret tt, v2) /\ w_stdout v2 = w_stdout v ++ [out ++ [10]].
Proof.
  intros E g o w r w' words v v1 W A X HK WO SR G OF SH RP PW.
  destruct (generate_facts E g w r w' WO G (proj1 (sr_plain _ _ SR))) as [(_ & _ & N)|(ttl & master & types & s & m & ws & out & T & O & S & N & AF & PO & SO & S1 & _)].
  { exfalso. rewrite N in SH. apply (f_equal (@length _)) in SH. rewrite app_length in SH. cbn in SH. lia. }
  rewrite (S1 OF) in SH. apply app_inv_head in SH. injection SH as <-.
  destruct (recover_facts E g o w v v1 ttl master types s m ws out W A X HK SR T O S N AF PO RP PW) as (v2 & R1 & R2).
  exists out, v2. auto.
Qed.
Print Assumptions generate_then_recover.

Lemma phrase_of_ok E g w m words s t opts : wordlist_ok E -> argon_ok E -> aes_ok E -> hkdf_ok E -> seed_ok s -> opts_ok (opts_of opts) ->
  mnk_new E s t opts = Ok m -> phrase_of E g w m words -> phrase_ok E words.
Proof.
  intros W A X HK S OK N PO. destruct (mnk_new_window_only _ _ _ _ _ N) as (_ & T & R). destruct (window_second t R) as (B1 & B2 & B3).
  rewrite mnk_new_window in N by auto. injection N as <-. unfold phrase_of in PO. destruct (go_encrypt_phrase g).
  - destruct PO as (pw & src & _ & BS & EN). unfold mnk_encode_encrypted in EN. rewrite creation_offset_ok in EN by auto. cbn [mnk_seed] in EN.
    assert (Hp : pw <> []).
    { intros ->. unfold encode_mnemonic_encrypted in EN. destruct (era_check _); cbn [bind] in EN; discriminate. }
    assert (Hl : (3 <= length src)%nat).
    { destruct (Nat.le_gt_cases 3 (length src)); auto. exfalso. unfold encode_mnemonic_encrypted in EN. destruct S as [Era _]. rewrite Era in EN.
      change (era_check 0) with (Ok tt) in EN. cbn [bind] in EN. destruct (zlen pw =? 0); [discriminate|].
      destruct (BitBuffer.new_bitbuf 1 version_bits); cbn [bind] in EN; try discriminate.
      rewrite rand_int_salt_short in EN by auto. discriminate. }
    destruct (encrypted_roundtrip E s (t / second - first_second) pw src W A X S B1 Hp BS Hl) as (ws & dm & P & _ & F & D & _).
    rewrite P in EN. injection EN as <-. eapply decodable_phrase_ok; eauto.
  - unfold mnk_encode_plaintext in PO. rewrite creation_offset_ok in PO by auto. cbn [mnk_seed] in PO.
    destruct (plaintext_roundtrip E s (t / second - first_second) W S B1) as (ws & dm & P & _ & F & D & _).
    rewrite P in PO. injection PO as <-. eapply decodable_phrase_ok; eauto.
Qed.

(** The phrase was saved, and recover reads a copy of the file. *)
Theorem generate_then_recover_file : forall E g o w w' v,
  wordlist_ok E -> argon_ok E -> aes_ok E -> hkdf_ok E -> words_short E -> world_ok w -> same_request g o ->
  generate_and_print E g w = (Ret tt, w') -> go_out_file g <> [] ->
  io_in_file (ro_input o) <> [] -> w_files v (io_in_file (ro_input o)) = w_files w' (go_out_file g) ->
  (go_encrypt_phrase g = true -> exists pw,
     fst (user_input_password (w_tty w) true (after_seed g (w_stdin w))) = Ok pw /\
     forall words, w_files w' (go_out_file g) = File (word_file_content words) -> answers E words pw v) ->
  exists out v2, w_stdout w' = w_stdout w ++ [out ++ [10]] /\ w_shown w' = w_shown w /\
    recover_and_print E o v = (Ret tt, v2) /\ w_stdout v2 = w_stdout v ++ [out ++ [10]].
Proof.
  intros E g o w w' v W A X HK SH WO SR G OF IF F PW.
  destruct (generate_facts E g w _ w' WO G (proj1 (sr_plain _ _ SR))) as [(N & _ & _)|(ttl & master & types & s & m & ws & out & T & O & S & N & AF & PO & SO & _ & S2)].
  { destruct N. reflexivity. }
  destruct (S2 OF) as (_ & NS & FC).
  assert (OK : opts_ok (opts_of (request E (go_name g) (go_email g) ttl types))) by (unfold opts_ok; cbn; lia).
  pose proof (phrase_of_ok E g w m ws s _ _ W A X HK S OK N PO) as P.
  assert (RP : read_phrase E (ro_input o) v = (Ret ws, v)).
  { unfold read_phrase. destruct (io_in_file (ro_input o)) as [|c p]; [congruence|].
    unfold read_word_file, andthen, open_file. rewrite F, FC. unfold lift.
    destruct (killed_save_outcomes E ws W SH P) as [_ K]. rewrite firstn_all in K. rewrite K. reflexivity. }
  destruct (recover_facts E g o w v v ttl master types s m ws out W A X HK SR T O S N AF PO RP) as (v2 & R1 & R2).
  { intros Q. destruct (PW Q) as (pw & Q1 & Q2). exists pw. split; [exact Q1|]. apply Q2. exact FC. }
  exists out, v2. auto.
Qed.
Print Assumptions generate_then_recover_file.

(** Generating works whenever its inputs are in order, so the two theorems above are not about nothing. *)
Theorem generate_works : forall E edv g w ttl master types,
  wordlist_ok E -> argon_ok E -> aes_ok E -> hkdf_ok E -> env_ok E edv -> world_ok w -> go_encrypt_keys g = false ->
  ttl_option E (go_ttl g) w = (Ret ttl, w) -> 0 <= ttl -> decode_only_key_types (go_only g) = Ok (master, types) ->
  zlen (trim_space E (go_name g)) + zlen (trim_space E (go_email g)) < 2 ^ 31 ->
  first_second * second <= w_now w <= last_second * second -> go_entropy g = [] -> (19 <= length (w_random w))%nat ->
  (go_encrypt_phrase g = true -> exists pw, pw <> [] /\ fst (user_input_password (w_tty w) true (w_stdin w)) = Ok pw) ->
  (go_out_file g = [] -> forall width, w_width w = Some width -> 17 <= width) ->
  (go_out_file g <> [] -> w_files w (go_out_file g) = Absent None) ->
  exists w', generate_and_print E g w = (Ret tt, w') /\
    (go_out_file g = [] -> exists words, w_shown w' = w_shown w ++ [words]).
Proof.
  intros E edv g w ttl master types W A X HK HE WO NE T Tp O L WI EN R PW WD AB.
  assert (OK : opts_ok (opts_of (request E (go_name g) (go_email g) ttl types))) by (unfold opts_ok; cbn; lia).
  destruct WO as (B1 & B2 & B3).
  assert (SE : exists s, seed_ok s /\ seed_from_source (go_entropy g) w = (Ret s, set_random w (skipn 16 (w_random w)))).
  { rewrite EN. unfold seed_from_source, with_random. destruct (generate_seed_exact (w_random w) B1) as [X1 _].
    rewrite X1 by lia. eexists. split; [|reflexivity]. split; [reflexivity|]. cbn [seed_value].
    assert (Hf : Forall byte (firstn 16 (w_random w))) by (apply firstn_byte; auto). pose proof (be_uint_bound _ Hf) as U.
    unfold zlen in U. rewrite firstn_length_le in U by lia. exact U. }
  destruct SE as (s & SO & SE).
  pose proof (mnk_new_window E s (w_now w) _ HK SO OK Tp WI) as N.
  set (m := mk_mnk _ s _) in N.
  assert (B : built E (mnk_keys m)) by (eapply new_key_set_built; eauto).
  assert (XO : forall tp, Forall byte tp -> exists out, key_armor E master m [] true tp = Ok (out, tp)).
  { intros tp BT. assert (P : password_ok []) by (unfold password_ok; cbn; lia). unfold key_armor. destruct master.
    - destruct (export_wellformed E edv Full (mnk_keys m) [] tp HE B P BT) as (out & _ & _ & Y & _); [cbn; lia|].
      change (skipn (randomness Full (mnk_keys m) []) tp) with tp in Y. cbn [export] in Y.
      eexists. unfold mnk_encode_pgp_armor, mnk_encode_pgp. rewrite Y. reflexivity.
    - destruct (export_wellformed E edv (Subkeys_only true) (mnk_keys m) [] tp HE B P BT) as (out & _ & _ & Y & _); [cbn; lia|].
      change (skipn (randomness (Subkeys_only true) (mnk_keys m) []) tp) with tp in Y. cbn [export] in Y.
      eexists. unfold mnk_encode_subkeys_pgp_armor, mnk_encode_subkeys_pgp. rewrite Y. reflexivity. }
  set (w1 := set_random w (skipn 16 (w_random w))).
  assert (BW : Forall byte (w_random w1)) by (apply skipn_byte; auto).
  destruct (XO _ BW) as (out & XA).
  set (w2 := set_random w1 (w_random w1)).
  assert (PH : exists words w3, (if go_encrypt_phrase g then do phrase_password <- ask_password true; (fun w => (of_res (mnk_encode_encrypted E m phrase_password (w_random w)), w))
             else lift (mnk_encode_plaintext E m)) w2 = (Ret words, w3) /\ w_shown w3 = w_shown w /\ w_files w3 = w_files w /\ w_width w3 = w_width w).
  { destruct (go_encrypt_phrase g).
    - destruct (PW eq_refl) as (pw & Pn & PI). unfold andthen, ask_password. cbn [w2 w1 set_random w_tty w_stdin].
      destruct (user_input_password (w_tty w) true (w_stdin w)) as [r rest]. cbn [fst] in PI. subst r. cbn [of_res].
      destruct (recover_from_encrypted E s (w_now w) _ m pw (w_random w1) W A X HK SO OK N Pn BW) as (ws & EQ & _ & _).
      { cbn [w1 set_random w_random]. rewrite skipn_length. lia. }
      destruct (w_tty (set_stdin w2 rest)); (eexists; eexists; split; [cbn [set_prompts set_stdin w2 set_random w_random w1] in *; rewrite EQ; reflexivity|repeat split; reflexivity]).
    - destruct (recover_from_plaintext E s (w_now w) _ m W HK SO OK N) as (ws & EQ & _). unfold lift. rewrite EQ.
      eexists; eexists; split; [reflexivity|repeat split; reflexivity]. }
  destruct PH as (words & w3 & PH & KS & KF & KW).
  unfold generate_and_print. cbv zeta. rewrite NE. unfold andthen at 1. rewrite T.
  unfold andthen at 1. unfold lift at 1. rewrite O. cbn [of_res]. unfold andthen at 1. rewrite SE.
  unfold andthen at 1. unfold lift at 1. fold (request E (go_name g) (go_email g) ttl types). rewrite N. cbn [of_res].
  unfold andthen at 1. unfold ret at 1. unfold andthen at 1. unfold with_random. fold (key_armor E master m [] true). fold w1. rewrite XA.
  unfold andthen at 1. fold w2. rewrite PH. unfold andthen at 1. destruct (go_out_file g) as [|c p] eqn:OF.
  - unfold ret at 1. unfold andthen, print_out, print_mnemonic. cbn [set_stdout w_width w_shown]. rewrite KW, KS.
    pose proof (reminder_wide_enough words w (WD eq_refl)) as RW. unfold print_mnemonic in RW. cbn [fst] in RW. rewrite RW.
    eexists. split; [reflexivity|]. intros _. eexists. reflexivity.
  - destruct (save_possible words (c :: p) w3) as (w4 & SV); [rewrite KF; apply AB; discriminate|].
    rewrite SV. unfold andthen, print_out. eexists. split; [reflexivity|]. discriminate.
Qed.
Print Assumptions generate_works.

Lemma shown_phrase_ok E g w r w' words : wordlist_ok E -> argon_ok E -> aes_ok E -> hkdf_ok E -> world_ok w ->
  go_encrypt_keys g = false -> generate_and_print E g w = (r, w') -> go_out_file g = [] -> w_shown w' = w_shown w ++ [words] ->
  phrase_ok E words.
Proof.
  intros W A X HK WO NE G OF SH.
  destruct (generate_facts E g w r w' WO G NE) as [(_ & _ & N)|(ttl & master & types & s & m & ws & out & T & O & S & N & AF & PO & SO & S1 & _)].
  { exfalso. rewrite N in SH. apply (f_equal (@length _)) in SH. rewrite app_length in SH. cbn in SH. lia. }
  rewrite (S1 OF) in SH. apply app_inv_head in SH. injection SH as <-.
  assert (OK : opts_ok (opts_of (request E (go_name g) (go_email g) ttl types))) by (unfold opts_ok; cbn; lia).
  eapply phrase_of_ok; eauto.
Qed.

(** Cases: a phrase typed back word by word; and an encrypted one saved, copied under another name and
    unlocked after an empty line. *)
Definition case_generate (encrypt : bool) (file : bytes) : generate_options :=
  mk_gen (bs " username") (bs "username@email.com") (bs "1y") false (bs "master,encryption") file encrypt [].
Definition case_recover (file : bytes) : recover_options :=
  mk_rec (bs " username") (bs "username@email.com") (bs "1y") false (bs "master,encryption") (mk_in false file) true 0 0 0.
Definition case_start : world :=
  mk_world (fun _ => Absent None) (bs "pw" ++ [10] ++ bs "pw" ++ [10]) true (Some 80) case_tape (1700000000 * second + 5) [] 0 [] 0.
Lemma case_start_ok : world_ok case_start.
Proof.
  split; [|split].
  - apply Forall_forall. intros x Hx. apply repeat_spec in Hx. subst. split; reflexivity || discriminate.
  - repeat constructor; vm_compute; congruence.
  - discriminate.
Qed.
Lemma case_works encrypt file : exists w', generate_and_print toy_env (case_generate encrypt file) case_start = (Ret tt, w') /\
  (file = [] -> exists words, w_shown w' = [words]).
Proof.
  destruct (generate_works toy_env toy_verify (case_generate encrypt file) case_start (31536000 * second) true (Some [bs "encryption"])) as (w' & G & S);
    [apply toy_wordlist_ok|apply toy_argon_ok|apply toy_aes_ok|apply toy_hkdf_ok|apply toy_env_ok| |reflexivity
    |vm_compute; reflexivity|vm_compute; congruence|vm_compute; reflexivity|vm_compute; reflexivity|vm_compute; intuition congruence
    |reflexivity|vm_compute; lia| | | |].
  - apply case_start_ok.
  - intros _. exists (bs "pw"). split; [discriminate|vm_compute; reflexivity].
  - intros _ width Q. injection Q as <-. lia.
  - reflexivity.
  - exists w'. split; [exact G|]. exact S.
Qed.
Example typed_back_case : exists words w' v v2 out,
  generate_and_print toy_env (case_generate false []) case_start = (Ret tt, w') /\ w_shown w' = [words] /\
  w_stdin v = concat (map (fun w => w ++ [13]) words) /\ w_stdout w' = [out] /\
  recover_and_print toy_env (case_recover []) v = (Ret tt, v2) /\ w_stdout v2 = [out].
Proof.
  destruct (case_works false []) as (w' & G & S). destruct (S eq_refl) as (words & SH).
  assert (P : phrase_ok toy_env words)
    by (eapply (shown_phrase_ok toy_env); [apply toy_wordlist_ok|apply toy_argon_ok|apply toy_aes_ok|apply toy_hkdf_ok|apply case_start_ok| |exact G|reflexivity|exact SH]; reflexivity).
  set (v := mk_world (fun _ => Absent None) (concat (map (fun w => w ++ [13]) words)) true None [] 0 [] 0 [] 0).
  assert (RP : read_phrase toy_env (mk_in false []) v = (Ret words, set_stdin v [])).
  { destruct P as (F & w & t & -> & SF & SZ). unfold read_phrase. cbn [io_in_file io_simple orb negb w_tty v].
    unfold from_stdin. cbn [w_stdin v].
    pose proof (raw_entry_typed toy_env (map (fun w => w ++ [13]) (w :: t)) (w :: t) w [] toy_search_ok) as R. rewrite app_nil_r in R.
    rewrite R; [reflexivity|apply toy_types|reflexivity|exact SF|exact SZ].
    rewrite forallb_forall. intros u U. rewrite Forall_forall in F. apply in_list_true, F, U. }
  destruct (generate_then_recover toy_env (case_generate false []) (case_recover []) case_start (Ret tt) w' words v (set_stdin v []))
    as (out & v2 & O1 & R & O2);
    [apply toy_wordlist_ok|apply toy_argon_ok|apply toy_aes_ok|apply toy_hkdf_ok|apply case_start_ok| |exact G|reflexivity|exact SH|exact RP|discriminate|].
  - constructor; repeat split; reflexivity.
  - exists words, w', v, v2, (out ++ [10]). split; [exact G|]. split; [exact SH|]. split; [reflexivity|].
    split; [exact O1|]. split; [exact R|exact O2].
Qed.
Example saved_case : exists w' v v2 out,
  generate_and_print toy_env (case_generate true (bs "phrase")) case_start = (Ret tt, w') /\
  w_files v (bs "copy") = w_files w' (bs "phrase") /\ w_stdin v = [10] ++ bs "pw" ++ [10] /\ w_stdout w' = [out] /\
  recover_and_print toy_env (case_recover (bs "copy")) v = (Ret tt, v2) /\ w_stdout v2 = [out].
Proof.
  destruct (case_works true (bs "phrase")) as (w' & G & _).
  set (v := mk_world (fun _ => w_files w' (bs "phrase")) ([10] ++ bs "pw" ++ [10]) true None [] 0 [] 0 [] 0).
  destruct (generate_then_recover_file toy_env (case_generate true (bs "phrase")) (case_recover (bs "copy")) case_start w' v)
    as (out & v2 & O1 & _ & R & O2);
    [apply toy_wordlist_ok|apply toy_argon_ok|apply toy_aes_ok|apply toy_hkdf_ok|apply toy_words_short|apply case_start_ok
    | |exact G|discriminate|discriminate|reflexivity| |].
  - constructor; repeat split; reflexivity.
  - intros _. exists (bs "pw"). split; [vm_compute; reflexivity|]. intros words _. split; [reflexivity|].
    exists [[]], (bs "pw"), []. split; [reflexivity|].
    split; [repeat constructor; intros Y; vm_compute in Y; intuition discriminate|]. split; [reflexivity|].
    intros dm _. constructor; [left; reflexivity|constructor].
  - exists w', v, v2, (out ++ [10]). split; [exact G|]. split; [reflexivity|]. split; [reflexivity|].
    split; [exact O1|]. split; [exact R|exact O2].
Qed.
