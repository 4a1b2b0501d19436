(** What generate, recover and convert draw, and from where (C102). *)
From Coq Require Import Lia ZifyBool ZifyNat.
From Verif.Model Require Import GoBase Env Version Seed Encoding GoTime Recovery PgpWire PgpKeys Mnemonikey CliText CliInput CliFlags CliMain.
From Verif.Spec Require Import EnvSpec DecodeSpec KeySpec PgpSpec ExportSpec InputSpec EndSpec ArmorSpec OutputSpec EntropySpec FileSpec.
From Verif.Proofs Require Import BitsP RoundtripP S2kP KeysP PgpP ExportP SignP EntryP MainP ArmorP BytesP EnvInst CliInst.
From Verif.Props Require Import PhraseProps SeedProps KeyProps ExportProps LifeProps IdentityProps TextProps InputProps FileProps EndProps ArmorProps ConvertProps.
Ltac Zify.zify_post_hook ::= Z.div_mod_to_equations.

Lemma source_drawn g w s w1 : world_ok w -> seed_from_source (go_entropy g) w = (Ret s, w1) ->
  exists source, entropy_source g w = Some source /\ Forall byte source /\ (16 <= length source)%nat /\
    s = mk_seed 0 (be_uint (firstn 16 source)) /\ w_random w1 = salt_source g w.
Proof.
  intros (B1 & B2 & B3) H. unfold seed_from_source in H. unfold entropy_source, salt_source. change (bs "-") with [45] in H.
  assert (G : forall src s' rest, Forall byte src -> generate_seed src = Ok (s', rest) ->
            (16 <= length src)%nat /\ s' = mk_seed 0 (be_uint (firstn 16 src)) /\ rest = skipn 16 src).
  { intros src s' rest B X. destruct (generate_seed_exact src B) as [X1 X2]. destruct (Nat.le_gt_cases 16 (length src)) as [L|L].
    - rewrite X1 in X by auto. apply ok_inj in X. split; [exact L|]. split; congruence.
    - rewrite X2 in X by auto. discriminate. }
  destruct (go_entropy g) as [|c e].
  - unfold with_random in H. destruct (generate_seed (w_random w)) as [[s' rest]|x|] eqn:X; try discriminate.
    destruct (G _ _ _ B1 X) as (L & -> & ->). assert (s = mk_seed 0 (be_uint (firstn 16 (w_random w))) /\ w1 = set_random w (skipn 16 (w_random w))) as [-> ->] by (split; congruence).
    exists (w_random w). repeat split; auto.
  - destruct (bytes_eqb (c :: e) [45]).
    + destruct (generate_seed (w_stdin w)) as [[s' rest]|x|] eqn:X; try discriminate.
      destruct (G _ _ _ B2 X) as (L & -> & ->). assert (s = mk_seed 0 (be_uint (firstn 16 (w_stdin w))) /\ w1 = set_stdin w (skipn 16 (w_stdin w))) as [-> ->] by (split; congruence).
      exists (w_stdin w). repeat split; auto.
    + unfold andthen, open_file in H. destruct (w_files w (c :: e)) as [room| |content| |] eqn:F; try discriminate.
      unfold lift in H. destruct (generate_seed content) as [[s' rest]|x|] eqn:X; cbn [bind of_res] in H; try discriminate.
      destruct (G _ _ _ (B3 _ _ F) X) as (L & -> & _). assert (s = mk_seed 0 (be_uint (firstn 16 content)) /\ w1 = w) as [-> ->] by (split; congruence).
      exists content. split; [reflexivity|]. split; [eauto|]. repeat split; auto.
Qed.

Lemma prompt_left (b : bool) w pw w' : (if b then ask_password true else ret []) w = (Ret pw, w') ->
  w_tty w' = w_tty w /\ w_files w' = w_files w /\ w_shown w' = w_shown w /\
  w_stdin w' = (if b then snd (user_input_password (w_tty w) true (w_stdin w)) else w_stdin w).
Proof.
  intros H. destruct b.
  - unfold ask_password in H. destruct (user_input_password (w_tty w) true (w_stdin w)) as [r rest]. cbn in H.
    destruct (w_tty w) eqn:T; apply (f_equal snd) in H; cbn [snd] in H; subst w'; cbn [set_prompts set_stdin w_tty w_files w_shown w_stdin snd]; auto.
  - injection H as _ <-. auto.
Qed.

(** the phrase of a key, as its reader decodes it *)
Lemma phrase_plain E s t opts m words : wordlist_ok E -> hkdf_ok E -> seed_ok s -> opts_ok (opts_of opts) -> mnk_new E s t opts = Ok m ->
  mnk_encode_plaintext E m = Ok words ->
  exists dm, decode_mnemonic E words = Ok dm /\ dm_encrypted dm = false /\ dm_creation dm = t / second * second /\ dm_seed dm = Ok s /\ phrase_ok E words.
Proof.
  intros W HK S OK N PO. destruct (mnk_new_window_only _ _ _ _ _ N) as (_ & T & R). destruct (window_second t R) as (B1 & B2 & B3).
  rewrite mnk_new_window in N by auto. apply ok_inj in N. subst m. unfold mnk_encode_plaintext in PO.
  rewrite creation_offset_ok in PO by auto. cbn [mnk_seed] in PO.
  destruct (plaintext_roundtrip E s (t / second - first_second) W S B1) as (ws & dm & P & _ & F & D & _ & EN & OF & SE).
  rewrite P in PO. apply ok_inj in PO. subst ws. exists dm. split; [exact D|]. split; [exact EN|]. split; [|split; [exact SE|eapply decodable_phrase_ok; eauto]].
  destruct dm as [a b c d o]. cbn [dm_offset] in OF. subst o. rewrite dm_creation_ok by exact B1. f_equal. lia.
Qed.
Lemma phrase_sealed E s t opts m pw src words : wordlist_ok E -> argon_ok E -> aes_ok E -> hkdf_ok E -> seed_ok s -> opts_ok (opts_of opts) ->
  mnk_new E s t opts = Ok m -> Forall byte src -> mnk_encode_encrypted E m pw src = Ok words ->
  exists dm, decode_mnemonic E words = Ok dm /\ dm_encrypted dm = true /\ dm_creation dm = t / second * second /\ dm_decrypt_seed E dm pw = Ok s /\
    (3 <= length src)%nat /\ dm_salt dm = be_uint (firstn 3 src) mod 2 ^ 19 /\ phrase_ok E words.
Proof.
  intros W A X HK S OK N BS EN. destruct (mnk_new_window_only _ _ _ _ _ N) as (_ & T & R). destruct (window_second t R) as (B1 & B2 & B3).
  rewrite mnk_new_window in N by auto. apply ok_inj in N. subst m. unfold mnk_encode_encrypted in EN.
  rewrite creation_offset_ok in EN by auto. cbn [mnk_seed] in EN.
  assert (Hp : pw <> []).
  { intros ->. unfold encode_mnemonic_encrypted in EN. destruct (era_check _); cbn [bind] in EN; discriminate. }
  assert (Hl : (3 <= length src)%nat).
  { destruct (Nat.le_gt_cases 3 (length src)) as [Q|Q]; auto. exfalso.
    destruct (encode_mnemonic_encrypted E s (t / second - first_second) pw src) eqn:Z1; try discriminate.
    destruct (encrypted_phrase_salt E s (t / second - first_second) pw src words (mk_decoded 0 0 0 0 0) W A X S B1 Hp BS) as [Z2 _].
    rewrite (Z2 Q) in Z1. discriminate. }
  destruct (encrypted_roundtrip E s (t / second - first_second) pw src W A X S B1 Hp BS Hl) as (ws & dm & P & _ & F & D & _ & EC & OF & SE).
  rewrite P in EN. apply ok_inj in EN. subst ws.
  destruct (encrypted_phrase_salt E s (t / second - first_second) pw src words dm W A X S B1 Hp BS) as [_ Z2]. specialize (Z2 Hl P D).
  exists dm. split; [exact D|]. split; [exact EC|]. split.
  { destruct dm as [a b c d o]. cbn [dm_offset] in OF. subst o. rewrite dm_creation_ok by exact B1. f_equal. lia. }
  split; [exact SE|]. split; [exact Hl|]. split; [|eapply decodable_phrase_ok; eauto]. rewrite rand_int_salt in Z2 by auto. apply ok_inj in Z2. congruence.
Qed.

Lemma drawn_seed_ok source : Forall byte source -> (16 <= length source)%nat -> seed_ok (mk_seed 0 (be_uint (firstn 16 source))).
Proof.
  intros B L. split; [reflexivity|]. cbn [seed_value]. assert (Hf : Forall byte (firstn 16 source)) by (apply firstn_byte; auto).
  pose proof (be_uint_bound _ Hf) as U. unfold zlen in U. rewrite firstn_length_le in U by lia. exact U.
Qed.

(** A run of generate that succeeds, whatever the options. *)
Theorem generate_draws : forall E edv g w w',
  wordlist_ok E -> argon_ok E -> aes_ok E -> hkdf_ok E -> env_ok E edv -> seconds_ok E -> armor_ok E -> world_ok w ->
  user_id_ok (trim_space E (go_name g)) (trim_space E (go_email g)) ->
  generate_and_print E g w = (Ret tt, w') ->
  exists source ttl (master : bool) types (m : mnemonikey) (pw : bytes) words dm,
    let s := mk_seed 0 (be_uint (firstn 16 source)) in
    let f := if master then Full else Subkeys_only true in
    let used := randomness f (mnk_keys m) pw in
    let stdin := after_seed g (w_stdin w) in
    entropy_source g w = Some source /\ (16 <= length source)%nat /\
    ttl_asked E (go_ttl g) ttl /\ decode_only_key_types (go_only g) = Ok (master, types) /\
    mnk_new E s (w_now w) (Some (mk_opts (trim_space E (go_name g)) (trim_space E (go_email g)) ttl 0 0 0 types)) = Ok m /\
    key_password (go_encrypt_keys g) (w_tty w) stdin pw /\
    phrase_given g w w' words /\ phrase_ok E words /\ decode_mnemonic E words = Ok dm /\
    dm_encrypted dm = go_encrypt_phrase g /\ dm_creation dm = w_now w / 10 ^ 9 * 10 ^ 9 /\
    (go_encrypt_phrase g = false -> dm_seed dm = Ok s) /\
    (password_ok pw -> exists packets t,
       printed (w_stdout w) (w_stdout w') packets /\
       api_packets E f m pw (salt_source g w) = Ok (packets, skipn used (salt_source g w)) /\
       (used <= length (salt_source g w))%nat /\
       key_block E f pw m (user_id_text (trim_space E (go_name g)) (trim_space E (go_email g))) (selected types) ttl packets /\
       read_transferable packets = Some t /\
       (pw <> [] ->
          (f = Full -> salt_of (tk_secret t) = firstn 24 (salt_source g w)) /\
          subkeys_match (mnk_keys m) t (fun k _ _ b =>
            salt_of (sb_secret b) = firstn 24 (skipn (24 * ((if master then 1 else 0) + rank (mnk_keys m) k))%nat (salt_source g w))))) /\
    (go_encrypt_phrase g = true -> exists ppw,
       fst (user_input_password (w_tty w) true (if go_encrypt_keys g then snd (user_input_password (w_tty w) true stdin) else stdin)) = Ok ppw /\
       dm_decrypt_seed E dm ppw = Ok s /\
       (password_ok pw -> (used + 3 <= length (salt_source g w))%nat /\
          dm_salt dm = be_uint (firstn 3 (skipn used (salt_source g w))) mod 2 ^ 19)).
Proof.
  intros E edv g w w' W A X HK HE SE HA WO UO H. unfold generate_and_print in H. cbv zeta in H.
  destruct (ttl_option_pure E (go_ttl g)) as (rt & T). unfold andthen at 1 in H. rewrite T in H.
  destruct rt as [ttl|e| | |c]; try discriminate.
  unfold andthen at 1 in H. unfold lift at 1 in H.
  destruct (decode_only_key_types (go_only g)) as [[master types]|e|] eqn:OT; cbn [of_res] in H; try discriminate.
  unfold andthen at 1 in H. destruct (seed_from_source (go_entropy g) w) as [[s|e| | |c] w1] eqn:SS; try discriminate.
  destruct (seed_source_ok g w s w1 WO SS) as (SO & BR & IN & TT & F1 & S1 & H1).
  destruct (source_drawn g w s w1 WO SS) as (source & SRC & BSRC & LSRC & Qs & R1).
  unfold andthen at 1 in H. unfold lift at 1 in H. set (opts := Some (mk_opts _ _ _ _ _ _ _)) in H.
  destruct (mnk_new E s (w_now w) opts) as [m|e|] eqn:N; cbn [of_res] in H; try discriminate.
  unfold andthen at 1 in H. destruct ((if go_encrypt_keys g then ask_password true else ret []) w1) as [[pw|e| | |c] w2] eqn:P; try discriminate.
  destruct (keys_password _ _ _ _ P) as (PN & R2 & S2). rewrite TT, IN in PN.
  destruct (prompt_left _ _ _ _ P) as (T2 & F2 & H2 & I2). rewrite TT, IN in I2.
  unfold andthen at 1 in H. unfold with_random at 1 in H. fold (key_armor E master m pw true) in H. rewrite key_armor_api in H.
  destruct (api_armor E (key_form master true) m pw (w_random w2)) as [[text rest]|e|] eqn:Y; try discriminate.
  set (w3 := set_random w2 rest) in *.
  assert (S3 : w_stdout w3 = w_stdout w) by (cbn [w3 set_random w_stdout]; congruence).
  assert (R3 : w_random w3 = rest) by reflexivity.
  assert (F3 : w_files w3 = w_files w) by (cbn [w3 set_random w_files]; congruence).
  assert (H3 : w_shown w3 = w_shown w) by (cbn [w3 set_random w_shown]; congruence).
  assert (T3 : w_tty w3 = w_tty w) by (cbn [w3 set_random w_tty]; congruence).
  assert (I3 : w_stdin w3 = w_stdin w2) by reflexivity. rewrite I2 in I3.
  clearbody w3. rewrite R2, R1 in Y. fold (key_form master true).
  assert (OK : opts_ok (opts_of opts)) by (unfold opts_ok, opts; cbn; lia).
  assert (BT : Forall byte (salt_source g w)) by (rewrite <- R1; exact BR).
  (* the printed key *)
  assert (KEY : password_ok pw -> exists packets t,
     (forall a b, dearmor (repeat 10 a ++ text ++ [10] ++ repeat 10 b) = Some (block_type, packets)) /\
     rest = skipn (randomness (key_form master true) (mnk_keys m) pw) (salt_source g w) /\
     api_packets E (key_form master true) m pw (salt_source g w) = Ok (packets, skipn (randomness (key_form master true) (mnk_keys m) pw) (salt_source g w)) /\
     (randomness (key_form master true) (mnk_keys m) pw <= length (salt_source g w))%nat /\
     key_block E (key_form master true) pw m (user_id_text (trim_space E (go_name g)) (trim_space E (go_email g))) (selected types) ttl packets /\
     read_transferable packets = Some t /\
     (pw <> [] -> (key_form master true = Full -> salt_of (tk_secret t) = firstn 24 (salt_source g w)) /\
          subkeys_match (mnk_keys m) t (fun k _ _ b =>
            salt_of (sb_secret b) = firstn 24 (skipn (24 * ((if master then 1 else 0) + rank (mnk_keys m) k))%nat (salt_source g w))))).
  { intros PO. destruct (Nat.le_gt_cases (randomness (key_form master true) (mnk_keys m) pw) (length (salt_source g w))) as [L|L].
    - destruct (armored_export E edv _ s (w_now w) opts m pw _ HK HE SE HA SO OK UO N PO BT L) as (packets & text' & AP & X' & D & K).
      rewrite Y in X'. apply ok_pair in X' as [<- RQ]. pose proof K as (t & RT & _). exists packets, t.
      split; [intros a b; change ([10] ++ repeat 10 b) with (repeat 10 (Datatypes.S b)); apply dearmor_newlines, D|].
      split; [exact RQ|]. split; [exact AP|]. split; [exact L|]. split; [exact K|]. split; [exact RT|]. intros NP.
      assert (HB : built E (mnk_keys m)) by (eapply (new_key_set_built E edv); eauto; apply UO).
      assert (EX : exports E (key_form master true) (mnk_keys m) pw (salt_source g w) t)
        by (eexists; eexists; split; [rewrite <- api_packets_export; exact AP|exact RT]).
      pose proof (export_randomness E edv _ _ _ _ _ HE HB PO NP BT EX) as [Z1 Z2]. split; [exact Z1|]. destruct master; exact Z2.
    - destruct (armored_export_short E edv _ s (w_now w) opts m pw _ HK HE SO OK UO N PO BT L) as [_ X']. rewrite Y in X'. discriminate. }
  assert (BR3 : Forall byte rest).
  { rewrite api_armor_export in Y. destruct (export E (key_form master true) (mnk_keys m) pw (salt_source g w)) as [[p q]|e|] eqn:Q; cbn [bind fst snd] in Y; try discriminate.
    apply ok_pair in Y as [_ <-].
    pose proof HE as (h1 & h2 & h3 & h4 & h5). pose proof (new_key_set_built E edv s (w_now w) opts m HK HE SO OK (proj2 (proj2 UO)) N) as HB.
    refine (proj2 (export_bytes E _ (mnk_keys m) pw _ p q h1 h2 h5 HB BT _ Q)). rewrite (mnk_uid _ _ _ _ _ N). destruct UO as (U1 & U2 & _). apply uid_bytes; auto. }
  (* the phrase *)
  unfold andthen at 1 in H.
  destruct ((if go_encrypt_phrase g then do phrase_password <- ask_password true; (fun w => (of_res (mnk_encode_encrypted E m phrase_password (w_random w)), w))
             else lift (mnk_encode_plaintext E m)) w3) as [[words|e| | |c] w4] eqn:PH; try discriminate.
  assert (KK : forall {Y} (f : world -> Y), blind f -> f w4 = f w3).
  { intros Y0 f B. assert (K : keeps f (if go_encrypt_phrase g then do phrase_password <- ask_password true; (fun w => (of_res (mnk_encode_encrypted E m phrase_password (w_random w)), w))
             else lift (mnk_encode_plaintext E m))) by (keeping B). specialize (K w3). rewrite PH in K. exact K. }
  pose proof (KK _ _ blind_stdout) as S4. pose proof (KK _ _ blind_shown) as H4. pose proof (KK _ _ blind_files) as F4. clear KK.
  rewrite S3 in S4. rewrite H3 in H4. rewrite F3 in F4.
  assert (DEC : exists dm, phrase_ok E words /\ decode_mnemonic E words = Ok dm /\ dm_encrypted dm = go_encrypt_phrase g /\ dm_creation dm = w_now w / second * second /\
     (go_encrypt_phrase g = false -> dm_seed dm = Ok s) /\
     (go_encrypt_phrase g = true -> exists ppw,
       fst (user_input_password (w_tty w) true (w_stdin w3)) = Ok ppw /\ dm_decrypt_seed E dm ppw = Ok s /\
       (3 <= length rest)%nat /\ dm_salt dm = be_uint (firstn 3 rest) mod 2 ^ 19)).
  { destruct (go_encrypt_phrase g).
    - unfold andthen, ask_password in PH. rewrite T3 in PH.
      destruct (user_input_password (w_tty w) true (w_stdin w3)) as [[ppw|e|] left]; cbn [of_res fst] in *; [|discriminate|discriminate].
      assert (EN : mnk_encode_encrypted E m ppw rest = Ok words).
      { assert (PH2 : of_res (mnk_encode_encrypted E m ppw rest) = Ret words).
        { destruct (w_tty (set_stdin w3 left)); apply (f_equal fst) in PH; cbn [fst set_prompts set_stdin w_random] in PH; rewrite R3 in PH; exact PH. }
        destruct (mnk_encode_encrypted E m ppw rest); cbn [of_res] in PH2; congruence. }
      destruct (phrase_sealed E s _ _ m ppw rest words W A X HK SO OK N BR3 EN) as (dm & D1 & D2 & D3 & D4 & D5 & D6 & D7).
      exists dm. split; [exact D7|]. split; [exact D1|]. split; [exact D2|]. split; [exact D3|]. split; [discriminate|]. intros _. exists ppw. auto.
    - unfold lift in PH. destruct (mnk_encode_plaintext E m) as [ws|e|] eqn:EN; cbn [of_res] in PH; try discriminate.
      assert (ws = words) by congruence. subst ws.
      destruct (phrase_plain E s _ _ m words W HK SO OK N EN) as (dm & D1 & D2 & D3 & D4 & D7).
      exists dm. split; [exact D7|]. split; [exact D1|]. split; [exact D2|]. split; [exact D3|]. split; [auto|discriminate]. }
  destruct DEC as (dm & D0 & D1 & D2 & D3 & D4 & D5).
  (* where it goes *)
  unfold andthen at 1 in H.
  destruct ((match go_out_file g with [] => ret tt | path => save_mnemonic words path end) w4) as [[[]|e| | |c] w5] eqn:SV; try discriminate.
  assert (OUT : phrase_given g w w' words /\ w_stdout w' = w_stdout w ++ [text ++ [10]]).
  { unfold phrase_given. destruct (go_out_file g) as [|b path].
    - apply (f_equal snd) in SV. cbn [snd ret] in SV. subst w5. unfold andthen, print_out, print_mnemonic in H.
      apply (f_equal snd) in H. cbn [snd] in H. subst w'. cbn [set_shown set_stdout w_shown w_stdout w_files]. rewrite S4, H4, F4. auto.
    - destruct (save_success words (b :: path) w4 w5 SV) as (_ & C & O & RS).
      pose proof (keeps_stdout_save words (b :: path) w4) as Q1. pose proof (keeps_shown_save words (b :: path) w4) as Q2. rewrite SV in Q1, Q2. cbn [snd] in Q1, Q2.
      unfold andthen, print_out, ret in H. apply (f_equal snd) in H. cbn [snd] in H. subst w'. cbn [set_stdout w_shown w_stdout w_files].
      rewrite Q1, Q2, S4, H4. split; [|reflexivity]. split; [reflexivity|]. split; [exact C|]. intros p Np. rewrite O by exact Np. rewrite F4. reflexivity. }
  destruct OUT as [PG SO']. subst s.
  exists source, ttl, master, types, m, pw, words, dm. cbv zeta. fold (key_form master true).
  split; [exact SRC|]. split; [exact LSRC|]. split; [exact (ttl_option_asked _ _ _ _ _ (T w))|]. split; [reflexivity|]. split; [exact N|].
  split; [exact PN|]. split; [exact PG|]. split; [exact D0|]. split; [exact D1|]. split; [exact D2|]. split; [exact D3|]. split; [exact D4|]. split.
  - intros PO. destruct (KEY PO) as (packets & t & Z1 & _ & Z2 & Z3 & Z4 & Z5 & Z6). exists packets, t.
    split; [exists text; split; [exact SO'|exact Z1]|]. auto.
  - intros EP. destruct (D5 EP) as (ppw & Z1 & Z2 & Z3 & Z4). exists ppw. rewrite I3 in Z1. split; [exact Z1|]. split; [exact Z2|].
    intros PO. destruct (KEY PO) as (packets & t & _ & Z5 & _ & Z6 & _). rewrite Z5 in Z3, Z4. rewrite skipn_length in Z3. split; [lia|exact Z4].
Qed.
Print Assumptions generate_draws.

(** Too few bytes, or a file that cannot be read: an error, and no key, phrase or file. *)
Theorem generate_without_entropy : forall E g w ttl master types,
  world_ok w -> ttl_asked E (go_ttl g) ttl -> decode_only_key_types (go_only g) = Ok (master, types) ->
  (entropy_source g w = None -> exists w', generate_and_print E g w = (Fail ErrFileNotFound, w') /\ nothing_given w w') /\
  (forall source, entropy_source g w = Some source -> (length source < 16)%nat ->
     exists w', generate_and_print E g w = (Fail ErrRandomSource, w') /\ nothing_given w w').
Proof.
  intros E g w ttl master types (B1 & B2 & B3) TA OT.
  assert (G : forall e w1, seed_from_source (go_entropy g) w = (Fail e, w1) -> generate_and_print E g w = (Fail e, w1)).
  { intros e w1 Q. unfold generate_and_print. cbv zeta. unfold andthen at 1. rewrite (asked_ttl_option _ _ _ _ TA).
    unfold andthen at 1. unfold lift at 1. rewrite OT. cbn [of_res]. unfold andthen at 1. rewrite Q. reflexivity. }
  unfold entropy_source. unfold seed_from_source in G. change (bs "-") with [45] in G. destruct (go_entropy g) as [|c e].
  - split; [discriminate|]. intros source Q L. assert (source = w_random w) by congruence. subst source.
    eexists. split; [apply G; unfold with_random; rewrite (proj2 (generate_seed_exact _ B1) L); reflexivity|]. repeat split.
  - destruct (bytes_eqb (c :: e) [45]).
    + split; [discriminate|]. intros source Q L. assert (source = w_stdin w) by congruence. subst source.
      eexists. split; [apply G; rewrite (proj2 (generate_seed_exact _ B2) L); reflexivity|]. repeat split.
    + unfold andthen, open_file in G. destruct (w_files w (c :: e)) as [room| |content| |] eqn:F;
        (split; [intros Q; first [discriminate|eexists; split; [apply G; reflexivity|repeat split]]|]);
        intros source Q L; try discriminate. assert (source = content) by congruence. subst source.
      eexists. split; [apply G; unfold lift; rewrite (proj2 (generate_seed_exact _ (B3 _ _ F)) L); reflexivity|]. repeat split.
Qed.
Print Assumptions generate_without_entropy.

Lemma be_uint_inj : forall a b, Forall byte a -> Forall byte b -> length a = length b -> be_uint a = be_uint b -> a = b.
Proof.
  induction a as [|x a IH]; intros [|y b] A B L Q; try discriminate; [reflexivity|]. cbn [length] in L. injection L as L.
  apply Forall_cons_iff in A as [A1 A2]. apply Forall_cons_iff in B as [B1 B2].
  pose proof (be_uint_bound _ A2) as UA. pose proof (be_uint_bound _ B2) as UB.
  rewrite !be_uint_cons in Q. unfold zlen in *. rewrite <- L in *. set (q := 2 ^ (8 * Z.of_nat (length a))) in *.
  assert (x = y) by nia. subst y. f_equal. apply IH; auto. lia.
Qed.
(** Two runs that give the same unencrypted phrase, or encrypted phrases that open to the same seed, drew the same 16 bytes. *)
Theorem same_phrase_same_entropy : forall E edv g1 g2 w1 w2 w1' w2' words,
  wordlist_ok E -> argon_ok E -> aes_ok E -> hkdf_ok E -> env_ok E edv -> seconds_ok E -> armor_ok E -> world_ok w1 -> world_ok w2 ->
  user_id_ok (trim_space E (go_name g1)) (trim_space E (go_email g1)) -> user_id_ok (trim_space E (go_name g2)) (trim_space E (go_email g2)) ->
  generate_and_print E g1 w1 = (Ret tt, w1') -> generate_and_print E g2 w2 = (Ret tt, w2') ->
  go_out_file g1 = [] -> go_out_file g2 = [] -> go_encrypt_phrase g1 = false ->
  w_shown w1' = w_shown w1 ++ [words] -> w_shown w2' = w_shown w2 ++ [words] ->
  exists s1 s2, entropy_source g1 w1 = Some s1 /\ entropy_source g2 w2 = Some s2 /\ firstn 16 s1 = firstn 16 s2 /\
    w_now w1 / 10 ^ 9 = w_now w2 / 10 ^ 9.
Proof.
  intros E edv g1 g2 w1 w2 w1' w2' words W A X HK HE SE HA O1 O2 U1 U2 G1 G2 F1 F2 P1 S1 S2.
  destruct (generate_draws E edv g1 w1 w1' W A X HK HE SE HA O1 U1 G1)
    as (s1 & t1 & m1 & ty1 & k1 & p1 & ws1 & d1 & E1 & L1 & _ & _ & _ & _ & PG1 & _ & D1 & C1 & T1 & Q1 & _).
  destruct (generate_draws E edv g2 w2 w2' W A X HK HE SE HA O2 U2 G2)
    as (s2 & t2 & m2 & ty2 & k2 & p2 & ws2 & d2 & E2 & L2 & _ & _ & _ & _ & PG2 & _ & D2 & C2 & T2 & Q2 & _).
  unfold phrase_given in PG1, PG2. rewrite F1 in PG1. rewrite F2 in PG2. destruct PG1 as [PG1 _], PG2 as [PG2 _].
  rewrite PG1 in S1. rewrite PG2 in S2. apply app_inv_head in S1, S2.
  assert (ws1 = words) by congruence. assert (ws2 = words) by congruence. subst ws1 ws2.
  rewrite D1 in D2. apply ok_inj in D2. subst d2. rewrite P1 in C1. rewrite C1 in C2.
  specialize (Q1 P1). specialize (Q2 (eq_sym C2)). rewrite Q1 in Q2. apply ok_inj in Q2.
  assert (Q : be_uint (firstn 16 s1) = be_uint (firstn 16 s2)) by congruence.
  assert (BY : forall g w s, world_ok w -> entropy_source g w = Some s -> Forall byte s).
  { intros g w s (B1 & B2 & B3) Z. unfold entropy_source in Z. destruct (go_entropy g); [congruence|].
    destruct (bytes_eqb _ _); [congruence|]. destruct (w_files w _) eqn:F; try discriminate. apply B3 in F. congruence. }
  exists s1, s2. split; [exact E1|]. split; [exact E2|]. split.
  - apply be_uint_inj; [exact (firstn_byte _ _ (BY _ _ _ O1 E1))|exact (firstn_byte _ _ (BY _ _ _ O2 E2))| |exact Q].
    rewrite (firstn_length_le s1 L1), (firstn_length_le s2 L2). reflexivity.
  - rewrite T1 in T2. lia.
Qed.
Print Assumptions same_phrase_same_entropy.

(** recover draws nothing but the salts of protected keys *)
Theorem recover_draws : forall E edv o v v',
  wordlist_ok E -> argon_ok E -> aes_ok E -> hkdf_ok E -> env_ok E edv -> seconds_ok E -> armor_ok E -> Forall byte (w_random v) ->
  user_id_ok (trim_space E (ro_name o)) (trim_space E (ro_email o)) ->
  0 <= ro_enc_index o -> 0 <= ro_auth_index o -> 0 <= ro_sign_index o ->
  recover_and_print E o v = (Ret tt, v') ->
  exists (master : bool) types s dm v2 ttl m (pw : bytes),
    let f := if master then Full else Subkeys_only (ro_self_cert o) in
    ttl_asked E (ro_ttl o) ttl /\ decode_only_key_types (ro_only o) = Ok (master, types) /\
    decode_mnemonic_from_input E (ro_input o) v = (Ret (s, dm), v2) /\
    mnk_new E s (dm_creation dm) (Some (mk_opts (trim_space E (ro_name o)) (trim_space E (ro_email o)) ttl
      (ro_enc_index o) (ro_auth_index o) (ro_sign_index o) types)) = Ok m /\
    key_password (ro_encrypt_keys o) (w_tty v2) (w_stdin v2) pw /\
    (password_ok pw -> exists packets t,
       printed (w_stdout v) (w_stdout v') packets /\
       api_packets E f m pw (w_random v) = Ok (packets, w_random v') /\
       w_random v' = skipn (randomness f (mnk_keys m) pw) (w_random v) /\
       read_transferable packets = Some t /\
       (pw <> [] ->
          (f = Full -> salt_of (tk_secret t) = firstn 24 (w_random v)) /\
          subkeys_match (mnk_keys m) t (fun k _ _ b =>
            salt_of (sb_secret b) = firstn 24 (skipn (24 * ((if master then 1 else 0) + rank (mnk_keys m) k))%nat (w_random v))))).
Proof.
  intros E edv o v v' W A X HK HE SE HA BR UO I1 I2 I3 H. unfold recover_and_print in H.
  destruct (ttl_option_pure E (ro_ttl o)) as (rt & T). unfold andthen at 1 in H. rewrite T in H.
  destruct rt as [ttl|e| | |c]; try discriminate.
  destruct ((ro_enc_index o >? max_subkey_index) || (ro_auth_index o >? max_subkey_index) || (ro_sign_index o >? max_subkey_index)) eqn:IX; [discriminate|].
  unfold max_subkey_index in IX.
  assert (J : u16 (ro_enc_index o) = ro_enc_index o /\ u16 (ro_auth_index o) = ro_auth_index o /\ u16 (ro_sign_index o) = ro_sign_index o /\
     ro_enc_index o < 65536 /\ ro_auth_index o < 65536 /\ ro_sign_index o < 65536).
  { unfold u16. rewrite !Z.mod_small by lia. lia. }
  destruct J as (J1 & J2 & J3 & J4 & J5 & J6). rewrite J1, J2, J3 in H.
  unfold andthen at 1 in H. unfold lift at 1 in H.
  destruct (decode_only_key_types (ro_only o)) as [[master types]|e|] eqn:OT; cbn [of_res] in H; try discriminate.
  unfold andthen at 1 in H. destruct (decode_mnemonic_from_input E (ro_input o) v) as [[[s dm]|e| | |c] v2] eqn:D; try discriminate.
  pose proof (random_input E (ro_input o) v) as R2. pose proof (keeps_input _ blind_stdout E (ro_input o) v) as S2. rewrite D in R2, S2. cbn [snd] in R2, S2.
  destruct (retry_sound E (ro_input o) v s dm v2 D) as (words & v1 & pp & RP & DM & DS).
  assert (SO : seed_ok s) by (eapply decrypted_seed_ok; eauto).
  unfold andthen at 1 in H. unfold lift at 1 in H.
  set (opts := Some (mk_opts _ _ _ _ _ _ _)) in H.
  destruct (mnk_new E s (dm_creation dm) opts) as [m|e|] eqn:N; cbn [of_res] in H; try discriminate.
  unfold andthen at 1 in H. destruct ((if ro_encrypt_keys o then ask_password true else ret []) v2) as [[pw|e| | |c] v3] eqn:P; try discriminate.
  destruct (keys_password _ _ _ _ P) as (PN & R3 & S3).
  unfold andthen, with_random in H. fold (key_armor E master m pw (ro_self_cert o)) in H. rewrite key_armor_api in H.
  destruct (api_armor E (key_form master (ro_self_cert o)) m pw (w_random v3)) as [[text rest]|e|] eqn:Y; try discriminate.
  unfold print_out in H. apply (f_equal snd) in H. cbn [snd] in H. subst v'.
  exists master, types, s, dm, v2, ttl, m, pw. cbv zeta. fold (key_form master (ro_self_cert o)).
  split; [exact (ttl_option_asked _ _ _ _ _ (T v))|]. split; [reflexivity|]. split; [reflexivity|]. split; [exact N|]. split; [exact PN|].
  intros PO. assert (OK : opts_ok (opts_of opts)) by (unfold opts_ok, opts; cbn; lia).
  rewrite R3, R2 in Y. cbn [set_stdout set_random w_stdout w_random]. rewrite S3, S2.
  destruct (Nat.le_gt_cases (randomness (key_form master (ro_self_cert o)) (mnk_keys m) pw) (length (w_random v))) as [L|L].
  - destruct (armored_export E edv _ s _ opts m pw _ HK HE SE HA SO OK UO N PO BR L) as (packets & text' & AP & X' & DA & K).
    rewrite Y in X'. apply ok_pair in X' as [<- RQ]. destruct K as (t & RT & _). exists packets, t.
    split; [exists text; split; [reflexivity|]; intros a b; change ([10] ++ repeat 10 b) with (repeat 10 (Datatypes.S b)); apply dearmor_newlines, DA|].
    rewrite RQ. split; [exact AP|]. split; [reflexivity|]. split; [exact RT|]. intros NP.
    assert (HB : built E (mnk_keys m)) by (eapply (new_key_set_built E edv); eauto; apply UO).
    assert (EX : exports E (key_form master (ro_self_cert o)) (mnk_keys m) pw (w_random v) t)
      by (eexists; eexists; split; [rewrite <- api_packets_export; exact AP|exact RT]).
    pose proof (export_randomness E edv _ _ _ _ _ HE HB PO NP BR EX) as [Z1 Z2]. split; [exact Z1|]. destruct master; exact Z2.
  - destruct (armored_export_short E edv _ s _ opts m pw _ HK HE SO OK UO N PO BR L) as [_ X']. rewrite Y in X'. discriminate.
Qed.
Print Assumptions recover_draws.

(** convert draws the salt of the new phrase, and nothing if it is not encrypted *)
Theorem convert_draws : forall E o w r w' new dm, wordlist_ok E -> argon_ok E -> aes_ok E -> Forall byte (w_random w) ->
  decode_and_convert E o w = (r, w') -> w_shown w' = w_shown w ++ [new] -> decode_mnemonic E new = Ok dm ->
  co_encrypt o = true -> (3 <= length (w_random w))%nat /\ dm_salt dm = be_uint (firstn 3 (w_random w)) mod 2 ^ 19.
Proof.
  intros E o w r w' new dm W A X B H SH DN CE.
  destruct (io_in_file (co_input o)) as [|b path] eqn:I.
  2:{ exfalso. destruct (convert_writes_no_file_refuted E o w r w' H) as [_ K]. rewrite I in K.
      destruct (K ltac:(discriminate)) as [_ K2]. rewrite K2 in SH. exact (not_shown _ _ SH). }
  unfold decode_and_convert in H. rewrite I, CE in H. unfold andthen at 1 in H.
  pose proof (keeps_input _ blind_shown E (co_input o) w) as KS. pose proof (random_input E (co_input o) w) as KR.
  destruct (decode_mnemonic_from_input E (co_input o) w) as [[[s dm0]|e| | |c] v] eqn:D; cbn [snd] in KS, KR;
    try (exfalso; apply (f_equal snd) in H; cbn [snd] in H; subst w'; rewrite KS in SH; exact (not_shown _ _ SH)).
  destruct (retry_sound _ _ _ _ _ _ D) as (old & w1 & pw0 & R & DM & DS).
  pose proof (decoded_offset _ _ _ W DM) as Of. pose proof (decrypted_seed_ok _ _ _ _ _ W A X DM DS) as SO.
  unfold andthen at 1 in H. unfold andthen at 1 in H. destruct (ask_password true v) as [op v2] eqn:K.
  pose proof (keeps_ask _ blind_shown true v) as KS2. pose proof (random_ask true v) as KR2. rewrite K in KS2, KR2. cbn [snd] in KS2, KR2.
  destruct op as [pw|e| | |c]; try (exfalso; apply (f_equal snd) in H; cbn [snd] in H; subst w'; rewrite KS2, KS in SH; exact (not_shown _ _ SH)).
  destruct (asked_typed _ _ _ _ K) as (_ & [N _] & _). rewrite KR2, KR in H.
  destruct (encrypted_phrase_salt E s (dm_offset dm0) pw (w_random w) new dm W A X SO Of N B) as [Z1 Z2].
  destruct (encode_mnemonic_encrypted E s (dm_offset dm0) pw (w_random w)) as [ws|e|] eqn:Q; cbn [of_res] in H;
    try (exfalso; apply (f_equal snd) in H; cbn [snd] in H; subst w'; rewrite KS2, KS in SH; exact (not_shown _ _ SH)).
  unfold print_mnemonic in H. apply (f_equal snd) in H. cbn [snd] in H. subst w'. cbn [set_shown w_shown] in SH.
  rewrite KS2, KS in SH. apply shown_once in SH. subst ws.
  destruct (Nat.le_gt_cases 3 (length (w_random w))) as [L|L]; [|specialize (Z1 L); discriminate].
  split; [exact L|]. specialize (Z2 L eq_refl DN). rewrite rand_int_salt in Z2 by auto. apply ok_inj in Z2. congruence.
Qed.
Print Assumptions convert_draws.

(** Whenever the inputs are in order generate succeeds, with whatever options. *)
Theorem generate_works_any : forall E edv g w source ttl master types pw ppw,
  wordlist_ok E -> argon_ok E -> aes_ok E -> hkdf_ok E -> env_ok E edv -> seconds_ok E -> armor_ok E -> world_ok w ->
  user_id_ok (trim_space E (go_name g)) (trim_space E (go_email g)) ->
  ttl_asked E (go_ttl g) ttl -> 0 <= ttl -> decode_only_key_types (go_only g) = Ok (master, types) ->
  first_second * 10 ^ 9 <= w_now w <= last_second * 10 ^ 9 ->
  entropy_source g w = Some source -> (16 <= length source)%nat ->
  let stdin := after_seed g (w_stdin w) in
  key_password (go_encrypt_keys g) (w_tty w) stdin pw -> password_ok pw ->
  key_password (go_encrypt_phrase g) (w_tty w) (if go_encrypt_keys g then snd (user_input_password (w_tty w) true stdin) else stdin) ppw ->
  ((if go_encrypt_keys g then 96 else 0) + (if go_encrypt_phrase g then 3 else 0) <= length (salt_source g w))%nat ->
  (go_out_file g = [] -> forall width, w_width w = Some width -> 17 <= width) ->
  (go_out_file g <> [] -> w_files w (go_out_file g) = Absent None) ->
  exists w', generate_and_print E g w = (Ret tt, w').
Proof.
  intros E edv g w source ttl master types pw ppw W A X HK HE SE HA WO UO TA TP OT WI SRC LS stdin KP PO KP2 RL WD AB.
  set (s := mk_seed 0 (be_uint (firstn 16 source))).
  assert (SS : exists w1, seed_from_source (go_entropy g) w = (Ret s, w1) /\ w_width w1 = w_width w).
  { destruct WO as (B1 & B2 & B3). unfold seed_from_source, entropy_source in *. change (bs "-") with [45]. destruct (go_entropy g) as [|c e].
    - assert (source = w_random w) by congruence. subst source. unfold with_random. rewrite (proj1 (generate_seed_exact _ B1) LS). eexists. split; reflexivity.
    - destruct (bytes_eqb (c :: e) [45]).
      + assert (source = w_stdin w) by congruence. subst source. rewrite (proj1 (generate_seed_exact _ B2) LS). eexists. split; reflexivity.
      + unfold andthen, open_file. destruct (w_files w (c :: e)) as [room| |content| |] eqn:F; try discriminate.
        assert (source = content) by congruence. subst source. unfold lift. rewrite (proj1 (generate_seed_exact _ (B3 _ _ F)) LS). eexists. split; reflexivity. }
  destruct SS as (w1 & SS & WW1).
  destruct (seed_source_ok g w s w1 WO SS) as (SO & BR & IN & TT & F1 & S1 & H1).
  destruct (source_drawn g w s w1 WO SS) as (source' & _ & _ & _ & _ & R1).
  set (opts := Some (mk_opts (trim_space E (go_name g)) (trim_space E (go_email g)) ttl 0 0 0 types)).
  assert (OK : opts_ok (opts_of opts)) by (unfold opts_ok, opts; cbn; lia).
  destruct (mnk_new E s (w_now w) opts) as [m|e|] eqn:N; [|rewrite mnk_new_window in N by auto; discriminate..].
  assert (BT : Forall byte (salt_source g w)) by (rewrite <- R1; exact BR).
  assert (P : exists w2, (if go_encrypt_keys g then ask_password true else ret []) w1 = (Ret pw, w2)).
  { unfold key_password in KP. destruct (go_encrypt_keys g).
    - destruct KP as [_ KP]. unfold ask_password. rewrite TT, IN. fold stdin. destruct (user_input_password (w_tty w) true stdin) as [r rest]. cbn [fst] in KP. subst r.
      eexists. reflexivity.
    - subst pw. eexists. reflexivity. }
  destruct P as (w2 & P). destruct (keys_password _ _ _ _ P) as (_ & R2 & _). destruct (prompt_left _ _ _ _ P) as (T2 & F2 & _ & I2). rewrite TT, IN in I2.
  assert (WW2 : w_width w2 = w_width w).
  { assert (K : keeps w_width (if go_encrypt_keys g then ask_password true else ret [])) by (pose proof blind_width as B; keeping B).
    specialize (K w1). rewrite P in K. cbn [snd] in K. congruence. }
  set (f := key_form master true).
  assert (SL : (randomness f (mnk_keys m) pw <= if go_encrypt_keys g then 96 else 0)%nat).
  { unfold key_password in KP. unfold randomness. destruct (go_encrypt_keys g); [|subst pw; lia].
    assert (Q : (length (subkeys_along (mnk_keys m) all_kinds) <= 3)%nat).
    { unfold subkeys_along, all_kinds. cbn [flat_map]. rewrite !app_length.
      destruct (subkey _ Encryption), (subkey _ Authentication), (subkey _ Signing); cbn; lia. }
    unfold secrets_in. destruct pw; [lia|]. destruct f; lia. }
  assert (L : (randomness f (mnk_keys m) pw <= length (salt_source g w))%nat) by lia.
  destruct (armored_export E edv f s (w_now w) opts m pw _ HK HE SE HA SO OK UO N PO BT L) as (packets & text & _ & Y & _).
  set (rest := skipn (randomness f (mnk_keys m) pw) (salt_source g w)) in *.
  assert (RB : Forall byte rest) by (apply skipn_byte; exact BT).
  assert (R3 : (if go_encrypt_phrase g then 3 <= length rest else True)%nat).
  { unfold rest. rewrite skipn_length. destruct (go_encrypt_phrase g); [lia|exact I]. }
  clearbody rest.
  assert (PH : exists words w4, (if go_encrypt_phrase g then do phrase_password <- ask_password true; (fun w => (of_res (mnk_encode_encrypted E m phrase_password (w_random w)), w))
             else lift (mnk_encode_plaintext E m)) (set_random w2 rest) = (Ret words, w4) /\ w_files w4 = w_files w /\ w_width w4 = w_width w).
  { destruct (go_encrypt_phrase g).
    - destruct KP2 as [PN KP2]. unfold andthen, ask_password. cbn [set_random w_tty w_stdin]. rewrite I2, T2, TT. fold stdin.
      destruct (user_input_password (w_tty w) true _) as [r left]. cbn [fst] in KP2. subst r. cbn [of_res].
      destruct (recover_from_encrypted E s (w_now w) opts m ppw rest W A X HK SO OK N PN RB R3) as (ws & EQ & _).
      exists ws. destruct (w_tty (set_stdin (set_random w2 rest) left)); (eexists; split; [cbn [set_prompts set_stdin set_random w_random]; rewrite EQ; reflexivity|]);
        cbn [set_prompts set_stdin set_random w_files w_width]; (split; congruence).
    - destruct (recover_from_plaintext E s (w_now w) opts m W HK SO OK N) as (ws & EQ & _). exists ws. eexists. unfold lift. rewrite EQ. split; [reflexivity|].
      cbn [set_random w_files w_width]. split; congruence. }
  destruct PH as (words & w4 & PH & F4 & WW4).
  unfold generate_and_print. cbv zeta. unfold andthen at 1. rewrite (asked_ttl_option _ _ _ _ TA).
  unfold andthen at 1. unfold lift at 1. rewrite OT. cbn [of_res]. unfold andthen at 1. rewrite SS.
  unfold andthen at 1. unfold lift at 1. fold opts. rewrite N. cbn [of_res]. unfold andthen at 1. rewrite P.
  unfold andthen at 1. unfold with_random at 1. fold (key_armor E master m pw true). rewrite key_armor_api. fold f. rewrite R2, R1, Y.
  unfold andthen at 1. rewrite PH. unfold andthen at 1. destruct (go_out_file g) as [|c p] eqn:OF.
  - unfold ret at 1. unfold andthen, print_out, print_mnemonic. cbn [set_stdout w_width w_shown]. rewrite WW4.
    pose proof (reminder_wide_enough words w (WD eq_refl)) as RW. unfold print_mnemonic in RW. cbn [fst] in RW. rewrite RW. eexists. reflexivity.
  - destruct (save_possible words (c :: p) w4) as (w5 & SV); [rewrite F4; apply AB; discriminate|].
    rewrite SV. unfold andthen, print_out. eexists. reflexivity.
Qed.
Print Assumptions generate_works_any.

(** A case with everything: entropy of a file, keys and phrase under different passwords, the phrase saved. *)
Definition case_all : generate_options :=
  mk_gen (bs " username") (bs "username@email.com") (bs "1y") true (bs "encryption,signing") (bs "phrase") true (bs "dice").
Definition case_dice : bytes := repeat 7 15 ++ [8; 9].
Definition case_world : world :=
  mk_world (fun p => if bytes_eqb p (bs "dice") then File case_dice else Absent None)
    (bs "one" ++ [10] ++ bs "one" ++ [10] ++ bs "two" ++ [10] ++ bs "two" ++ [10]) true None case_tape (1700000000 * 10 ^ 9 + 5) [] 0 [] 0.
Example generate_all_case : exists w' content,
  generate_and_print toy_env case_all case_world = (Ret tt, w') /\ entropy_source case_all case_world = Some case_dice /\
  w_files w' (bs "phrase") = File content.
Proof.
  assert (WO : world_ok case_world).
  { split; [|split].
    - exact case_tape_bytes.
    - repeat constructor; vm_compute; congruence.
    - intros p c. cbn [case_world w_files]. destruct (bytes_eqb p (bs "dice")); [|discriminate]. intros Q. injection Q as <-. repeat constructor; vm_compute; congruence. }
  assert (U : user_id_ok (trim_space toy_env (go_name case_all)) (trim_space toy_env (go_email case_all)))
    by (split; [|split]; [repeat constructor; vm_compute; congruence|repeat constructor; vm_compute; congruence|vm_compute; reflexivity]).
  destruct (generate_works_any toy_env toy_verify case_all case_world case_dice (31536000 * second) false (Some [bs "encryption"; bs "signing"]) (bs "one") (bs "two")) as (w' & G);
    [apply toy_wordlist_ok|apply toy_argon_ok|apply toy_aes_ok|apply toy_hkdf_ok|apply toy_env_ok|apply toy_seconds_ok|apply toy_armor_ok|exact WO|exact U
    |vm_compute; reflexivity|vm_compute; congruence|vm_compute; reflexivity|vm_compute; intuition congruence|vm_compute; reflexivity|vm_compute; lia
    |split; [discriminate|vm_compute; reflexivity]|vm_compute; congruence|split; [discriminate|vm_compute; reflexivity]|vm_compute; lia|discriminate|reflexivity|].
  destruct (generate_draws toy_env toy_verify case_all case_world w' toy_wordlist_ok toy_argon_ok toy_aes_ok toy_hkdf_ok toy_env_ok toy_seconds_ok toy_armor_ok WO U G)
    as (source & ttl & master & types & m & pw & words & dm & _ & _ & _ & _ & _ & _ & PG & _).
  exists w'. eexists. split; [exact G|]. split; [vm_compute; reflexivity|]. apply PG.
Qed.
(** and one byte too few *)
Example short_entropy_case : exists w',
  generate_and_print toy_env (mk_gen [] [] [] false [] [] false []) (mk_world (fun _ => Absent None) [] true None (repeat 7 15) 0 [] 0 [] 0) = (Fail ErrRandomSource, w').
Proof. eexists. vm_compute. reflexivity. Qed.
