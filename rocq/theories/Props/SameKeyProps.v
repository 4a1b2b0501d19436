(** Exports of one key under different passwords, forms and options, and recovery with protected keys (C103). *)
From Coq Require Import Lia ZifyBool ZifyNat Permutation Relations.
From Verif.Model Require Import GoBase Env Version Seed Encoding GoTime Recovery PgpWire PgpKeys Mnemonikey CliText CliInput CliFlags CliMain.
From Verif.Spec Require Import EnvSpec DecodeSpec PhraseSpec KeySpec PgpSpec ExportSpec ArmorSpec CliEnvSpec InputSpec FileSpec EndSpec ChainSpec OutputSpec EntropySpec SameKeySpec.
From Verif.Proofs Require Import BitsP WordsP RoundtripP S2kP KeysP PgpP SignP ExportP InputP EntryP FileP MainP EnvInst CliInst.
From Verif.Props Require Import PhraseProps SeedProps KeyProps ExportProps LifeProps TextProps InputProps FileProps EndProps ArmorProps ConvertProps ChainProps EntropyProps.
Ltac Zify.zify_post_hook ::= Z.div_mod_to_equations.

(** ** C103 *)
Lemma along_subkey ks : forall order, Forall (fun q => subkey ks (fst q) = Some (snd q)) (subkeys_along ks order).
Proof.
  induction order as [|k l IH]; [constructor|]. cbn [subkeys_along flat_map]. apply Forall_app. split; auto.
  destruct (subkey ks k) eqn:Q; constructor; auto.
Qed.
Lemma good_role E edv m pw tp k base x b : block_good E edv m pw tp k base x b -> role b = Some [usage k].
Proof.
  intros B. destruct (bg_binding _ _ _ _ _ _ _ _ _ B) as (s & emb & Es & _ & Hs & _).
  unfold role. rewrite Es. unfold sig_of. cbn [sp_hashed]. rewrite Hs. reflexivity.
Qed.
Lemma good_block E edv f ks pw tape t b : export_good E edv f ks pw tape t -> In b (tk_subkeys t) ->
  exists k base x sg, subkey ks k = Some (base, x) /\ sb_key b = public_of base /\
    unlock E pw (sb_secret b) = Some (be_uint (ec_private base)) /\ role b = Some [usage k] /\
    bind_subkey E (ks_master ks) base (usage k) x = Ok sg /\ sb_binding b = sig_of sg.
Proof.
  intros G. pose proof (along_subkey ks (order E ks)) as S. pose proof (eg_subkeys _ _ _ _ _ _ _ G) as F1. pose proof (eg_bound _ _ _ _ _ _ _ G) as F2.
  revert S F1 F2. generalize (tk_subkeys t) as bl. induction (subkeys_along ks (order E ks)) as [|q l IH]; intros bl S F1 F2 I.
  - inversion F1; subst. destruct I.
  - inversion F1 as [|? b0 ? bl' B1 F1']; subst. inversion F2 as [|? ? ? ? B2 F2']; subst. inversion S as [|? ? S1 S2]; subst.
    destruct I as [-> | I]; [|eapply IH; eauto]. destruct q as [k [base x]]. cbn [fst snd] in *. destruct B2 as (sg & B2 & B3).
    exists k, base, x, sg. split; [exact S1|]. split; [exact (bg_key _ _ _ _ _ _ _ _ _ B1)|]. split; [exact (bg_unlock _ _ _ _ _ _ _ _ _ B1)|].
    split; [exact (good_role _ _ _ _ _ _ _ _ _ B1)|]. auto.
Qed.
Lemma usage_inj k k' : Some [usage k] = Some [usage k'] -> k = k'.
Proof. destruct k, k'; cbn; congruence. Qed.
Lemma good_subkeys E edv f ks pw tape t : export_good E edv f ks pw tape t ->
  map (fun b => (role b, sb_key b)) (tk_subkeys t) =
  map (fun q => (Some [usage (fst q)], public_of (fst (snd q)))) (subkeys_along ks (order E ks)).
Proof.
  intros G. pose proof (eg_subkeys _ _ _ _ _ _ _ G) as F. induction F as [|q b l bl B F IH]; [reflexivity|].
  cbn [map]. rewrite IH, (good_role _ _ _ _ _ _ _ _ _ B), (bg_key _ _ _ _ _ _ _ _ _ B). reflexivity.
Qed.

Lemma good_same_keys E edv f1 f2 ks1 ks2 pw1 pw2 tape1 tape2 t1 t2 :
  export_good E edv f1 ks1 pw1 tape1 t1 -> export_good E edv f2 ks2 pw2 tape2 t2 ->
  ed_base (ks_master ks1) = ed_base (ks_master ks2) ->
  (forall k b1 x1 b2 x2, subkey ks1 k = Some (b1, x1) -> subkey ks2 k = Some (b2, x2) -> b1 = b2) ->
  same_keys E pw1 t1 pw2 t2.
Proof.
  intros G1 G2 M S. split; [rewrite (eg_key _ _ _ _ _ _ _ G1), (eg_key _ _ _ _ _ _ _ G2), M; reflexivity|]. split.
  - pose proof (eg_secret _ _ _ _ _ _ _ G1) as S1. pose proof (eg_secret _ _ _ _ _ _ _ G2) as S2.
    destruct f1; [|left; exact S1]. destruct f2; [|right; left; exact S2]. right. right.
    exists (be_uint (ec_private (ed_base (ks_master ks1)))). split; [apply S1|]. rewrite M. apply S2.
  - intros b1 b2 I1 I2 R. destruct (good_block _ _ _ _ _ _ _ _ G1 I1) as (k1 & c1 & x1 & g1 & Q1 & K1 & U1 & R1 & _).
    destruct (good_block _ _ _ _ _ _ _ _ G2 I2) as (k2 & c2 & x2 & g2 & Q2 & K2 & U2 & R2 & _).
    rewrite R1, R2 in R. apply usage_inj in R. subst k2. pose proof (S _ _ _ _ _ Q1 Q2) as <-.
    split; [congruence|]. eexists. split; eauto.
Qed.
Lemma good_same_signatures E edv f1 f2 ks1 ks2 pw1 pw2 tape1 tape2 t1 t2 :
  export_good E edv f1 ks1 pw1 tape1 t1 -> export_good E edv f2 ks2 pw2 tape2 t2 ->
  ks_master ks1 = ks_master ks2 -> ks_uid ks1 = ks_uid ks2 ->
  (forall k p1 p2, subkey ks1 k = Some p1 -> subkey ks2 k = Some p2 -> p1 = p2) ->
  same_signatures t1 t2.
Proof.
  intros G1 G2 M U S. split; [rewrite (eg_uid _ _ _ _ _ _ _ G1), (eg_uid _ _ _ _ _ _ _ G2), U; reflexivity|]. split.
  - intros c1 c2 C1 C2. destruct (eg_certified _ _ _ _ _ _ _ G1 c1 C1) as (s1 & A1 & ->).
    destruct (eg_certified _ _ _ _ _ _ _ G2 c2 C2) as (s2 & A2 & ->). rewrite M, U in A1. rewrite A1 in A2. apply ok_inj in A2. congruence.
  - intros b1 b2 I1 I2 R. destruct (good_block _ _ _ _ _ _ _ _ G1 I1) as (k1 & c1 & x1 & g1 & Q1 & K1 & U1 & R1 & B1 & D1).
    destruct (good_block _ _ _ _ _ _ _ _ G2 I2) as (k2 & c2 & x2 & g2 & Q2 & K2 & U2 & R2 & B2 & D2).
    rewrite R1, R2 in R. apply usage_inj in R. subst k2. pose proof (S _ _ _ Q1 Q2) as Y. injection Y as -> ->.
    rewrite M, B2 in B1. apply ok_inj in B1. congruence.
Qed.

(** two keys made of one seed in one second *)
Lemma made_sets E s t t' o1 o2 m1 m2 : hkdf_ok E -> seed_ok s -> opts_ok (opts_of o1) -> opts_ok (opts_of o2) -> t / ns = t' / ns ->
  mnk_new E s t o1 = Ok m1 -> mnk_new E s t' o2 = Ok m2 ->
  exists c, mnk_keys m1 = derived E s c (opts_of o1) /\ mnk_keys m2 = derived E s c (opts_of o2).
Proof.
  intros HK S O1 O2 T N1 N2. destruct (mnk_new_window_only _ _ _ _ _ N1) as (_ & T1 & W1). destruct (mnk_new_window_only _ _ _ _ _ N2) as (_ & T2 & W2).
  rewrite mnk_new_window in N1 by auto. rewrite mnk_new_window in N2 by auto. apply ok_inj in N1, N2. subst m1 m2. cbn [mnk_keys].
  change ns with second in T. exists (t / second * second). rewrite <- T. auto.
Qed.

(** Two exports of keys made of one seed and second, with the same indices, whatever else the options and
    whatever the forms and passwords: the same keys and secrets.  With the same user ID and TTL: the same
    signatures.  With the same selection: the same subkeys in the same order. *)
Theorem exports_same_keys : forall E edv s t t' o1 o2 m1 m2 f1 f2 pw1 pw2 tape1 tape2 t1 t2,
  hkdf_ok E -> env_ok E edv -> seed_ok s -> opts_ok (opts_of o1) -> opts_ok (opts_of o2) -> t / 10 ^ 9 = t' / 10 ^ 9 ->
  zlen (ko_name (opts_of o1)) + zlen (ko_email (opts_of o1)) < 2 ^ 31 -> zlen (ko_name (opts_of o2)) + zlen (ko_email (opts_of o2)) < 2 ^ 31 ->
  mnk_new E s t o1 = Ok m1 -> mnk_new E s t' o2 = Ok m2 ->
  ko_enc_index (opts_of o1) = ko_enc_index (opts_of o2) -> ko_auth_index (opts_of o1) = ko_auth_index (opts_of o2) ->
  ko_sign_index (opts_of o1) = ko_sign_index (opts_of o2) ->
  password_ok pw1 -> password_ok pw2 -> Forall byte tape1 -> Forall byte tape2 ->
  exports E f1 (mnk_keys m1) pw1 tape1 t1 -> exports E f2 (mnk_keys m2) pw2 tape2 t2 ->
  same_keys E pw1 t1 pw2 t2 /\
  (ko_name (opts_of o1) = ko_name (opts_of o2) -> ko_email (opts_of o1) = ko_email (opts_of o2) ->
   ko_ttl (opts_of o1) = ko_ttl (opts_of o2) -> same_signatures t1 t2) /\
  (ko_subkeys (opts_of o1) = ko_subkeys (opts_of o2) -> same_subkeys t1 t2).
Proof.
  intros E edv s t t' o1 o2 m1 m2 f1 f2 pw1 pw2 tape1 tape2 t1 t2 HK HE S O1 O2 T L1 L2 N1 N2 I1 I2 I3 P1 P2 B1 B2 X1 X2.
  pose proof (new_key_set_built E edv s t o1 m1 HK HE S O1 L1 N1) as K1. pose proof (new_key_set_built E edv s t' o2 m2 HK HE S O2 L2 N2) as K2.
  pose proof (exports_inv E edv f1 _ pw1 tape1 t1 HE K1 B1 P1 X1) as G1. pose proof (exports_inv E edv f2 _ pw2 tape2 t2 HE K2 B2 P2 X2) as G2.
  destruct (made_sets E s t t' o1 o2 m1 m2 HK S O1 O2 T N1 N2) as (c & D1 & D2). rewrite D1 in G1. rewrite D2 in G2.
  clear X1 X2 N1 N2 K1 K2 D1 D2. generalize dependent (opts_of o1). generalize dependent (opts_of o2). intros p2 O2 L2 G2 p1 O1 L1 I1 I2 I3 G1.
  assert (SK : forall k b1 x1 b2 x2, subkey (derived E s c p1) k = Some (b1, x1) -> subkey (derived E s c p2) k = Some (b2, x2) ->
            b1 = b2 /\ (ko_ttl p1 = ko_ttl p2 -> x1 = x2)).
  { unfold derived. cbv zeta. intros k b1 x1 b2 x2. rewrite <- I1, <- I2, <- I3.
    destruct k; cbn [subkey ks_enc ks_auth ks_sign];
      match goal with |- option_map _ (if ?a then _ else _) = _ -> option_map _ (if ?b then _ else _) = _ -> _ => destruct a, b end;
      cbn [option_map]; try discriminate; intros A B; injection A as <- <-; injection B as <- <-; (split; [reflexivity|]);
      intros Q; cbn [cv_expiry curve_of ed_expiry ed_of]; rewrite Q; reflexivity. }
  split; [|split].
  - eapply good_same_keys; [exact G1|exact G2|reflexivity|]. intros k b1 x1 b2 x2 Q1 Q2. exact (proj1 (SK _ _ _ _ _ Q1 Q2)).
  - intros QN QE QT. eapply good_same_signatures; [exact G1|exact G2| | |].
    + unfold derived. cbv zeta. cbn [ks_master]. rewrite QT. reflexivity.
    + unfold derived. cbv zeta. cbn [ks_uid]. rewrite QN, QE. reflexivity.
    + intros k [b1 x1] [b2 x2] Q1 Q2. destruct (SK _ _ _ _ _ Q1 Q2) as [-> Y]. rewrite (Y QT). reflexivity.
  - intros QS. unfold same_subkeys. rewrite (good_subkeys _ _ _ _ _ _ _ G1), (good_subkeys _ _ _ _ _ _ _ G2).
    change (order E (derived E s c p1)) with (order E (derived E s c p2)). generalize (order E (derived E s c p2)) as l.
    assert (PR : forall k, match subkey (derived E s c p1) k, subkey (derived E s c p2) k with
                           | Some _, Some _ => True | None, None => True | _, _ => False end).
    { unfold derived, subkey_enabled. cbv zeta. rewrite QS. intros []; cbn [subkey ks_enc ks_auth ks_sign];
        match goal with |- context [option_map _ (if ?a then _ else _)] => destruct a end; exact I. }
    induction l as [|k l IH]; [reflexivity|]. cbn [subkeys_along flat_map]. fold (subkeys_along (derived E s c p1) l) (subkeys_along (derived E s c p2) l).
    specialize (PR k). destruct (subkey (derived E s c p1) k) as [[b1 x1]|] eqn:Q1, (subkey (derived E s c p2) k) as [[b2 x2]|] eqn:Q2; try contradiction.
    + destruct (SK _ _ _ _ _ Q1 Q2) as [-> _]. cbn [app map fst snd]. rewrite IH. reflexivity.
    + exact IH.
Qed.
Print Assumptions exports_same_keys.

(** the password the phrase of generate was encrypted with: typed after that of the keys *)
Definition phrase_password (g : generate_options) (w : world) (pw : option bytes) : Prop :=
  if go_encrypt_phrase g
  then exists p, fst (user_input_password (w_tty w) true
         (if go_encrypt_keys g then snd (user_input_password (w_tty w) true (after_seed g (w_stdin w))) else after_seed g (w_stdin w))) = Ok p /\ pw = Some p
  else pw = None.

Lemma entered_nonempty tty stdin p : fst (user_input_password tty true stdin) = Ok p -> p <> [].
Proof.
  intros H. assert (Q : exists w', ask_password true (mk_world (fun _ => Absent None) stdin tty None [] 0 [] 0 [] 0) = (Ret p, w')).
  { unfold ask_password. cbn [w_tty w_stdin]. destruct (user_input_password tty true stdin) as [r rest]. cbn [fst] in H. subst r. eexists. reflexivity. }
  destruct Q as (w' & Q). apply asked_typed in Q as (_ & [N _] & _). exact N.
Qed.

(** generate, any number of conversions, recover; either command may protect the keys *)
Theorem recover_any_protection : forall E edv g w w',
  wordlist_ok E -> argon_ok E -> aes_ok E -> hkdf_ok E -> env_ok E edv -> seconds_ok E -> armor_ok E -> world_ok w ->
  user_id_ok (trim_space E (go_name g)) (trim_space E (go_email g)) ->
  generate_and_print E g w = (Ret tt, w') ->
  exists words (kp1 : bytes), phrase_given g w w' words /\ phrase_ok E words /\
    key_password (go_encrypt_keys g) (w_tty w) (after_seed g (w_stdin w)) kp1 /\
    forall pw h' o v v', phrase_password g w pw -> convert_sessions E (words, pw) h' -> enters_held E (ro_input o) v h' ->
      Forall byte (w_random v) -> user_id_ok (trim_space E (ro_name o)) (trim_space E (ro_email o)) -> first_indices o ->
      recover_and_print E o v = (Ret tt, v') ->
      exists s dm v2 (kp2 : bytes), decode_mnemonic_from_input E (ro_input o) v = (Ret (s, dm), v2) /\
        key_password (ro_encrypt_keys o) (w_tty v2) (w_stdin v2) kp2 /\
        (password_ok kp1 -> password_ok kp2 -> exists packets1 packets2 t1 t2,
          printed (w_stdout w) (w_stdout w') packets1 /\ printed (w_stdout v) (w_stdout v') packets2 /\
          read_transferable packets1 = Some t1 /\ read_transferable packets2 = Some t2 /\
          same_keys E kp1 t1 kp2 t2 /\
          (same_identity g o -> same_signatures t1 t2) /\
          (ro_only o = go_only g -> same_subkeys t1 t2 /\ (tk_secret t1 = Stub <-> tk_secret t2 = Stub))).
Proof.
  intros E edv g w w' W A X HK HE SE HA WO UO G.
  destruct (generate_draws E edv g w w' W A X HK HE SE HA WO UO G)
    as (source & ttl & master & types & m & kp1 & words & dm1 & SRC & LS & TA & OT & N & KP1 & PG & PK & D1 & EN1 & CR1 & SD1 & PR1 & PH1).
  cbv zeta in *. set (s := mk_seed 0 (be_uint (firstn 16 source))) in *. exists words, kp1. split; [exact PG|]. split; [exact PK|]. split; [exact KP1|].
  intros pw h' o v v' PP C EN BR UO2 (I1 & I2 & I3) R.
  assert (OB : 0 <= dm_offset dm1 < 2 ^ 31) by (eapply decoded_offset; eauto).
  assert (OP : opens E (words, pw) s (dm_offset dm1)).
  { exists dm1. cbn [fst snd]. split; [exact D1|]. split; [reflexivity|]. unfold phrase_password in PP. destruct (go_encrypt_phrase g) eqn:Q.
    - destruct PP as (p & PP & ->). destruct (PH1 eq_refl) as (ppw & PQ & DS & _). rewrite PQ in PP. apply ok_inj in PP. subst p.
      split; [exact EN1|]. split; [exact (entered_nonempty _ _ _ PQ)|exact DS].
    - subst pw. split; [exact EN1|exact (SD1 eq_refl)]. }
  assert (SO : seed_ok s) by (apply (opens_seed E _ _ _ W A X OP)).
  apply (conversions_keep E _ _ _ _ W A X C) in OP. destruct (opened_input _ _ _ _ _ _ EN OP) as (dm & v2 & D & _ & OFF).
  assert (CR : dm_creation dm = w_now w / 10 ^ 9 * 10 ^ 9) by (rewrite <- CR1, (created dm _ OB OFF), (created dm1 _ OB eq_refl); reflexivity).
  destruct (recover_draws E edv o v v' W A X HK HE SE HA BR UO2 ltac:(lia) ltac:(lia) ltac:(lia) R)
    as (master2 & types2 & s2 & dm2 & v2' & ttl2 & m2 & kp2 & TA2 & OT2 & D2 & N2 & KP2 & PR2).
  rewrite D in D2. assert (s2 = s /\ dm2 = dm /\ v2' = v2) as (-> & -> & ->) by (repeat split; congruence). clear D2. cbv zeta in PR2.
  exists s, dm, v2, kp2. split; [exact D|]. split; [exact KP2|]. intros P1 P2.
  destruct (PR1 P1) as (packets1 & t1 & Y1 & AP1 & _ & _ & RT1 & _). destruct (PR2 P2) as (packets2 & t2 & Y2 & AP2 & _ & RT2 & _).
  exists packets1, packets2, t1, t2. split; [exact Y1|]. split; [exact Y2|]. split; [exact RT1|]. split; [exact RT2|].
  rewrite I1, I2, I3 in N2. rewrite CR in N2.
  set (o1 := mk_opts (trim_space E (go_name g)) (trim_space E (go_email g)) ttl 0 0 0 types) in *.
  set (o2 := mk_opts (trim_space E (ro_name o)) (trim_space E (ro_email o)) ttl2 0 0 0 types2) in *.
  rewrite api_packets_export in AP1, AP2.
  assert (EX1 : exports E (if master then Full else Subkeys_only true) (mnk_keys m) kp1 (salt_source g w) t1) by (eexists; eexists; split; [exact AP1|exact RT1]).
  assert (EX2 : exports E (if master2 then Full else Subkeys_only (ro_self_cert o)) (mnk_keys m2) kp2 (w_random v) t2) by (eexists; eexists; split; [exact AP2|exact RT2]).
  assert (OK1 : opts_ok (opts_of (Some o1))) by (unfold opts_ok; cbn; lia). assert (OK2 : opts_ok (opts_of (Some o2))) by (unfold opts_ok; cbn; lia).
  assert (BS : Forall byte (salt_source g w)).
  { destruct WO as (B1 & _). unfold salt_source. destruct (go_entropy g); [apply skipn_byte|]; exact B1. }
  assert (TT : w_now w / 10 ^ 9 = w_now w / 10 ^ 9 * 10 ^ 9 / 10 ^ 9) by (rewrite Z.div_mul by discriminate; reflexivity).
  destruct UO as (_ & _ & UL). destruct UO2 as (_ & _ & UL2).
  destruct (exports_same_keys E edv s (w_now w) _ (Some o1) (Some o2) m m2 _ _ kp1 kp2 (salt_source g w) (w_random v) t1 t2
     HK HE SO OK1 OK2 TT UL UL2 N N2 eq_refl eq_refl eq_refl P1 P2 BS BR EX1 EX2) as (K1 & K2 & K3).
  split; [exact K1|]. split.
  - intros (Q1 & Q2 & Q3). apply K2; cbn [opts_of o1 o2 ko_name ko_email ko_ttl]; [congruence|congruence|].
    rewrite Q3 in TA2. unfold ttl_asked in TA, TA2. destruct (go_ttl g); [congruence|]. rewrite TA in TA2. apply ok_inj in TA2. exact TA2.
  - intros Q. rewrite Q, OT in OT2. apply ok_inj in OT2. assert (master2 = master /\ types2 = types) as [-> ->] by (split; congruence).
    split; [apply K3; reflexivity|].
    pose proof (new_key_set_built E edv s _ _ m HK HE SO OK1 UL N) as B1. pose proof (new_key_set_built E edv s _ _ m2 HK HE SO OK2 UL2 N2) as B2.
    pose proof (eg_secret _ _ _ _ _ _ _ (exports_inv E edv _ _ _ _ _ HE B1 BS P1 EX1)) as S1.
    pose proof (eg_secret _ _ _ _ _ _ _ (exports_inv E edv _ _ _ _ _ HE B2 BR P2 EX2)) as S2.
    destruct master; [|tauto]. destruct S1 as [S1 _], S2 as [S2 _]. split; intros Z1; rewrite Z1 in *; discriminate.
Qed.
Print Assumptions recover_any_protection.

(** a copy of the file generate saved is read as the phrase *)
Theorem saved_phrase_read : forall E g w w' words i v, wordlist_ok E -> words_short E -> phrase_ok E words ->
  phrase_given g w w' words -> go_out_file g <> [] -> io_in_file i <> [] -> w_files v (io_in_file i) = w_files w' (go_out_file g) ->
  read_phrase E i v = (Ret words, v).
Proof.
  intros E g w w' words i v W SH P PG OF IF F. unfold phrase_given in PG. destruct (go_out_file g) as [|b path] eqn:O; [congruence|].
  destruct PG as (_ & PG & _). rewrite PG in F. change (join [32] words ++ [10]) with (word_file_content words) in F.
  unfold read_phrase. destruct (io_in_file i) as [|c p]; [congruence|]. unfold read_word_file, andthen, open_file. rewrite F. unfold lift.
  destruct (killed_save_outcomes E words W SH P) as [_ K]. rewrite firstn_all in K. rewrite K. reflexivity.
Qed.
Print Assumptions saved_phrase_read.

(** ** A case: keys under password one, phrase under two and saved; recovered with another selection, keys under three *)
Definition case_back : recover_options :=
  mk_rec (bs "username ") (bs "username@email.com") (bs "1y") true (bs "encryption,authentication") (mk_in false (bs "copy")) false 0 0 0.
Definition case_back_world (content : bytes) : world :=
  mk_world (fun p => if bytes_eqb p (bs "copy") then File content else Absent None)
    (bs "two" ++ [10] ++ bs "three" ++ [10] ++ bs "three" ++ [10]) true None case_tape 0 [] 0 [] 0.
Example protected_case : exists w' v' content t1 t2 packets1 packets2,
  generate_and_print toy_env case_all case_world = (Ret tt, w') /\ w_files w' (bs "phrase") = File content /\
  recover_and_print toy_env case_back (case_back_world content) = (Ret tt, v') /\
  printed (w_stdout case_world) (w_stdout w') packets1 /\ printed [] (w_stdout v') packets2 /\
  read_transferable packets1 = Some t1 /\ read_transferable packets2 = Some t2 /\
  same_keys toy_env (bs "one") t1 (bs "three") t2.
Proof.
  destruct generate_all_case as (w' & content & G & _ & FC).
  assert (WO : world_ok case_world).
  { split; [|split].
    - exact case_tape_bytes.
    - repeat constructor; vm_compute; congruence.
    - intros p c. cbn [case_world w_files]. destruct (bytes_eqb p (bs "dice")); [|discriminate]. intros Q. injection Q as <-. repeat constructor; vm_compute; congruence. }
  assert (U : user_id_ok (trim_space toy_env (go_name case_all)) (trim_space toy_env (go_email case_all)))
    by (split; [|split]; [repeat constructor; vm_compute; congruence|repeat constructor; vm_compute; congruence|vm_compute; reflexivity]).
  assert (U2 : user_id_ok (trim_space toy_env (ro_name case_back)) (trim_space toy_env (ro_email case_back)))
    by (split; [|split]; [repeat constructor; vm_compute; congruence|repeat constructor; vm_compute; congruence|vm_compute; reflexivity]).
  destruct (recover_any_protection toy_env toy_verify case_all case_world w' toy_wordlist_ok toy_argon_ok toy_aes_ok toy_hkdf_ok toy_env_ok toy_seconds_ok toy_armor_ok WO U G)
    as (words & kp1 & PG & PK & KP1 & ALL).
  set (v := case_back_world content).
  assert (BV : Forall byte (w_random v)) by (unfold v, case_back_world; cbn [w_random]; exact case_tape_bytes).
  assert (RP : read_phrase toy_env (ro_input case_back) v = (Ret words, v)).
  { eapply (saved_phrase_read toy_env case_all case_world w'); [apply toy_wordlist_ok|apply toy_words_short|exact PK|exact PG|discriminate|discriminate|].
    change (go_out_file case_all) with (bs "phrase"). rewrite FC. reflexivity. }
  assert (EN : enters_held toy_env (ro_input case_back) v (words, Some (bs "two"))).
  { exists v. split; [exact RP|]. cbn [snd fst]. split; [reflexivity|]. exists [], (bs "two"), (bs "three" ++ [10] ++ bs "three" ++ [10]).
    split; [reflexivity|]. split; [repeat constructor; vm_compute; intuition congruence|]. split; [vm_compute; reflexivity|]. intros; constructor. }
  destruct (generate_draws toy_env toy_verify case_all case_world w' toy_wordlist_ok toy_argon_ok toy_aes_ok toy_hkdf_ok toy_env_ok toy_seconds_ok toy_armor_ok WO U G)
    as (source & ttl & master & types & m & kp & words2 & dm & _ & _ & _ & _ & _ & _ & PG2 & PK2 & D & EC & CR & _ & _ & PH).
  assert (words2 = words).
  { assert (R2 : read_phrase toy_env (ro_input case_back) v = (Ret words2, v)).
    { eapply (saved_phrase_read toy_env case_all case_world w'); [apply toy_wordlist_ok|apply toy_words_short|exact PK2|exact PG2|discriminate|discriminate|].
      change (go_out_file case_all) with (bs "phrase"). rewrite FC. reflexivity. }
    rewrite RP in R2. congruence. }
  subst words2. destruct (PH eq_refl) as (ppw & PQ & DS & _). assert (ppw = bs "two") by (apply ok_inj; rewrite <- PQ; vm_compute; reflexivity). subst ppw.
  pose proof (retry_first toy_env (ro_input case_back) v words v dm [] (bs "two") (bs "three" ++ [10] ++ bs "three" ++ [10]) _
    RP D EC eq_refl eq_refl ltac:(repeat constructor; vm_compute; intuition congruence) ltac:(constructor) ltac:(discriminate) DS) as DI.
  assert (R : exists v', recover_and_print toy_env case_back v = (Ret tt, v')).
  { assert (TA : ttl_asked toy_env (ro_ttl case_back) (31536000 * second)) by (vm_compute; reflexivity).
    assert (OT : decode_only_key_types (ro_only case_back) = Ok (false, Some [bs "encryption"; bs "authentication"])) by (vm_compute; reflexivity).
    assert (LV : (96 <= length (w_random v))%nat) by (unfold v, case_back_world; cbn [w_random]; apply Nat.leb_le; vm_compute; reflexivity).
    clear PH. match type of DI with _ = (Ret (?s0, _), ?v0) => generalize dependent s0; assert (KP : key_password true (w_tty v0) (w_stdin v0) (bs "three"))
      by (split; [discriminate|vm_compute; reflexivity]); generalize dependent v0 end.
    intros v0 KP s0 DS DI.
    apply (recover_works toy_env toy_verify case_back v (31536000 * second) false (Some [bs "encryption"; bs "authentication"]) s0 dm v0 (bs "three")
      toy_wordlist_ok toy_argon_ok toy_aes_ok toy_hkdf_ok toy_env_ok BV U2); auto; first [split; [discriminate|reflexivity]|vm_compute; congruence]. }
  destruct R as (v' & R).
  destruct (ALL (Some (bs "two")) (words, Some (bs "two")) case_back v v') as (s2 & dm2 & v2 & kp2 & DI2 & KP2 & FIN);
    [exists (bs "two"); split; [vm_compute; reflexivity|reflexivity]|apply rt_refl|exact EN|exact BV|exact U2|repeat split|exact R|].
  rewrite DI in DI2. assert (V : v2 = set_prompts (set_stdin v (bs "three" ++ [10] ++ bs "three" ++ [10])) (w_prompts v + length (filter nonblank []) + 1)) by congruence.
  subst v2. destruct KP1 as [_ KP1], KP2 as [_ KP2]. assert (kp1 = bs "one") by (apply ok_inj; rewrite <- KP1; vm_compute; reflexivity). assert (kp2 = bs "three") by (apply ok_inj; rewrite <- KP2; vm_compute; reflexivity).
  subst kp1 kp2. destruct FIN as (packets1 & packets2 & t1 & t2 & Y1 & Y2 & RT1 & RT2 & SK & _); [vm_compute; congruence|vm_compute; congruence|].
  exists w', v', content, t1, t2, packets1, packets2. split; [exact G|]. split; [exact FC|]. split; [exact R|]. split; [exact Y1|]. split; [exact Y2|]. auto.
Qed.
