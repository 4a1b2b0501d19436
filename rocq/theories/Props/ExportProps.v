(** C28, C30-C36: exported keys as an independent OpenPGP reader sees them. *)
From Coq Require Import Lia ZifyBool ZifyNat Permutation.
From Verif.Model Require Import GoBase Env GoTime Seed Encoding PgpWire PgpS2k PgpKeys Mnemonikey.
From Verif.Spec Require Import EnvSpec PhraseSpec KeySpec PgpSpec ExportSpec.
From Verif.Proofs Require Import BitsP EnvInst RoundtripP KeysP PgpP S2kP SignP ExportP.
From Verif.Props Require Import KeyProps.
Ltac Zify.zify_post_hook ::= Z.div_mod_to_equations.

(** ** helper facts *)
Lemma total_along ks : total ks = length (subkeys_along ks all_kinds).
Proof.
  unfold total, before, count_of, subkeys_along, all_kinds. cbn [flat_map].
  destruct (subkey ks Encryption), (subkey ks Authentication), (subkey ks Signing); reflexivity.
Qed.
Lemma before_rank ks k : before ks k = rank ks k.
Proof.
  unfold before, count_of, rank, subkeys_along. destruct k; cbn [flat_map]; [reflexivity| |];
  destruct (subkey ks Encryption), (subkey ks Authentication); reflexivity.
Qed.
Lemma tape_randomness f ks pw : tape_needed f ks pw = randomness f ks pw.
Proof.
  unfold tape_needed, randomness, secrets_in, need. rewrite total_along. destruct pw; [reflexivity|].
  destruct f; reflexivity.
Qed.
Lemma flat_map_perm {A B} (f : A -> list B) l m : Permutation l m -> Permutation (flat_map f l) (flat_map f m).
Proof.
  induction 1; cbn [flat_map]; auto.
  - apply Permutation_app_head; auto.
  - rewrite !app_assoc. apply Permutation_app_tail, Permutation_app_comm.
  - etransitivity; eauto.
Qed.
Lemma along_perm ks l m : Permutation l m -> Permutation (subkeys_along ks l) (subkeys_along ks m).
Proof. apply flat_map_perm. Qed.
Lemma order_perm E ks : rand_ok E -> Permutation all_kinds (order E ks).
Proof. intros H. apply shuffle_pick; auto. Qed.
Lemma is_key_public k : is_key k (public_of k).
Proof. repeat split. Qed.

Lemma good_match E edv f ks pw tape t (P : subkey_kind -> ecc_key -> Z -> subkey_block -> Prop) : env_ok E edv -> export_good E edv f ks pw tape t ->
  (forall k base x b, subkey ks k = Some (base, x) ->
     block_good E edv (ed_base (ks_master ks)) pw (skipn (need pw * (master_count f + before ks k)) tape) k base x b -> P k base x b) ->
  subkeys_match ks t P.
Proof.
  intros (_ & _ & _ & _ & HR) G H. exists (order E ks). split; [apply order_perm; auto|].
  pose proof (eg_subkeys _ _ _ _ _ _ _ G) as F. unfold subkeys_along in *.
  assert (S : Forall (fun q => subkey ks (fst q) = Some (snd q)) (subkeys_along ks (order E ks))).
  { generalize (order E ks). intros l. induction l as [|k l IH]; [constructor|]. cbn [subkeys_along flat_map].
    apply Forall_app. split; auto. destruct (subkey ks k) eqn:Q; constructor; auto. }
  unfold subkeys_along in S. revert S. induction F as [|q b l m Hq F IH]; intros S; constructor.
  - inversion S as [|? ? S1 S2]; subst. destruct q as [k [base x]]. cbn [fst snd] in *. split.
    + rewrite (bg_key _ _ _ _ _ _ _ _ _ Hq). apply is_key_public.
    + apply H; auto.
  - apply IH. inversion S; auto.
Qed.

(** ** C30 *)
Theorem export_wellformed : forall E edv f ks pw tape, env_ok E edv -> built E ks -> password_ok pw ->
  Forall byte tape -> (randomness f ks pw <= length tape)%nat ->
  exists out ps t,
    export E f ks pw tape = Ok (out, skipn (randomness f ks pw) tape) /\
    read_packets out = Some ps /\
    map fst ps = [5; 13] ++ (if has_certification f then [2] else []) ++
                 concat (repeat [7; 2] (length (subkeys_along ks all_kinds))) /\
    read_transferable out = Some t /\
    is_key (ed_base (ks_master ks)) (tk_key t) /\ tk_uid t = uid_encode (ks_uid ks) /\
    (tk_cert t <> None <-> has_certification f = true) /\
    subkeys_match ks t (fun _ _ _ _ => True).
Proof.
  intros E edv f ks pw tape HE HB Hp Ht Hn. rewrite <- tape_randomness in *.
  destruct (export_ok E edv f ks pw tape HE HB Ht Hp Hn) as (out & ps & t & X1 & X2 & X3 & X4 & X5).
  exists out, ps, t. split; auto. split; auto. split; [|split; auto; split; [|split; [|split]]].
  - rewrite X3, (Permutation_length (along_perm ks _ _ (order_perm E ks (proj2 (proj2 (proj2 (proj2 HE))))))). reflexivity.
  - rewrite (eg_key _ _ _ _ _ _ _ X5). apply is_key_public.
  - apply (eg_uid _ _ _ _ _ _ _ X5).
  - pose proof (eg_cert _ _ _ _ _ _ _ X5) as C. destruct (tk_cert t); split; intros; try tauto; try congruence.
  - eapply good_match; eauto.
Qed.
Print Assumptions export_wellformed.
(** without enough randomness the export fails with the reader's error; it never panics *)
Theorem export_fails_only_without_randomness : forall E edv f ks pw tape, env_ok E edv -> built E ks -> password_ok pw ->
  Forall byte tape -> (length tape < randomness f ks pw)%nat -> export E f ks pw tape = Err ErrRandomSource.
Proof.
  intros E edv f ks pw tape HE HB Hp Ht Hn. rewrite <- tape_randomness in *. eapply export_short; eauto.
Qed.
Print Assumptions export_fails_only_without_randomness.

(** ** C31 *)
Theorem subkey_order : forall E edv private, env_ok E edv ->
  exists order, Permutation all_kinds order /\
    forall f ks pw tape t, built E ks -> ed_private (ks_master ks) = private -> password_ok pw -> Forall byte tape ->
      exports E f ks pw tape t ->
      Forall2 (fun q b => is_key (fst (snd q)) (sb_key b)) (subkeys_along ks order) (tk_subkeys t).
Proof.
  intros E edv private HE. exists (order_of E (shuffle_seed E private)). split; [apply shuffle_pick, HE|].
  intros f ks pw tape t HB <- Hp Ht X. pose proof (exports_inv E edv f ks pw tape t HE HB Ht Hp X) as G.
  eapply forall2_impl; [|exact (eg_subkeys _ _ _ _ _ _ _ G)]. intros q b Hq. cbn beta.
  rewrite (bg_key _ _ _ _ _ _ _ _ _ Hq). apply is_key_public.
Qed.
Print Assumptions subkey_order.

(** ** C32 *)
Theorem subkey_export_has_stub : forall E edv c ks pw tape t, env_ok E edv -> built E ks -> password_ok pw ->
  Forall byte tape -> exports E (Subkeys_only c) ks pw tape t -> tk_secret t = Stub.
Proof.
  intros E edv c ks pw tape t HE HB Hp Ht X. pose proof (exports_inv E edv _ ks pw tape t HE HB Ht Hp X) as G.
  apply (eg_secret _ _ _ _ _ _ _ G).
Qed.
Print Assumptions subkey_export_has_stub.

(** noninterference: two master secrets with one public key, which make the same signatures and give
    the subkeys the same order, cannot be told apart by the export - whatever the keys, even ill-formed *)
Definition same_public (a b : ecc_key) : Prop :=
  ec_public a = ec_public b /\ ec_creation a = ec_creation b /\ ec_alg a = ec_alg b /\ ec_oid a = ec_oid b /\ ec_extra a = ec_extra b.
Theorem subkey_export_hides_master : forall E ks ks' c pw tape, hash_ok E ->
  ks_uid ks = ks_uid ks' -> ks_enc ks = ks_enc ks' -> ks_auth ks = ks_auth ks' -> ks_sign ks = ks_sign ks' ->
  let m := ks_master ks in let m' := ks_master ks' in
  same_public (ed_base m) (ed_base m') -> ed_expiry m = ed_expiry m' ->
  (forall d, ed25519_sign E (ed_private m) d = ed25519_sign E (ed_private m') d) ->
  (forall k n, rand_int31n E (order_seed E (ed_private m)) k n = rand_int31n E (order_seed E (ed_private m')) k n) ->
  export E (Subkeys_only c) ks pw tape = export E (Subkeys_only c) ks' pw tape.
Proof.
  intros E ks ks' c pw tape HH Hu He Ha Hg m m' (P1 & P2 & P3 & P4 & P5) Hx Hs Hr.
  assert (EP : encode_public (ed_base m) = encode_public (ed_base m')).
  { unfold encode_public. rewrite P1, P2, P3, P4, P5. reflexivity. }
  assert (FP : fingerprint_v4 E (ed_base m) = fingerprint_v4 E (ed_base m')) by (unfold fingerprint_v4; rewrite EP; reflexivity).
  assert (SG : forall rq, sign E (ed_private m) rq = sign E (ed_private m') rq).
  { intros rq. unfold sign. destruct (hash_new E (rq_hash rq)); [|reflexivity]. rewrite Hs. reflexivity. }
  assert (BI : forall s fl x, bind_subkey E m s fl x = bind_subkey E m' s fl x).
  { intros s fl x. unfold bind_subkey, bind_data. rewrite EP, FP. cbv zeta.
    destruct (if negb _ then _ else _); cbn [bind]; auto. }
  assert (SP : forall k fl x tp, subkey_packets E m k fl x pw tp = subkey_packets E m' k fl x pw tp).
  { intros. unfold subkey_packets. destruct (private_packet _ _ _ _ _) as [[? ?]| |]; cbn [bind]; auto. rewrite BI. reflexivity. }
  assert (SC : self_certification E ks = self_certification E ks').
  { unfold self_certification, self_certify, certify_data. fold m m'. rewrite EP, FP, Hu, Hx, P2, SG. reflexivity. }
  assert (SH : forall A (l : list A), shuffle E (shuffle_seed E (ed_private m)) l = shuffle E (shuffle_seed E (ed_private m')) l).
  { intros A l. unfold shuffle. rewrite !order_seed_ok by auto. apply shuffle_from_ext. auto. }
  assert (AL : all_subkey_packets E ks pw tape = all_subkey_packets E ks' pw tape).
  { unfold all_subkey_packets. fold m m'. rewrite He, Ha, Hg. cbv zeta.
    destruct (ks_enc ks') as [k0|]; [rewrite SP; destruct (subkey_packets E m' _ _ _ pw tape) as [[? ?]| |]|]; cbn [bind]; auto;
    (destruct (ks_auth ks') as [k1|]; [rewrite SP; match goal with |- context [subkey_packets E m' (ed_base k1) ?a ?b ?c ?d] => destruct (subkey_packets E m' (ed_base k1) a b c d) as [[? ?]| |] end|]; cbn [bind]; auto;
    (destruct (ks_sign ks') as [k2|]; [rewrite SP; match goal with |- context [subkey_packets E m' (ed_base k2) ?a ?b ?c ?d] => destruct (subkey_packets E m' (ed_base k2) a b c d) as [[? ?]| |] end|]; cbn [bind]; auto;
     rewrite SH; reflexivity)). }
  cbn [export]. unfold encode_subkey_packets. fold m m'. cbv zeta. unfold encode_private_dummy. rewrite EP, SC, AL, Hu. reflexivity.
Qed.
Print Assumptions subkey_export_hides_master.

(** ** C33 *)
Lemma sealed_stored pw tape s : (need pw <= length tape)%nat -> sealed pw tape s ->
  stored_as pw s /\ (pw <> [] -> salt_of s = firstn 24 tape).
Proof.
  intros L H. destruct pw as [|p pw]; cbn [need sealed stored_as] in *.
  - split; auto. congruence.
  - destruct H as [body ->]. split.
    + do 3 eexists. split; [reflexivity|]. rewrite !zlen_eq, !firstn_length, skipn_length. split; lia.
    + intros _. unfold salt_of. clear. do 24 (destruct tape as [|? tape]; [reflexivity|]). reflexivity.
Qed.
Lemma along_bound ks k p : subkey ks k = Some p -> (before ks k + 1 <= total ks)%nat.
Proof.
  intros H. unfold total, before, count_of in *. destruct k; rewrite ?H; try lia.
Qed.
Theorem export_secrets : forall E edv f ks pw tape t, env_ok E edv -> built E ks -> password_ok pw ->
  Forall byte tape -> exports E f ks pw tape t ->
  (f = Full -> stored_as pw (tk_secret t) /\
     unlock E pw (tk_secret t) = Some (number (ec_private (ed_base (ks_master ks))))) /\
  subkeys_match ks t (fun _ base _ b => stored_as pw (sb_secret b) /\
     unlock E pw (sb_secret b) = Some (number (ec_private base))).
Proof.
  intros E edv f ks pw tape t HE HB Hp Ht X. pose proof (exports_inv E edv f ks pw tape t HE HB Ht Hp X) as G.
  assert (L : (tape_needed f ks pw <= length tape)%nat).
  { destruct (Nat.le_gt_cases (tape_needed f ks pw) (length tape)) as [A|A]; auto.
    destruct X as (out & rest & X & _). erewrite export_short in X; eauto. discriminate. }
  unfold tape_needed in L. split.
  - intros ->. destruct (eg_secret _ _ _ _ _ _ _ G) as [U S]. rewrite number_be. split; auto.
    eapply sealed_stored; [|exact S]. cbn [master_count] in L. lia.
  - eapply good_match; [exact HE|exact G|]. intros k base x b Q B. rewrite number_be. split.
    + eapply sealed_stored; [|exact (bg_sealed _ _ _ _ _ _ _ _ _ B)]. rewrite skipn_length.
      pose proof (along_bound ks k _ Q). nia.
    + apply (bg_unlock _ _ _ _ _ _ _ _ _ B).
Qed.
Print Assumptions export_secrets.

(** each stored secret has its own 24 bytes of the random source as salt and IV *)
Theorem export_randomness : forall E edv f ks pw tape t, env_ok E edv -> built E ks -> password_ok pw -> pw <> [] ->
  Forall byte tape -> exports E f ks pw tape t ->
  let first := match f with Full => 1 | Subkeys_only _ => 0 end%nat in
  (f = Full -> salt_of (tk_secret t) = firstn 24 tape) /\
  subkeys_match ks t (fun k _ _ b => salt_of (sb_secret b) = firstn 24 (skipn (24 * (first + rank ks k)) tape)).
Proof.
  intros E edv f ks pw tape t HE HB Hp Hne Ht X first. pose proof (exports_inv E edv f ks pw tape t HE HB Ht Hp X) as G.
  assert (L : (tape_needed f ks pw <= length tape)%nat).
  { destruct (Nat.le_gt_cases (tape_needed f ks pw) (length tape)) as [A|A]; auto.
    destruct X as (out & rest & X & _). erewrite export_short in X; eauto. discriminate. }
  unfold tape_needed in L. assert (N : need pw = 24%nat) by (destruct pw; [congruence|reflexivity]). split.
  - intros ->. destruct (eg_secret _ _ _ _ _ _ _ G) as [U S].
    eapply sealed_stored; [|exact S|auto]. cbn [master_count] in L. lia.
  - eapply good_match; [exact HE|exact G|]. intros k base x b Q B.
    assert (LL : (need pw <= length (skipn (need pw * (master_count f + before ks k)) tape))%nat).
    { rewrite skipn_length. pose proof (along_bound ks k _ Q). nia. }
    destruct (sealed_stored _ _ _ LL (bg_sealed _ _ _ _ _ _ _ _ _ B)) as [_ Y].
    rewrite (Y Hne), N, before_rank. reflexivity.
Qed.
Print Assumptions export_randomness.

(** ** C34 *)
Lemma find_stamp fp time l : find_sub 33 (map sub_pair (stamp_subs fp time ++ l)) = Some (4 :: fp) /\
  find_sub 2 (map sub_pair (stamp_subs fp time ++ l)) = Some (bytes_of_bits 32 (t_unix time)).
Proof. split; reflexivity. Qed.
Lemma number_32 x : 0 <= x < 2 ^ 32 -> number (bytes_of_bits 32 x) = x.
Proof.
  intros H. rewrite number_be. change 32%nat with (8 * 4)%nat. rewrite bytes_of_bits_be. apply be_uint_be_bytes_small. exact H.
Qed.
Lemma stamped E pk time l u s : hash_ok E -> 0 <= t_unix time < 2 ^ 32 ->
  sp_hashed s = map sub_pair (stamp_subs (fingerprint E pk) time ++ l) ->
  sp_unhashed s = map sub_pair (issuer_subs (fingerprint E pk) ++ u) ->
  signed_by E pk (t_unix time) s.
Proof.
  intros HH H A B. unfold signed_by. rewrite A, B. destruct (find_stamp (fingerprint E pk) time l) as [-> ->].
  split; [reflexivity|]. split.
  - destruct (HH (key_hash_input pk)) as [[L _] _]. cbn. fold (fingerprint E pk) in L.
    unfold issuer_subs. rewrite L. reflexivity.
  - cbn [option_map]. rewrite number_32 by auto. reflexivity.
Qed.

(** [cross E edv t b]: the binding of [b] embeds a signature by the subkey over both keys *)
Definition cross_certified (E : Env) (edv : bytes -> bytes -> bytes -> bool) (t : transferable) (b : subkey_block) : Prop :=
  exists e es, find_sub 32 (sp_unhashed (sb_binding b)) = Some e /\ read_signature e = Some es /\
    sp_type es = 0x19 /\ signed_by E (sb_key b) (pk_time (sb_key b)) es /\
    verifies E edv (sb_key b) (key_hash_input (tk_key t) ++ key_hash_input (sb_key b)) es = true.

Theorem export_signatures : forall E edv f ks pw tape t, env_ok E edv -> built E ks -> password_ok pw ->
  Forall byte tape -> exports E f ks pw tape t ->
  (forall c, tk_cert t = Some c -> sp_type c = 0x13 /\
     signed_by E (tk_key t) (pk_time (tk_key t)) c /\
     verifies E edv (tk_key t) (key_hash_input (tk_key t) ++ uid_hash_input (tk_uid t)) c = true) /\
  subkeys_match ks t (fun k _ _ b => sp_type (sb_binding b) = 0x18 /\
     signed_by E (tk_key t) (pk_time (sb_key b)) (sb_binding b) /\
     verifies E edv (tk_key t) (key_hash_input (tk_key t) ++ key_hash_input (sb_key b)) (sb_binding b) = true /\
     (k = Signing -> cross_certified E edv t b)).
Proof.
  intros E edv f ks pw tape t HE HB Hp Ht X. pose proof (exports_inv E edv f ks pw tape t HE HB Ht Hp X) as G.
  pose proof HE as (HH & _ & HS & HX & _).
  pose proof (eg_key _ _ _ _ _ _ _ G) as K. rewrite K.
  destruct (ed_base_ok E edv _ HS (built_ed_ok _ _ (built_master _ _ HB))) as [(MT & _) _]. split.
  - intros c Hc. pose proof (eg_cert _ _ _ _ _ _ _ G) as C. rewrite Hc in C. destruct C as [_ (s & -> & S1 & S2 & S3 & S4)].
    rewrite (eg_uid _ _ _ _ _ _ _ G). split; [exact S1|]. split; [|exact S4].
    eapply stamped with (u := []); auto.
    + unfold sig_of. cbn [sp_hashed]. rewrite S2. reflexivity.
    + unfold sig_of. cbn [sp_unhashed]. rewrite S3, app_nil_r. reflexivity.
  - eapply good_match; [exact HE|exact G|]. intros k base x b Q B.
    destruct (subkey_facts E edv ks k base x HS HX HB Q) as (BO & _ & _). pose proof BO as (BT & _).
    destruct (bg_binding _ _ _ _ _ _ _ _ _ B) as (s & emb & B1 & B2 & B3 & B4 & B5 & B6).
    pose proof (bg_key _ _ _ _ _ _ _ _ _ B) as KB. rewrite KB, B1.
    split; [exact B2|]. split; [|split; [exact B5|]].
    + eapply stamped; auto.
      * unfold sig_of. cbn [sp_hashed]. rewrite B3. reflexivity.
      * unfold sig_of. cbn [sp_unhashed]. rewrite B4. reflexivity.
    + intros ->. change (Z.land (usage Signing) 2 =? 0) with false in B6. cbv iota in B6.
      destruct B6 as (e & -> & C1 & C2 & C3 & C4 & C5). exists (sig_encode e), (sig_of e). rewrite KB, B1, K.
      split; [|split; [apply read_signature_encode; auto|split; [exact C2|split; [|exact C5]]]].
      * unfold sig_of. cbn [sp_unhashed]. rewrite B4. reflexivity.
      * eapply stamped with (l := []) (u := []); auto.
        -- unfold sig_of. cbn [sp_hashed]. rewrite C3, app_nil_r. reflexivity.
        -- unfold sig_of. cbn [sp_unhashed]. rewrite C4, app_nil_r. reflexivity.
Qed.
Print Assumptions export_signatures.

(** ** C35 *)
Theorem export_roles : forall E edv f ks pw tape t, env_ok E edv -> built E ks -> password_ok pw ->
  Forall byte tape -> exports E f ks pw tape t ->
  pk_alg (tk_key t) = 22 /\ pk_oid (tk_key t) = [0x2B; 0x06; 0x01; 0x04; 0x01; 0xDA; 0x47; 0x0F; 0x01] /\
  (forall c, tk_cert t = Some c -> find_sub 27 (sp_hashed c) = Some [0x01]) /\
  subkeys_match ks t (fun k _ _ b =>
    match k with
    | Encryption => pk_alg (sb_key b) = 18 /\ pk_kdf (sb_key b) = Some (8, 7) /\
        pk_oid (sb_key b) = [0x2B; 0x06; 0x01; 0x04; 0x01; 0x97; 0x55; 0x01; 0x05; 0x01] /\
        find_sub 27 (sp_hashed (sb_binding b)) = Some [0x0C]
    | Authentication => pk_alg (sb_key b) = 22 /\ pk_oid (sb_key b) = pk_oid (tk_key t) /\
        find_sub 27 (sp_hashed (sb_binding b)) = Some [0x20]
    | Signing => pk_alg (sb_key b) = 22 /\ pk_oid (sb_key b) = pk_oid (tk_key t) /\
        find_sub 27 (sp_hashed (sb_binding b)) = Some [0x02]
    end /\
    (find_sub 32 (sp_unhashed (sb_binding b)) <> None <-> k = Signing)).
Proof.
  intros E edv f ks pw tape t HE HB Hp Ht X. pose proof (exports_inv E edv f ks pw tape t HE HB Ht Hp X) as G.
  pose proof (eg_key _ _ _ _ _ _ _ G) as K. rewrite K.
  assert (M : ec_alg (ed_base (ks_master ks)) = 22 /\ ec_oid (ed_base (ks_master ks)) = oid_ed25519).
  { destruct (built_ed_ok _ _ (built_master _ _ HB)) as (sd & c & x & _ & _ & ->). split; reflexivity. }
  destruct M as [M1 M2]. split; [exact M1|]. split; [exact M2|]. split.
  - intros c Hc. pose proof (eg_cert _ _ _ _ _ _ _ G) as C. rewrite Hc in C. destruct C as [_ (s & -> & S1 & S2 & S3 & S4)].
    unfold sig_of. cbn [sp_hashed]. rewrite S2. reflexivity.
  - eapply good_match; [exact HE|exact G|]. intros k base x b Q B.
    destruct (bg_binding _ _ _ _ _ _ _ _ _ B) as (s & emb & B1 & B2 & B3 & B4 & B5 & B6).
    pose proof (bg_key _ _ _ _ _ _ _ _ _ B) as KB. rewrite KB, B1. unfold sig_of. cbn [sp_hashed sp_unhashed]. rewrite B3, B4.
    split.
    + destruct k; cbn [subkey] in Q.
      * destruct (ks_enc ks) as [k|] eqn:Qk; [|discriminate]. injection Q as <- <-.
        destruct (built_curve_of E k (built_enc _ _ HB k Qk)) as (sd & c & x & _ & _ & ->). repeat split.
      * destruct (ks_auth ks) as [k|] eqn:Qk; [|discriminate]. injection Q as <- <-.
        destruct (built_ed_ok _ _ (built_auth _ _ HB k Qk)) as (sd & c & x & _ & _ & ->).
        change (pk_oid (public_of (ed_base (ks_master ks)))) with (ec_oid (ed_base (ks_master ks))). rewrite M2. repeat split.
      * destruct (ks_sign ks) as [k|] eqn:Qk; [|discriminate]. injection Q as <- <-.
        destruct (built_ed_ok _ _ (built_sign _ _ HB k Qk)) as (sd & c & x & _ & _ & ->).
        change (pk_oid (public_of (ed_base (ks_master ks)))) with (ec_oid (ed_base (ks_master ks))). rewrite M2. repeat split.
    + rewrite map_app. unfold issuer_subs. cbn [map app]. unfold find_sub. cbn [find sub_pair fst sub_type].
      change (16 =? 32) with false. cbv iota. destruct k.
      * change (Z.land (usage Encryption) 2 =? 0) with true in B6. cbv iota in B6. rewrite B6. split; [intros Y; exfalso; apply Y; reflexivity|discriminate].
      * change (Z.land (usage Authentication) 2 =? 0) with true in B6. cbv iota in B6. rewrite B6. split; [intros Y; exfalso; apply Y; reflexivity|discriminate].
      * change (Z.land (usage Signing) 2 =? 0) with false in B6. cbv iota in B6. destruct B6 as (e & -> & _).
        split; [reflexivity|discriminate].
Qed.
Print Assumptions export_roles.
(** BindSubkey needs no private signing key unless the signing flag is set *)
Theorem bind_subkey_never_panics : forall E edv ks k base x, env_ok E edv -> built E ks ->
  subkey ks k = Some (base, x) -> exists s, bind_subkey E (ks_master ks) base (usage k) x = Ok s.
Proof.
  intros E edv ks k base x HE HB Q. pose proof HE as (HH & _ & HS & HX & _).
  destruct (subkey_facts E edv ks k base x HS HX HB Q) as (BO & _ & SG).
  destruct (bind_ok E edv (ks_master ks) base (usage k) x HH HS (built_ed_ok _ _ (built_master _ _ HB)) BO SG) as (s & emb & -> & _).
  eauto.
Qed.
Print Assumptions bind_subkey_never_panics.

