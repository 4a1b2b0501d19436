From Coq Require Import Lia ZifyBool ZifyNat Permutation.
From Verif.Model Require Import GoBase Env GoTime Seed Encoding PgpWire PgpS2k PgpKeys.
From Verif.Spec Require Import EnvSpec PhraseSpec KeySpec PgpSpec ExportSpec.
From Verif.Proofs Require Import BitsP EnvInst RoundtripP KeysP PgpP S2kP SignP.
Ltac Zify.zify_post_hook ::= Z.div_mod_to_equations.

(** * Clamping *)
Lemma land_248 x : 0 <= x < 256 -> Z.land x 248 = x / 8 * 8.
Proof.
  intros H. assert (C : forallb (fun x => Z.land x 248 =? x / 8 * 8) (map Z.of_nat (seq 0 256)) = true) by reflexivity.
  rewrite forallb_forall in C. apply Z.eqb_eq, C. apply in_map_iff. exists (Z.to_nat x). split; [lia|]. apply in_seq. lia.
Qed.
Lemma lor_64 x : 0 <= x < 256 -> Z.lor (Z.land x 127) 64 = 64 + x mod 64.
Proof.
  intros H. assert (C : forallb (fun x => Z.lor (Z.land x 127) 64 =? 64 + x mod 64) (map Z.of_nat (seq 0 256)) = true) by reflexivity.
  rewrite forallb_forall in C. apply Z.eqb_eq, C. apply in_map_iff. exists (Z.to_nat x). split; [lia|]. apply in_seq. lia.
Qed.

Lemma split32 sd : block32 sd -> exists x mid y, sd = x :: mid ++ [y] /\ length mid = 30%nat /\
  byte x /\ byte y /\ Forall byte mid.
Proof.
  intros [L B]. destruct sd as [|x r]; [discriminate|]. cbn [length] in L.
  destruct (@exists_last Z r) as (mid & y & ->); [intros ->; discriminate|].
  rewrite app_length in L. cbn in L. inversion B; subst. apply Forall_app in H2. destruct H2 as [M Y]. inversion Y; subst.
  exists x, mid, y. split; [reflexivity|]. split; [lia|]. split; [assumption|]. split; assumption.
Qed.
Lemma clamp_split x mid y : length mid = 30%nat -> byte x -> byte y ->
  clamp (x :: mid ++ [y]) = x / 8 * 8 :: mid ++ [64 + y mod 64].
Proof.
  intros L X Y. unfold clamp. rewrite land_248 by auto. rewrite firstn_app, L, Nat.sub_diag, firstn_O, app_nil_r, firstn_all2 by lia.
  rewrite skipn_app, L, Nat.sub_diag, skipn_all2 by lia. cbn [app skipn map]. rewrite lor_64 by auto. reflexivity.
Qed.
Lemma clamp_block sd : block32 sd -> block32 (clamp sd).
Proof.
  intros H. destruct (split32 sd H) as (x & mid & y & -> & L & X & Y & M). rewrite clamp_split by auto.
  unfold byte in *. split; [cbn [length]; rewrite app_length, L; reflexivity|].
  constructor; [unfold byte; lia|]. apply Forall_app. split; auto. repeat constructor; lia.
Qed.
Lemma rev_block l : block32 l -> block32 (rev l).
Proof. intros [L B]. split; [rewrite rev_length; auto|apply Forall_rev; auto]. Qed.

Lemma clamp_arith A M x y : A = 2 ^ 248 -> 0 <= M < 2 ^ 240 -> 0 <= x < 256 -> 0 <= y < 256 ->
  (64 + y mod 64) * A + (M * 256 + x / 8 * 8) = 64 * A + ((y * A + (M * 256 + x)) mod (64 * A)) / 8 * 8.
Proof.
  intros HA HM Hx Hy.
  assert (B : 0 <= M * 256 + x < A) by (subst A; lia).
  assert (E1 : (y * A + (M * 256 + x)) mod (64 * A) = (y mod 64) * A + (M * 256 + x)).
  { symmetry. apply Z.mod_unique with (q := y / 64); [left|]; [split|]; nia. }
  rewrite E1. subst A. clear E1 B.
  replace ((y mod 64) * 2 ^ 248 + (M * 256 + x)) with (x + ((y mod 64) * 2 ^ 245 + M * 32) * 8) by lia.
  rewrite Z.div_add by lia. lia.
Qed.
Lemma clamp_value sd : block32 sd ->
  be_uint (rev (clamp sd)) = 2 ^ 254 + (be_uint (rev sd) mod 2 ^ 254) / 8 * 8.
Proof.
  intros H. destruct (split32 sd H) as (x & mid & y & -> & L & X & Y & M). rewrite clamp_split by auto.
  cbn [rev]. rewrite !rev_app_distr. cbn [rev app]. rewrite !be_uint_cons, !be_uint_app.
  rewrite !zlen_app, !(zlen_eq (rev mid)), rev_length, L. change (zlen [x / 8 * 8]) with 1. change (zlen [x]) with 1.
  pose proof (be_uint_bound (rev mid) ltac:(apply Forall_rev; auto)) as B. rewrite zlen_eq, rev_length, L in B.
  change (256 ^ Z.of_nat 30) with (2 ^ 240) in B. change (256 ^ 1) with 256.
  change (256 ^ (Z.of_nat 30 + 1)) with (2 ^ 248).
  replace (be_uint [x / 8 * 8]) with (x / 8 * 8) by (rewrite be_uint_cons; change (be_uint []) with 0; change (zlen []) with 0; change (256 ^ 0) with 1; lia).
  replace (be_uint [x]) with x by (rewrite be_uint_cons; change (be_uint []) with 0; change (zlen []) with 0; change (256 ^ 0) with 1; lia).
  change (2 ^ 254) with (64 * 2 ^ 248). apply clamp_arith; auto.
Qed.
Lemma clamp_same_bits sd : block32 sd -> same_scalar_bits (clamp sd) sd.
Proof.
  intros H. pose proof (clamp_block sd H) as [L' _]. pose proof H as [L _]. split; [lia|].
  destruct (split32 sd H) as (x & mid & y & -> & Lm & X & Y & M). rewrite clamp_split by auto.
  intros i Hi. cbn [length] in Hi. rewrite app_length, Lm in Hi. cbn [length] in Hi. cbv zeta.
  destruct i as [|i].
  - cbn [Nat.eqb nth]. intros j Hj. change 8 with (2 ^ 3). rewrite <- Z.shiftr_div_pow2, <- Z.shiftl_mul_pow2 by lia.
    rewrite Z.shiftl_spec, Z.shiftr_spec by lia. f_equal. lia.
  - cbn [Nat.eqb nth]. destruct (Nat.eq_dec i 30) as [->|Hn].
    + rewrite !app_nth2, Lm by lia. cbn [Nat.sub nth Nat.eqb]. intros j Hj.
      replace (64 + y mod 64) with (Z.lor (Z.shiftl 1 6) (y mod 2 ^ 6)).
      2:{ rewrite lor_shiftl_add by (unfold byte in *; lia). reflexivity. }
      rewrite Z.lor_spec, Z.shiftl_spec, Z.mod_pow2_bits_low by lia.
      rewrite Z.testbit_neg_r by lia. reflexivity.
    + replace (Nat.eqb (S i) 31) with false by (symmetry; apply Nat.eqb_neq; lia).
      intros j Hj. rewrite !app_nth1 by lia. reflexivity.
Qed.

(** * The order of the subkeys *)
Definition order_of (E : Env) (sd : Z) : list subkey_kind :=
  match shuffle E sd all_kinds with Ok l => l | _ => [] end.
Lemma shuffle_pick E sd : rand_ok E ->
  Permutation all_kinds (order_of E sd) /\
  forall A (g : subkey_kind -> A), shuffle E sd (map g all_kinds) = Ok (map g (order_of E sd)).
Proof.
  intros R. pose proof (R sd 0%nat 3 ltac:(lia)) as R0. pose proof (R sd 1%nat 2 ltac:(lia)) as R1.
  unfold order_of, shuffle, all_kinds. cbn [map length Nat.sub shuffle_from].
  change (Z.of_nat 2 + 1) with 3. change (Z.of_nat 1 + 1) with 2.
  assert (C0 : rand_int31n E sd 0 3 = 0 \/ rand_int31n E sd 0 3 = 1 \/ rand_int31n E sd 0 3 = 2) by lia.
  assert (C1 : rand_int31n E sd 1 2 = 0 \/ rand_int31n E sd 1 2 = 1) by lia.
  destruct C0 as [-> | [-> | ->]]; destruct C1 as [-> | ->]; (split; [vm_compute | reflexivity]);
    (apply NoDup_Permutation;
      [repeat constructor; cbn; intuition discriminate | repeat constructor; cbn; intuition discriminate
      | intros []; cbn; tauto]).
Qed.

Lemma shuffle_from_ext {A} E a b i k (l : list A) : (forall k n, rand_int31n E a k n = rand_int31n E b k n) ->
  shuffle_from E a i k l = shuffle_from E b i k l.
Proof.
  intros H. revert k l. induction i as [|i IH]; intros k l; [reflexivity|]. cbn [shuffle_from]. rewrite H.
  destruct (swap _ _ _) as [l'| |]; cbn [bind]; auto.
Qed.
Lemma order_seed_ok E p : hash_ok E -> shuffle_seed E p = order_seed E p.
Proof.
  intros H. unfold shuffle_seed, order_seed. rewrite number_be. destruct (H p) as [_ [L B]].
  pose proof (be_uint_bound (firstn 8 (sha256 E p)) ltac:(apply firstn_byte; auto)) as X.
  rewrite zlen_eq, firstn_length, L in X. change (256 ^ Z.of_nat (Nat.min 8 32)) with (2 ^ 64) in X.
  set (n := be_uint _) in *. change 0x7FFFFFFFFFFFFFFF with (Z.ones 63). rewrite Z.land_ones by lia.
  destruct (n <? 2 ^ 63) eqn:Q.
  - rewrite Z.mod_small by lia. rewrite Z.eqb_refl. reflexivity.
  - assert (M : n mod 2 ^ 63 = n - 2 ^ 63).
    { symmetry. apply Z.mod_unique with (q := 1); lia. }
    rewrite M. replace (n - 2 ^ 63 =? n) with false by lia. reflexivity.
Qed.

(** * Built keys *)
Lemma unix_ns c : t_unix c = c / ns.
Proof. reflexivity. Qed.
Lemma built_ed_ok E k : built_ed E k -> ed_ok E k.
Proof.
  intros (sd & c & x & Hsd & Hc & H). rewrite new_ed_key_ok in H by apply Hsd. inversion H. exists sd, c, x. auto.
Qed.
Lemma built_curve_of E k : built_curve E k ->
  exists sd c x, block32 sd /\ 0 <= c / ns < 2 ^ 32 /\ k = curve_of E sd c x default_kdf.
Proof.
  intros (sd & c & x & Hsd & Hc & H). rewrite new_curve_key_ok in H by apply Hsd. inversion H. exists sd, c, x. auto.
Qed.
Lemma curve_base_ok E k : x25519_ok E -> built_curve E k -> ecc_ok (cv_base k) /\ block32 (ec_private (cv_base k)).
Proof.
  intros [HX _] Hk. destruct (built_curve_of E k Hk) as (sd & c & x & Hsd & Hc & ->).
  unfold curve_of. cbn [cv_base ec_private]. split; [|apply rev_block, clamp_block; auto].
  unfold ecc_ok. cbn [ec_creation ec_public ec_oid ec_alg ec_extra].
  split; [exact Hc|]. split; [auto|]. split; [reflexivity|]. split; [split; [discriminate|reflexivity]|].
  left. split; [reflexivity|]. exists 8, 7. reflexivity.
Qed.
Lemma subkey_facts E edv ks kind base x : ed25519_ok E edv -> x25519_ok E -> built E ks ->
  subkey ks kind = Some (base, x) ->
  ecc_ok base /\ block32 (ec_private base) /\
  (Z.land (usage kind) 2 <> 0 -> exists sd, block32 sd /\ ec_signing base = Some (sd ++ ed25519_public E sd) /\
     ec_public base = ed25519_public E sd /\ ec_alg base = 22).
Proof.
  intros HS HX [Bm Be Ba Bs _] H. destruct kind; cbn [subkey usage] in *.
  - destruct (ks_enc ks) as [k|] eqn:Q; [|discriminate]. cbn in H. inversion H; subst.
    destruct (curve_base_ok E k HX (Be k eq_refl)). split; auto. split; auto. intros X. exfalso. apply X. reflexivity.
  - destruct (ks_auth ks) as [k|] eqn:Q; [|discriminate]. cbn in H. inversion H; subst.
    destruct (ed_base_ok E edv k HS (built_ed_ok _ _ (Ba k eq_refl))). split; auto. split; auto. intros X. exfalso. apply X. reflexivity.
  - destruct (ks_sign ks) as [k|] eqn:Q; [|discriminate]. cbn in H. inversion H; subst.
    pose proof (built_ed_ok _ _ (Bs k eq_refl)) as Hk.
    destruct (ed_base_ok E edv k HS Hk). split; auto. split; auto. intros _.
    destruct Hk as (sd & c & x' & Hsd & Hc & ->). exists sd. repeat split; auto; apply Hsd.
Qed.

(** everything known about one exported subkey *)
Record block_good (E : Env) (edv : bytes -> bytes -> bytes -> bool) (m : ecc_key) (pw tape : bytes)
    (kind : subkey_kind) (base : ecc_key) (x : Z) (b : subkey_block) : Prop := {
  bg_key : sb_key b = public_of base;
  bg_unlock : unlock E pw (sb_secret b) = Some (be_uint (ec_private base));
  bg_sealed : sealed pw tape (sb_secret b);
  bg_binding : exists s emb, sb_binding b = sig_of s /\ sg_type s = 0x18 /\
    sg_hashed s = stamp_subs (fingerprint E (public_of m)) (ec_creation base) ++
      [mk_sub 27 [usage kind]] ++ expiry_subs E (ec_creation base) x /\
    sg_unhashed s = issuer_subs (fingerprint E (public_of m)) ++ emb /\
    verifies E edv (public_of m) (key_hash_input (public_of m) ++ key_hash_input (public_of base)) (sig_of s) = true /\
    if Z.land (usage kind) 2 =? 0 then emb = []
    else exists e, emb = [mk_sub 32 (sig_encode e)] /\ cross_ok E edv m base e
}.

Lemma encode_packet_pairs t p : encode_packet t p = encode_pairs [(t, p)].
Proof. unfold encode_pairs. cbn [map concat fst snd]. rewrite app_nil_r. reflexivity. Qed.
Lemma encode_pairs_app a b : encode_pairs (a ++ b) = encode_pairs a ++ encode_pairs b.
Proof. unfold encode_pairs. rewrite map_app, concat_app. reflexivity. Qed.

Lemma subkey_group E edv m base kind x pw tape : env_ok E edv -> ed_ok E m -> ecc_ok base -> block32 (ec_private base) ->
  (Z.land (usage kind) 2 <> 0 -> exists sd, block32 sd /\ ec_signing base = Some (sd ++ ed25519_public E sd) /\
     ec_public base = ed25519_public E sd /\ ec_alg base = 22) ->
  Forall byte tape -> pw_ok pw -> (need pw <= length tape)%nat ->
  exists p s b, subkey_packets E m base (usage kind) x pw tape =
      Ok (encode_pairs [(7, p); (2, sig_encode s)], skipn (need pw) tape) /\
    packet_ok (7, p) /\ packet_ok (2, sig_encode s) /\
    read_secret_key p = Some (sb_key b, sb_secret b) /\ read_signature (sig_encode s) = Some (sb_binding b) /\
    bind_subkey E m base (usage kind) x = Ok s /\ sb_binding b = sig_of s /\
    block_good E edv (ed_base m) pw tape kind base x b.
Proof.
  intros (HH & HA & HS & HX & HR) Hm Hb Hp Hsg Ht Hpw Hn.
  destruct (encode_private_ok E base pw tape HH HA Hb Hp Ht Hpw Hn) as (p & sp & E1 & E2 & E3 & E4 & E5).
  destruct (bind_ok E edv m base (usage kind) x HH HS Hm Hb Hsg) as (s & emb & B1 & B2 & B3 & B4 & B5 & B6 & B7 & B8).
  exists p, s, (mk_block (public_of base) sp (sig_of s)). unfold subkey_packets, private_packet. rewrite E1. cbn [bind].
  rewrite B1. cbn [bind sb_key sb_secret sb_binding]. split; [|split; [|split; [|split; [|split; [|split; [first [reflexivity|exact B1]|split; [reflexivity|]]]]]]].
  - unfold PgpWire.sig_packet. rewrite !encode_packet_pairs, <- encode_pairs_app. reflexivity.
  - split; [cbn; lia|exact E5].
  - split; [cbn; lia|exact B6].
  - exact E2.
  - apply read_signature_encode; auto.
  - constructor; cbn [sb_key sb_secret sb_binding]; auto. exists s, emb. repeat (split; auto).
Qed.
Lemma subkey_group_short E m base fl x pw tape : hash_ok E -> (length tape < need pw)%nat ->
  subkey_packets E m base fl x pw tape = Err ErrRandomSource.
Proof. intros HH H. unfold subkey_packets, private_packet. rewrite encode_private_short by auto. reflexivity. Qed.

(** the three groups; [tape_at] is the random source when the group is made *)
Definition count_of (ks : key_set) (k : subkey_kind) : nat := match subkey ks k with Some _ => 1 | None => 0 end.
Definition before (ks : key_set) (k : subkey_kind) : nat :=
  match k with
  | Encryption => 0
  | Authentication => count_of ks Encryption
  | Signing => count_of ks Encryption + count_of ks Authentication
  end.
Definition total (ks : key_set) : nat := before ks Signing + count_of ks Signing.
Definition one_group (E : Env) (ks : key_set) (pw : bytes) (k : subkey_kind) (tape : bytes) : res (bytes * bytes) :=
  match subkey ks k with
  | None => Ok ([], tape)
  | Some (b, x) => subkey_packets E (ks_master ks) b (usage k) x pw tape
  end.
Lemma all_subkey_groups E ks pw tape :
  all_subkey_packets E ks pw tape =
  let* (g0, tape) := one_group E ks pw Encryption tape in
  let* (g1, tape) := one_group E ks pw Authentication tape in
  let* (g2, tape) := one_group E ks pw Signing tape in
  let* groups := shuffle E (shuffle_seed E (ed_private (ks_master ks))) [g0; g1; g2] in
  Ok (concat groups, tape).
Proof.
  unfold all_subkey_packets, one_group. cbn [subkey usage].
  destruct (ks_enc ks), (ks_auth ks), (ks_sign ks); reflexivity.
Qed.

Definition group_ok (E : Env) (edv : bytes -> bytes -> bytes -> bool) (ks : key_set) (pw tape : bytes) (k : subkey_kind)
    (g : list (Z * bytes)) (bl : list subkey_block) : Prop :=
  match subkey ks k with
  | None => g = [] /\ bl = []
  | Some (base, x) => exists p s b, g = [(7, p); (2, s)] /\ bl = [b] /\ packet_ok (7, p) /\ packet_ok (2, s) /\
      read_secret_key p = Some (sb_key b, sb_secret b) /\ read_signature s = Some (sb_binding b) /\
      (exists sg, bind_subkey E (ks_master ks) base (usage k) x = Ok sg /\ sb_binding b = sig_of sg) /\
      block_good E edv (ed_base (ks_master ks)) pw tape k base x b
  end.
Lemma one_group_ok E edv ks pw k tape : env_ok E edv -> built E ks -> Forall byte tape -> pw_ok pw ->
  (need pw * count_of ks k <= length tape)%nat ->
  exists g bl, one_group E ks pw k tape = Ok (encode_pairs g, skipn (need pw * count_of ks k) tape) /\
    group_ok E edv ks pw tape k g bl.
Proof.
  intros HE HB Ht Hp Hn. unfold one_group, count_of, group_ok in *. destruct (subkey ks k) as [[base x]|] eqn:Q.
  - rewrite Nat.mul_1_r in *. pose proof HE as (_ & _ & HS & HX & _).
    destruct (subkey_facts E edv ks k base x HS HX HB Q) as (F1 & F2 & F3).
    destruct (subkey_group E edv (ks_master ks) base k x pw tape HE (built_ed_ok _ _ (built_master _ _ HB)) F1 F2 F3 Ht Hp Hn)
      as (p & s & b & G1 & G2 & G3 & G4 & G5 & G6 & G7 & G8).
    exists [(7, p); (2, sig_encode s)], [b]. split; [exact G1|]. exists p, (sig_encode s), b. repeat (split; eauto).
  - exists [], []. rewrite Nat.mul_0_r. split; [reflexivity|]. auto.
Qed.
Lemma one_group_short E ks pw k tape : hash_ok E -> (length tape < need pw * count_of ks k)%nat ->
  one_group E ks pw k tape = Err ErrRandomSource.
Proof.
  intros HH H. unfold one_group, count_of in *. destruct (subkey ks k) as [[base x]|]; [|lia].
  apply subkey_group_short; auto. lia.
Qed.

Lemma all_subkeys_ok E edv ks pw tape : env_ok E edv -> built E ks -> Forall byte tape -> pw_ok pw ->
  (need pw * total ks <= length tape)%nat ->
  exists (g : subkey_kind -> list (Z * bytes)) (bl : subkey_kind -> list subkey_block),
    all_subkey_packets E ks pw tape =
      Ok (encode_pairs (flat_map g (order_of E (shuffle_seed E (ed_private (ks_master ks))))),
          skipn (need pw * total ks) tape) /\
    forall k, group_ok E edv ks pw (skipn (need pw * before ks k) tape) k (g k) (bl k).
Proof.
  intros HE HB Ht Hp Hn. rewrite all_subkey_groups. unfold total, before in Hn.
  destruct (one_group_ok E edv ks pw Encryption tape HE HB Ht Hp ltac:(lia)) as (g0 & b0 & E0 & G0).
  destruct (one_group_ok E edv ks pw Authentication (skipn (need pw * count_of ks Encryption) tape) HE HB
              ltac:(apply skipn_byte; auto) Hp ltac:(rewrite skipn_length; lia)) as (g1 & b1 & E1 & G1).
  destruct (one_group_ok E edv ks pw Signing (skipn (need pw * count_of ks Authentication) (skipn (need pw * count_of ks Encryption) tape)) HE HB
              ltac:(apply skipn_byte, skipn_byte; auto) Hp ltac:(rewrite !skipn_length; lia)) as (g2 & b2 & E2 & G2).
  rewrite E0. cbn [bind]. rewrite E1. cbn [bind]. rewrite E2. cbn [bind].
  exists (fun k => match k with Encryption => g0 | Authentication => g1 | Signing => g2 end).
  exists (fun k => match k with Encryption => b0 | Authentication => b1 | Signing => b2 end).
  pose proof HE as (_ & _ & _ & _ & HR).
  destruct (shuffle_pick E (shuffle_seed E (ed_private (ks_master ks))) HR) as [_ SP].
  specialize (SP _ (fun k => encode_pairs match k with Encryption => g0 | Authentication => g1 | Signing => g2 end)).
  cbn [all_kinds map] in SP. rewrite SP. cbn [bind]. rewrite !skipn_more in *. split.
  - f_equal. f_equal.
    + generalize (order_of E (shuffle_seed E (ed_private (ks_master ks)))). intros l.
      induction l as [|k l IH]; [reflexivity|]. cbn [map concat flat_map]. rewrite IH, encode_pairs_app. reflexivity.
    + f_equal. unfold total, before. lia.
  - intros []; cbn [before].
    + rewrite Nat.mul_0_r. exact G0.
    + exact G1.
    + rewrite Nat.mul_add_distr_l. exact G2.
Qed.
Lemma all_subkeys_short E edv ks pw tape : env_ok E edv -> built E ks -> Forall byte tape -> pw_ok pw ->
  (length tape < need pw * total ks)%nat -> all_subkey_packets E ks pw tape = Err ErrRandomSource.
Proof.
  intros HE HB Ht Hp Hn. rewrite all_subkey_groups. unfold total, before in Hn. pose proof HE as [HH _].
  destruct (Nat.le_gt_cases (need pw * count_of ks Encryption) (length tape)) as [A|A].
  2:{ rewrite one_group_short by auto. reflexivity. }
  destruct (one_group_ok E edv ks pw Encryption tape HE HB Ht Hp A) as (g0 & b0 & -> & _). cbn [bind].
  set (t1 := skipn _ tape). assert (L1 : length t1 = (length tape - need pw * count_of ks Encryption)%nat) by apply skipn_length.
  assert (B1 : Forall byte t1) by (apply skipn_byte; auto).
  destruct (Nat.le_gt_cases (need pw * count_of ks Authentication) (length t1)) as [A1|A1].
  2:{ rewrite one_group_short by auto. reflexivity. }
  destruct (one_group_ok E edv ks pw Authentication t1 HE HB B1 Hp A1) as (g1 & b1 & -> & _). cbn [bind].
  rewrite one_group_short; auto. rewrite skipn_length. lia.
Qed.

(** * Whole exports *)
Lemma forall2_impl {A B} (P Q : A -> B -> Prop) l m : (forall a b, P a b -> Q a b) -> Forall2 P l m -> Forall2 Q l m.
Proof. intros H F. induction F; constructor; auto. Qed.
Lemma read_groups E edv ks pw (tp : subkey_kind -> bytes) g bl :
  (forall k, group_ok E edv ks pw (tp k) k (g k) (bl k)) -> forall order,
  Forall packet_ok (flat_map g order) /\
  read_blocks (flat_map g order) = Some (flat_map bl order) /\
  map fst (flat_map g order) = concat (repeat [7; 2] (length (subkeys_along ks order))) /\
  Forall2 (fun p b => block_good E edv (ed_base (ks_master ks)) pw (tp (fst p)) (fst p) (fst (snd p)) (snd (snd p)) b)
    (subkeys_along ks order) (flat_map bl order) /\
  Forall2 (fun p b => exists sg, bind_subkey E (ks_master ks) (fst (snd p)) (usage (fst p)) (snd (snd p)) = Ok sg /\ sb_binding b = sig_of sg)
    (subkeys_along ks order) (flat_map bl order).
Proof.
  intros H order. induction order as [|k order (IH1 & IH2 & IH3 & IH4 & IH5)]; [repeat split; constructor|].
  cbn [flat_map subkeys_along]. fold (subkeys_along ks order). specialize (H k). unfold group_ok in H.
  destruct (subkey ks k) as [[base x]|] eqn:Q.
  - destruct H as (p & s & b & -> & -> & P1 & P2 & R1 & R2 & BM & BG). cbn [app length repeat concat map fst].
    split; [|split; [|split; [|split]]].
    + constructor; auto.
    + cbn [read_blocks]. rewrite R1. cbn [obind]. rewrite R2. cbn [obind]. rewrite IH2. cbn [obind].
      destruct b; reflexivity.
    + rewrite IH3. reflexivity.
    + constructor; auto.
    + constructor; auto.
  - destruct H as [-> ->]. auto.
Qed.

Definition cert_good (E : Env) (edv : bytes -> bytes -> bytes -> bool) (ks : key_set) (c : PgpSpec.sig_packet) : Prop :=
  let m := ks_master ks in
  exists s, c = sig_of s /\ sg_type s = 0x13 /\
    sg_hashed s = stamp_subs (fingerprint E (public_of (ed_base m))) (ec_creation (ed_base m)) ++
      [mk_sub 27 [1]] ++ expiry_subs E (ec_creation (ed_base m)) (ed_expiry m) ++ pref_subs /\
    sg_unhashed s = issuer_subs (fingerprint E (public_of (ed_base m))) /\
    verifies E edv (public_of (ed_base m))
      (key_hash_input (public_of (ed_base m)) ++ uid_hash_input (uid_encode (ks_uid ks))) (sig_of s) = true.

Definition master_count (f : form) : nat := match f with Full => 1 | Subkeys_only _ => 0 end.
Definition tape_needed (f : form) (ks : key_set) (pw : bytes) : nat := need pw * (master_count f + total ks).
Definition order (E : Env) (ks : key_set) : list subkey_kind :=
  order_of E (shuffle_seed E (ed_private (ks_master ks))).

Record export_good (E : Env) (edv : bytes -> bytes -> bytes -> bool) (f : form) (ks : key_set) (pw tape : bytes)
    (t : transferable) : Prop := {
  eg_key : tk_key t = public_of (ed_base (ks_master ks));
  eg_uid : tk_uid t = uid_encode (ks_uid ks);
  eg_secret : match f with
              | Full => unlock E pw (tk_secret t) = Some (be_uint (ec_private (ed_base (ks_master ks)))) /\
                        sealed pw tape (tk_secret t)
              | Subkeys_only _ => tk_secret t = Stub
              end;
  eg_cert : match tk_cert t with
            | Some c => has_certification f = true /\ cert_good E edv ks c
            | None => has_certification f = false
            end;
  eg_subkeys : Forall2 (fun p b => block_good E edv (ed_base (ks_master ks)) pw
                                     (skipn (need pw * (master_count f + before ks (fst p))) tape)
                                     (fst p) (fst (snd p)) (snd (snd p)) b)
                 (subkeys_along ks (order E ks)) (tk_subkeys t);
  eg_bound : Forall2 (fun p b => exists sg, bind_subkey E (ks_master ks) (fst (snd p)) (usage (fst p)) (snd (snd p)) = Ok sg /\ sb_binding b = sig_of sg)
                 (subkeys_along ks (order E ks)) (tk_subkeys t);
  eg_certified : forall c, tk_cert t = Some c -> exists sg, self_certify E (ks_master ks) (ks_uid ks) = Ok sg /\ c = sig_of sg
}.

Lemma packet_uid ks : zlen (uid_encode (ks_uid ks)) < 2 ^ 32 -> packet_ok (13, uid_encode (ks_uid ks)).
Proof. intros H. split; [cbn; lia|auto]. Qed.

Lemma export_ok E edv f ks pw tape : env_ok E edv -> built E ks -> Forall byte tape -> pw_ok pw ->
  (tape_needed f ks pw <= length tape)%nat ->
  exists out ps t, export E f ks pw tape = Ok (out, skipn (tape_needed f ks pw) tape) /\
    read_packets out = Some ps /\
    map fst ps = [5; 13] ++ (if has_certification f then [2] else []) ++
                 concat (repeat [7; 2] (length (subkeys_along ks (order E ks)))) /\
    read_transferable out = Some t /\ export_good E edv f ks pw tape t.
Proof.
  intros HE HB Ht Hp Hn. unfold tape_needed in *. pose proof HE as (HH & HA & HS & HX & HR).
  pose proof (built_ed_ok _ _ (built_master _ _ HB)) as Hm.
  destruct (ed_base_ok E edv _ HS Hm) as [Mok Mpriv].
  destruct (certify_ok E edv (ks_master ks) (ks_uid ks) HH HS Hm) as (c & C1 & C2 & C3 & C4 & C5 & C6 & C7).
  assert (CG : cert_good E edv ks (sig_of c)) by (exists c; repeat (split; auto)).
  pose proof (packet_uid ks (built_uid _ _ HB)) as PU.
  assert (PC : packet_ok (2, sig_encode c)) by (split; [cbn; lia|exact C6]).
  pose proof (read_signature_encode c C2) as RC.
  destruct f as [|wc]; cbn [export master_count has_certification] in *.
  - rewrite Nat.mul_add_distr_l, Nat.mul_1_r in Hn.
    destruct (encode_private_ok E (ed_base (ks_master ks)) pw tape HH HA Mok Mpriv Ht Hp ltac:(lia)) as (p & sp & E1 & E2 & E3 & E4 & E5).
    destruct (all_subkeys_ok E edv ks pw (skipn (need pw) tape) HE HB ltac:(apply skipn_byte; auto) Hp
                ltac:(rewrite skipn_length; lia)) as (g & bl & G1 & G2).
    destruct (read_groups E edv ks pw (fun k => skipn (need pw * before ks k) (skipn (need pw) tape)) g bl G2 (order E ks))
      as (R1 & R2 & R3 & R4 & R5).
    assert (PM : packet_ok (5, p)) by (split; [cbn; lia|exact E5]).
    set (ps := (5, p) :: (13, uid_encode (ks_uid ks)) :: (2, sig_encode c) :: flat_map g (order E ks)).
    exists (encode_pairs ps), ps, (mk_tsk (public_of (ed_base (ks_master ks))) sp (uid_encode (ks_uid ks)) (Some (sig_of c)) (flat_map bl (order E ks))).
    assert (RP : read_packets (encode_pairs ps) = Some ps) by (apply read_packets_encode; unfold ps; repeat constructor; auto; try apply PM; try apply PU; try apply PC).
    split; [|split; [exact RP|split; [|split]]].
    + unfold encode_packets, private_packet. rewrite E1. cbn [bind]. unfold self_certification. rewrite C1. cbn [bind].
      rewrite G1. cbn [bind]. rewrite skipn_more, Nat.mul_add_distr_l, Nat.mul_1_r.
      unfold uid_packet, PgpWire.sig_packet. rewrite !encode_packet_pairs, <- !encode_pairs_app. reflexivity.
    + unfold ps. cbn [map fst app]. rewrite R3. reflexivity.
    + unfold read_transferable. rewrite RP. cbn [obind]. unfold ps. rewrite E2. cbn [obind]. rewrite RC. cbn [obind].
      rewrite R2. reflexivity.
    + constructor; cbn [tk_key tk_uid tk_secret tk_cert tk_subkeys has_certification master_count]; auto.
      * eapply forall2_impl; [|exact R4]. intros q b. cbn beta. rewrite skipn_more.
        rewrite Nat.mul_add_distr_l, Nat.mul_1_r. auto.
      * intros c0 Q. exists c. split; [exact C1|congruence].
  - cbn [plus] in *.
    destruct (all_subkeys_ok E edv ks pw tape HE HB Ht Hp Hn) as (g & bl & G1 & G2).
    destruct (read_groups E edv ks pw (fun k => skipn (need pw * before ks k) tape) g bl G2 (order E ks))
      as (R1 & R2 & R3 & R4 & R5).
    pose proof (read_dummy (ed_base (ks_master ks)) Mok) as E2.
    set (p := encode_private_dummy (ed_base (ks_master ks))) in *.
    assert (PM : packet_ok (5, p)) by (split; [cbn; lia|apply zlen_dummy; auto]).
    set (ps := (5, p) :: (13, uid_encode (ks_uid ks)) :: (if wc then [(2, sig_encode c)] else []) ++ flat_map g (order E ks)).
    exists (encode_pairs ps), ps, (mk_tsk (public_of (ed_base (ks_master ks))) Stub (uid_encode (ks_uid ks))
       (if wc then Some (sig_of c) else None) (flat_map bl (order E ks))).
    assert (RP : read_packets (encode_pairs ps) = Some ps).
    { apply read_packets_encode. unfold ps. constructor; [exact PM|]. constructor; [exact PU|].
      apply Forall_app. split; auto. destruct wc; constructor; auto. }
    split; [|split; [exact RP|split; [|split]]].
    + unfold encode_subkey_packets. cbv zeta. unfold self_certification. rewrite C1. cbn [bind].
      destruct wc; cbn [bind]; rewrite G1; cbn [bind]; unfold uid_packet, PgpWire.sig_packet;
        rewrite !encode_packet_pairs; fold p; cbn [app]; rewrite <- !encode_pairs_app; reflexivity.
    + unfold ps. cbn [map fst app]. rewrite map_app, R3. destruct wc; reflexivity.
    + unfold read_transferable. rewrite RP. cbn [obind]. unfold ps. rewrite E2. cbn [obind].
      destruct wc; cbn [app].
      * rewrite RC. cbn [obind]. rewrite R2. reflexivity.
      * assert (X : (match flat_map g (order E ks) with
                     | (2, s) :: rest' => let? sg := read_signature s in Some (Some sg, rest')
                     | _ => Some (None, flat_map g (order E ks)) end) = Some (None, flat_map g (order E ks))).
        { revert R3. generalize (flat_map g (order E ks)). intros l.
          destruct l as [|[t0 d0] l]; [reflexivity|]. intros R3.
          destruct (length (subkeys_along ks (order E ks))); cbn in R3; [discriminate|]. inversion R3. reflexivity. }
        rewrite X. cbn [obind]. rewrite R2. reflexivity.
    + constructor; cbn [tk_key tk_uid tk_secret tk_cert tk_subkeys has_certification master_count]; auto.
      * destruct wc; auto.
      * intros c0 Q. exists c. split; [exact C1|]. destruct wc; congruence.
Qed.

Lemma export_short E edv f ks pw tape : env_ok E edv -> built E ks -> Forall byte tape -> pw_ok pw ->
  (length tape < tape_needed f ks pw)%nat -> export E f ks pw tape = Err ErrRandomSource.
Proof.
  intros HE HB Ht Hp Hn. unfold tape_needed in *. pose proof HE as (HH & HA & HS & HX & HR).
  pose proof (built_ed_ok _ _ (built_master _ _ HB)) as Hm.
  destruct (ed_base_ok E edv _ HS Hm) as [Mok Mpriv].
  destruct (certify_ok E edv (ks_master ks) (ks_uid ks) HH HS Hm) as (c & C1 & _).
  destruct f as [|wc]; cbn [export master_count] in *.
  - unfold encode_packets, private_packet.
    destruct (Nat.le_gt_cases (need pw) (length tape)) as [A|A].
    + destruct (encode_private_ok E (ed_base (ks_master ks)) pw tape HH HA Mok Mpriv Ht Hp A) as (p & sp & E1 & _).
      rewrite E1. cbn [bind]. unfold self_certification. rewrite C1. cbn [bind].
      erewrite all_subkeys_short; eauto. apply skipn_byte; auto. rewrite skipn_length. lia.
    + rewrite encode_private_short by auto. reflexivity.
  - unfold encode_subkey_packets, self_certification. cbv zeta. rewrite C1. cbn [bind].
    destruct wc; cbn [bind]; erewrite all_subkeys_short; eauto.
Qed.

(** how often a reader of an export meets [t] *)
Lemma exports_inv E edv f ks pw tape t : env_ok E edv -> built E ks -> Forall byte tape -> pw_ok pw ->
  exports E f ks pw tape t -> export_good E edv f ks pw tape t.
Proof.
  intros HE HB Ht Hp (out & rest & H1 & H2).
  destruct (Nat.le_gt_cases (tape_needed f ks pw) (length tape)) as [A|A].
  - destruct (export_ok E edv f ks pw tape HE HB Ht Hp A) as (out' & ps & t' & X1 & _ & _ & X2 & X3).
    rewrite X1 in H1. inversion H1; subst. rewrite X2 in H2. inversion H2; subst. auto.
  - erewrite export_short in H1; eauto. discriminate.
Qed.
