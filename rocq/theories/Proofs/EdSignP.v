(** Points survive encoding; verification accepts what signing makes. *)
From Coq Require Import Znumtheory Field_theory Lia ZifyBool.
From Verif.Model Require Import GoBase.
From Verif.Spec Require Import EnvSpec Sha Curve25519 EdVerify.
From Verif.Proofs Require Import PrimeP FieldP EdwardsP RealP Ed25519P.
Opaque el ev eadd emul esub eopp einv ediv epow prime25519 ed_d ei ed_order.

Lemma be_num_app l b : be_num (l ++ [b]) = be_num l * 256 + b.
Proof. unfold be_num. rewrite fold_left_app. reflexivity. Qed.
Lemma be_num_be : forall k x, be_num (num_be k x) = x mod 256 ^ Z.of_nat k.
Proof.
  induction k as [|k IH]; intros x; [cbn; rewrite Z.mod_1_r; reflexivity|].
  cbn [num_be]. rewrite be_num_app, IH, Nat2Z.inj_succ, Z.pow_succ_r by lia.
  assert (0 < 256 ^ Z.of_nat k) by (apply Z.pow_pos_nonneg; lia).
  rewrite (Z.rem_mul_r x 256) by lia. lia.
Qed.
Lemma le_num_le k x : 0 <= x < 256 ^ Z.of_nat k -> le_num (num_le k x) = x.
Proof. intros H. unfold le_num, num_le. rewrite rev_involutive, be_num_be. apply Z.mod_small, H. Qed.
Lemma be_num_bound : forall l, Forall byte l -> 0 <= be_num l < 256 ^ Z.of_nat (length l).
Proof.
  induction l as [|b l IH] using rev_ind; intros F; [cbn; lia|].
  apply Forall_app in F as [F B]. inversion B as [|? ? Hb _]; subst. unfold byte in Hb.
  rewrite be_num_app, app_length, Nat.add_1_r, Nat2Z.inj_succ, Z.pow_succ_r by lia. specialize (IH F). lia.
Qed.

(** ** Decoding *)
Lemma encode_parts q : egood q ->
  let n := le_num (eencode q) in
  n mod 2 ^ 255 = ev (snd q) /\ Z.testbit n 255 = Z.odd (ev (fst q)).
Proof.
  intros _ n. destruct q as [x y]. unfold n, eencode. cbn [fst snd]. clear n.
  pose proof (ev_bound y) as Y. pose proof p_pos as PP. pose proof (Z.mod_pos_bound (ev x) 2 eq_refl) as X.
  assert (T : 0 < 2 ^ 255) by reflexivity.
  rewrite le_num_le.
  - set (m := 2 ^ 255) in *. split.
    + rewrite Z.mod_add by lia. apply Z.mod_small. lia.
    + rewrite Z.testbit_odd, Z.shiftr_div_pow2 by lia. fold m. rewrite Z.div_add by lia. rewrite Z.div_small by lia.
      rewrite Zmod_odd. destruct (Z.odd (ev x)); reflexivity.
  - change (256 ^ Z.of_nat 32) with (2 * 2 ^ 255). set (m := 2 ^ 255) in *. nia.
Qed.
Lemma p_odd : Z.odd prime25519 = true.
Proof. reflexivity. Qed.
Lemma ev_opp x : x <> el 0 -> ev (eopp x) = prime25519 - ev x.
Proof.
  intros N. rewrite <- (el_ev x) at 1. rewrite <- el_opp, ev_el. pose proof (ev_bound x) as B.
  assert (ev x <> 0) by (intros H; apply N; rewrite <- (el_ev x), H; reflexivity).
  rewrite <- (Z.mod_add (- ev x) 1) by lia. rewrite Z.mod_small; lia.
Qed.
Lemma eopp_opp x : eopp (eopp x) = x.
Proof. exact (opp_opp Fp _ _ _ _ _ _ _ _ Efield x). Qed.
Lemma eopp_zero : eopp (el 0) = el 0.
Proof. exact (opp_zero Fp _ _ _ _ _ _ _ _ Efield). Qed.
Lemma esub_zero x : esub (el 0) x = eopp x.
Proof. exact (zero_sub Fp _ _ _ _ _ _ _ _ Efield x). Qed.
Lemma zero_canonical : canonical 0.
Proof. pose proof p_pos. unfold canonical. lia. Qed.
(** choosing the sign *)
Lemma sign_choice r x : canonical r -> el r = x \/ el r = eopp x ->
  (r =? 0) && Z.odd (ev x) = false /\
  let r' := if Bool.eqb (Z.odd r) (Z.odd (ev x)) then r else fsub 0 r in canonical r' /\ el r' = x.
Proof.
  intros C R. destruct (fsub_ok 0 r) as [C0 E0]. rewrite esub_zero in E0.
  destruct (Edec x (el 0)) as [Z|N].
  - subst x. rewrite eopp_zero in R. assert (r = 0) by (destruct R as [R|R]; apply (el_small r 0 C zero_canonical R)). subst r.
    rewrite (ev_canonical 0 zero_canonical). cbn. split; [reflexivity|]. split; [exact zero_canonical|reflexivity].
  - assert (r <> 0).
    { intros ->. destruct R as [R|R]; [congruence|]. apply N. rewrite <- (eopp_opp x), <- R. exact eopp_zero. }
    split; [lia|]. cbv zeta. pose proof (ev_canonical r C) as V.
    destruct R as [R|R]; rewrite R in V.
    + rewrite V, Bool.eqb_reflx. auto.
    + rewrite (ev_opp x N) in V.
      assert (O : Z.odd r = negb (Z.odd (ev x))) by (rewrite <- V, Z.odd_sub, p_odd; destruct (Z.odd (ev x)); reflexivity).
      rewrite O. replace (Bool.eqb (negb (Z.odd (ev x))) (Z.odd (ev x))) with false by (destruct (Z.odd (ev x)); reflexivity).
      rewrite E0, R. split; [exact C0|apply eopp_opp].
Qed.
Lemma pt_decode_encode q : egood q -> exists P, pt_decode (eencode q) = Some P /\ rep P q.
Proof.
  intros G. destruct (encode_parts q G) as [E1 E2]. destruct q as [x y]. cbn [fst snd] in *.
  unfold pt_decode. cbv zeta. rewrite E1, E2.
  set (Y := ev y). assert (CY : canonical Y) by (apply ev_bound).
  assert (EY : el Y = y) by (apply el_ev).
  replace (prime25519 <=? Y) with false by (unfold canonical in CY; lia).
  destruct (fmul_ok _ _ CY CY) as [C2 H2]. set (y2 := fmul Y Y) in *.
  destruct (fsub_ok y2 1) as [CU HU]. set (u := fsub y2 1) in *.
  destruct (fmul_ok _ _ d_canonical C2) as [C3 H3]. destruct (fadd_ok (fmul ed_d y2) 1) as [CV HV].
  set (v := fadd (fmul ed_d y2) 1) in *.
  destruct (fmul_ok _ _ CV CV) as [C4 H4]. destruct (fmul_ok _ _ CV C4) as [C5 H5]. set (v3 := fmul v (fmul v v)) in *.
  destruct (fmul_ok _ _ C5 CV) as [C6 H6]. destruct (fmul_ok _ _ C5 C6) as [C7 H7]. set (v7 := fmul v3 (fmul v3 v)) in *.
  destruct (fmul_ok _ _ CU C7) as [C8 H8]. destruct (fmul_ok _ _ CU C5) as [C9 H9].
  destruct (fpow_ok _ (Z.to_pos ((prime25519 - 5) / 8)) C8) as [C10 H10].
  rewrite Z2Pos.id in H10 by reflexivity.
  destruct (fmul_ok _ _ C9 C10) as [CX HX].
  set (c := fmul (fmul u v3) (fpow_pos (fmul u v7) (Z.to_pos ((prime25519 - 5) / 8)))) in *.
  destruct (fmul_ok _ _ CX CX) as [C11 H11]. destruct (fmul_ok _ _ CV C11) as [CW HW]. set (w := fmul v (fmul c c)) in *.
  destruct (fpow_ok 2 (Z.to_pos ((prime25519 - 1) / 4)) two_canonical) as [CI _].
  destruct (fmul_ok _ _ CX CI) as [C12 H12]. set (ci := fmul c (fpow_pos 2 (Z.to_pos ((prime25519 - 1) / 4)))) in *.
  change (el (fpow_pos 2 (Z.to_pos ((prime25519 - 1) / 4)))) with ei in H12.
  destruct (fsub_ok 0 u) as [CN HN]. rewrite esub_zero in HN.
  (* the values in the field *)
  assert (VN : el v <> el 0).
  { rewrite HV, H3, H2, EY. exact (v_nonzero Fp _ _ _ _ _ _ _ _ Efield (el ed_d) ei ei_square ed_nonsquare y). }
  assert (UV : el u = emul (el v) (emul x x)).
  { rewrite HU, HV, H3, H2, EY. exact (curve_uv Fp _ _ _ _ _ _ _ _ Efield (el ed_d) x y G). }
  assert (CC : emul (el c) (el c) = emul (emul x x) (epow x ((prime25519 - 1) / 2))).
  { pose proof (root_square (el u) (el v) x VN UV) as R. cbv zeta in R. rewrite HX, H10, H9, H8, H7, H6, H5, H4. exact R. }
  destruct (root_found (el v) x (el c) VN CC) as [R1 R2]. cbv zeta in R1, R2. rewrite <- UV in R1, R2. rewrite <- H11, <- HW in R1, R2.
  clearbody w c ci u v v3 v7 y2 Y.
  destruct (w =? u) eqn:EW.
  - apply Z.eqb_eq in EW. subst w. destruct (sign_choice c x CX (R1 eq_refl)) as [S1 (S2 & S3)]. rewrite S1.
    eexists. split; [reflexivity|]. pose proof (affine_rep _ _ S2 CY) as AR. rewrite S3, EY in AR. exact AR.
  - assert (NE : el w <> el u) by (intros H; apply (el_small _ _ CW CU) in H; lia).
    destruct (R2 NE) as [W R3]. rewrite <- HN in W. apply (el_small _ _ CW CN) in W. rewrite <- W, Z.eqb_refl.
    rewrite <- H12 in R3. destruct (sign_choice ci x C12 R3) as [S1 (S2 & S3)]. rewrite S1.
    eexists. split; [reflexivity|]. pose proof (affine_rep _ _ S2 CY) as AR. rewrite S3, EY in AR. exact AR.
Qed.

(** ** Scalars *)
Lemma clamp_bound k : nbytes 32 k -> 0 <= le_num (clamp k) < 2 ^ 255.
Proof.
  intros [L F]. destruct k as [|b l]; [discriminate|]. inversion F as [|? ? Fb Fl]; subst. cbn [clamp].
  assert (LL : length l = 31%nat) by (cbn in L; congruence).
  assert (NE : l <> []) by (intros ->; discriminate).
  unfold le_num. change (Z.land b 248 :: removelast l ++ [Z.lor (Z.land (last l 0) 127) 64])
    with ((Z.land b 248 :: removelast l) ++ [Z.lor (Z.land (last l 0) 127) 64]).
  rewrite rev_app_distr. cbn [rev app]. set (t := Z.lor (Z.land (last l 0) 127) 64). set (r := rev (removelast l) ++ [Z.land b 248]).
  assert (R : length r = 31%nat).
  { unfold r. rewrite app_length, rev_length. cbn. pose proof (app_removelast_last 0 NE) as E.
    apply (f_equal (@length Z)) in E. rewrite app_length in E. cbn in E. lia. }
  assert (BL : forall x, byte x -> forall m, 0 <= m < 256 -> 0 <= Z.land x m <= m).
  { intros x X m M. split; [apply Z.land_nonneg; lia|]. apply Z.ldiff_le; [lia|]. apply Z.bits_inj'. intros n N.
    rewrite Z.ldiff_spec, Z.land_spec, Z.bits_0. destruct (Z.testbit x n), (Z.testbit m n); reflexivity. }
  assert (FL : Forall byte r).
  { unfold r. apply Forall_app. split.
    - apply Forall_rev. apply Forall_forall. intros x X. rewrite Forall_forall in Fl. apply Fl.
      rewrite (app_removelast_last 0 NE). apply in_or_app. left. exact X.
    - constructor; [|constructor]. specialize (BL b Fb 248). unfold byte. lia. }
  assert (LB : byte (last l 0)).
  { rewrite Forall_forall in Fl. apply Fl. rewrite (app_removelast_last 0 NE) at 2. apply in_or_app. right. left. reflexivity. }
  assert (T : 0 <= t < 128).
  { unfold t. pose proof (BL _ LB 127 ltac:(lia)) as B. split; [apply Z.lor_nonneg; lia|].
    destruct (Z.eq_dec (Z.lor (Z.land (last l 0) 127) 64) 0) as [->|N]; [lia|].
    apply Z.log2_lt_cancel. change (Z.log2 128) with 7. rewrite Z.log2_lor by lia. apply Z.max_lub_lt; [|reflexivity].
    destruct (Z.eq_dec (Z.land (last l 0) 127) 0) as [->|N0]; [reflexivity|]. apply Z.log2_lt_pow2; [lia|]. change (2 ^ 7) with 128. lia. }
  assert (S : forall l x, be_num (x :: l) = x * 256 ^ Z.of_nat (length l) + be_num l).
  { clear. induction l as [|b l IH] using rev_ind; intros x; [cbn; lia|].
    rewrite app_comm_cons, !be_num_app, IH, app_length, Nat.add_1_r, Nat2Z.inj_succ, Z.pow_succ_r by lia. ring. }
  rewrite S, R. pose proof (be_num_bound r FL) as B. rewrite R in B. change (256 ^ Z.of_nat 31) with (2 ^ 248) in *.
  change (2 ^ 255) with (128 * 2 ^ 248). set (m := 2 ^ 248) in *. nia.
Qed.

(** ** Signing and verification *)
Lemma same_points P Q q : rep P q -> rep Q q -> pt_same P Q = true.
Proof.
  destruct P as [[[X1 Y1] Z1] T1], Q as [[[X2 Y2] Z2] T2], q as [x y].
  intros (A1 & A2 & A3 & A4 & A5 & A6 & A7 & A8) (B1 & B2 & B3 & B4 & B5 & B6 & B7 & B8). cbn [fst snd] in *.
  unfold pt_same. apply andb_true_intro. split; apply Z.eqb_eq.
  - destruct (fmul_ok _ _ A1 B3) as [C E]. destruct (fmul_ok _ _ B1 A3) as [C' E']. apply (el_small _ _ C C').
    rewrite E, E', A6, B6, <- !emul_assoc. apply (f_equal (emul x)). apply emul_comm.
  - destruct (fmul_ok _ _ A2 B3) as [C E]. destruct (fmul_ok _ _ B2 A3) as [C' E']. apply (el_small _ _ C C').
    rewrite E, E', A7, B7, <- !emul_assoc. apply (f_equal (emul y)). apply emul_comm.
Qed.
Lemma esum_cancel p q : egood p -> egood q -> esum (esum p q) (eneg q) = p.
Proof. intros P Q. rewrite esum_assoc by auto using eneg_good. rewrite esum_neg by exact Q. apply esum_zero. Qed.
Lemma zmult_neg k p : egood p -> 0 <= k -> zmult k (eneg p) = eneg (zmult k p).
Proof.
  intros G K. assert (E : esum (zmult k (eneg p)) (zmult k p) = ezero).
  { unfold zmult. induction (Z.to_nat k) as [|n IH]; [apply esum_zero|].
    change (emult (S n) (eneg p)) with (esum (eneg p) (emult n (eneg p))). change (emult (S n) p) with (esum p (emult n p)).
    pose proof (emult_good n p G). pose proof (emult_good n (eneg p) (eneg_good p G)). pose proof (eneg_good p G).
    rewrite (esum_comm p), esum_assoc by auto using esum_good. rewrite <- (esum_assoc (emult n (eneg p))) by assumption.
    rewrite IH, esum_zero_l, (esum_comm _ p). apply esum_neg, G. }
  pose proof (zmult_good k p G) as G1. pose proof (zmult_good k (eneg p) (eneg_good p G)) as G2.
  rewrite <- (esum_cancel (zmult k (eneg p)) (zmult k p)) by assumption. rewrite E. apply esum_zero_l.
Qed.

Lemma decode_mult k : 0 <= k < 2 ^ 255 -> exists P, pt_decode (pt_encode (pt_mul k pt_base)) = Some P /\ rep P (zmult k ebase).
Proof.
  intros K. rewrite (pt_encode_rep _ _ (pt_mul_rep k pt_base ebase base_good base_rep K)).
  apply pt_decode_encode. apply zmult_good, base_good.
Qed.
(** S = r + k a modulo the order, for any r, k and a *)
Lemma verify_equation a r k PA PR : 0 <= a < 2 ^ 255 -> 0 <= r < ed_order -> 0 <= k < ed_order ->
  rep PA (zmult a ebase) -> rep PR (zmult r ebase) ->
  let s := (r + k * a) mod ed_order in
  pt_same (pt_mul s pt_base) (pt_add PR (pt_mul k PA)) = true /\
  pt_encode (pt_add (pt_mul s pt_base) (pt_mul k (pt_neg PA))) = pt_encode (pt_mul r pt_base).
Proof.
  intros A R K RA RR s. pose proof order_bound as B. pose proof base_good as G. pose proof (zmult_good a ebase G) as GA.
  pose proof (zmult_good r ebase G) as GR.
  assert (S : 0 <= s < ed_order) by (apply Z.mod_pos_bound; lia).
  assert (E : zmult s ebase = esum (zmult r ebase) (zmult k (zmult a ebase))).
  { unfold s. assert (0 <= k * a) by (apply Z.mul_nonneg_nonneg; lia). rewrite base_mod by lia.
    rewrite zmult_add by (try exact G; lia). rewrite zmult_mul by (try exact G; lia). reflexivity. }
  pose proof (zmult_good k _ GA) as GK.
  assert (RS : rep (pt_mul s pt_base) (zmult s ebase)) by (apply pt_mul_rep; [exact G|exact base_rep|lia]).
  split.
  - apply (same_points _ _ (zmult s ebase) RS). rewrite E. apply pt_add_rep; [exact GR|exact GK|exact RR|].
    apply pt_mul_rep; [exact GA|exact RA|lia].
  - assert (RN : rep (pt_mul k (pt_neg PA)) (zmult k (eneg (zmult a ebase)))).
    { apply pt_mul_rep; [apply eneg_good, GA|apply pt_neg_rep, RA|lia]. }
    rewrite zmult_neg in RN by (try exact GA; lia).
    pose proof (pt_add_rep _ _ _ _ (zmult_good s ebase G) (eneg_good _ GK) RS RN) as RT.
    rewrite E, esum_cancel in RT by assumption. rewrite (pt_encode_rep _ _ RT). symmetry. apply pt_encode_rep.
    apply pt_mul_rep; [exact G|exact base_rep|lia].
Qed.
Lemma firstn_app_len {A} (l l' : list A) n : length l = n -> firstn n (l ++ l') = l /\ skipn n (l ++ l') = l'.
Proof.
  intros <-. rewrite firstn_app, skipn_app, Nat.sub_diag, firstn_all, skipn_all. cbn. rewrite app_nil_r. auto.
Qed.
Lemma bytes_eqb_same : forall l, bytes_eqb l l = true.
Proof. induction l as [|x l IH]; [reflexivity|]. cbn [bytes_eqb]. rewrite Z.eqb_refl, IH. reflexivity. Qed.
Lemma mod_order x : 0 <= x mod ed_order < ed_order.
Proof. apply Z.mod_pos_bound. apply order_bound. Qed.
Lemma order_256 x : 0 <= x < ed_order -> 0 <= x < 256 ^ Z.of_nat 32.
Proof. intros H. pose proof order_bound. change (256 ^ Z.of_nat 32) with (8 * 2 ^ 253). lia. Qed.
Lemma order_255 x : 0 <= x < ed_order -> 0 <= x < 2 ^ 255.
Proof. intros H. pose proof order_bound. lia. Qed.
Lemma encode_length P : length (pt_encode P) = 32%nat.
Proof. destruct P as [[[? ?] ?] ?]. apply num_le_length. Qed.
Lemma verify_parts a r k rb pub m sig PA PR :
  length pub = 32%nat -> length sig = 64%nat -> length rb = 32%nat ->
  0 <= a < 2 ^ 255 -> 0 <= r < ed_order -> 0 <= k < ed_order ->
  pt_decode pub = Some PA -> rep PA (zmult a ebase) -> pt_decode rb = Some PR -> rep PR (zmult r ebase) ->
  pt_encode (pt_mul r pt_base) = rb -> le_num (std_sha512 (rb ++ pub ++ m)) mod ed_order = k ->
  sig = rb ++ num_le 32 ((r + k * a) mod ed_order) ->
  std_ed25519_verify pub m sig = true /\ ed25519_verify_bytes pub m sig = true.
Proof.
  intros LP LS LR A R K DA RA DR RR EB EK ES.
  destruct (firstn_app_len rb (num_le 32 ((r + k * a) mod ed_order)) 32 LR) as [F1 F2]. rewrite <- ES in F1, F2. clear ES.
  destruct (verify_equation a r k PA PR A R K RA RR) as [V1 V2]. rewrite EB in V2.
  pose proof (mod_order (r + k * a)) as S. pose proof (le_num_le 32 _ (order_256 _ S)) as LE.
  remember ((r + k * a) mod ed_order) as s eqn:E. clear E.
  unfold std_ed25519_verify, ed25519_verify_bytes. cbv zeta. rewrite F1, F2, EK, DA, DR, LE, V1, V2, bytes_eqb_same.
  rewrite (proj2 (Z.ltb_lt s ed_order) (proj2 S)). unfold zlen. rewrite LP, LS. split; reflexivity.
Qed.
Theorem verify_signature sd m : length sd = 32%nat ->
  std_ed25519_verify (std_ed25519_public sd) m (std_ed25519_sign (sd ++ std_ed25519_public sd) m) = true /\
  ed25519_verify_bytes (std_ed25519_public sd) m (std_ed25519_sign (sd ++ std_ed25519_public sd) m) = true.
Proof.
  intros L. destruct (firstn_app_len sd (std_ed25519_public sd) 32 L) as [F F'].
  pose proof (clamp_bound _ (firstn_bytes 32 64 _ (sha512_bytes sd) ltac:(lia))) as A.
  destruct (decode_mult _ A) as (PA & DA & RA).
  pose proof (mod_order (le_num (std_sha512 (skipn 32 (std_sha512 sd) ++ m)))) as R.
  destruct (decode_mult _ (order_255 _ R)) as (PR & DR & RR).
  refine (verify_parts _ _ _ _ _ _ _ PA PR (proj1 (ed25519_public_bytes sd)) (proj1 (ed25519_sign_bytes _ m))
            (encode_length _) A R (mod_order _) DA RA DR RR eq_refl eq_refl _).
  unfold std_ed25519_sign. cbv zeta. rewrite F, F'. reflexivity.
Qed.
