(** Ed25519: the arithmetic of Spec/Curve25519.v is that of the group of the curve, points survive
    encoding, and verification accepts what signing makes. *)
From Coq Require Import Znumtheory Field_theory Field Lia ZifyBool.
From Verif.Model Require Import GoBase.
From Verif.Spec Require Import EnvSpec Sha Curve25519 EdVerify.
From Verif.Proofs Require Import PrimeP FieldP EdwardsP RealP.

Lemma P25519 : prime prime25519.
Proof. exact prime_25519. Qed.
Lemma p_val : prime25519 = 2 ^ 255 - 19.
Proof. reflexivity. Qed.
Lemma p_pos : 2 ^ 254 < prime25519 < 2 ^ 255.
Proof. split; reflexivity. Qed.

Definition Fp : Type := F prime25519.
Definition el (z : Z) : Fp := of prime25519 P25519 z.
Definition ev (a : Fp) : Z := val prime25519 a.
Definition eadd : Fp -> Fp -> Fp := Fadd prime25519 P25519.
Definition emul : Fp -> Fp -> Fp := Fmul prime25519 P25519.
Definition esub : Fp -> Fp -> Fp := Fsub prime25519 P25519.
Definition eopp : Fp -> Fp := Fopp prime25519 P25519.
Definition einv : Fp -> Fp := Finv prime25519 P25519.
Definition ediv : Fp -> Fp -> Fp := Fdiv prime25519 P25519.
Definition epow : Fp -> Z -> Fp := Fpow prime25519 P25519.
Lemma Efield : field_theory (el 0) (el 1) eadd emul esub eopp ediv einv (@eq Fp).
Proof. exact (F_field prime25519 P25519). Qed.
Lemma Edec (a b : Fp) : {a = b} + {a <> b}.
Proof. exact (F_dec prime25519 a b). Qed.
Lemma el_add a b : el (a + b) = eadd (el a) (el b).
Proof. exact (of_add prime25519 P25519 a b). Qed.
Lemma el_mul a b : el (a * b) = emul (el a) (el b).
Proof. exact (of_mul prime25519 P25519 a b). Qed.
Lemma el_sub a b : el (a - b) = esub (el a) (el b).
Proof. exact (of_sub prime25519 P25519 a b). Qed.
Lemma el_opp a : el (- a) = eopp (el a).
Proof. exact (of_opp prime25519 P25519 a). Qed.
Lemma el_mod a : el (a mod prime25519) = el a.
Proof. exact (of_mod prime25519 P25519 a). Qed.
Lemma el_eq a b : el a = el b <-> a mod prime25519 = b mod prime25519.
Proof. exact (of_eq prime25519 P25519 a b). Qed.
Lemma el_ev a : el (ev a) = a.
Proof. exact (of_val prime25519 P25519 a). Qed.
Lemma ev_el a : ev (el a) = a mod prime25519.
Proof. exact (val_of prime25519 P25519 a). Qed.
Lemma ev_bound a : 0 <= ev a < prime25519.
Proof. exact (val_bound prime25519 P25519 a). Qed.
Lemma ev_inj a b : ev a = ev b -> a = b.
Proof. exact (val_eq prime25519 a b). Qed.
Lemma einv_pow a : einv a = epow a (prime25519 - 2).
Proof. exact (eq_refl (epow a (prime25519 - 2))). Qed.
Lemma epow_add a m n : 0 <= m -> 0 <= n -> epow a (m + n) = emul (epow a m) (epow a n).
Proof. exact (Fpow_add prime25519 P25519 a m n). Qed.
Lemma epow_mul a m n : 0 <= m -> 0 <= n -> epow a (m * n) = epow (epow a m) n.
Proof. exact (Fpow_mul prime25519 P25519 a m n). Qed.
Lemma epow_of_mul a b n : 0 <= n -> epow (emul a b) n = emul (epow a n) (epow b n).
Proof. exact (Fpow_of_mul prime25519 P25519 a b n). Qed.
Lemma epow_fermat a : a <> el 0 -> epow a (prime25519 - 1) = el 1.
Proof. exact (Fpow_fermat prime25519 P25519 a). Qed.
Lemma epow_2 a : epow a 2 = emul a a.
Proof. exact (Fpow_2 prime25519 P25519 a). Qed.
Lemma epow_1 a : epow a 1 = a.
Proof. exact (Fpow_1 prime25519 P25519 a). Qed.
Lemma epow_0 a : epow a 0 = el 1.
Proof. exact (Fpow_0 prime25519 P25519 a). Qed.
Opaque el ev eadd emul esub eopp einv ediv epow prime25519 ed_d.
Add Field Ef : Efield.

(** ** The integer operations *)
Definition canonical (a : Z) : Prop := 0 <= a < prime25519.
Lemma ev_canonical a : canonical a -> ev (el a) = a.
Proof. intros H. rewrite ev_el. apply Z.mod_small, H. Qed.
Lemma mod_canonical a : canonical (a mod prime25519).
Proof. apply Z.mod_pos_bound. pose proof p_pos. lia. Qed.
Lemma fadd_ok a b : canonical (fadd a b) /\ el (fadd a b) = eadd (el a) (el b).
Proof. unfold fadd. split; [apply mod_canonical|]. rewrite el_mod. apply el_add. Qed.
Lemma fsub_ok a b : canonical (fsub a b) /\ el (fsub a b) = esub (el a) (el b).
Proof. unfold fsub. split; [apply mod_canonical|]. rewrite el_mod. apply el_sub. Qed.
Lemma fmul_ok a b : canonical a -> canonical b -> canonical (fmul a b) /\ el (fmul a b) = emul (el a) (el b).
Proof.
  unfold canonical. intros A B. pose proof p_pos. unfold fmul. rewrite reduce_mod.
  - split; [apply mod_canonical|]. rewrite el_mod. apply el_mul.
  - split; [nia|]. apply Z.le_lt_trans with (2 ^ 255 * 2 ^ 255); [apply Z.mul_le_mono_nonneg; lia|reflexivity].
Qed.
Lemma fpow_ok a e : canonical a -> canonical (fpow_pos a e) /\ el (fpow_pos a e) = epow (el a) (Zpos e).
Proof.
  intros A. induction e as [e [I1 I2]|e [I1 I2]|]; cbn [fpow_pos].
  - destruct (fmul_ok _ _ I1 I1) as [J1 J2]. destruct (fmul_ok _ _ A J1) as [K1 K2]. split; [exact K1|].
    rewrite K2, J2, I2. rewrite Pos2Z.inj_xI. replace (2 * Z.pos e + 1) with (1 + (Z.pos e + Z.pos e)) by lia.
    rewrite !epow_add, epow_1 by lia. reflexivity.
  - destruct (fmul_ok _ _ I1 I1) as [J1 J2]. split; [exact J1|].
    rewrite J2, I2. rewrite Pos2Z.inj_xO. replace (2 * Z.pos e) with (Z.pos e + Z.pos e) by lia.
    rewrite !epow_add by lia. reflexivity.
  - split; [exact A|]. rewrite epow_1. reflexivity.
Qed.
Lemma finv_ok a : canonical a -> canonical (finv a) /\ el (finv a) = einv (el a).
Proof.
  intros A. unfold finv. rewrite einv_pow. pose proof p_pos.
  rewrite <- (Z2Pos.id (prime25519 - 2)) at 3 by lia. apply fpow_ok, A.
Qed.

(** ** The curve *)
Lemma el_small a b : canonical a -> canonical b -> el a = el b -> a = b.
Proof. intros A B H. apply (f_equal ev) in H. rewrite !ev_canonical in H by assumption. exact H. Qed.
Notation ed := (el ed_d).
Definition ei : Fp := el (fpow_pos 2 (Z.to_pos ((prime25519 - 1) / 4))).
Lemma two_nonzero : eadd (el 1) (el 1) <> el 0.
Proof.
  rewrite <- el_add. intros H. pose proof p_pos. apply el_small in H; unfold canonical; lia.
Qed.
Lemma two_canonical : canonical 2.
Proof. pose proof p_pos. unfold canonical. lia. Qed.
Lemma d_canonical : canonical ed_d.
Proof. split; [discriminate|reflexivity]. Qed.
Lemma ei_check : let i := fpow_pos 2 (Z.to_pos ((prime25519 - 1) / 4)) in fmul i i = (- (1)) mod prime25519.
Proof. vm_compute. reflexivity. Qed.
Lemma ed_check : fpow_pos ed_d (Z.to_pos ((prime25519 - 1) / 2)) = (- (1)) mod prime25519.
Proof. vm_compute. reflexivity. Qed.
Lemma ei_square : emul ei ei = eopp (el 1).
Proof.
  unfold ei. destruct (fpow_ok 2 (Z.to_pos ((prime25519 - 1) / 4)) two_canonical) as [C _].
  rewrite <- (proj2 (fmul_ok _ _ C C)), <- el_opp. rewrite <- (el_mod (- (1))). exact (f_equal el ei_check).
Qed.
Lemma half : prime25519 - 1 = 2 * ((prime25519 - 1) / 2).
Proof. reflexivity. Qed.
Lemma ed_nonsquare s : emul s s <> ed.
Proof.
  intros H. pose proof p_pos. pose proof half as HF.
  assert (E : epow ed ((prime25519 - 1) / 2) = eopp (el 1)).
  { rewrite <- (Z2Pos.id ((prime25519 - 1) / 2)) by reflexivity.
    rewrite <- (proj2 (fpow_ok ed_d _ d_canonical)), <- el_opp. rewrite <- (el_mod (- (1))). exact (f_equal el ed_check). }
  assert (S : s <> el 0).
  { intros ->. apply (f_equal ev) in H. rewrite <- el_mul, ev_el, ev_canonical in H by exact d_canonical. vm_compute in H. discriminate H. }
  rewrite <- H, <- epow_2, <- epow_mul in E by (try lia; discriminate). rewrite <- HF, epow_fermat in E by exact S.
  apply two_nonzero. rewrite E at 1. ring.
Qed.

Definition epoint : Type := (Fp * Fp)%type.
Definition egood : epoint -> Prop := good Fp (el 1) eadd emul esub ed.
Definition ezero : epoint := zero Fp (el 0) (el 1).
Definition eneg : epoint -> epoint := neg Fp eopp.
Definition esum : epoint -> epoint -> epoint := sum Fp (el 1) eadd emul esub ediv ed.
Lemma ezero_good : egood ezero.
Proof. exact (zero_good Fp _ _ _ _ _ _ _ _ Efield ed). Qed.
Lemma esum_good p q : egood p -> egood q -> egood (esum p q).
Proof. exact (sum_good Fp _ _ _ _ _ _ _ _ Efield Edec ed ei two_nonzero ei_square ed_nonsquare p q). Qed.
Lemma eneg_good p : egood p -> egood (eneg p).
Proof. exact (neg_good Fp _ _ _ _ _ _ _ _ Efield ed p). Qed.
Lemma esum_comm p q : esum p q = esum q p.
Proof. exact (sum_comm Fp _ _ _ _ _ _ _ _ Efield ed p q). Qed.
Lemma esum_zero p : esum p ezero = p.
Proof. exact (sum_zero Fp _ _ _ _ _ _ _ _ Efield ed p). Qed.
Lemma esum_neg p : egood p -> esum p (eneg p) = ezero.
Proof. exact (sum_neg Fp _ _ _ _ _ _ _ _ Efield Edec ed ei two_nonzero ei_square ed_nonsquare p). Qed.
Lemma esum_assoc p q r : egood p -> egood q -> egood r -> esum (esum p q) r = esum p (esum q r).
Proof. exact (sum_assoc Fp _ _ _ _ _ _ _ _ Efield Edec ed ei two_nonzero ei_square ed_nonsquare p q r). Qed.
Lemma ecomplete x1 y1 x2 y2 : egood (x1, y1) -> egood (x2, y2) ->
  let e := emul ed (emul (emul x1 x2) (emul y1 y2)) in eadd (el 1) e <> el 0 /\ esub (el 1) e <> el 0.
Proof. exact (complete Fp _ _ _ _ _ _ _ _ Efield Edec ed ei two_nonzero ei_square ed_nonsquare x1 y1 x2 y2). Qed.
Lemma enonzero_mul a b : a <> el 0 -> b <> el 0 -> emul a b <> el 0.
Proof. exact (mul_nonzero Fp _ _ _ _ _ _ _ _ Efield Edec a b). Qed.
Opaque ei.

(** ** Extended coordinates *)
Definition rep (P : pt) (q : epoint) : Prop :=
  let '(X, Y, Z, T) := P in
  canonical X /\ canonical Y /\ canonical Z /\ canonical T /\
  el Z <> el 0 /\ el X = emul (fst q) (el Z) /\ el Y = emul (snd q) (el Z) /\
  el T = emul (emul (fst q) (snd q)) (el Z).
Lemma pt_add_rep P Q p q : egood p -> egood q -> rep P p -> rep Q q -> rep (pt_add P Q) (esum p q).
Proof.
  destruct P as [[[X1 Y1] Z1] T1], Q as [[[X2 Y2] Z2] T2], p as [x1 y1], q as [x2 y2].
  intros G1 G2 (A1 & A2 & A3 & A4 & A5 & A6 & A7 & A8) (B1 & B2 & B3 & B4 & B5 & B6 & B7 & B8).
  cbn [fst snd] in *. unfold pt_add.
  destruct (fsub_ok Y1 X1) as [C1 E1]. destruct (fsub_ok Y2 X2) as [C2 E2].
  destruct (fadd_ok Y1 X1) as [C3 E3]. destruct (fadd_ok Y2 X2) as [C4 E4].
  destruct (fadd_ok ed_d ed_d) as [C5 E5]. destruct (fadd_ok Z1 Z1) as [C6 E6].
  destruct (fmul_ok _ _ C1 C2) as [CA EA]. destruct (fmul_ok _ _ C3 C4) as [CB EB].
  destruct (fmul_ok _ _ A4 C5) as [C7 E7]. destruct (fmul_ok _ _ C7 B4) as [CC EC].
  destruct (fmul_ok _ _ C6 B3) as [CD ED].
  set (a := fmul (fsub Y1 X1) (fsub Y2 X2)) in *. set (b := fmul (fadd Y1 X1) (fadd Y2 X2)) in *.
  set (c := fmul (fmul T1 (fadd ed_d ed_d)) T2) in *. set (dd := fmul (fadd Z1 Z1) Z2) in *.
  destruct (fsub_ok b a) as [D1 H1]. destruct (fsub_ok dd c) as [D2 H2].
  destruct (fadd_ok dd c) as [D3 H3]. destruct (fadd_ok b a) as [D4 H4].
  destruct (fmul_ok _ _ D1 D2) as [F1 L1]. destruct (fmul_ok _ _ D3 D4) as [F2 L2].
  destruct (fmul_ok _ _ D2 D3) as [F3 L3]. destruct (fmul_ok _ _ D1 D4) as [F4 L4].
  rewrite EA, E1, E2, EB, E3, E4, A6, A7, B6, B7 in *. rewrite EC, E7, E5, ED, E6, A8, B8 in *.
  destruct (ext_sum Fp _ _ _ _ _ _ _ _ Efield Edec ed ei two_nonzero ei_square ed_nonsquare x1 y1 x2 y2 (el Z1) (el Z2) G1 G2 A5 B5) as (M1 & M2 & M3 & M4).
  rewrite H1, H2, H3, H4 in *. unfold rep. rewrite L1, L2, L3, L4.
  split; [exact F1|]. split; [exact F2|]. split; [exact F3|]. split; [exact F4|].
  split; [exact M1|]. split; [exact M2|]. split; [exact M3|exact M4].
Qed.
Lemma pt_zero_rep : rep pt_zero ezero.
Proof.
  pose proof p_pos. unfold rep, pt_zero, canonical. repeat split; try lia.
  intros H0. apply el_small in H0; unfold canonical; lia.
Qed.
Lemma pt_neg_rep P p : rep P p -> rep (pt_neg P) (eneg p).
Proof.
  destruct P as [[[X Y] Z] T], p as [x y]. intros (A1 & A2 & A3 & A4 & A5 & A6 & A7 & A8). cbn [fst snd] in *.
  unfold pt_neg, rep, eneg, neg. cbn [fst snd].
  destruct (fsub_ok 0 X) as [C1 E1]. destruct (fsub_ok 0 T) as [C2 E2].
  split; [exact C1|]. split; [exact A2|]. split; [exact A3|]. split; [exact C2|]. split; [exact A5|].
  rewrite E1, E2, A6, A7, A8. repeat split; ring.
Qed.

(** ** Multiples *)
Definition emult (n : nat) (p : epoint) : epoint := Nat.iter n (esum p) ezero.
Lemma emult_good n p : egood p -> egood (emult n p).
Proof. intros G. induction n; [exact ezero_good|]. apply esum_good; assumption. Qed.
Lemma esum_zero_l p : esum ezero p = p.
Proof. rewrite esum_comm. apply esum_zero. Qed.
Lemma emult_add m n p : egood p -> emult (m + n) p = esum (emult m p) (emult n p).
Proof.
  intros G. induction m as [|m IH]; [cbn; symmetry; apply esum_zero_l|].
  change (emult (S m + n) p) with (esum p (emult (m + n) p)). rewrite IH.
  change (emult (S m) p) with (esum p (emult m p)). symmetry. apply esum_assoc; auto using emult_good.
Qed.
Lemma emult_mul m n p : egood p -> emult (m * n) p = emult m (emult n p).
Proof.
  intros G. induction m as [|m IH]; [reflexivity|]. rewrite Nat.mul_succ_l, Nat.add_comm, emult_add by exact G.
  rewrite IH. reflexivity.
Qed.
Lemma emult_zero n : emult n ezero = ezero.
Proof. induction n as [|n IH]; [reflexivity|]. change (emult (S n) ezero) with (esum ezero (emult n ezero)). rewrite IH. apply esum_zero. Qed.
Definition zmult (k : Z) (p : epoint) : epoint := emult (Z.to_nat k) p.
Lemma zmult_good k p : egood p -> egood (zmult k p).
Proof. apply emult_good. Qed.
Lemma zmult_add a b p : egood p -> 0 <= a -> 0 <= b -> zmult (a + b) p = esum (zmult a p) (zmult b p).
Proof. intros G A B. unfold zmult. rewrite Z2Nat.inj_add by assumption. apply emult_add, G. Qed.
Lemma zmult_mul a b p : egood p -> 0 <= a -> 0 <= b -> zmult (a * b) p = zmult a (zmult b p).
Proof. intros G A B. unfold zmult. rewrite Z2Nat.inj_mul by assumption. apply emult_mul, G. Qed.
Lemma zmult_zero k : zmult k ezero = ezero.
Proof. apply emult_zero. Qed.
Lemma zmult_1 p : zmult 1 p = p.
Proof. unfold zmult. change (Z.to_nat 1) with 1%nat. cbn. apply esum_zero. Qed.
Lemma bits_down_succ n : bits_down (S n) = Z.of_nat n :: bits_down n.
Proof. unfold bits_down. rewrite seq_S, map_app, rev_app_distr. reflexivity. Qed.
Lemma pt_mul_steps k P p : egood p -> rep P p -> 0 <= k -> forall n acc,
  rep acc (zmult (k / 2 ^ Z.of_nat n) p) ->
  rep (fold_left (fun acc t => let acc2 := pt_add acc acc in if Z.testbit k t then pt_add acc2 P else acc2)
         (bits_down n) acc) (zmult k p).
Proof.
  intros G R K. induction n as [|n IH]; intros acc A.
  - change (2 ^ Z.of_nat 0) with 1 in A. rewrite Z.div_1_r in A. exact A.
  - rewrite bits_down_succ. cbn [fold_left]. apply IH. set (m := Z.of_nat n) in *.
    assert (0 <= m) by (unfold m; lia).
    rewrite Nat2Z.inj_succ in A. fold m in A. rewrite Z.pow_succ_r in A by assumption.
    set (h := k / (2 * 2 ^ m)) in *.
    assert (0 < 2 ^ m) by (apply Z.pow_pos_nonneg; lia).
    assert (E : k / 2 ^ m = 2 * h + Z.b2z (Z.testbit k m)).
    { rewrite Z.testbit_spec' by assumption. unfold h. rewrite (Z.mul_comm 2 (2 ^ m)), <- Z.div_div by lia. apply Z.div_mod. lia. }
    assert (0 <= h) by (apply Z.div_pos; lia).
    assert (AA : rep (pt_add acc acc) (zmult (2 * h) p)).
    { replace (2 * h) with (h + h) by lia. rewrite zmult_add by assumption. apply pt_add_rep; auto using zmult_good. }
    rewrite E. cbv zeta. destruct (Z.testbit k m); cbn [Z.b2z].
    + rewrite zmult_add by (try assumption; lia). rewrite zmult_1. apply pt_add_rep; auto using zmult_good.
    + rewrite Z.add_0_r. exact AA.
Qed.
Lemma pt_mul_rep k P p : egood p -> rep P p -> 0 <= k < 2 ^ 255 -> rep (pt_mul k P) (zmult k p).
Proof.
  intros G R K. unfold pt_mul. refine (pt_mul_steps k P p G R (proj1 K) 255 pt_zero _).
  rewrite Z.div_small by exact K. exact pt_zero_rep.
Qed.

(** ** The base point and its order *)
Definition base_x : Z := 15112221349535400772501151409588531511454012693041857206046113283949847762202.
Definition base_y : Z := 46316835694926478169428394003475163141307993866256225615783033603165251855960.
Definition ebase : epoint := (el base_x, el base_y).
Lemma base_check :
  (0 <=? base_x) && (base_x <? prime25519) && (0 <=? base_y) && (base_y <? prime25519) &&
  (fsub (fmul base_y base_y) (fmul base_x base_x) =?
   fadd 1 (fmul ed_d (fmul (fmul base_x base_x) (fmul base_y base_y)))) = true.
Proof. vm_compute. reflexivity. Qed.
Lemma base_canonical : canonical base_x /\ canonical base_y.
Proof. pose proof base_check as H. unfold canonical. lia. Qed.
Lemma base_good : egood ebase.
Proof.
  pose proof base_check as H. apply andb_prop in H as [_ H]. apply Z.eqb_eq in H. destruct base_canonical as [X Y].
  destruct (fmul_ok _ _ X X) as [C1 E1]. destruct (fmul_ok _ _ Y Y) as [C2 E2]. destruct (fmul_ok _ _ C1 C2) as [C3 E3].
  destruct (fmul_ok _ _ d_canonical C3) as [C4 E4].
  apply (f_equal el) in H. rewrite (proj2 (fsub_ok _ _)), (proj2 (fadd_ok _ _)), E4, E3, E2, E1 in H. exact H.
Qed.
Lemma one_nonzero : el 1 <> el 0.
Proof. pose proof p_pos. intros E. apply el_small in E; unfold canonical; lia. Qed.
Lemma one_canonical : canonical 1.
Proof. pose proof p_pos. unfold canonical. lia. Qed.
Lemma emul_1 a : emul a (el 1) = a.
Proof. exact (mul_one Fp _ _ _ _ _ _ _ _ Efield a). Qed.
Lemma affine_rep x y : canonical x -> canonical y -> rep (x, y, 1, fmul x y) (el x, el y).
Proof.
  intros X Y. destruct (fmul_ok _ _ X Y) as [C E]. unfold rep. cbn [fst snd].
  split; [exact X|]. split; [exact Y|]. split; [exact one_canonical|]. split; [exact C|]. split; [exact one_nonzero|].
  rewrite E, !emul_1. repeat split.
Qed.
Lemma base_rep : rep pt_base ebase.
Proof. exact (affine_rep base_x base_y (proj1 base_canonical) (proj2 base_canonical)). Qed.
Definition is_zero (P : pt) : bool := let '(x, y, z, _) := P in (x =? 0) && (y =? z).
Lemma order_check : is_zero (pt_mul ed_order pt_base) = true.
Proof. vm_compute. reflexivity. Qed.
Lemma order_bound : 0 < ed_order < 2 ^ 253.
Proof. split; reflexivity. Qed.
Opaque ed_order.
Lemma is_zero_ok P q : rep P q -> is_zero P = true -> q = ezero.
Proof.
  destruct P as [[[X Y] Z] T], q as [x y]. unfold is_zero. intros R C.
  apply andb_prop in C as [C1 C2]. apply Z.eqb_eq in C1, C2. subst X Y.
  destruct R as (_ & _ & _ & _ & N & R1 & R2 & _). cbn [fst snd] in *.
  symmetry in R1. destruct (mul_zero Fp _ _ _ _ _ _ _ _ Efield Edec _ _ R1) as [->|Z0]; [|contradiction].
  unfold ezero, zero. apply f_equal. exact (cancel_one Fp _ _ _ _ _ _ _ _ Efield y (el Z) N R2).
Qed.
Lemma base_order : zmult ed_order ebase = ezero.
Proof.
  pose proof order_bound as B. assert (K : 0 <= ed_order < 2 ^ 255) by lia.
  exact (is_zero_ok _ _ (pt_mul_rep ed_order pt_base ebase base_good base_rep K) order_check).
Qed.
Lemma base_mod k : 0 <= k -> zmult (k mod ed_order) ebase = zmult k ebase.
Proof.
  intros K. pose proof order_bound as B. pose proof (Z.mod_pos_bound k ed_order (proj1 B)) as M.
  assert (Q : 0 <= k / ed_order) by (apply Z.div_pos; lia).
  assert (E : k = k / ed_order * ed_order + k mod ed_order) by (rewrite Z.mul_comm; apply Z.div_mod; lia).
  rewrite E at 2. rewrite zmult_add by (try exact base_good; try apply Z.mul_nonneg_nonneg; lia).
  rewrite zmult_mul by (try exact base_good; lia). rewrite base_order, zmult_zero. symmetry. apply esum_zero_l.
Qed.

(** ** Encoding *)
Definition eencode (q : epoint) : bytes := num_le 32 (ev (snd q) + (ev (fst q) mod 2) * 2 ^ 255).
Lemma pt_encode_rep P q : rep P q -> pt_encode P = eencode q.
Proof.
  destruct P as [[[X Y] Z] T], q as [x y]. intros (A1 & A2 & A3 & A4 & A5 & A6 & A7 & A8). cbn [fst snd] in *.
  unfold pt_encode, eencode. cbn [fst snd]. destruct (finv_ok Z A3) as [C E].
  destruct (fmul_ok _ _ A1 C) as [CX EX]. destruct (fmul_ok _ _ A2 C) as [CY EY].
  assert (K : forall a, emul (emul a (el Z)) (einv (el Z)) = a).
  { intros a. exact (mul_inv Fp _ _ _ _ _ _ _ _ Efield a (el Z) A5). }
  rewrite <- (ev_canonical _ CX), <- (ev_canonical _ CY). rewrite EX, EY, E, A6, A7, !K. reflexivity.
Qed.

(** ** Decoding *)
Lemma emul_assoc a b c : emul a (emul b c) = emul (emul a b) c.
Proof. exact (mul_assoc Fp _ _ _ _ _ _ _ _ Efield a b c). Qed.
Lemma emul_comm a b : emul a b = emul b a.
Proof. exact (mul_comm Fp _ _ _ _ _ _ _ _ Efield a b). Qed.
Lemma emul4 a b c e : emul (emul a b) (emul c e) = emul (emul a c) (emul b e).
Proof. exact (mul_perm4 Fp _ _ _ _ _ _ _ _ Efield a b c e). Qed.
Lemma eight : prime25519 = 8 * ((prime25519 - 5) / 8) + 5.
Proof. reflexivity. Qed.
Lemma root_square u v x : v <> el 0 -> u = emul v (emul x x) ->
  let n := (prime25519 - 5) / 8 in
  let v3 := emul v (emul v v) in
  let c := emul (emul u v3) (epow (emul u (emul v3 (emul v3 v))) n) in
  emul c c = emul (emul x x) (epow x ((prime25519 - 1) / 2)).
Proof.
  intros V U n v3 c. pose proof eight as E8. pose proof half as EH. pose proof p_pos. fold n in E8.
  assert (N : 0 <= n) by lia.
  assert (V3 : v3 = epow v 3).
  { unfold v3. change 3 with (1 + (1 + 1)). rewrite !epow_add, !epow_1 by lia. reflexivity. }
  assert (X2 : emul x x = epow x 2) by (symmetry; apply epow_2).
  assert (P1 : emul u v3 = emul (epow v 4) (epow x 2)).
  { rewrite U, V3, X2. change 4 with (1 + 3). rewrite epow_add, epow_1 by lia. rewrite <- !emul_assoc. apply (f_equal (emul v)). apply emul_comm. }
  assert (P2 : emul u (emul v3 (emul v3 v)) = emul (epow v 8) (epow x 2)).
  { rewrite emul_assoc, P1, V3. replace (emul (epow v 3) v) with (epow v 4)
      by (change 4 with (3 + 1); rewrite epow_add, epow_1 by lia; reflexivity).
    change 8 with (4 + 4). rewrite epow_add by lia. rewrite <- !emul_assoc. apply (f_equal (emul (epow v 4))). apply emul_comm. }
  assert (C : c = emul (epow v (4 + 8 * n)) (epow x (2 + 2 * n))).
  { unfold c. rewrite P1, P2, epow_of_mul, <- !epow_mul by lia. rewrite emul4, <- !epow_add by lia. reflexivity. }
  rewrite C, emul4, <- !epow_add by lia.
  replace (4 + 8 * n + (4 + 8 * n)) with ((prime25519 - 1) * 2) by lia.
  rewrite epow_mul, epow_fermat by (try exact V; lia). rewrite epow_2, emul_1, emul_comm, emul_1.
  rewrite X2, <- epow_add by lia. apply (f_equal (epow x)). lia.
Qed.

Lemma half_pow x : epow x ((prime25519 - 1) / 2) = el 1 \/ epow x ((prime25519 - 1) / 2) = eopp (el 1) \/ x = el 0.
Proof.
  destruct (Edec x (el 0)) as [Z|N]; [auto|]. pose proof half as EH. pose proof p_pos.
  set (t := epow x ((prime25519 - 1) / 2)).
  assert (T : emul t t = emul (el 1) (el 1)).
  { unfold t. rewrite <- epow_2, <- epow_mul by lia. rewrite Z.mul_comm, <- EH, epow_fermat by exact N. symmetry. apply emul_1. }
  destruct (square_eq Fp _ _ _ _ _ _ _ _ Efield Edec t (el 1) T); auto.
Qed.
(** the root found is x or its negative *)
Lemma root_found v x c : v <> el 0 ->
  emul c c = emul (emul x x) (epow x ((prime25519 - 1) / 2)) ->
  let u := emul v (emul x x) in let w := emul v (emul c c) in
  (w = u -> c = x \/ c = eopp x) /\
  (w <> u -> w = eopp u /\ (emul c ei = x \/ emul c ei = eopp x)).
Proof.
  intros V C u w. split.
  - intros E. apply (mul_cancel Fp _ _ _ _ _ _ _ _ Efield v _ _ V) in E. exact (square_eq Fp _ _ _ _ _ _ _ _ Efield Edec c x E).
  - intros N. destruct (half_pow x) as [T|[T|T]].
    + exfalso. apply N. unfold w, u. rewrite C, T, emul_1. reflexivity.
    + assert (CC : emul c c = eopp (emul x x)) by (rewrite C, T; exact (mul_opp_one Fp _ _ _ _ _ _ _ _ Efield _)).
      split.
      * unfold w, u. rewrite CC. exact (mul_opp Fp _ _ _ _ _ _ _ _ Efield v (emul x x)).
      * apply (square_eq Fp _ _ _ _ _ _ _ _ Efield Edec). rewrite emul4, ei_square, CC.
        rewrite (mul_opp_one Fp _ _ _ _ _ _ _ _ Efield). exact (opp_opp Fp _ _ _ _ _ _ _ _ Efield _).
    + exfalso. apply N. unfold w, u. rewrite C, T. rewrite (mul_zero_l Fp _ _ _ _ _ _ _ _ Efield), (mul_zero_l Fp _ _ _ _ _ _ _ _ Efield). reflexivity.
Qed.
