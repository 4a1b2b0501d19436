(** The points of -x^2 + y^2 = 1 + d x^2 y^2 over a field in which -1 is a square and d is not form a
    commutative group under the complete addition law. *)
From Coq Require Import Field_theory Field Ring Bool.

Section Edwards.
  Variable F : Type.
  Variables (f0 f1 : F) (add mul sub : F -> F -> F) (opp : F -> F) (div : F -> F -> F) (inv : F -> F).
  Hypothesis Fth : field_theory f0 f1 add mul sub opp div inv (@eq F).
  Hypothesis eq_dec : forall a b : F, {a = b} + {a <> b}.
  Notation "0" := f0. Notation "1" := f1.
  Infix "+" := add. Infix "*" := mul. Infix "-" := sub. Notation "- x" := (opp x). Infix "/" := div.
  Add Field Ffield : Fth.

  Lemma mul_zero a b : a * b = 0 -> a = 0 \/ b = 0.
  Proof.
    intros H. destruct (eq_dec a 0) as [A|A]; [left; exact A|right].
    transitivity (inv a * (a * b)); [field; exact A|rewrite H; ring].
  Qed.
  Lemma mul_nonzero a b : a <> 0 -> b <> 0 -> a * b <> 0.
  Proof. intros A B H. destruct (mul_zero _ _ H); contradiction. Qed.
  Lemma sub_zero a b : a - b = 0 -> a = b.
  Proof. intros H. transitivity ((a - b) + b); [ring|rewrite H; ring]. Qed.

  Variables (d i : F).
  Hypothesis two_nonzero : 1 + 1 <> 0.
  Hypothesis i_square : i * i = - (1).
  Hypothesis d_nonsquare : forall s, s * s <> d.

  Definition on_curve (x y : F) : Prop := y * y - x * x = 1 + d * (x * x * (y * y)).

  (** x' = i x satisfies x'^2 + y^2 = 1 - d x'^2 y^2 *)
  Lemma complete_aux : forall delta x1 y1 x2 y2 e,
    (forall s, s * s <> delta) ->
    x1 * x1 + y1 * y1 = 1 + delta * (x1 * x1 * (y1 * y1)) ->
    x2 * x2 + y2 * y2 = 1 + delta * (x2 * x2 * (y2 * y2)) ->
    e = delta * (x1 * x2 * (y1 * y2)) -> e * e <> 1.
  Proof.
    intros dl x1 y1 x2 y2 e NS C1 C2 E EE.
    assert (NZ : x1 <> 0 /\ y1 <> 0 /\ x2 <> 0).
    { assert (e <> 0).
      { intros Z. apply two_nonzero. transitivity (1 + e * e); [rewrite EE; ring|].
        assert (O : 1 = 0) by (rewrite <- EE, Z; ring). rewrite O, Z. ring. }
      repeat split; intros Z; apply H; rewrite E, Z; ring. }
    destruct NZ as (X1 & Y1 & X2).
    assert (K : dl * (x1 * x1 * (y1 * y1)) * (x2 * x2 + y2 * y2) = x1 * x1 + y1 * y1).
    { rewrite C1, C2. transitivity (dl * (x1 * x1 * (y1 * y1)) + e * e); [rewrite E; ring|rewrite EE; ring]. }
    assert (S : forall s t, s = x2 + t -> (t = y2 /\ True) -> s <> 0 -> False).
    { intros s t -> [-> _] N.
      apply (NS ((x1 + e * y1) / (x1 * y1 * (x2 + y2)))).
      assert (Q : (x1 + e * y1) * (x1 + e * y1) = dl * (x1 * x1 * (y1 * y1)) * ((x2 + y2) * (x2 + y2))).
      { transitivity (dl * (x1 * x1 * (y1 * y1)) * (x2 * x2 + y2 * y2) + (1 + 1) * (x1 * y1) * (dl * (x1 * x2 * (y1 * y2)))); [|ring].
        rewrite K, <- E. transitivity (x1 * x1 + e * e * (y1 * y1) + (1 + 1) * (x1 * y1) * e); [ring|rewrite EE; ring]. }
      transitivity ((x1 + e * y1) * (x1 + e * y1) / (x1 * x1 * (y1 * y1) * ((x2 + y2) * (x2 + y2)))); [field; auto|].
      rewrite Q. field. auto. }
    assert (S' : x2 - y2 <> 0 -> False).
    { intros N. apply (NS ((x1 - e * y1) / (x1 * y1 * (x2 - y2)))).
      assert (Q : (x1 - e * y1) * (x1 - e * y1) = dl * (x1 * x1 * (y1 * y1)) * ((x2 - y2) * (x2 - y2))).
      { transitivity (dl * (x1 * x1 * (y1 * y1)) * (x2 * x2 + y2 * y2) - (1 + 1) * (x1 * y1) * (dl * (x1 * x2 * (y1 * y2)))); [|ring].
        rewrite K, <- E. transitivity (x1 * x1 + e * e * (y1 * y1) - (1 + 1) * (x1 * y1) * e); [ring|rewrite EE; ring]. }
      transitivity ((x1 - e * y1) * (x1 - e * y1) / (x1 * x1 * (y1 * y1) * ((x2 - y2) * (x2 - y2)))); [field; auto|].
      rewrite Q. field. auto. }
    destruct (eq_dec (x2 + y2) 0) as [A|A]; [|exact (S _ _ eq_refl (conj eq_refl I) A)].
    destruct (eq_dec (x2 - y2) 0) as [B|B]; [|exact (S' B)].
    assert (Z : (1 + 1) * x2 = 0) by (transitivity ((x2 + y2) + (x2 - y2)); [ring|rewrite A, B; ring]).
    destruct (mul_zero _ _ Z); contradiction.
  Qed.
  Lemma complete x1 y1 x2 y2 : on_curve x1 y1 -> on_curve x2 y2 ->
    let e := d * (x1 * x2 * (y1 * y2)) in 1 + e <> 0 /\ 1 - e <> 0.
  Proof.
    intros C1 C2 e. assert (N : e * e <> 1).
    { apply (complete_aux (- d) (i * x1) y1 (i * x2) y2).
      - intros s H. apply (d_nonsquare (i * s)). transitivity (i * i * (s * s)); [ring|rewrite i_square, H; ring].
      - transitivity (i * i * (x1 * x1) + y1 * y1); [ring|]. rewrite i_square. transitivity (y1 * y1 - x1 * x1); [ring|]. rewrite C1.
        transitivity (1 + - d * ((i * i) * (x1 * x1) * (y1 * y1))); [rewrite i_square; ring|ring].
      - transitivity (i * i * (x2 * x2) + y2 * y2); [ring|]. rewrite i_square. transitivity (y2 * y2 - x2 * x2); [ring|]. rewrite C2.
        transitivity (1 + - d * ((i * i) * (x2 * x2) * (y2 * y2))); [rewrite i_square; ring|ring].
      - unfold e. transitivity (- d * ((i * i) * (x1 * x2) * (y1 * y2))); [rewrite i_square; ring|ring]. }
    split; intros H; apply N.
    - transitivity (1 + (1 + e) * (e - 1)); [ring|rewrite H; ring].
    - transitivity (1 - (1 - e) * (e + 1)); [ring|rewrite H; ring].
  Qed.

  Definition point : Type := (F * F)%type.
  Definition good (p : point) : Prop := on_curve (fst p) (snd p).
  Definition zero : point := (0, 1).
  Definition neg (p : point) : point := (- fst p, snd p).
  Definition sum (p q : point) : point :=
    let e := d * (fst p * fst q * (snd p * snd q)) in
    ((fst p * snd q + fst q * snd p) / (1 + e), (snd p * snd q + fst p * fst q) / (1 - e)).

  Lemma d_nonzero : d <> 0.
  Proof. intros H. apply (d_nonsquare 0). rewrite H. ring. Qed.
  Lemma zero_good : good zero.
  Proof. unfold good, on_curve, zero. cbn [fst snd]. ring. Qed.
  Lemma neg_good p : good p -> good (neg p).
  Proof. unfold good, on_curve, neg. cbn [fst snd]. intros H. transitivity (snd p * snd p - fst p * fst p); [ring|]. rewrite H. ring. Qed.
  Lemma sum_comm p q : sum p q = sum q p.
  Proof.
    unfold sum. replace (d * (fst q * fst p * (snd q * snd p))) with (d * (fst p * fst q * (snd p * snd q))) by ring.
    f_equal; f_equal; ring.
  Qed.
  Lemma sum_zero p : sum p zero = p.
  Proof.
    destruct p as [x y]. unfold sum, zero. cbn [fst snd].
    assert (N : 1 <> 0) by (apply (F_1_neq_0 Fth)).
    assert (E : d * (x * 0 * (y * 1)) = 0) by ring. rewrite E. f_equal; field.
    - intros H. apply N. exact H.
    - exact N.
  Qed.

  (** the curve equation as a rewriting rule for x^2 y^2 *)
  Lemma curve_rule x y : on_curve x y -> x * x * (y * y) = inv d * (y * y - x * x - 1).
  Proof. intros H. pose proof d_nonzero. rewrite H. field. assumption. Qed.
  Lemma d_rule : d * inv d = 1.
  Proof. field. exact d_nonzero. Qed.

  Lemma sum_good p q : good p -> good q -> good (sum p q).
  Proof.
    destruct p as [x1 y1], q as [x2 y2]. unfold good. cbn [fst snd]. intros C1 C2.
    destruct (complete x1 y1 x2 y2 C1 C2) as [N1 N2]. unfold on_curve, sum. cbn [fst snd].
    pose proof (curve_rule _ _ C1) as R1. pose proof (curve_rule _ _ C2) as R2. pose proof d_rule as RD.
    set (D := inv d) in *. set (e := d * (x1 * x2 * (y1 * y2))) in *.
    set (X := x1 * y2 + x2 * y1). set (Y := y1 * y2 + x1 * x2).
    assert (K : Y * Y * ((1 + e) * (1 + e)) - X * X * ((1 - e) * (1 - e)) =
                (1 + e) * (1 + e) * ((1 - e) * (1 - e)) + d * (X * X * (Y * Y))).
    { unfold X, Y, e. ring [R1 R2 RD]. }
    transitivity ((Y * Y * ((1 + e) * (1 + e)) - X * X * ((1 - e) * (1 - e))) / ((1 + e) * (1 + e) * ((1 - e) * (1 - e)))); [field; auto|].
    rewrite K. field. auto.
  Qed.

  Lemma sum_neg p : good p -> sum p (neg p) = zero.
  Proof.
    destruct p as [x y]. intros C. pose proof (neg_good _ C) as C'. unfold good in *. cbn [fst snd neg] in *.
    destruct (complete x y (- x) y C C') as [N1 N2]. unfold sum, zero, neg. cbn [fst snd].
    set (e := d * (x * - x * (y * y))) in *. f_equal.
    - transitivity (0 / (1 + e)); [f_equal; ring|field; exact N1].
    - assert (K : y * y + x * - x = 1 - e) by (unfold e; transitivity (y * y - x * x); [ring|]; rewrite C; ring).
      rewrite K. field. exact N2.
  Qed.

  (** coordinates of a double sum as fractions of polynomials *)
  Lemma sum3 x1 y1 x2 y2 x3 y3 : on_curve x1 y1 -> on_curve x2 y2 -> on_curve x3 y3 ->
    let e := d * (x1 * x2 * (y1 * y2)) in
    let X := x1 * y2 + x2 * y1 in let Y := y1 * y2 + x1 * x2 in
    let u := (1 + e) * (1 - e) in let v := d * (X * x3 * (Y * y3)) in
    u + v <> 0 /\ u - v <> 0 /\
    sum (sum (x1, y1) (x2, y2)) (x3, y3) =
      ((X * (1 - e) * y3 + x3 * (Y * (1 + e))) / (u + v), (Y * (1 + e) * y3 + X * (1 - e) * x3) / (u - v)).
  Proof.
    intros C1 C2 C3 e X Y u v. destruct (complete x1 y1 x2 y2 C1 C2) as [N1 N2].
    pose proof (sum_good (x1, y1) (x2, y2) C1 C2) as C12. unfold good, sum in C12. cbn [fst snd] in C12.
    destruct (complete _ _ x3 y3 C12 C3) as [M1 M2]. unfold sum. cbn [fst snd].
    fold e X Y in N1, N2, C12, M1, M2 |- *. set (e' := d * (X / (1 + e) * x3 * (Y / (1 - e) * y3))) in *.
    assert (V : v = u * e') by (unfold v, u, e'; field; auto).
    assert (U : u <> 0) by (apply mul_nonzero; assumption).
    assert (K1 : u + v <> 0).
    { rewrite V. intros H. apply (mul_nonzero u (1 + e') U M1). transitivity (u + u * e'); [ring|exact H]. }
    assert (K2 : u - v <> 0).
    { rewrite V. intros H. apply (mul_nonzero u (1 - e') U M2). transitivity (u - u * e'); [ring|exact H]. }
    split; [exact K1|]. split; [exact K2|]. f_equal.
    - transitivity ((X * (1 - e) * y3 + x3 * (Y * (1 + e))) / (u * (1 + e'))).
      + unfold u. field. auto.
      + f_equal. rewrite V. ring.
    - transitivity ((Y * (1 + e) * y3 + X * (1 - e) * x3) / (u * (1 - e'))).
      + unfold u. field. auto.
      + f_equal. rewrite V. ring.
  Qed.
  Lemma frac_eq a b c e : b <> 0 -> e <> 0 -> a * e = c * b -> a / b = c / e.
  Proof. intros B E H. transitivity (a * e / (b * e)); [field; auto|]. rewrite H. field. auto. Qed.
  Lemma sum_assoc p q r : good p -> good q -> good r -> sum (sum p q) r = sum p (sum q r).
  Proof.
    destruct p as [x1 y1], q as [x2 y2], r as [x3 y3]. unfold good. cbn [fst snd]. intros C1 C2 C3.
    rewrite (sum_comm (x1, y1) (sum (x2, y2) (x3, y3))).
    destruct (sum3 x1 y1 x2 y2 x3 y3 C1 C2 C3) as (A1 & A2 & ->).
    destruct (sum3 x2 y2 x3 y3 x1 y1 C2 C3 C1) as (B1 & B2 & ->).
    pose proof (curve_rule _ _ C1) as R1. pose proof (curve_rule _ _ C2) as R2.
    pose proof (curve_rule _ _ C3) as R3. pose proof d_rule as RD. set (D := inv d) in *.
    f_equal; apply frac_eq; try assumption.
    - ring [R1 R2 R3 RD].
    - ring [R1 R2 R3 RD].
  Qed.

  (** the addition formulas in extended coordinates *)
  Lemma ext_sum x1 y1 x2 y2 z1 z2 : on_curve x1 y1 -> on_curve x2 y2 -> z1 <> 0 -> z2 <> 0 ->
    let a := (y1 * z1 - x1 * z1) * (y2 * z2 - x2 * z2) in
    let b := (y1 * z1 + x1 * z1) * (y2 * z2 + x2 * z2) in
    let c := x1 * y1 * z1 * (d + d) * (x2 * y2 * z2) in
    let g := (z1 + z1) * z2 in
    let Z := (g - c) * (g + c) in
    let s := sum (x1, y1) (x2, y2) in
    Z <> 0 /\ (b - a) * (g - c) = fst s * Z /\ (g + c) * (b + a) = snd s * Z /\
    (b - a) * (b + a) = fst s * snd s * Z.
  Proof.
    intros G1 G2 Z1 Z2 a b c g Z s. destruct (complete x1 y1 x2 y2 G1 G2) as [N1 N2].
    unfold s, sum. cbn [fst snd]. set (e := d * (x1 * x2 * (y1 * y2))) in *.
    set (w := (1 + 1) * (z1 * z2)).
    assert (W : w <> 0) by (apply mul_nonzero; [assumption|apply mul_nonzero; assumption]).
    assert (K1 : b - a = w * (x1 * y2 + x2 * y1)) by (unfold b, a, w; ring).
    assert (K2 : b + a = w * (y1 * y2 + x1 * x2)) by (unfold b, a, w; ring).
    assert (K3 : g - c = w * (1 - e)) by (unfold g, c, w, e; ring).
    assert (K4 : g + c = w * (1 + e)) by (unfold g, c, w, e; ring).
    unfold Z. rewrite K1, K2, K3, K4. clearbody w e. repeat split.
    - apply mul_nonzero; apply mul_nonzero; assumption.
    - field. auto.
    - field. auto.
    - field. auto.
  Qed.

  Lemma cancel_one y z : z <> 0 -> z = y * z -> y = 1.
  Proof. intros N H. transitivity (y * z / z); [field; exact N|rewrite <- H; field; exact N]. Qed.
  Lemma mul_inv a z : z <> 0 -> a * z * inv z = a.
  Proof. intros N. field. exact N. Qed.
  Lemma mul_cancel v a b : v <> 0 -> v * a = v * b -> a = b.
  Proof. intros N H. transitivity (v * a / v); [field; exact N|rewrite H; field; exact N]. Qed.
  Lemma square_eq a b : a * a = b * b -> a = b \/ a = - b.
  Proof.
    intros H. assert (E : (a - b) * (a + b) = 0) by (transitivity (a * a - b * b); [ring|rewrite H; ring]).
    destruct (mul_zero _ _ E) as [Z|Z]; [left; apply sub_zero, Z|right]. transitivity (a + b - b); [ring|rewrite Z; ring].
  Qed.
  (** the equation solved for x^2 *)
  Lemma curve_uv x y : on_curve x y -> y * y - 1 = (d * (y * y) + 1) * (x * x).
  Proof. unfold on_curve. intros H. transitivity (y * y - x * x + x * x - 1); [ring|rewrite H; ring]. Qed.
  Lemma v_nonzero y : d * (y * y) + 1 <> 0.
  Proof.
    intros H. assert (Y : y <> 0).
    { intros ->. apply (F_1_neq_0 Fth). transitivity (d * (0 * 0) + 1); [ring|exact H]. }
    apply (d_nonsquare (i / y)). transitivity (i * i / (y * y)); [field; exact Y|]. rewrite i_square.
    transitivity ((d * (y * y) - (d * (y * y) + 1)) / (y * y)); [f_equal; ring|rewrite H; field; exact Y].
  Qed.
  Lemma neg_square a : - a * - a = a * a.
  Proof. ring. Qed.
  Lemma sq_mul a b : a * b * (a * b) = a * a * (b * b).
  Proof. ring. Qed.
  Lemma mul_perm4 a b c e : a * b * (c * e) = a * c * (b * e).
  Proof. ring. Qed.
  Lemma mul_opp_one a : a * - (1) = - a.
  Proof. ring. Qed.
  Lemma mul_one a : a * 1 = a.
  Proof. ring. Qed.
  Lemma mul_opp a b : a * - b = - (a * b).
  Proof. ring. Qed.
  Lemma mul_zero_l a : 0 * a = 0.
  Proof. ring. Qed.
  Lemma opp_zero : - 0 = 0.
  Proof. ring. Qed.
  Lemma zero_sub a : 0 - a = - a.
  Proof. ring. Qed.
  Lemma opp_opp a : - - a = a.
  Proof. ring. Qed.
  Lemma mul_assoc a b c : a * (b * c) = a * b * c.
  Proof. ring. Qed.
  Lemma mul_comm a b : a * b = b * a.
  Proof. ring. Qed.
End Edwards.
