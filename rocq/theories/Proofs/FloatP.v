(** Rounding of durations (Spec/GoFloat.v). *)
From Coq Require Import Lia.
From Verif.Model Require Import GoBase.
From Verif.Spec Require Import EnvSpec GoFloat.

Lemma nearest_even_bounds n d : 0 <= n -> 0 < d ->
  n / d <= nearest_even n d <= n / d + 1 /\ 2 * nearest_even n d * d <= 2 * n + d /\ (n mod d = 0 -> nearest_even n d = n / d).
Proof.
  intros Hn Hd. unfold nearest_even. pose proof (Z.div_mod n d ltac:(lia)) as Q. pose proof (Z.mod_pos_bound n d Hd) as R.
  set (q := n / d) in *. set (r := n mod d) in *.
  destruct (Z.ltb_spec (2 * r) d); [split; [lia|]; split; [nia|auto]|].
  destruct (Z.ltb_spec d (2 * r)); [split; [lia|]; split; [nia|lia]|].
  destruct (Z.even q); (split; [lia|]; split; [nia|lia]).
Qed.

Lemma pow2_pos e : 0 <= e -> 0 < 2 ^ e.
Proof. intros H. apply Z.pow_pos_nonneg; lia. Qed.
(** the quotient has at least 53 bits *)
Lemma exponent_quotient n d : 0 < n -> 0 < d -> let e := exponent n d in 2 ^ 52 <= over n e / under d e.
Proof.
  intros Hn Hd. cbv zeta. unfold exponent. set (k := Z.log2 n - Z.log2 d - 53).
  destruct (Z.log2_spec n Hn) as [N1 N2]. destruct (Z.log2_spec d Hd) as [D1 D2].
  pose proof (Z.log2_nonneg n) as LN. pose proof (Z.log2_nonneg d) as LD.
  assert (U : forall e, 0 < under d e) by (intros e; unfold under; apply Z.mul_pos_pos; [lia|apply pow2_pos; lia]).
  destruct (Z.ltb_spec (over n k / under d k) (2 ^ 53)) as [L|L].
  - apply Z.div_le_lower_bound; [apply U|]. unfold over, under.
    (* d 2^max(0,k) 2^52 <= 2^(log d + 1 + max(0,k) + 52) = 2^(log n + max(0,-k)) *)
    apply Z.le_trans with (2 ^ (Z.log2 n) * 2 ^ Z.max 0 (- k)).
    + rewrite <- Z.pow_add_r by lia. replace (Z.log2 n + Z.max 0 (- k)) with (Z.succ (Z.log2 d) + (Z.max 0 k + 52)) by (unfold k; lia).
      rewrite Z.pow_add_r by lia. rewrite Z.pow_add_r by lia. pose proof (pow2_pos (Z.max 0 k) ltac:(lia)). nia.
    + apply Z.mul_le_mono_nonneg_r; [apply Z.lt_le_incl, pow2_pos; lia|lia].
  - assert (L2 : 2 ^ 53 * under d k <= over n k).
    { pose proof (Z.mul_div_le (over n k) (under d k) (U k)). specialize (U k). nia. }
    apply Z.div_le_lower_bound; [apply U|]. unfold over, under in *.
    destruct (Z.lt_ge_cases k 0) as [K|K].
    + replace (Z.max 0 k) with 0 in L2 by lia. replace (Z.max 0 (- k)) with (Z.succ (Z.max 0 (- (k + 1)))) in L2 by lia.
      replace (Z.max 0 (k + 1)) with 0 by lia. rewrite Z.pow_succ_r in L2 by lia. change (2 ^ 53) with (2 * 2 ^ 52) in L2. nia.
    + replace (Z.max 0 (- k)) with 0 in L2 by lia. replace (Z.max 0 k) with k in L2 by lia.
      replace (Z.max 0 (- (k + 1))) with 0 by lia. replace (Z.max 0 (k + 1)) with (Z.succ k) by lia.
      rewrite Z.pow_succ_r by lia. change (2 ^ 53) with (2 * 2 ^ 52) in L2. nia.
Qed.
(** a value below 2^k has an exponent of at most k - 53 *)
Lemma exponent_below n d k : 0 < n -> 0 < d -> 0 <= k -> n < 2 ^ k * d -> exponent n d <= k - 53.
Proof.
  intros Hn Hd Hk H. pose proof (exponent_quotient n d Hn Hd) as Q. cbv zeta in Q. set (e := exponent n d) in *.
  destruct (Z.le_gt_cases e (k - 53)) as [L|L]; [exact L|exfalso].
  assert (U : 0 < under d e) by (unfold under; apply Z.mul_pos_pos; [lia|apply pow2_pos; lia]).
  assert (Q2 : 2 ^ 52 * under d e <= over n e).
  { pose proof (Z.mul_div_le (over n e) (under d e) U). nia. }
  unfold over, under in *.
  pose proof (pow2_pos (Z.max 0 (- e)) ltac:(lia)) as P1. pose proof (pow2_pos (Z.max 0 e) ltac:(lia)) as P2.
  assert (Z1 : 2 ^ 52 * (d * 2 ^ Z.max 0 e) < 2 ^ k * d * 2 ^ Z.max 0 (- e)) by nia.
  assert (Z2 : 2 ^ (52 + Z.max 0 e) < 2 ^ (k + Z.max 0 (- e))).
  { rewrite !Z.pow_add_r by lia. nia. }
  apply Z.pow_lt_mono_r_iff in Z2; lia.
Qed.

(** ** Values below 1 and whole numbers *)
Lemma round_small n d k : 0 < n -> 0 < d -> 0 <= k <= 53 -> n < 2 ^ k * d ->
  exists b, 53 - k <= b /\ fl_round n d = mk_float (nearest_even (n * 2 ^ b) d) (- b).
Proof.
  intros Hn Hd Hk H. pose proof (exponent_below n d k Hn Hd ltac:(lia) H) as B. exists (- exponent n d). split; [lia|].
  unfold fl_round. destruct (Z.eqb_spec n 0); [lia|]. unfold over, under. rewrite Z.opp_involutive.
  replace (Z.max 0 (- exponent n d)) with (- exponent n d) by lia. replace (Z.max 0 (exponent n d)) with 0 by lia.
  rewrite Z.pow_0_r, Z.mul_1_r. reflexivity.
Qed.
Lemma of_int_exact q : 0 <= q < 2 ^ 53 -> exists b, 0 <= b /\ fl_of_int q = mk_float (q * 2 ^ b) (- b).
Proof.
  intros H. destruct (Z.eq_dec q 0) as [->|N]; [exists 0; split; [lia|reflexivity]|].
  destruct (round_small q 1 53) as (b & B & R); [lia..|]. exists b. split; [lia|]. unfold fl_of_int. rewrite R. f_equal.
  destruct (nearest_even_bounds (q * 2 ^ b) 1) as (_ & _ & Ex); [pose proof (pow2_pos b ltac:(lia)); nia|lia|].
  rewrite Ex by apply Z.mod_1_r. apply Z.div_1_r.
Qed.
(** the fraction of the second *)
Lemma fraction f : 0 <= f < 10 ^ 9 -> exists b m, 0 <= b /\ fl_div (fl_of_int f) (fl_of_int (10 ^ 9)) = mk_float m (- b) /\
  0 <= m /\ (f = 0 -> m = 0) /\ m * (2 ^ 54 * 10 ^ 9) <= 2 ^ b * (f * 2 ^ 54 + 10 ^ 9).
Proof.
  intros H. destruct (of_int_exact f) as (x & X & F); [lia|].
  assert (B9 : fl_of_int (10 ^ 9) = mk_float (10 ^ 9 * 2 ^ 23) (- 23)) by (vm_compute; reflexivity).
  rewrite B9, F. unfold fl_div. cbn [mant expo]. unfold under.
  replace (Z.max 0 (- x)) with 0 by lia. replace (Z.max 0 (- - x)) with x by lia.
  change (Z.max 0 (- 23)) with 0. change (Z.max 0 (- - 23)) with 23. rewrite !Z.pow_0_r, !Z.mul_1_r.
  pose proof (pow2_pos x X) as PX. destruct (Z.eq_dec f 0) as [->|N].
  - exists 0, 0. rewrite !Z.mul_0_l. split; [lia|]. split; [reflexivity|]. split; [lia|]. split; [reflexivity|]. rewrite Z.pow_0_r. lia.
  - set (c := 2 ^ x * 2 ^ 23).
    assert (C : 0 < c) by (unfold c; nia).
    replace (f * 2 ^ x * 2 ^ 23) with (f * c) by (unfold c; ring). replace (10 ^ 9 * 2 ^ 23 * 2 ^ x) with (10 ^ 9 * c) by (unfold c; ring).
    destruct (round_small (f * c) (10 ^ 9 * c) 0) as (b & B & R); [nia|nia|lia|nia|].
    exists b, (nearest_even (f * c * 2 ^ b) (10 ^ 9 * c)). split; [lia|]. split; [exact R|].
    pose proof (pow2_pos b ltac:(lia)) as PB.
    destruct (nearest_even_bounds (f * c * 2 ^ b) (10 ^ 9 * c)) as (N1 & N2 & _); [|nia|].
    { apply Z.mul_nonneg_nonneg; nia. }
    split; [|split; [intros; contradiction|]].
    { apply Z.le_trans with (f * c * 2 ^ b / (10 ^ 9 * c)); [|lia]. apply Z.div_pos; [apply Z.mul_nonneg_nonneg; nia|nia]. }
    set (m := nearest_even _ _) in *. clearbody m. clear R N1.
    assert (E1 : 2 * m * 10 ^ 9 <= 2 * (f * 2 ^ b) + 10 ^ 9).
    { apply Z.mul_le_mono_pos_r with c; [exact C|]. nia. }
    assert (E2 : 2 ^ 53 <= 2 ^ b) by (apply Z.pow_le_mono_r; lia).
    change (2 ^ 54) with (2 * 2 ^ 53). nia.
Qed.

(** The seconds of a duration of [q] whole seconds and [f] nanoseconds. *)
Lemma seconds_value q f : 0 <= q < 2 ^ 34 -> 0 <= f < 10 ^ 9 ->
  let t := fl_trunc (fl_seconds (q * 10 ^ 9 + f)) in
  q <= t <= q + 1 /\ (q < 2 ^ 24 -> t = q) /\ (f = 0 -> t = q).
Proof.
  intros Hq Hf. cbv zeta. unfold fl_seconds.
  replace ((q * 10 ^ 9 + f) / 10 ^ 9) with q by (symmetry; rewrite Z.add_comm; rewrite Z.div_add by lia; rewrite (Z.div_small f) by lia; lia).
  replace ((q * 10 ^ 9 + f) mod 10 ^ 9) with f by (symmetry; rewrite Z.add_comm; rewrite Z.mod_add by lia; apply Z.mod_small; lia).
  destruct (of_int_exact q) as (x & X & ->); [lia|]. destruct (fraction f Hf) as (y & m & Y & -> & M0 & MZ & MB).
  unfold fl_add. cbn [mant expo]. set (e := Z.min 0 (Z.min (- x) (- y))). set (a := - e).
  assert (A : 0 <= a /\ x <= a /\ y <= a) by (unfold a, e; lia). replace (- x - e) with (a - x) by (unfold a; lia). replace (- y - e) with (a - y) by (unfold a; lia).
  set (g := m * 2 ^ (a - y)). assert (PA : 0 < 2 ^ a) by (apply pow2_pos; lia).
  replace (q * 2 ^ x * 2 ^ (a - x)) with (q * 2 ^ a) by (rewrite <- Z.mul_assoc, <- Z.pow_add_r by lia; f_equal; f_equal; lia).
  assert (PY : 0 < 2 ^ y) by (apply pow2_pos; lia). assert (PAY : 0 < 2 ^ (a - y)) by (apply pow2_pos; lia).
  assert (SP : 2 ^ a = 2 ^ y * 2 ^ (a - y)) by (rewrite <- Z.pow_add_r by lia; f_equal; lia).
  assert (G0 : 0 <= g) by (unfold g; nia). assert (GZ : f = 0 -> g = 0) by (intros Z0; unfold g; rewrite (MZ Z0); lia).
  assert (GB : g * (2 ^ 54 * 10 ^ 9) <= 2 ^ a * (f * 2 ^ 54 + 10 ^ 9)).
  { unfold g. rewrite SP. replace (m * 2 ^ (a - y) * (2 ^ 54 * 10 ^ 9)) with (m * (2 ^ 54 * 10 ^ 9) * 2 ^ (a - y)) by ring.
    replace (2 ^ y * 2 ^ (a - y) * (f * 2 ^ 54 + 10 ^ 9)) with (2 ^ y * (f * 2 ^ 54 + 10 ^ 9) * 2 ^ (a - y)) by ring.
    apply Z.mul_le_mono_nonneg_r; [lia|exact MB]. }
  (* g / 2^a <= 1 - 1/10^9 + 1/2^54 *)
  assert (GC : g * (2 ^ 54 * 10 ^ 9) <= 2 ^ a * ((10 ^ 9 - 1) * 2 ^ 54 + 10 ^ 9)).
  { apply Z.le_trans with (1 := GB). apply Z.mul_le_mono_nonneg_l; nia. }
  clearbody g a. clear MB MZ M0 SP GB PY PAY m e.
  assert (GA : g < 2 ^ a) by nia.
  set (n := q * 2 ^ a + g). destruct (Z.eq_dec n 0) as [Z0|NZ].
  { rewrite Z0. assert (Q0 : q = 0) by (unfold n in Z0; nia). subst q. change (fl_trunc (fl_round 0 (2 ^ a))) with 0. lia. }
  assert (NP : 0 < n) by (unfold n in *; nia).
  assert (R : forall k, 0 <= k <= 53 -> q < 2 ^ k -> exists b, 53 - k <= b /\ fl_round n (2 ^ a) = mk_float (nearest_even (n * 2 ^ b) (2 ^ a)) (- b)).
  { intros k K QK. apply round_small; [exact NP|exact PA|exact K|]. unfold n. nia. }
  assert (G : forall b, 0 <= b -> fl_trunc (mk_float (nearest_even (n * 2 ^ b) (2 ^ a)) (- b)) = nearest_even (n * 2 ^ b) (2 ^ a) / 2 ^ b).
  { intros b Bb. unfold fl_trunc, under. cbn [mant expo]. replace (Z.max 0 (- b)) with 0 by lia. replace (Z.max 0 (- - b)) with b by lia.
    rewrite Z.pow_0_r, Z.mul_1_r. reflexivity. }
  assert (V : forall b, 0 <= b -> q <= nearest_even (n * 2 ^ b) (2 ^ a) / 2 ^ b <= q + 1 /\
     (29 <= b -> nearest_even (n * 2 ^ b) (2 ^ a) / 2 ^ b = q) /\ (f = 0 -> nearest_even (n * 2 ^ b) (2 ^ a) / 2 ^ b = q)).
  { intros b Bb. pose proof (pow2_pos b Bb) as PB. destruct (nearest_even_bounds (n * 2 ^ b) (2 ^ a)) as (N1 & N2 & N3); [nia|exact PA|].
    assert (QL : q * 2 ^ b <= n * 2 ^ b / 2 ^ a) by (apply Z.div_le_lower_bound; [exact PA|unfold n; nia]).
    assert (QU : n * 2 ^ b / 2 ^ a < (q + 1) * 2 ^ b) by (apply Z.div_lt_upper_bound; [exact PA|unfold n; nia]).
    set (t := nearest_even (n * 2 ^ b) (2 ^ a)) in *.
    assert (T1 : q <= t / 2 ^ b) by (apply Z.div_le_lower_bound; lia).
    split; [split; [exact T1|]|split].
    - apply Z.lt_succ_r. apply Z.div_lt_upper_bound; [lia|]. nia.
    - intros B29. assert (2 ^ 29 <= 2 ^ b) by (apply Z.pow_le_mono_r; lia).
      assert (TU : t < (q + 1) * 2 ^ b).
      { (* 2 t 2^a <= 2 n 2^b + 2^a *)
        destruct (Z.lt_ge_cases t ((q + 1) * 2 ^ b)) as [L|L]; [exact L|exfalso].
        assert (C1 : 2 * ((q + 1) * 2 ^ b) * 2 ^ a <= 2 * (n * 2 ^ b) + 2 ^ a) by nia.
        unfold n in C1. assert (C2 : 2 * 2 ^ a * 2 ^ b <= 2 * g * 2 ^ b + 2 ^ a) by nia.
        assert (C3 : 2 ^ a * (2 * 2 ^ b - 1) <= 2 * g * 2 ^ b) by nia.
        assert (C4 : 2 ^ a * (2 * 2 ^ b - 1) * (2 ^ 54 * 10 ^ 9) <= 2 * 2 ^ b * (2 ^ a * ((10 ^ 9 - 1) * 2 ^ 54 + 10 ^ 9))) by nia.
        assert (C5 : (2 * 2 ^ b - 1) * (2 ^ 54 * 10 ^ 9) <= 2 * 2 ^ b * ((10 ^ 9 - 1) * 2 ^ 54 + 10 ^ 9)) by nia.
        set (z := 2 ^ b) in *. lia. }
      apply Z.le_antisymm; [|exact T1]. apply Z.lt_succ_r. apply Z.div_lt_upper_bound; lia.
    - intros F0. assert (n * 2 ^ b = q * 2 ^ b * 2 ^ a) as E0 by (unfold n; rewrite (GZ F0); ring).
      rewrite E0 in N3. rewrite Z.mod_mul, Z.div_mul in N3 by lia. rewrite N3 by reflexivity. apply Z.div_mul. lia. }
  destruct (R 34) as (b & B & RB); [lia|lia|]. rewrite RB, G by lia. destruct (V b ltac:(lia)) as (V1 & V2 & V3).
  split; [exact V1|]. split; [|exact V3]. intros Q24. destruct (R 24) as (b' & B' & RB'); [lia|exact Q24|].
  rewrite RB in RB'. injection RB' as _ EB. apply V2. lia.
Qed.

Lemma seconds_u32_ok d : 0 <= std_seconds_u32 d < 2 ^ 32.
Proof. unfold std_seconds_u32. apply Z.mod_pos_bound. lia. Qed.
Lemma seconds_u32_value d : 0 <= d < 2 ^ 32 * 10 ^ 9 ->
  let q := d / 10 ^ 9 in
  (std_seconds_u32 d = q \/ std_seconds_u32 d = (q + 1) mod 2 ^ 32) /\
  (q < 2 ^ 24 -> std_seconds_u32 d = q) /\ (d mod 10 ^ 9 = 0 -> std_seconds_u32 d = q).
Proof.
  intros H. cbv zeta. pose proof (Z.div_mod d (10 ^ 9) ltac:(lia)) as Q. pose proof (Z.mod_pos_bound d (10 ^ 9) ltac:(lia)) as R.
  set (q := d / 10 ^ 9) in *. set (f := d mod 10 ^ 9) in *. assert (Hq : 0 <= q < 2 ^ 32) by lia.
  destruct (seconds_value q f) as (V1 & V2 & V3); [lia|exact R|].
  assert (D0 : q * 10 ^ 9 + f = d) by lia. rewrite D0 in V1, V2, V3.
  assert (S : std_seconds_u32 d = fl_trunc (fl_seconds d) mod 2 ^ 32).
  { unfold std_seconds_u32. destruct (Z.eq_dec d 0) as [->|N]; [vm_compute; reflexivity|]. rewrite Z.sgn_pos, Z.abs_eq, Z.mul_1_l by lia. reflexivity. }
  rewrite S. split; [|split].
  - assert (T : fl_trunc (fl_seconds d) = q \/ fl_trunc (fl_seconds d) = q + 1) by lia. destruct T as [T1|T1]; rewrite T1; [left; apply Z.mod_small; exact Hq|right; reflexivity].
  - intros B. rewrite V2 by exact B. apply Z.mod_small. exact Hq.
  - intros B. rewrite V3 by exact B. apply Z.mod_small. exact Hq.
Qed.
