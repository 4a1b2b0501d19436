From Coq Require Import Lia ZifyBool ZifyNat Znumtheory.
From Verif.Model Require Import GoBase Env.
From Verif.Spec Require Import EnvSpec.
Ltac Zify.zify_post_hook ::= Z.div_mod_to_equations.

Lemma pow2_pos n : 0 <= n -> 0 < 2 ^ n.
Proof. intros; apply Z.pow_pos_nonneg; lia. Qed.

Lemma bit_len_nonneg x : 0 <= bit_len x.
Proof. unfold bit_len. destruct (x =? 0); try lia. pose proof (Z.log2_nonneg (Z.abs x)). lia. Qed.

Lemma bit_len_le x n : 0 <= n -> (bit_len x <= n <-> Z.abs x < 2 ^ n).
Proof.
  intros Hn. unfold bit_len. destruct (x =? 0) eqn:E.
  - assert (x = 0) by lia. subst. pose proof (pow2_pos n Hn). simpl Z.abs. lia.
  - assert (0 < Z.abs x) by lia.
    pose proof (Z.log2_lt_pow2 (Z.abs x) n H). lia.
Qed.

Lemma bit_len_gtb x n : 0 <= n -> (bit_len x >? n) = negb (Z.abs x <? 2 ^ n).
Proof. intros. pose proof (bit_len_le x n H). lia. Qed.

Lemma bit_len_gtb_false x n : 0 <= n -> 0 <= x < 2 ^ n -> (bit_len x >? n) = false.
Proof. intros. rewrite bit_len_gtb by lia. lia. Qed.

Lemma bit_len_0 x : (bit_len x >? 0) = negb (x =? 0).
Proof. rewrite bit_len_gtb by lia. change (2 ^ 0) with 1. lia. Qed.

Lemma lor_shiftl_add a b n : 0 <= n -> 0 <= b < 2 ^ n -> Z.lor (Z.shiftl a n) b = a * 2 ^ n + b.
Proof.
  intros Hn Hb. rewrite <- Z.shiftl_mul_pow2 by lia.
  rewrite <- Z.lxor_lor, Z.add_nocarry_lxor; auto;
  apply Z.bits_inj'; intros k Hk; rewrite Z.land_spec, Z.bits_0, Z.shiftl_spec by lia;
  (destruct (Z_lt_ge_dec k n);
   [ rewrite Z.testbit_neg_r by lia; reflexivity
   | rewrite andb_comm; replace (Z.testbit b k) with false; auto;
     symmetry; destruct (Z.eq_dec b 0); [subst; apply Z.bits_0|];
     apply Z.bits_above_log2; [lia|]; apply Z.log2_lt_pow2; try lia;
     apply Z.lt_le_trans with (2 ^ n); [lia|]; apply Z.pow_le_mono_r; lia ]).
Qed.

Lemma land_mask x n : 0 <= n -> Z.land (Z.shiftl 1 n - 1) x = x mod 2 ^ n.
Proof.
  intros. rewrite Z.shiftl_mul_pow2, Z.mul_1_l by lia.
  replace (2 ^ n - 1) with (Z.ones n) by (rewrite Z.ones_equiv; lia).
  rewrite Z.land_comm. apply Z.land_ones; lia.
Qed.

Lemma land_mask' x n : 0 <= n -> Z.land x (Z.shiftl 1 n - 1) = x mod 2 ^ n.
Proof. intros. rewrite Z.land_comm. apply land_mask; auto. Qed.

Lemma lxor_hi_clear x m : 0 <= m -> Z.lxor x (Z.shiftl (Z.shiftr x m) m) = x mod 2 ^ m.
Proof.
  intros. apply Z.bits_inj'; intros k Hk.
  rewrite Z.lxor_spec, Z.shiftl_spec by lia.
  destruct (Z_lt_ge_dec k m).
  - rewrite Z.testbit_neg_r with (n := k - m) by lia.
    rewrite Z.mod_pow2_bits_low by lia. apply xorb_false_r.
  - rewrite Z.shiftr_spec by lia. replace (k - m + m) with k by lia.
    rewrite Z.mod_pow2_bits_high by lia. apply xorb_nilpotent.
Qed.

Lemma pow256 n : 0 <= n -> 2 ^ (8 * n) = 256 ^ n.
Proof. intros. rewrite Z.pow_mul_r by lia. reflexivity. Qed.

Lemma be_bytes_length n x : length (be_bytes n x) = n.
Proof. induction n; simpl; auto. Qed.

Lemma be_bytes_byte n x : Forall byte (be_bytes n x).
Proof. induction n; cbn [be_bytes]; constructor; auto. unfold byte. apply Z.mod_pos_bound; lia. Qed.

Lemma be_bytes_mod n m x : (n <= m)%nat -> be_bytes n (x mod 256 ^ Z.of_nat m) = be_bytes n x.
Proof.
  induction n; cbn [be_bytes]; auto. intros. f_equal.
  - rewrite pow256 by lia.
    replace (Z.of_nat m) with (Z.of_nat n + 1 + (Z.of_nat m - Z.of_nat n - 1)) by lia.
    set (q := Z.of_nat m - Z.of_nat n - 1). assert (0 <= q) by lia.
    rewrite !Z.pow_add_r by lia. change (256 ^ 1) with 256.
    assert (0 < 256 ^ Z.of_nat n) by (apply Z.pow_pos_nonneg; lia).
    assert (0 < 256 ^ q) by (apply Z.pow_pos_nonneg; lia).
    rewrite <- !Z.mul_assoc.
    rewrite Z.rem_mul_r by lia.
    rewrite (Z.mul_comm (256 ^ Z.of_nat n) (_ mod _)).
    rewrite Z.div_add by lia. rewrite (Z.div_small (x mod _)) by (apply Z.mod_pos_bound; lia).
    rewrite Z.add_0_l.
    rewrite <- Znumtheory.Zmod_div_mod; try lia. apply Z.divide_factor_l.
  - apply IHn; lia.
Qed.

Lemma fold_be l a : fold_left (fun a b => a * 256 + b) l a = a * 256 ^ zlen l + be_uint l.
Proof.
  unfold be_uint, zlen. revert a. induction l as [|b l IH]; intros a; cbn [fold_left length].
  - lia.
  - rewrite IH, (IH (0 * 256 + b)). rewrite Nat2Z.inj_succ, Z.pow_succ_r by lia. lia.
Qed.

Lemma be_uint_cons b l : be_uint (b :: l) = b * 256 ^ zlen l + be_uint l.
Proof. unfold be_uint. cbn [fold_left]. rewrite fold_be. unfold be_uint. lia. Qed.

Lemma be_uint_app l1 l2 : be_uint (l1 ++ l2) = be_uint l1 * 256 ^ zlen l2 + be_uint l2.
Proof. unfold be_uint at 1. rewrite fold_left_app. rewrite fold_be. reflexivity. Qed.

Lemma be_uint_bound l : Forall byte l -> 0 <= be_uint l < 256 ^ zlen l.
Proof.
  induction 1 as [|b l Hb Hl IH].
  - cbv. split; congruence.
  - rewrite be_uint_cons. unfold zlen in *. cbn [length]. rewrite Nat2Z.inj_succ, Z.pow_succ_r by lia.
    unfold byte in Hb. nia.
Qed.

Lemma zlen_nonneg {A} (l : list A) : 0 <= zlen l.
Proof. unfold zlen; lia. Qed.

Lemma be_uint_be_bytes n x : be_uint (be_bytes n x) = x mod 256 ^ Z.of_nat n.
Proof.
  induction n; cbn [be_bytes].
  - cbn. rewrite Z.mod_1_r. reflexivity.
  - rewrite be_uint_cons, IHn. unfold zlen. rewrite be_bytes_length.
    rewrite pow256 by lia. rewrite Nat2Z.inj_succ, Z.pow_succ_r by lia.
    assert (0 < 256 ^ Z.of_nat n) by (apply Z.pow_pos_nonneg; lia).
    rewrite (Z.mul_comm 256). rewrite Z.rem_mul_r by lia. lia.
Qed.

Lemma be_uint_be_bytes_small n x : 0 <= x < 256 ^ Z.of_nat n -> be_uint (be_bytes n x) = x.
Proof. intros. rewrite be_uint_be_bytes. apply Z.mod_small; auto. Qed.

Lemma be_bytes_be_uint l : Forall byte l -> be_bytes (length l) (be_uint l) = l.
Proof.
  induction 1 as [|b l Hb Hl IH]; auto.
  pose proof (be_uint_bound l Hl) as Hb'.
  cbn [length be_bytes]. rewrite be_uint_cons. unfold zlen in *. rewrite pow256 by lia.
  assert (0 < 256 ^ Z.of_nat (length l)) by (apply Z.pow_pos_nonneg; lia).
  f_equal.
  - rewrite Z.add_comm, Z.div_add by lia. rewrite Z.div_small by lia.
    unfold byte in Hb. rewrite Z.mod_small; lia.
  - rewrite <- (be_bytes_mod (length l) (length l)) by lia.
    rewrite Z.add_comm, Z.mod_add by lia. rewrite Z.mod_small by lia. auto.
Qed.

Lemma be_bytes_inj n x y :
  0 <= x < 256 ^ Z.of_nat n -> 0 <= y < 256 ^ Z.of_nat n -> be_bytes n x = be_bytes n y -> x = y.
Proof.
  intros Hx Hy H. apply (f_equal be_uint) in H. rewrite !be_uint_be_bytes_small in H; auto.
Qed.

Lemma fill_bytes_ok x n : 0 <= x < 256 ^ Z.of_nat n -> fill_bytes x n = Ok (be_bytes n x).
Proof.
  intros. unfold fill_bytes. rewrite bit_len_gtb by lia. rewrite pow256 by lia.
  rewrite Z.abs_eq by lia. destruct (x <? _) eqn:?; simpl; auto. lia.
Qed.

Lemma bytes_eqb_refl a : bytes_eqb a a = true.
Proof. induction a; simpl; auto. rewrite Z.eqb_refl. auto. Qed.

Lemma bytes_eqb_eq a b : bytes_eqb a b = true <-> a = b.
Proof.
  revert b. induction a as [|x a IH]; intros [|y b]; simpl; try (split; congruence).
  rewrite andb_true_iff, IH, Z.eqb_eq. split; intros H; [destruct H; subst | inversion H]; auto.
Qed.

Lemma bytes_eqb_neq a b : bytes_eqb a b = false <-> a <> b.
Proof.
  rewrite <- bytes_eqb_eq. destruct (bytes_eqb a b); split; congruence.
Qed.
