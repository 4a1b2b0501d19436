(** The integers modulo a prime as a field with Leibniz equality. *)
From Coq Require Import ZArith Znumtheory Eqdep_dec Bool Field_theory Field Lia.
From Verif.Proofs Require Import PrimeP.
Open Scope Z_scope.

Section Zp.
  Variable p : Z.
  Hypothesis P : prime p.
  Definition F : Type := {z : Z | (z mod p =? z) = true}.
  Definition val (a : F) : Z := proj1_sig a.
  Lemma p_ge_2 : 2 <= p.
  Proof. exact (prime_ge_2 p P). Qed.
  Lemma canon z : (z mod p mod p =? z mod p) = true.
  Proof. rewrite Z.mod_mod; [apply Z.eqb_refl|]. pose proof p_ge_2. lia. Qed.
  Definition of (z : Z) : F := exist _ (z mod p) (canon z).
  Lemma val_eq (a b : F) : val a = val b -> a = b.
  Proof.
    destruct a as [a A], b as [b B]. cbn. intros ->. f_equal. apply UIP_dec. apply bool_dec.
  Qed.
  Lemma val_of z : val (of z) = z mod p.
  Proof. reflexivity. Qed.
  Lemma val_bound (a : F) : 0 <= val a < p.
  Proof. destruct a as [a A]. cbn. apply Z.eqb_eq in A. rewrite <- A. apply Z.mod_pos_bound. pose proof p_ge_2. lia. Qed.
  Lemma of_val (a : F) : of (val a) = a.
  Proof. apply val_eq. rewrite val_of. apply Z.mod_small, val_bound. Qed.
  Lemma of_eq a b : of a = of b <-> a mod p = b mod p.
  Proof. split; [intros H; apply (f_equal val) in H; exact H|intros H; apply val_eq; exact H]. Qed.
  Lemma of_cong a b : of a = of b <-> cong p a b.
  Proof.
    pose proof p_ge_2. rewrite of_eq. split.
    - intros H1. apply Z.mod_divide; [lia|]. rewrite Zminus_mod, H1, Z.sub_diag. apply Z.mod_0_l. lia.
    - intros [k K]. replace a with (b + k * p) by lia. apply Z.mod_add. lia.
  Qed.
  Lemma of_mod z : of (z mod p) = of z.
  Proof. apply of_eq. pose proof p_ge_2. apply Z.mod_mod. lia. Qed.

  Definition Fadd (a b : F) : F := of (val a + val b).
  Definition Fmul (a b : F) : F := of (val a * val b).
  Definition Fsub (a b : F) : F := of (val a - val b).
  Definition Fopp (a : F) : F := of (- val a).
  Definition Finv (a : F) : F := of (val a ^ (p - 2)).
  Definition Fdiv (a b : F) : F := Fmul a (Finv b).

  Lemma of_add a b : of (a + b) = Fadd (of a) (of b).
  Proof. unfold Fadd. rewrite !val_of. apply of_eq. apply Zplus_mod. Qed.
  Lemma of_mul a b : of (a * b) = Fmul (of a) (of b).
  Proof. unfold Fmul. rewrite !val_of. apply of_eq. apply Zmult_mod. Qed.
  Lemma of_sub a b : of (a - b) = Fsub (of a) (of b).
  Proof. unfold Fsub. rewrite !val_of. apply of_eq. apply Zminus_mod. Qed.
  Lemma of_opp a : of (- a) = Fopp (of a).
  Proof.
    unfold Fopp. rewrite val_of. apply of_eq. replace (- a) with (0 - a) by lia. replace (- (a mod p)) with (0 - a mod p) by lia.
    rewrite (Zminus_mod 0 (a mod p)), Z.mod_mod by (pose proof p_ge_2; lia). apply Zminus_mod.
  Qed.
  Lemma of_nonzero a : of a <> of 0 <-> ~ (p | a).
  Proof. rewrite of_cong. unfold cong. rewrite Z.sub_0_r. reflexivity. Qed.

  Lemma F_fermat a : a <> of 0 -> of (val a ^ (p - 1)) = of 1.
  Proof. intros H. apply of_cong. apply fermat; [exact P|]. apply of_nonzero. rewrite of_val. exact H. Qed.
  Lemma Finv_l a : a <> of 0 -> Fmul (Finv a) a = of 1.
  Proof.
    intros H. unfold Finv. rewrite <- (of_val a) at 2. rewrite <- of_mul. rewrite <- (F_fermat a H). f_equal.
    pose proof p_ge_2. replace (p - 1) with (Z.succ (p - 2)) by lia. rewrite Z.pow_succ_r by lia. apply Z.mul_comm.
  Qed.
  Lemma F_ring : ring_theory (of 0) (of 1) Fadd Fmul Fsub Fopp (@eq F).
  Proof.
    constructor; intros;
      repeat match goal with a : F |- _ => rewrite <- (of_val a); generalize (val a); clear a; intros a end;
      repeat (rewrite <- of_add || rewrite <- of_mul || rewrite <- of_sub || rewrite <- of_opp); f_equal; ring.
  Qed.
  Lemma F_field : field_theory (of 0) (of 1) Fadd Fmul Fsub Fopp Fdiv Finv (@eq F).
  Proof.
    constructor; [exact F_ring| |reflexivity|exact Finv_l].
    intros H. apply of_cong in H. destruct H as [k K]. pose proof p_ge_2.
    assert (D : (p | 1)) by (exists k; lia). apply Z.divide_pos_le in D; lia.
  Qed.
  Lemma F_dec (a b : F) : {a = b} + {a <> b}.
  Proof. destruct (Z.eq_dec (val a) (val b)) as [E|E]; [left; apply val_eq, E|right; congruence]. Qed.

  (** powers *)
  Definition Fpow (a : F) (e : Z) : F := of (val a ^ e).
  Lemma of_pow a e : 0 <= e -> of (a ^ e) = Fpow (of a) e.
  Proof.
    intros H. apply of_cong. apply cong_pow; [exact H|]. rewrite val_of. apply cong_sym, cong_mod. pose proof p_ge_2. lia.
  Qed.
  Lemma Fpow_0 a : Fpow a 0 = of 1.
  Proof. reflexivity. Qed.
  Lemma Fpow_1 a : Fpow a 1 = a.
  Proof. unfold Fpow. rewrite Z.pow_1_r. apply of_val. Qed.
  Lemma Fpow_add a m n : 0 <= m -> 0 <= n -> Fpow a (m + n) = Fmul (Fpow a m) (Fpow a n).
  Proof. intros M N. unfold Fpow. rewrite <- of_mul, Z.pow_add_r by assumption. reflexivity. Qed.
  Lemma Fpow_mul a m n : 0 <= m -> 0 <= n -> Fpow a (m * n) = Fpow (Fpow a m) n.
  Proof. intros M N. unfold Fpow at 1 3. rewrite <- of_pow by assumption. rewrite Z.pow_mul_r by assumption. reflexivity. Qed.
  Lemma Fpow_of_mul a b n : 0 <= n -> Fpow (Fmul a b) n = Fmul (Fpow a n) (Fpow b n).
  Proof.
    intros N. unfold Fmul at 1. rewrite <- of_pow by assumption. rewrite Z.pow_mul_l. rewrite of_mul. reflexivity.
  Qed.
  Lemma Fpow_fermat a : a <> of 0 -> Fpow a (p - 1) = of 1.
  Proof. exact (F_fermat a). Qed.
  Lemma Fpow_2 a : Fpow a 2 = Fmul a a.
  Proof. unfold Fpow, Fmul. rewrite Z.pow_2_r. reflexivity. Qed.
End Zp.
