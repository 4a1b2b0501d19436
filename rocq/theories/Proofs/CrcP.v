From Coq Require Import Lia ZifyBool ZifyNat.
From Verif.Model Require Import GoBase Crc32.
From Verif.Spec Require Import EnvSpec PhraseSpec.
From Verif.Proofs Require Import BitsP.

Definition bitstep (c : Z) (b : bool) : Z :=
  if xorb (Z.odd c) b then Z.lxor (Z.shiftr c 1) crc_poly else Z.shiftr c 1.

Lemma crc_shift_lxor c x : crc_shift (Z.lxor c x) = Z.lxor (bitstep c (Z.odd x)) (Z.shiftr x 1).
Proof.
  unfold crc_shift, bitstep. rewrite <- !Z.bit0_odd, Z.lxor_spec.
  destruct (xorb (Z.testbit c 0) (Z.testbit x 0)); rewrite Z.shiftr_lxor; auto.
  rewrite !Z.lxor_assoc. f_equal. apply Z.lxor_comm.
Qed.

Lemma crc_byte_bits c x : 0 <= x < 256 -> crc_byte c x = fold_left bitstep (bits_lsb_first 8 x) c.
Proof.
  intros H. unfold crc_byte, bits_lsb_first. cbn [seq map fold_left].
  rewrite !crc_shift_lxor, !Z.shiftr_shiftr by lia. cbn [Z.add Pos.add Pos.succ].
  replace (Z.shiftr x 8) with 0.
  2:{ symmetry. rewrite Z.shiftr_div_pow2 by lia. apply Z.div_small. lia. }
  rewrite Z.lxor_0_r. rewrite <- !Z.bit0_odd, !Z.shiftr_spec by lia. reflexivity.
Qed.

Lemma crc_register_bits l c : Forall byte l ->
  crc_register c l = fold_left bitstep (flat_map (bits_lsb_first 8) l) c.
Proof.
  unfold crc_register. intros H. revert c. induction H as [|x l Hx Hl IH]; intros c; auto.
  cbn [fold_left flat_map]. rewrite fold_left_app, crc_byte_bits by auto. apply IH.
Qed.

Lemma bits_lsb_S n x : bits_lsb_first (S n) x = Z.odd x :: bits_lsb_first n (Z.shiftr x 1).
Proof.
  unfold bits_lsb_first. cbn [seq map]. f_equal.
  - rewrite <- seq_shift, map_map. apply map_ext. intros i. rewrite Z.shiftr_spec by lia. f_equal. lia.
Qed.

Lemma bits_lsb_snoc n x : bits_lsb_first (S n) x = bits_lsb_first n x ++ [Z.testbit x (Z.of_nat n)].
Proof. unfold bits_lsb_first. rewrite seq_S, map_app. reflexivity. Qed.

Lemma xor_bits_lsb n a b :
  xor_bits (bits_lsb_first n a) (bits_lsb_first n b) = bits_lsb_first n (Z.lxor a b).
Proof.
  revert a b. induction n; intros; auto. rewrite !bits_lsb_S. cbn [xor_bits]. rewrite IHn.
  rewrite <- Z.shiftr_lxor. f_equal. rewrite <- !Z.bit0_odd. symmetry. apply Z.lxor_spec.
Qed.

Lemma bits_to_int_lsb n x : 0 <= x < 2 ^ Z.of_nat n -> bits_to_int (bits_lsb_first n x) = x.
Proof.
  revert x. induction n; intros x H.
  - cbn in *. lia.
  - rewrite bits_lsb_S. cbn [bits_to_int]. rewrite Nat2Z.inj_succ, Z.pow_succ_r in H by lia.
    rewrite Z.shiftr_div_pow2 by lia. change (2 ^ 1) with 2. rewrite IHn by lia.
    pose proof (Zmod_odd x). destruct (Z.odd x); cbn [Z.b2z]; lia.
Qed.

Lemma bitstep_bound c b : 0 <= c < 2 ^ 32 -> 0 <= bitstep c b < 2 ^ 32.
Proof.
  intros H. unfold bitstep.
  assert (H1 : 0 <= Z.shiftr c 1 < 2 ^ 32).
  { rewrite Z.shiftr_div_pow2 by lia. change (2 ^ 1) with 2. lia. }
  destruct (xorb _ _); auto.
  assert (0 <= Z.lxor (Z.shiftr c 1) crc_poly) by (apply Z.lxor_nonneg; unfold crc_poly; lia).
  split; auto. destruct (Z.eq_dec (Z.lxor (Z.shiftr c 1) crc_poly) 0) as [->|]; [lia|].
  apply Z.log2_lt_pow2; [lia|].
  eapply Z.le_lt_trans; [apply Z.log2_lxor; [lia | unfold crc_poly; lia]|].
  apply Z.max_lub_lt.
  - destruct (Z.eq_dec (Z.shiftr c 1) 0) as [->|]; [reflexivity|]. apply Z.log2_lt_pow2; lia.
  - reflexivity.
Qed.

Lemma bitstep_reg c b : 0 <= c < 2 ^ 32 ->
  bits_lsb_first 32 (bitstep c b) = crc_bit_step (bits_lsb_first 32 c) b.
Proof.
  intros H. rewrite (bits_lsb_S 31 c). cbn [crc_bit_step].
  assert (E : bits_lsb_first 31 (Z.shiftr c 1) ++ [false] = bits_lsb_first 32 (Z.shiftr c 1)).
  { rewrite (bits_lsb_snoc 31). f_equal. f_equal. rewrite Z.shiftr_spec by lia.
    symmetry. destruct (Z.eq_dec c 0) as [->|]; [reflexivity|].
    apply Z.bits_above_log2; [lia|]. apply Z.log2_lt_pow2; lia. }
  rewrite E. unfold bitstep. destruct (xorb (Z.odd c) b); auto.
  rewrite <- xor_bits_lsb. f_equal.
Qed.

Lemma crc_fold_reg l c : 0 <= c < 2 ^ 32 ->
  bits_lsb_first 32 (fold_left bitstep l c) = fold_left crc_bit_step l (bits_lsb_first 32 c)
  /\ 0 <= fold_left bitstep l c < 2 ^ 32.
Proof.
  revert c. induction l as [|b l IH]; intros c H; cbn [fold_left]; auto.
  rewrite <- bitstep_reg by auto. apply IH. apply bitstep_bound; auto.
Qed.

Lemma lxor_bound a b n : 0 <= n -> 0 <= a < 2 ^ n -> 0 <= b < 2 ^ n -> 0 <= Z.lxor a b < 2 ^ n.
Proof.
  intros Hn Ha Hb.
  assert (0 <= Z.lxor a b) by (apply Z.lxor_nonneg; lia).
  split; auto. destruct (Z.eq_dec (Z.lxor a b) 0) as [->|]; [apply pow2_pos; auto|].
  destruct (Z.eq_dec n 0) as [->|].
  { change (2 ^ 0) with 1 in *. assert (a = 0) by lia. assert (b = 0) by lia. subst. cbn in *. lia. }
  apply Z.log2_lt_pow2; [lia|].
  eapply Z.le_lt_trans; [apply Z.log2_lxor; lia|].
  apply Z.max_lub_lt.
  - destruct (Z.eq_dec a 0) as [->|]; [cbn; lia|]. apply Z.log2_lt_pow2; lia.
  - destruct (Z.eq_dec b 0) as [->|]; [cbn; lia|]. apply Z.log2_lt_pow2; lia.
Qed.

Lemma bits_lsb_compl n x : map negb (bits_lsb_first n x) = bits_lsb_first n (Z.lxor x (Z.ones (Z.of_nat n))).
Proof.
  unfold bits_lsb_first. rewrite map_map. apply map_ext_in. intros i Hi. apply in_seq in Hi.
  rewrite Z.lxor_spec, Z.ones_spec_low by lia. rewrite xorb_true_r. reflexivity.
Qed.

Lemma crc32_correct l : Forall byte l -> crc32 l = crc32_spec l /\ 0 <= crc32 l < 2 ^ 32.
Proof.
  intros H. unfold crc32, crc32_spec. rewrite crc_register_bits by auto.
  change (repeat true 32) with (bits_lsb_first 32 crc_mask).
  destruct (crc_fold_reg (flat_map (bits_lsb_first 8) l) crc_mask) as [E B]; [unfold crc_mask; lia|].
  rewrite <- E, bits_lsb_compl.
  assert (B' : 0 <= Z.lxor (fold_left bitstep (flat_map (bits_lsb_first 8) l) crc_mask) crc_mask < 2 ^ 32).
  { apply lxor_bound; [lia|exact B|unfold crc_mask; lia]. }
  split; [|exact B'].
  change (Z.ones (Z.of_nat 32)) with crc_mask. rewrite bits_to_int_lsb; auto.
Qed.

Lemma bytes_of_bits_be n x : bytes_of_bits n x = be_bytes ((n + 7) / 8) x.
Proof.
  unfold bytes_of_bits. generalize ((n + 7) / 8)%nat. intros k. induction k; auto.
  cbn [be_bytes]. rewrite <- IHk. rewrite seq_S, rev_app_distr. cbn [rev app map].
  rewrite pow256 by lia. reflexivity.
Qed.

Lemma checksum_spec_bound n x : 0 <= checksum_spec n x < 32.
Proof. unfold checksum_spec. apply Z.mod_pos_bound. lia. Qed.
