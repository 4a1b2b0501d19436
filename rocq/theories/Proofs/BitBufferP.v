From Coq Require Import Lia ZifyBool ZifyNat.
From Verif.Model Require Import GoBase BitBuffer.
From Verif.Spec Require Import EnvSpec.
From Verif.Proofs Require Import BitsP.

Lemma new_bitbuf_ok v n : 0 <= n -> 0 <= v < 2 ^ n -> new_bitbuf v n = Ok (mk_bb v n).
Proof. intros. unfold new_bitbuf. rewrite bit_len_gtb_false by lia. reflexivity. Qed.

Lemma append_trailing_ok a m v n : 0 <= n -> 0 <= v < 2 ^ n ->
  append_trailing (mk_bb a m) v n = Ok (mk_bb (a * 2 ^ n + v) (m + n)).
Proof.
  intros. unfold append_trailing. rewrite bit_len_gtb_false by lia. simpl.
  rewrite lor_shiftl_add by lia. reflexivity.
Qed.

Lemma append_leading_ok a m v n : 0 <= m -> 0 <= n -> 0 <= a < 2 ^ m -> 0 <= v < 2 ^ n ->
  append_leading (mk_bb a m) v n = Ok (mk_bb (v * 2 ^ m + a) (m + n)).
Proof.
  intros. unfold append_leading. rewrite bit_len_gtb_false by lia. simpl.
  rewrite Z.lor_comm, lor_shiftl_add by lia. reflexivity.
Qed.

Lemma pop_trailing_ok a m n : 0 <= n <= m ->
  pop_trailing (mk_bb a m) n = Ok (a mod 2 ^ n, mk_bb (a / 2 ^ n) (m - n)).
Proof.
  intros. unfold pop_trailing. simpl. replace (n >? m) with false by lia.
  rewrite land_mask, Z.shiftr_div_pow2 by lia. reflexivity.
Qed.

Lemma pop_leading_ok a m n : 0 <= n <= m -> 0 <= a < 2 ^ m ->
  pop_leading (mk_bb a m) n = Ok (a / 2 ^ (m - n), mk_bb (a mod 2 ^ (m - n)) (m - n)).
Proof.
  intros Hn Ha. unfold pop_leading. simpl. replace (n >? m) with false by lia.
  assert (E : Z.land (Z.shiftl 1 n - 1) (Z.shiftr a (m - n)) = Z.shiftr a (m - n)).
  { rewrite land_mask by lia. apply Z.mod_small. rewrite Z.shiftr_div_pow2 by lia.
    pose proof (pow2_pos (m - n)). split; [apply Z.div_pos; lia|].
    apply Z.div_lt_upper_bound; [lia|]. rewrite <- Z.pow_add_r by lia.
    replace (m - n + n) with m by lia. lia. }
  rewrite E, lxor_hi_clear by lia. rewrite Z.shiftr_div_pow2 by lia. reflexivity.
Qed.

Lemma bytes_ok a m : 0 <= m -> 0 <= a < 2 ^ m ->
  bb_bytes (mk_bb a m) = Ok (be_bytes (Z.to_nat ((m + 7) / 8)) a).
Proof.
  intros. unfold bb_bytes. simpl. apply fill_bytes_ok.
  rewrite <- pow256 by lia. split; [lia|].
  apply Z.lt_le_trans with (2 ^ m); [lia|]. apply Z.pow_le_mono_r; [lia|].
  assert (0 <= (m + 7) / 8) by (apply Z.div_pos; lia).
  rewrite Z2Nat.id by lia. lia.
Qed.
