(** C21: the bit buffer is a bit string. *)
From Coq Require Import Lia ZifyBool ZifyNat.
From Verif.Model Require Import GoBase BitBuffer.
From Verif.Spec Require Import EnvSpec BitsSpec.
From Verif.Proofs Require Import BitsP BitBufferP.
Ltac Zify.zify_post_hook ::= Z.div_mod_to_equations.

(** the same operations on the model of the Go buffer *)
Definition buffer_op (o : bop) (bb : bitbuf) : res (bobs * bitbuf) :=
  match o with
  | AppL v n => res_map (fun b => (Done, b)) (append_leading bb v n)
  | AppT v n => res_map (fun b => (Done, b)) (append_trailing bb v n)
  | PopL n => res_map (fun p => (Bits (fst p), snd p)) (pop_leading bb n)
  | PopT n => res_map (fun p => (Bits (fst p), snd p)) (pop_trailing bb n)
  | GetBytes => res_map (fun l => (Octets l, bb)) (bb_bytes bb)
  | GetLen => Ok (Len (bb_len bb), bb)
  end.

Fixpoint buffer_run (ops : list bop) (bb : bitbuf) : list bobs * res bitbuf :=
  match ops with
  | [] => ([], Ok bb)
  | o :: r => match buffer_op o bb with
              | Ok (x, bb') => let (l, e) := buffer_run r bb' in (x :: l, e)
              | Err e => ([], Err e)
              | Panic => ([], Panic)
              end
  end.

Definition stands_for (bb : bitbuf) (bs : list bool) : Prop := bb_nbits bb = zlen bs /\ bb_value bb = val bs.

Lemma val_acc bs a : fold_left (fun a (b : bool) => 2 * a + (if b then 1 else 0)) bs a = a * 2 ^ zlen bs + val bs.
Proof.
  unfold val. revert a. induction bs as [|b bs IH]; intros a.
  - unfold zlen. cbn. lia.
  - cbn [fold_left]. rewrite IH, (IH (2 * 0 + _)). unfold zlen. cbn [length].
    rewrite Nat2Z.inj_succ, Z.pow_succ_r by lia. destruct b; lia.
Qed.

Lemma val_app a b : val (a ++ b) = val a * 2 ^ zlen b + val b.
Proof. unfold val at 1. rewrite fold_left_app. apply val_acc. Qed.

Lemma val_bound bs : 0 <= val bs < 2 ^ zlen bs.
Proof.
  induction bs as [|b bs IH] using rev_ind; [unfold val, zlen; cbn; lia|].
  rewrite val_app. unfold zlen in *. rewrite app_length. cbn [length].
  rewrite Nat2Z.inj_add, Z.pow_add_r by lia. change (2 ^ Z.of_nat 1) with 2.
  unfold val at 2 4. cbn. destruct b; lia.
Qed.

Lemma bits_of_S n v : bits_of (S n) v = bits_of n (v / 2) ++ [Z.odd v].
Proof.
  unfold bits_of. rewrite seq_S, map_app. cbn [map Nat.add]. f_equal.
  - apply map_ext_in. intros i Hi. apply in_seq in Hi. f_equal.
    rewrite Z.div_div by (try apply Z.pow_pos_nonneg; lia).
    rewrite <- Z.pow_succ_r by lia. do 2 f_equal. lia.
  - replace (S n - 1 - n)%nat with 0%nat by lia. change (2 ^ Z.of_nat 0) with 1. rewrite Z.div_1_r. reflexivity.
Qed.

Lemma bits_of_length n v : length (bits_of n v) = n.
Proof. unfold bits_of. rewrite map_length, seq_length. reflexivity. Qed.

Lemma val_bits_of n v : 0 <= v < 2 ^ Z.of_nat n -> val (bits_of n v) = v.
Proof.
  revert v. induction n; intros v Hv.
  - change (2 ^ Z.of_nat 0) with 1 in Hv. unfold bits_of, val. cbn. lia.
  - rewrite Nat2Z.inj_succ, Z.pow_succ_r in Hv by lia.
    rewrite bits_of_S, val_app, IHn by lia. unfold zlen. cbn [length]. change (2 ^ Z.of_nat 1) with 2.
    unfold val. cbn [fold_left]. pose proof (Zmod_odd v). destruct (Z.odd v); lia.
Qed.

Lemma octets_be k bs : length bs = (8 * k)%nat -> octets k bs = be_bytes k (val bs).
Proof.
  revert bs. induction k; intros bs H; [reflexivity|].
  cbn [octets be_bytes]. rewrite IHk by (rewrite skipn_length; lia).
  pose proof (firstn_skipn 8 bs) as S. rewrite <- S at 3 4. rewrite val_app.
  assert (L2 : zlen (skipn 8 bs) = 8 * Z.of_nat k) by (unfold zlen; rewrite skipn_length; lia).
  pose proof (val_bound (skipn 8 bs)) as B2. pose proof (val_bound (firstn 8 bs)) as B1.
  assert (L1 : zlen (firstn 8 bs) = 8) by (unfold zlen; rewrite firstn_length; lia).
  rewrite L1 in B1. rewrite L2 in *. change (2 ^ 8) with 256 in B1.
  f_equal.
  - rewrite Z.div_add_l by (pose proof (pow2_pos (8 * Z.of_nat k)); lia). rewrite (Z.div_small (val (skipn 8 bs))) by auto.
    rewrite Z.add_0_r. symmetry. apply Z.mod_small. auto.
  - rewrite <- (be_bytes_mod k k (val (firstn 8 bs) * _ + _)) by lia. rewrite pow256 in * by lia.
    f_equal. rewrite Z.add_comm, Z.mod_add by (pose proof (Z.pow_pos_nonneg 256 (Z.of_nat k)); lia).
    symmetry. apply Z.mod_small. lia.
Qed.

Lemma val_repeat n bs : val (repeat false n ++ bs) = val bs.
Proof.
  rewrite val_app. replace (val (repeat false n)) with 0; [lia|].
  unfold val. induction n; auto.
Qed.

Lemma stands_bytes bb bs : stands_for bb bs -> bb_bytes bb = Ok (padded_bytes bs).
Proof.
  destruct bb as [v n]. intros [H1 H2]. cbn in H1, H2. subst. pose proof (val_bound bs).
  rewrite bytes_ok by (unfold zlen in *; lia). f_equal. unfold padded_bytes.
  assert (K : Z.to_nat ((zlen bs + 7) / 8) = Nat.div (length bs + 7) 8) by (unfold zlen; lia).
  rewrite K, octets_be, val_repeat; auto. rewrite app_length, repeat_length. lia.
Qed.

Lemma step_refines o bb bs : bop_ok o -> stands_for bb bs ->
  match string_op o bs with
  | None => buffer_op o bb = Panic
  | Some (x, bs') => exists bb', buffer_op o bb = Ok (x, bb') /\ stands_for bb' bs'
  end.
Proof.
  intros Ho R. pose proof R as [H1 H2]. destruct bb as [a m]. cbn in H1, H2. subst a m.
  pose proof (val_bound bs) as B.
  assert (L : 0 <= zlen bs) by (unfold zlen; lia).
  destruct o as [v n|v n|n|n| |]; cbn [bop_ok] in Ho; cbn [string_op buffer_op].
  - destruct (v <? 2 ^ n) eqn:Q.
    + rewrite append_leading_ok by lia. cbn [res_map]. eexists. split; [reflexivity|].
      assert (V : val (bits_of (Z.to_nat n) v) = v) by (apply val_bits_of; rewrite Z2Nat.id by lia; lia).
      split; cbn [bb_nbits bb_value fst snd].
      * unfold zlen. rewrite app_length, bits_of_length. lia.
      * rewrite val_app, V. reflexivity.
    + unfold append_leading. rewrite bit_len_gtb by lia. replace (Z.abs v <? 2 ^ n) with false by lia. reflexivity.
  - destruct (v <? 2 ^ n) eqn:Q.
    + rewrite append_trailing_ok by lia. cbn [res_map]. eexists. split; [reflexivity|].
      assert (V : val (bits_of (Z.to_nat n) v) = v) by (apply val_bits_of; rewrite Z2Nat.id by lia; lia).
      split; cbn [bb_nbits bb_value fst snd].
      * unfold zlen. rewrite app_length, bits_of_length. lia.
      * rewrite val_app, V. unfold zlen. rewrite bits_of_length, Z2Nat.id by lia. reflexivity.
    + unfold append_trailing. rewrite bit_len_gtb by lia. replace (Z.abs v <? 2 ^ n) with false by lia. reflexivity.
  - destruct (n <=? zlen bs) eqn:Q.
    + rewrite pop_leading_ok by lia. cbn [res_map fst snd].
      pose proof (firstn_skipn (Z.to_nat n) bs) as S.
      assert (L2 : zlen (skipn (Z.to_nat n) bs) = zlen bs - n) by (unfold zlen in *; rewrite skipn_length; lia).
      assert (V : val bs = val (firstn (Z.to_nat n) bs) * 2 ^ (zlen bs - n) + val (skipn (Z.to_nat n) bs)).
      { rewrite <- S at 1. rewrite val_app, L2. reflexivity. }
      pose proof (val_bound (skipn (Z.to_nat n) bs)) as B2. rewrite L2 in B2.
      assert (P : 0 < 2 ^ (zlen bs - n)) by (apply pow2_pos; lia).
      assert (Dv : val bs / 2 ^ (zlen bs - n) = val (firstn (Z.to_nat n) bs)).
      { rewrite V, Z.div_add_l by lia. rewrite (Z.div_small (val (skipn (Z.to_nat n) bs))) by lia. lia. }
      rewrite Dv. eexists. split; [reflexivity|].
      split; cbn [bb_nbits bb_value fst snd]; [symmetry; exact L2|].
      rewrite V, (Z.add_comm (_ * _)), Z.mod_add by lia. apply Z.mod_small. lia.
    + unfold pop_leading. cbn [bb_nbits]. replace (n >? zlen bs) with true by lia. reflexivity.
  - destruct (n <=? zlen bs) eqn:Q.
    + rewrite pop_trailing_ok by lia. cbn [res_map fst snd]. cbv zeta.
      remember (Z.to_nat (zlen bs - n)) as m eqn:Em. pose proof (firstn_skipn m bs) as S.
      assert (L2 : zlen (skipn m bs) = n) by (unfold zlen in *; rewrite skipn_length; lia).
      assert (V : val bs = val (firstn m bs) * 2 ^ n + val (skipn m bs)).
      { rewrite <- S at 1. rewrite val_app, L2. reflexivity. }
      pose proof (val_bound (skipn m bs)) as B2. rewrite L2 in B2.
      assert (0 <= n) by lia. pose proof (pow2_pos n H).
      assert (Dv : val bs mod 2 ^ n = val (skipn m bs)).
      { rewrite V, (Z.add_comm (_ * _)), Z.mod_add by lia. apply Z.mod_small. lia. }
      rewrite Dv. eexists. split; [reflexivity|]. split; cbn [bb_nbits bb_value fst snd].
      * unfold zlen in *. rewrite firstn_length. lia.
      * rewrite V, Z.div_add_l by lia. rewrite (Z.div_small (val (skipn m bs))) by lia. lia.
    + unfold pop_trailing. cbn [bb_nbits]. replace (n >? zlen bs) with true by lia. reflexivity.
  - rewrite (stands_bytes _ _ R). cbn [res_map]. eexists. split; [reflexivity|exact R].
  - eexists. split; [reflexivity|exact R].
Qed.

(** Every buffer starts as the n bits of its value, or cannot be made; after that, whatever the
    sequence of operations, the buffer shows exactly what the bit string shows, panics exactly
    when the bit string operation is undefined, and never returns an error. *)
Theorem bit_buffer_refines : forall v n ops, 0 <= v -> 0 <= n -> Forall bop_ok ops ->
  if v <? 2 ^ n then
    exists bb, new_bitbuf v n = Ok bb /\
      fst (buffer_run ops bb) = fst (string_run ops (bits_of (Z.to_nat n) v)) /\
      match snd (string_run ops (bits_of (Z.to_nat n) v)) with
      | None => snd (buffer_run ops bb) = Panic
      | Some bs => exists bb', snd (buffer_run ops bb) = Ok bb' /\ stands_for bb' bs
      end
  else new_bitbuf v n = Panic.
Proof.
  intros v n ops Hv Hn H. destruct (v <? 2 ^ n) eqn:Q.
  - exists (mk_bb v n). split; [apply new_bitbuf_ok; lia|].
    assert (R : stands_for (mk_bb v n) (bits_of (Z.to_nat n) v)).
    { split; cbn; [unfold zlen; rewrite bits_of_length; lia|]. rewrite val_bits_of; auto. rewrite Z2Nat.id by lia. lia. }
    revert R. generalize (mk_bb v n), (bits_of (Z.to_nat n) v).
    induction H as [|o ops Ho Hops IH]; intros bb bs R; cbn [buffer_run string_run].
    + cbn. split; [reflexivity|]. exists bb. auto.
    + pose proof (step_refines o bb bs Ho R) as S. destruct (string_op o bs) as [[x bs']|].
      * destruct S as [bb' [-> R']]. specialize (IH bb' bs' R').
        destruct (buffer_run ops bb'), (string_run ops bs'). cbn [fst snd] in *. destruct IH as [-> IH]. auto.
      * rewrite S. cbn. auto.
  - unfold new_bitbuf. rewrite bit_len_gtb by lia. replace (Z.abs v <? 2 ^ n) with false by lia. reflexivity.
Qed.
Print Assumptions bit_buffer_refines.

(** appending and popping at the same end gives the value back and restores the buffer *)
Theorem append_pop_leading : forall bb v n bs, 0 <= v < 2 ^ n -> 0 <= n -> stands_for bb bs ->
  exists bb', append_leading bb v n = Ok bb' /\ pop_leading bb' n = Ok (v, bb).
Proof.
  intros [a m] v n bs Hv Hn [H1 H2]. cbn in H1, H2. subst. pose proof (val_bound bs).
  assert (0 <= zlen bs) by (unfold zlen; lia). pose proof (pow2_pos (zlen bs) H0).
  rewrite append_leading_ok by lia. eexists. split; [reflexivity|].
  rewrite pop_leading_ok; [|lia|].
  - replace (zlen bs + n - n) with (zlen bs) by lia.
    rewrite Z.div_add_l, Z.div_small by lia. rewrite (Z.add_comm _ (val bs)), Z.mod_add, Z.mod_small by lia.
    rewrite Z.add_0_r. reflexivity.
  - rewrite Z.pow_add_r by lia. nia.
Qed.
Print Assumptions append_pop_leading.

Theorem append_pop_trailing : forall bb v n bs, 0 <= v < 2 ^ n -> 0 <= n -> stands_for bb bs ->
  exists bb', append_trailing bb v n = Ok bb' /\ pop_trailing bb' n = Ok (v, bb).
Proof.
  intros [a m] v n bs Hv Hn [H1 H2]. cbn in H1, H2. subst. pose proof (val_bound bs).
  assert (0 <= zlen bs) by (unfold zlen; lia). pose proof (pow2_pos n Hn).
  rewrite append_trailing_ok by lia. eexists. split; [reflexivity|].
  rewrite pop_trailing_ok by lia.
  rewrite Z.div_add_l, Z.div_small by lia. rewrite (Z.add_comm _ v), Z.mod_add, Z.mod_small by lia.
  rewrite Z.add_0_r. replace (zlen bs + n - n) with (zlen bs) by lia. reflexivity.
Qed.
Print Assumptions append_pop_trailing.

Example bits_case : exists bb,
  new_bitbuf 0xF0F5 20 = Ok bb /\
  fst (buffer_run [PopT 4; AppL 5 3; PopL 7; GetBytes; GetLen; PopT 13] bb)
  = [Bits 5; Done; Bits 0x50; Octets [15; 15]; Len 12] /\
  snd (buffer_run [PopT 4; AppL 5 3; PopL 7; GetBytes; GetLen; PopT 13] bb) = Panic /\
  snd (buffer_run [PopT 4; AppL 5 3; PopL 7] bb) = Ok (mk_bb 0xF0F 12).
Proof. eexists. split; [reflexivity|]. vm_compute. auto. Qed.
