From Coq Require Import Lia ZifyBool ZifyNat FinFun.
From Verif.Model Require Import GoBase Env Crc32 Recovery.
From Verif.Spec Require Import EnvSpec PhraseSpec DecodeSpec CorruptSpec.
From Verif.Proofs Require Import BitsP WordsP CrcP PhraseP DecodeP EnvInst RoundtripP.
Ltac Zify.zify_post_hook ::= Z.div_mod_to_equations.

(** ** linearity of the CRC register *)
Lemma crc_shift_linear a b : crc_shift (Z.lxor a b) = Z.lxor (crc_shift a) (crc_shift b).
Proof.
  unfold crc_shift. rewrite <- !Z.bit0_odd, Z.lxor_spec, Z.shiftr_lxor.
  set (p := Z.shiftr a 1). set (q := Z.shiftr b 1).
  destruct (Z.testbit a 0), (Z.testbit b 0); cbn [xorb].
  - rewrite !Z.lxor_assoc. f_equal. rewrite (Z.lxor_comm crc_poly), Z.lxor_assoc, Z.lxor_nilpotent, Z.lxor_0_r. reflexivity.
  - rewrite !Z.lxor_assoc. f_equal. apply Z.lxor_comm.
  - rewrite !Z.lxor_assoc. reflexivity.
  - reflexivity.
Qed.

Lemma lxor_swap4 a b c d : Z.lxor (Z.lxor a b) (Z.lxor c d) = Z.lxor (Z.lxor a c) (Z.lxor b d).
Proof.
  rewrite !Z.lxor_assoc. f_equal. rewrite <- !Z.lxor_assoc. f_equal. apply Z.lxor_comm.
Qed.

Lemma crc_byte_linear a b x y : crc_byte (Z.lxor a b) (Z.lxor x y) = Z.lxor (crc_byte a x) (crc_byte b y).
Proof. unfold crc_byte. rewrite lxor_swap4. rewrite !crc_shift_linear. reflexivity. Qed.

Lemma crc_register_linear l1 l2 a b : length l1 = length l2 ->
  crc_register (Z.lxor a b) (xor_bytes l1 l2) = Z.lxor (crc_register a l1) (crc_register b l2).
Proof.
  unfold crc_register. revert l2 a b. induction l1 as [|x l1 IH]; intros [|y l2] a b H; try discriminate; auto.
  cbn [xor_bytes fold_left]. rewrite crc_byte_linear. apply IH. cbn in H. lia.
Qed.

Lemma mod_pow2_lxor a b n : 0 <= n -> Z.lxor a b mod 2 ^ n = Z.lxor (a mod 2 ^ n) (b mod 2 ^ n).
Proof.
  intros. apply Z.bits_inj'. intros i Hi. rewrite Z.lxor_spec.
  destruct (Z_lt_ge_dec i n).
  - rewrite !Z.mod_pow2_bits_low by lia. apply Z.lxor_spec.
  - rewrite !Z.mod_pow2_bits_high by lia. reflexivity.
Qed.

Lemma div_pow2_lxor a b n : 0 <= n -> Z.lxor a b / 2 ^ n = Z.lxor (a / 2 ^ n) (b / 2 ^ n).
Proof. intros. rewrite <- !Z.shiftr_div_pow2 by lia. apply Z.shiftr_lxor. Qed.

Lemma be_bytes_lxor n a b : be_bytes n (Z.lxor a b) = xor_bytes (be_bytes n a) (be_bytes n b).
Proof.
  induction n; auto. cbn [be_bytes xor_bytes]. rewrite IHn. f_equal.
  rewrite div_pow2_lxor by lia. change 256 with (2 ^ 8). apply mod_pow2_lxor. lia.
Qed.

(** syndrome of a difference d applied to the phrase number (payload and checksum) *)
Definition delta (k : nat) (d : Z) : Z :=
  Z.lxor (crc_register 0 (be_bytes k (d / 32)) mod 32) (d mod 32).

Lemma delta_linear k a b : delta k (Z.lxor a b) = Z.lxor (delta k a) (delta k b).
Proof.
  unfold delta. change 32 with (2 ^ 5). rewrite div_pow2_lxor, be_bytes_lxor by lia.
  change 0 with (Z.lxor 0 0) at 1. rewrite crc_register_linear by (rewrite !be_bytes_length; auto).
  rewrite !mod_pow2_lxor by lia. apply lxor_swap4.
Qed.

Lemma checksum_lxor nb p d : checksum_spec nb (Z.lxor p d) =
  Z.lxor (checksum_spec nb p) (crc_register 0 (be_bytes ((nb + 7) / 8) d) mod 32).
Proof.
  unfold checksum_spec. rewrite !bytes_of_bits_be.
  rewrite <- !(proj1 (crc32_correct _ (be_bytes_byte _ _))).
  unfold crc32. rewrite be_bytes_lxor.
  replace crc_mask with (Z.lxor crc_mask 0) at 1 by apply Z.lxor_0_r.
  rewrite crc_register_linear by (rewrite !be_bytes_length; auto).
  change 32 with (2 ^ 5). rewrite !mod_pow2_lxor by lia.
  rewrite !Z.lxor_assoc. f_equal. apply Z.lxor_comm.
Qed.

Definition good (nb : nat) (n : Z) : Prop := n mod 32 = checksum_spec nb (n / 32).

Lemma lxor_cancel_r a b c : Z.lxor a c = Z.lxor b c <-> a = b.
Proof.
  split; [|congruence]. intros H. apply (f_equal (fun t => Z.lxor t c)) in H.
  rewrite !Z.lxor_assoc, !Z.lxor_nilpotent, !Z.lxor_0_r in H. auto.
Qed.

Lemma lxor_eq_iff a b : Z.lxor a b = 0 <-> a = b.
Proof. apply Z.lxor_eq_0_iff. Qed.

Lemma good_lxor nb n d : good nb n -> (good nb (Z.lxor n d) <-> delta ((nb + 7) / 8) d = 0).
Proof.
  unfold good, delta. intros G. change 32 with (2 ^ 5) in *.
  rewrite div_pow2_lxor, mod_pow2_lxor, checksum_lxor by lia. change 32 with (2 ^ 5).
  rewrite G. rewrite lxor_eq_iff. rewrite (Z.lxor_comm (checksum_spec _ _)), (Z.lxor_comm (checksum_spec _ _)).
  rewrite lxor_cancel_r. split; congruence.
Qed.

(** ** linear maps on small windows through a basis *)
Fixpoint lin (basis : list Z) (x : Z) : Z :=
  match basis with
  | [] => 0
  | b :: r => Z.lxor (if Z.odd x then b else 0) (lin r (x / 2))
  end.

Lemma lin_correct (f : Z -> Z) (m : nat) (s x : Z) :
  f 0 = 0 -> (forall a b, f (Z.lxor a b) = Z.lxor (f a) (f b)) ->
  0 <= s -> 0 <= x < 2 ^ Z.of_nat m ->
  f (x * 2 ^ s) = lin (map (fun i => f (2 ^ (s + Z.of_nat i))) (seq 0 m)) x.
Proof.
  intros F0 FL. revert s x. induction m; intros s x Hs Hx.
  - cbn in Hx. replace x with 0 by lia. rewrite Z.mul_0_l. exact F0.
  - cbn [seq map lin]. rewrite Z.add_0_r.
    rewrite <- seq_shift, map_map.
    rewrite (map_ext _ (fun i => f (2 ^ (s + 1 + Z.of_nat i)))).
    2:{ intros i. do 2 f_equal. lia. }
    rewrite Nat2Z.inj_succ, Z.pow_succ_r in Hx by lia.
    rewrite <- IHm by lia.
    pose proof (Zmod_odd x) as Ho.
    replace (x * 2 ^ s) with (Z.lxor (x mod 2 * 2 ^ s) (x / 2 * 2 ^ (s + 1))).
    + rewrite FL. f_equal. rewrite Ho. destruct (Z.odd x); [rewrite Z.mul_1_l; auto|]. rewrite Z.mul_0_l. exact F0.
    + rewrite Z.pow_add_r by lia.
      rewrite <- Z.shiftl_mul_pow2 by lia.
      replace (x / 2 * (2 ^ s * 2 ^ 1)) with (Z.shiftl (x / 2 * 2) s) by (rewrite Z.shiftl_mul_pow2 by lia; lia).
      rewrite <- Z.shiftl_lxor, Z.shiftl_mul_pow2 by lia. f_equal.
      rewrite Ho. destruct (Z.odd x) eqn:O.
      * replace x with (2 * (x / 2) + 1) at 2 by lia. rewrite (Z.mul_comm _ 2), Z.lxor_comm.
        symmetry. apply Z.add_nocarry_lxor. apply Z.bits_inj'. intros i Hi. rewrite Z.land_spec, Z.bits_0.
        destruct (Z.eq_dec i 0) as [->|Hi'].
        -- rewrite Z.testbit_even_0. reflexivity.
        -- replace (Z.testbit 1 i) with false; [apply andb_false_r|]. symmetry. apply Z.bits_above_log2; cbn; lia.
      * rewrite Z.lxor_0_l. lia.
Qed.

Lemma delta_0 k : delta k 0 = 0.
Proof.
  unfold delta. change (0 / 32) with 0. change (0 mod 32) with 0. rewrite Z.lxor_0_r.
  assert (H : crc_register 0 (be_bytes k 0) = 0).
  { unfold crc_register. induction k; [reflexivity|]. cbn [be_bytes fold_left].
    rewrite Z.div_0_l by (apply Z.pow_nonzero; lia). change (0 mod 256) with 0.
    change (crc_byte 0 0) with 0. exact IHk. }
  rewrite H. reflexivity.
Qed.

Definition basis_at (k : nat) (s : Z) (m : nat) : list Z :=
  map (fun i => delta k (2 ^ (s + Z.of_nat i))) (seq 0 m).

Lemma delta_window k s x : 0 <= s -> 0 <= x < 4096 -> delta k (x * 2 ^ s) = lin (basis_at k s 12) x.
Proof. intros. apply lin_correct; auto; [apply delta_0 | apply delta_linear]. Qed.

(** ** digits under exclusive or *)
Lemma digit_lxor k n m t : digit k (Z.lxor n m) t = Z.lxor (digit k n t) (digit k m t).
Proof.
  unfold digit. change 4096 with (2 ^ 12). rewrite <- Z.pow_mul_r by lia.
  rewrite div_pow2_lxor, mod_pow2_lxor by lia. reflexivity.
Qed.

Definition place (k j : nat) (x : Z) : Z := x * 2 ^ (12 * Z.of_nat (k - 1 - j)).

Lemma digit_place k j x t : (j < k)%nat -> (t < k)%nat -> 0 <= x < 4096 ->
  digit k (place k j x) t = if Nat.eqb t j then x else 0.
Proof.
  intros Hj Ht Hx. unfold digit, place. rewrite <- pow4096 by lia.
  set (u := 12 * Z.of_nat (k - 1 - t)). set (s := 12 * Z.of_nat (k - 1 - j)).
  destruct (Nat.eqb t j) eqn:Q.
  - apply Nat.eqb_eq in Q. subst t. fold u in s. subst s. rewrite Z.div_mul by (apply Z.pow_nonzero; lia). apply Z.mod_small; auto.
  - apply Nat.eqb_neq in Q. destruct (Nat.lt_ge_cases t j).
    + (* u > s *) assert (u >= s + 12) by (unfold u, s; lia).
      rewrite Z.div_small; auto. assert (0 <= s) by (unfold s; lia).
      assert (2 ^ (s + 12) <= 2 ^ u) by (apply Z.pow_le_mono_r; lia).
      rewrite Z.pow_add_r in H2 by lia. pose proof (pow2_pos s H1). change (2 ^ 12) with 4096 in H2. nia.
    + assert (s >= u + 12) by (unfold u, s; lia). assert (0 <= u) by (unfold u; lia).
      replace s with (u + 12 + (s - u - 12)) by lia. rewrite !Z.pow_add_r by lia. change (2 ^ 12) with 4096.
      pose proof (pow2_pos u H1).
      replace (x * (2 ^ u * 4096 * 2 ^ (s - u - 12))) with (x * 2 ^ (s - u - 12) * 4096 * 2 ^ u) by ring.
      rewrite Z.div_mul by lia. apply Z.mod_mul. lia.
Qed.

Lemma place_bound k j x : (j < k)%nat -> 0 <= x < 4096 -> 0 <= place k j x < 2 ^ (12 * Z.of_nat k).
Proof.
  intros Hj Hx. unfold place.
  replace (12 * Z.of_nat k) with (12 * Z.of_nat (k - 1 - j) + 12 + 12 * Z.of_nat j) by lia.
  rewrite !Z.pow_add_r by lia. change (2 ^ 12) with 4096.
  pose proof (pow2_pos (12 * Z.of_nat (k - 1 - j))). pose proof (pow2_pos (12 * Z.of_nat j)). nia.
Qed.

Section C.
Variable E : Env.
Hypothesis W : wordlist_ok E.

Lemma spells_of_words ws k n : length ws = k -> 0 <= n < 2 ^ (12 * Z.of_nat k) ->
  map (to_lower E) ws = words_of_int E k n -> spells E ws n.
Proof. intros <- H1 H2. split; auto. unfold zlen. rewrite <- pow4096 by lia. auto. Qed.

(** acceptance by number *)
Lemma accepted_plain ws n : length ws = 14%nat -> spells E ws n ->
  (accepted E ws <-> n / 2 ^ 164 = 0 /\ good 163 n).
Proof.
  intros HL HS. assert (Hne : ws <> []) by (destruct ws; discriminate).
  pose proof (spells_bound E _ _ HS) as Hb. unfold zlen in Hb. rewrite HL in Hb.
  split.
  - intros [dm Hd]. apply (decode_iff_outcome E W) in Hd.
    inversion Hd as [| | | | | | e o He Ho Hln Hsp Eq | e sa v o He Hsa Hvv Ho Hln Hsp Eq]; [|congruence].
    rewrite (spells_unique E W _ _ _ HS Hsp). destruct (plain_int_fields e o He Ho) as [F1 [F2 [F3 [F4 F5]]]].
    split; auto. unfold good. rewrite F4, F5. reflexivity.
  - intros [HV HG]. unfold good in HG. destruct (plain_int_of n) as [P1 P2]; [lia|auto|].
    exists (mk_decoded 0 (n / 2 ^ 36) 0 0 (n / 32 mod 2 ^ 31)). apply (decode_iff_outcome E W).
    apply O_plain; auto; [lia|]. rewrite <- P1. exact HS.
Qed.

Lemma accepted_enc ws n : length ws = 16%nat -> spells E ws n ->
  (accepted E ws <-> n / 2 ^ 188 = 1 /\ good 187 n).
Proof.
  intros HL HS. assert (Hne : ws <> []) by (destruct ws; discriminate).
  pose proof (spells_bound E _ _ HS) as Hb. unfold zlen in Hb. rewrite HL in Hb.
  split.
  - intros [dm Hd]. apply (decode_iff_outcome E W) in Hd.
    inversion Hd as [| | | | | | e o He Ho Hln Hsp Eq | e sa v o He Hsa Hvv Ho Hln Hsp Eq]; [congruence|].
    rewrite (spells_unique E W _ _ _ HS Hsp).
    destruct (enc_int_fields e sa v o He Hsa Hvv Ho) as [F1 [F2 [F3 [F4 [F5 [F6 F7]]]]]].
    split; auto. unfold good. rewrite F6, F7. reflexivity.
  - intros [HV HG]. unfold good in HG. pose proof (enc_int_of n) as P1.
    assert (2 ^ 188 <= n < 2 ^ 189) by lia. specialize (P1 H HG).
    eexists. apply (decode_iff_outcome E W).
    eapply O_encrypted; [ | | | | auto | rewrite <- P1; exact HS]; lia.
Qed.

Lemma accepted_length ws : accepted E ws -> length ws = 14%nat \/ length ws = 16%nat.
Proof.
  intros [dm Hd]. apply (decode_iff_outcome E W) in Hd. inversion Hd; auto.
Qed.

Lemma accepted_spells ws : accepted E ws -> exists n, spells E ws n.
Proof. intros [dm Hd]. apply (decode_iff_outcome E W) in Hd. inversion Hd; eauto. Qed.

(** applying a difference to the number of a phrase *)
Lemma lxor_bound' n d k : 0 <= k -> 0 <= n < 2 ^ k -> 0 <= d < 2 ^ k -> 0 <= Z.lxor n d < 2 ^ k.
Proof. apply lxor_bound. Qed.

(** word numbers of a phrase *)
Lemma spells_digit ws n t : spells E ws n -> (t < length ws)%nat ->
  to_lower E (nth t ws []) = word E (digit (length ws) n t).
Proof.
  intros [_ H] Ht. apply (f_equal (fun l => nth t l [])) in H.
  assert (L : to_lower E [] = []) by reflexivity.
  rewrite <- L in H at 1. rewrite map_nth in H.
  rewrite H. unfold words_of_int.
  rewrite (nth_indep _ [] (nth (Z.to_nat (digit (length ws) n 0)) (wl_words E) [])) by (rewrite map_length, seq_length; auto).
  rewrite (map_nth (fun j => nth (Z.to_nat (digit (length ws) n j)) (wl_words E) [])). rewrite seq_nth by auto. reflexivity.
Qed.

Lemma word_inj i j : 0 <= i < 4096 -> 0 <= j < 4096 -> word E i = word E j -> i = j.
Proof.
  unfold word. intros Hi Hj H. pose proof (word_map_nth E W i Hi). pose proof (word_map_nth E W j Hj). congruence.
Qed.

Lemma spells_put ws n j x : spells E ws n -> (j < length ws)%nat -> 0 <= x < 4096 ->
  spells E (put_word ws j (word E (Z.lxor (digit (length ws) n j) x))) (Z.lxor n (place (length ws) j x)).
Proof.
  intros HS Hj Hx. set (k := length ws) in *.
  pose proof (spells_bound E _ _ HS) as Hb. unfold zlen in Hb.
  assert (Lp : length (put_word ws j (word E (Z.lxor (digit k n j) x))) = k).
  { unfold put_word. rewrite map_length, seq_length. reflexivity. }
  apply spells_of_words with k; auto.
  - apply lxor_bound; [lia|exact Hb|apply place_bound; auto].
  - unfold put_word, words_of_int. fold k. rewrite map_map. apply map_ext_in. intros t Ht. apply in_seq in Ht.
    rewrite digit_lxor, digit_place by lia.
    destruct (Nat.eqb t j) eqn:Q.
    + apply Nat.eqb_eq in Q. subst t. apply (to_lower_word E W). apply (word_in E W).
      assert (B : 0 <= digit k n j < 2 ^ 12) by apply digit_bound.
      apply (lxor_bound _ x 12) in B; lia.
    + rewrite Z.lxor_0_r. apply spells_digit; auto. unfold k in *. lia.
Qed.

Lemma spells_swap ws n j m : spells E ws n -> (j < length ws)%nat -> (m < length ws)%nat -> j <> m ->
  let x := Z.lxor (digit (length ws) n j) (digit (length ws) n m) in
  spells E (swap_words ws j m) (Z.lxor n (Z.lxor (place (length ws) j x) (place (length ws) m x))).
Proof.
  intros HS Hj Hm Hne x. set (k := length ws) in *.
  pose proof (spells_bound E _ _ HS) as Hb. unfold zlen in Hb.
  assert (Hx : 0 <= x < 4096).
  { unfold x. change 4096 with (2 ^ 12). apply lxor_bound; try apply digit_bound. lia. }
  apply spells_of_words with k; auto.
  - unfold swap_words. rewrite map_length, seq_length. reflexivity.
  - apply lxor_bound; [lia|exact Hb|]. apply lxor_bound; try apply place_bound; auto. lia.
  - unfold swap_words, words_of_int. fold k. rewrite map_map. apply map_ext_in. intros t Ht. apply in_seq in Ht.
    rewrite !digit_lxor, !digit_place by lia.
    destruct (Nat.eqb t j) eqn:Q.
    + apply Nat.eqb_eq in Q. subst t. replace (Nat.eqb j m) with false by (symmetry; apply Nat.eqb_neq; auto).
      rewrite Z.lxor_0_r. unfold x. rewrite <- Z.lxor_assoc, Z.lxor_nilpotent, Z.lxor_0_l.
      apply spells_digit; auto.
    + destruct (Nat.eqb t m) eqn:Q'.
      * apply Nat.eqb_eq in Q'. subst t. rewrite Z.lxor_0_l. unfold x.
        rewrite (Z.lxor_comm (digit k n j)), <- Z.lxor_assoc, Z.lxor_nilpotent, Z.lxor_0_l.
        apply spells_digit; auto.
      * rewrite !Z.lxor_0_r. apply spells_digit; auto. unfold k in *. lia.
Qed.

Lemma all_numbers_in x : In x all_numbers <-> 0 <= x < 4096.
Proof.
  unfold all_numbers. rewrite in_map_iff. split.
  - intros [i [<- Hi]]. apply in_seq in Hi. lia.
  - intros H. exists (Z.to_nat x). split; [lia|]. apply in_seq. lia.
Qed.
Lemma all_numbers_nodup : NoDup all_numbers.
Proof. unfold all_numbers. apply FinFun.Injective_map_NoDup; [intros a b; lia | apply seq_NoDup]. Qed.

(** version bits under a difference *)
Lemma high_lxor n d s v : 0 <= s -> n / 2 ^ s = v -> (Z.lxor n d / 2 ^ s = v <-> d / 2 ^ s = 0).
Proof.
  intros Hs Hn. rewrite div_pow2_lxor, Hn by auto. rewrite <- (Z.lxor_0_r v) at 2.
  rewrite (Z.lxor_comm v), (Z.lxor_comm v). apply lxor_cancel_r.
Qed.

Lemma accepted_plain_lxor ws ws' n d : length ws = 14%nat -> length ws' = 14%nat ->
  spells E ws n -> accepted E ws -> spells E ws' (Z.lxor n d) ->
  (accepted E ws' <-> d / 2 ^ 164 = 0 /\ delta 21 d = 0).
Proof.
  intros L L' S A S'. rewrite (accepted_plain ws' _ L' S').
  apply (accepted_plain ws n L S) in A as [A1 A2].
  rewrite (high_lxor n d 164 0) by (auto; lia). rewrite (good_lxor 163 n d A2). reflexivity.
Qed.

Lemma accepted_enc_lxor ws ws' n d : length ws = 16%nat -> length ws' = 16%nat ->
  spells E ws n -> accepted E ws -> spells E ws' (Z.lxor n d) ->
  (accepted E ws' <-> d / 2 ^ 188 = 0 /\ delta 24 d = 0).
Proof.
  intros L L' S A S'. rewrite (accepted_enc ws' _ L' S').
  apply (accepted_enc ws n L S) in A as [A1 A2].
  rewrite (high_lxor n d 188 1) by (auto; lia). rewrite (good_lxor 187 n d A2). reflexivity.
Qed.
End C.

(** bytes and version shift of a phrase of k words *)
Definition nbytes (k : nat) : nat := if Nat.eqb k 14 then 21 else 24.
Definition vshift (k : nat) : Z := 12 * Z.of_nat k - 4.

Lemma accepted_lxor E ws ws' n d : wordlist_ok E -> length ws' = length ws ->
  spells E ws n -> accepted E ws -> spells E ws' (Z.lxor n d) ->
  (accepted E ws' <-> d / 2 ^ vshift (length ws) = 0 /\ delta (nbytes (length ws)) d = 0).
Proof.
  intros W L S A S'. destruct (accepted_length E W ws A) as [Lk|Lk]; rewrite Lk in L |- *.
  - apply (accepted_plain_lxor E W ws ws' n d); auto.
  - apply (accepted_enc_lxor E W ws ws' n d); auto.
Qed.

(** the window of position j *)
Definition window_basis (k j : nat) : list Z := basis_at (nbytes k) (12 * Z.of_nat (k - 1 - j)) 12.
Definition keeps_version (j : nat) (x : Z) : bool := if Nat.eqb j 0 then x <? 256 else true.

Lemma place_version k j x : (j < k)%nat -> 0 <= x < 4096 ->
  (place k j x / 2 ^ vshift k = 0 <-> keeps_version j x = true).
Proof.
  intros Hj Hx. unfold place, vshift, keeps_version. destruct (Nat.eqb j 0) eqn:Q.
  - apply Nat.eqb_eq in Q. subst j.
    replace (12 * Z.of_nat k - 4) with (12 * Z.of_nat (k - 1 - 0) + 8) by lia.
    rewrite Z.pow_add_r by lia. pose proof (pow2_pos (12 * Z.of_nat (k - 1 - 0))).
    rewrite <- Z.div_div by lia. rewrite Z.div_mul by lia. change (2 ^ 8) with 256. lia.
  - apply Nat.eqb_neq in Q. split; auto. intros _. apply Z.div_small.
    pose proof (pow2_pos (12 * Z.of_nat (k - 1 - j))).
    assert (2 ^ (12 * Z.of_nat (k - 1 - j) + 12) <= 2 ^ (12 * Z.of_nat k - 4)) by (apply Z.pow_le_mono_r; lia).
    rewrite Z.pow_add_r in H0 by lia. change (2 ^ 12) with 4096 in H0. nia.
Qed.

Definition silent (k j : nat) : list Z :=
  let b := window_basis k j in
  filter (fun x => keeps_version j x && (lin b x =? 0)) all_numbers.

Lemma silent_spec k j x : (j < k)%nat -> 0 <= x < 4096 ->
  (In x (silent k j) <-> place k j x / 2 ^ vshift k = 0 /\ delta (nbytes k) (place k j x) = 0).
Proof.
  intros Hj Hx. unfold silent. rewrite filter_In, all_numbers_in, andb_true_iff, Z.eqb_eq.
  rewrite (place_version k j x Hj Hx). unfold place. rewrite delta_window by lia. tauto.
Qed.

Lemma silent_bound k j x : In x (silent k j) -> 0 <= x < 4096.
Proof. unfold silent. rewrite filter_In. intros [H _]. apply (proj1 (all_numbers_in x)). exact H. Qed.

Lemma silent_nodup k j : NoDup (silent k j).
Proof. unfold silent. apply NoDup_filter. exact all_numbers_nodup. Qed.

Definition map2_lxor (a b : list Z) : list Z := map (fun p => Z.lxor (fst p) (snd p)) (combine a b).

Lemma lin_lxor a b x : length a = length b -> lin (map2_lxor a b) x = Z.lxor (lin a x) (lin b x).
Proof.
  unfold map2_lxor. revert b x. induction a as [|p a IH]; intros [|q b] x H; try discriminate; auto.
  cbn [combine map lin fst snd]. rewrite IH by (cbn in H; lia).
  rewrite lxor_swap4. f_equal. destruct (Z.odd x); reflexivity.
Qed.

Definition silent_swap (k j m : nat) : list Z :=
  let b := map2_lxor (window_basis k j) (window_basis k m) in
  filter (fun x => keeps_version j x && keeps_version m x && (lin b x =? 0)) all_numbers.

Lemma div_zero_lxor_disjoint a b s : 0 <= a -> 0 <= b -> 0 <= s ->
  (a / 2 ^ s = 0 \/ b / 2 ^ s = 0) -> (Z.lxor a b / 2 ^ s = 0 <-> a / 2 ^ s = 0 /\ b / 2 ^ s = 0).
Proof.
  intros Ha Hb Hs H. rewrite div_pow2_lxor by auto.
  destruct H as [-> | ->]; [rewrite Z.lxor_0_l|rewrite Z.lxor_0_r]; tauto.
Qed.

Lemma silent_swap_spec k j m x : (j < k)%nat -> (m < k)%nat -> j <> m -> 0 <= x < 4096 ->
  (In x (silent_swap k j m) <->
   Z.lxor (place k j x) (place k m x) / 2 ^ vshift k = 0 /\
   delta (nbytes k) (Z.lxor (place k j x) (place k m x)) = 0).
Proof.
  intros Hj Hm Hne Hx. unfold silent_swap. rewrite filter_In, all_numbers_in, !andb_true_iff, Z.eqb_eq.
  pose proof (place_bound k j x Hj Hx). pose proof (place_bound k m x Hm Hx).
  rewrite div_zero_lxor_disjoint; try lia; [| unfold vshift; lia |].
  2:{ rewrite (place_version k j x Hj Hx), (place_version k m x Hm Hx). unfold keeps_version.
      destruct (Nat.eqb j 0) eqn:Q, (Nat.eqb m 0) eqn:Q'; auto. apply Nat.eqb_eq in Q, Q'. congruence. }
  rewrite (place_version k j x Hj Hx), (place_version k m x Hm Hx).
  rewrite lin_lxor by (unfold window_basis, basis_at; rewrite !map_length, !seq_length; auto).
  rewrite delta_linear. unfold place at 1 2. rewrite !delta_window by lia. unfold window_basis. tauto.
Qed.

Lemma silent_swap_nodup k j m : NoDup (silent_swap k j m).
Proof. unfold silent_swap. apply NoDup_filter. exact all_numbers_nodup. Qed.

Lemma lxor_inj a : Injective (Z.lxor a).
Proof.
  intros x y H. apply (f_equal (Z.lxor a)) in H. rewrite <- !Z.lxor_assoc, !Z.lxor_nilpotent, !Z.lxor_0_l in H. auto.
Qed.

(** the sweeps *)
Definition silent_other (k j : nat) : list Z := filter (fun x => negb (x =? 0)) (silent k j).

Lemma silent_other_spec k j x : In x (silent_other k j) <-> In x (silent k j) /\ x <> 0.
Proof. unfold silent_other. rewrite filter_In, negb_true_iff, Z.eqb_neq. reflexivity. Qed.

Lemma silent_other_nodup k j : NoDup (silent_other k j).
Proof. unfold silent_other. apply NoDup_filter, silent_nodup. Qed.


(** *** counting solutions of lin b x = v without enumerating x *)
Fixpoint upto (m : nat) : list Z :=
  match m with O => [0] | S m => flat_map (fun x => [2 * x; 2 * x + 1]) (upto m) end.

Definition count (f : Z -> bool) (l : list Z) : Z := zlen (filter f l).

Lemma count_cons f a l : count f (a :: l) = (if f a then 1 else 0) + count f l.
Proof. unfold count, zlen. cbn [filter]. destruct (f a); cbn [length]; lia. Qed.

Lemma count_ext f g l : (forall x, f x = g x) -> count f l = count g l.
Proof. intros H. induction l; auto. rewrite !count_cons, IHl, H. reflexivity. Qed.

Lemma lin_even b r x : lin (b :: r) (2 * x) = lin r x.
Proof.
  cbn [lin]. rewrite Z.odd_mul. cbn [Z.odd andb]. rewrite Z.lxor_0_l.
  f_equal. rewrite Z.mul_comm. apply Z.div_mul. lia.
Qed.
Lemma lin_odd b r x : lin (b :: r) (2 * x + 1) = Z.lxor b (lin r x).
Proof.
  cbn [lin]. rewrite Z.odd_add, Z.odd_mul. cbn [Z.odd andb xorb].
  f_equal. f_equal. rewrite Z.mul_comm, Z.div_add_l by lia. change (1 / 2) with 0. lia.
Qed.

Lemma lxor_move a b v : (Z.lxor a b =? v) = (b =? Z.lxor a v).
Proof.
  apply Bool.eq_true_iff_eq. rewrite !Z.eqb_eq. split; intros H; subst;
  rewrite <- Z.lxor_assoc, Z.lxor_nilpotent, Z.lxor_0_l; reflexivity.
Qed.

Lemma count_lin_step b r v l :
  count (fun x => lin (b :: r) x =? v) (flat_map (fun x => [2 * x; 2 * x + 1]) l)
  = count (fun x => lin r x =? v) l + count (fun x => lin r x =? Z.lxor b v) l.
Proof.
  induction l; [reflexivity|]. cbn [flat_map app]. rewrite !count_cons, IHl, lin_even, lin_odd, lxor_move. lia.
Qed.

Definition tab_step (b : Z) (t : list Z) : list Z :=
  map (fun v => nth v t 0 + nth (Z.to_nat (Z.lxor b (Z.of_nat v))) t 0) (seq 0 32).
Definition tab (basis : list Z) : list Z := fold_right tab_step (1 :: repeat 0 31) basis.

Lemma tab_correct basis v : Forall (fun b => 0 <= b < 2 ^ 5) basis -> (v < 32)%nat ->
  nth v (tab basis) 0 = count (fun x => lin basis x =? Z.of_nat v) (upto (length basis)).
Proof.
  intros H. revert v. induction H as [|b r Hb Hr IH]; intros v Hv.
  - cbn [tab fold_right length upto]. rewrite count_cons. cbn [lin].
    destruct v; [reflexivity|]. do 31 (destruct v; [reflexivity|]). lia.
  - cbn [tab fold_right length upto]. fold (tab r). rewrite count_lin_step. unfold tab_step.
    rewrite (nth_indep _ 0 ((fun v => nth v (tab r) 0 + nth (Z.to_nat (Z.lxor b (Z.of_nat v))) (tab r) 0) O)) by (rewrite map_length, seq_length; auto).
    rewrite (map_nth (fun v => nth v (tab r) 0 + nth (Z.to_nat (Z.lxor b (Z.of_nat v))) (tab r) 0)), seq_nth by auto.
    cbn [Nat.add].
    assert (B : 0 <= Z.lxor b (Z.of_nat v) < 2 ^ 5) by (apply lxor_bound; lia).
    rewrite (IH v Hv), (IH (Z.to_nat (Z.lxor b (Z.of_nat v)))) by lia. rewrite Z2Nat.id by lia. reflexivity.
Qed.

Lemma delta_bound k d : 0 <= delta k d < 2 ^ 5.
Proof. unfold delta. change 32 with (2 ^ 5). apply lxor_bound; try apply Z.mod_pos_bound; lia. Qed.

Lemma basis_bound k s m : Forall (fun b => 0 <= b < 2 ^ 5) (basis_at k s m).
Proof. unfold basis_at. apply Forall_forall. intros b Hb. apply in_map_iff in Hb as [i [<- _]]. apply delta_bound. Qed.

Lemma map2_lxor_bound a b : Forall (fun b => 0 <= b < 2 ^ 5) a -> Forall (fun b => 0 <= b < 2 ^ 5) b ->
  Forall (fun b => 0 <= b < 2 ^ 5) (map2_lxor a b).
Proof.
  unfold map2_lxor. intros Ha. revert b. induction Ha; intros [|q b] Hb; cbn; auto.
  inversion Hb; subst. constructor; auto. change (0 <= Z.lxor x q < 2 ^ 5). apply lxor_bound; auto; lia.
Qed.

Lemma upto_seq m : upto m = map Z.of_nat (seq 0 (2 ^ m)).
Proof.
  assert (D : forall n s, flat_map (fun x => [2 * x; 2 * x + 1]) (map Z.of_nat (seq s n)) = map Z.of_nat (seq (2 * s) (2 * n))).
  { induction n; intros s; [reflexivity|]. cbn [seq map flat_map app]. rewrite IHn.
    replace (2 * S n)%nat with (S (S (2 * n))) by lia. cbn [seq map].
    replace (2 * S s)%nat with (S (S (2 * s))) by lia. f_equal; [lia|]. f_equal. lia. }
  induction m; [reflexivity|]. cbn [upto]. rewrite IHm, D. f_equal.
Qed.

Lemma all_numbers_upto : all_numbers = upto 12.
Proof. rewrite upto_seq. reflexivity. Qed.

(** the low 256 numbers, for the first word *)
Lemma lin_low a b x : 0 <= x < 2 ^ zlen a -> lin (a ++ b) x = lin a x.
Proof.
  revert x. induction a as [|p a IH]; intros x Hx.
  - cbn in Hx. replace x with 0 by lia. cbn [app lin].
    induction b; [reflexivity|]. cbn [lin]. change (Z.odd 0) with false. change (0 / 2) with 0. cbn iota. rewrite IHb. reflexivity.
  - cbn [app lin]. rewrite IH; auto. unfold zlen in *. cbn [length] in Hx. rewrite Nat2Z.inj_succ, Z.pow_succ_r in Hx by lia. lia.
Qed.

Lemma upto_split m : exists l, upto (S m) = upto m ++ l /\ Forall (fun x => 2 ^ Z.of_nat m <= x) l.
Proof.
  exists (map Z.of_nat (seq (2 ^ m) (2 ^ m))). rewrite !upto_seq. split.
  - rewrite <- map_app. f_equal. replace (2 ^ S m)%nat with (2 ^ m + 2 ^ m)%nat by (rewrite Nat.pow_succ_r'; lia). rewrite seq_app. reflexivity.
  - apply Forall_forall. intros x Hx. apply in_map_iff in Hx as [i [<- Hi]]. apply in_seq in Hi.
    change 2 with (Z.of_nat 2). rewrite <- (Nat2Z.inj_pow 2 m). lia.
Qed.

Lemma count_app f l l' : count f (l ++ l') = count f l + count f l'.
Proof. induction l; cbn [app]; [reflexivity|]. rewrite !count_cons, IHl. lia. Qed.

Lemma count_none f l : Forall (fun x => f x = false) l -> count f l = 0.
Proof. induction 1; [reflexivity|]. rewrite count_cons, H, IHForall. reflexivity. Qed.

Lemma count_ext_in f g l : (forall x, In x l -> f x = g x) -> count f l = count g l.
Proof.
  induction l; intros H; [reflexivity|]. rewrite !count_cons, (H a) by (left; reflexivity).
  rewrite IHl; [reflexivity|]. intros x Hx. apply H. right. exact Hx.
Qed.

Lemma upto_bound m x : In x (upto m) -> 0 <= x < 2 ^ Z.of_nat m.
Proof.
  rewrite upto_seq. intros H. apply in_map_iff in H as [i [<- Hi]]. apply in_seq in Hi.
  change 2 with (Z.of_nat 2). rewrite <- (Nat2Z.inj_pow 2 m). lia.
Qed.

Lemma count_low f : count (fun x => (x <? 256) && f x) (upto 12) = count f (upto 8).
Proof.
  destruct (upto_split 8) as [l8 [E8 H8]]. destruct (upto_split 9) as [l9 [E9 H9]].
  destruct (upto_split 10) as [l10 [E10 H10]]. destruct (upto_split 11) as [l11 [E11 H11]].
  rewrite E11, E10, E9, E8, !count_app.
  assert (N : forall l m, (8 <= m)%nat -> Forall (fun x => 2 ^ Z.of_nat m <= x) l -> count (fun x => (x <? 256) && f x) l = 0).
  { intros l m Hm H. apply count_none. eapply Forall_impl; [|exact H]. intros x Hx. cbn beta in Hx.
    assert (2 ^ 8 <= 2 ^ Z.of_nat m) by (apply Z.pow_le_mono_r; lia).
    replace (x <? 256) with false by lia. reflexivity. }
  rewrite (N l8 8%nat), (N l9 9%nat), (N l10 10%nat), (N l11 11%nat) by (auto; lia).
  rewrite (count_ext_in (fun x => (x <? 256) && f x) f (upto 8)); [lia|].
  intros x Hx. apply upto_bound in Hx. change (2 ^ Z.of_nat 8) with 256 in Hx. replace (x <? 256) with true by lia. reflexivity.
Qed.

Lemma silent_len k j : zlen (silent k j) =
  nth 0 (tab (if Nat.eqb j 0 then basis_at (nbytes k) (12 * Z.of_nat (k - 1 - j)) 8 else window_basis k j)) 0.
Proof.
  unfold silent, keeps_version. rewrite all_numbers_upto. fold (count (fun x => (if Nat.eqb j 0 then x <? 256 else true) && (lin (window_basis k j) x =? 0)) (upto 12)).
  destruct (Nat.eqb j 0) eqn:Q.
  - rewrite (count_low (fun x => lin (window_basis k j) x =? 0)).
    rewrite tab_correct; [|apply basis_bound|lia].
    unfold basis_at at 2. rewrite map_length, seq_length.
    apply count_ext_in. intros x Hx. apply upto_bound in Hx. f_equal.
    unfold window_basis. set (s := 12 * Z.of_nat (k - 1 - j)).
    replace (basis_at (nbytes k) s 12) with (basis_at (nbytes k) s 8 ++ basis_at (nbytes k) (s + 8) 4).
    + apply lin_low. unfold zlen, basis_at. rewrite map_length, seq_length. exact Hx.
    + unfold basis_at. change (seq 0 12) with (seq 0 8 ++ map (fun i => (8 + i)%nat) (seq 0 4)).
      rewrite map_app, map_map. f_equal. apply map_ext. intros i. do 2 f_equal. lia.
  - rewrite tab_correct; [|apply basis_bound|lia]. reflexivity.
Qed.

Lemma silent_swap_len k j m : j <> 0%nat -> m <> 0%nat ->
  zlen (silent_swap k j m) = nth 0 (tab (map2_lxor (window_basis k j) (window_basis k m))) 0.
Proof.
  intros Hj Hm. unfold silent_swap, keeps_version. rewrite all_numbers_upto.
  apply Nat.eqb_neq in Hj, Hm. rewrite Hj, Hm. cbn [andb].
  rewrite tab_correct; [|apply map2_lxor_bound; apply basis_bound|lia]. reflexivity.
Qed.

(** the basis of every position, computed once *)
Lemma silent_counts : forallb (fun k => forallb (fun j =>
    nth 0 (tab (if Nat.eqb j 0 then basis_at (nbytes k) (12 * Z.of_nat (k - 1 - j)) 8 else window_basis k j)) 0
    =? (if Nat.eqb j 0 then 8 else 128)) (seq 0 k)) [14%nat; 16%nat] = true.
Proof. vm_compute. reflexivity. Qed.

Lemma count_filter_nz l : NoDup l -> In 0 l -> S (length (filter (fun x => negb (x =? 0)) l)) = length l.
Proof.
  intros ND I. apply in_split in I as [l1 [l2 ->]]. pose proof (NoDup_remove_2 _ _ _ ND) as N0.
  rewrite filter_app, !app_length. cbn [filter negb Z.eqb length].
  assert (K : forall l, (forall x, In x l -> x <> 0) -> filter (fun x => negb (x =? 0)) l = l).
  { induction l; intros H; auto. cbn [filter]. replace (a =? 0) with false by (symmetry; apply Z.eqb_neq; apply H; cbn; auto).
    cbn [negb]. f_equal. apply IHl. intros; apply H; cbn; auto. }
  rewrite !K; [lia| |]; intros x Hx ->; apply N0; apply in_or_app; auto.
Qed.

Lemma silent_zero k j : (j < k)%nat -> In 0 (silent k j).
Proof.
  intros H. apply silent_spec; try lia. unfold place. rewrite Z.mul_0_l.
  split; [apply Z.div_0_l; apply Z.pow_nonzero; unfold vshift; lia | apply delta_0].
Qed.

Lemma silent_tab k j : (k = 14 \/ k = 16)%nat -> (j < k)%nat ->
  nth 0 (tab (if Nat.eqb j 0 then basis_at (nbytes k) (12 * Z.of_nat (k - 1 - j)) 8 else window_basis k j)) 0
    = (if Nat.eqb j 0 then 8 else 128).
Proof.
  intros Hk Hj. pose proof silent_counts as SC. rewrite forallb_forall in SC.
  assert (Ik : In k [14%nat; 16%nat]) by (destruct Hk; subst; cbn; auto).
  specialize (SC k Ik). rewrite forallb_forall in SC.
  assert (Ij : In j (seq 0 k)) by (apply in_seq; lia).
  specialize (SC j Ij). apply Z.eqb_eq in SC. exact SC.
Qed.

Lemma minus_one (a : nat) (l : list Z) c : S a = length l -> zlen l = c -> Z.of_nat a = c - 1.
Proof. unfold zlen. lia. Qed.
Lemma zlen_eq (l : list Z) : zlen l = Z.of_nat (length l).
Proof. reflexivity. Qed.

Lemma silent_count k j : (k = 14 \/ k = 16)%nat -> (j < k)%nat ->
  length (silent_other k j) = (if Nat.eqb j 0 then 7 else 127)%nat.
Proof.
  intros Hk Hj.
  pose proof (minus_one _ _ _ (count_filter_nz _ (silent_nodup k j) (silent_zero k j Hj)) (eq_trans (silent_len k j) (silent_tab k j Hk Hj))) as C.
  unfold silent_other. revert C. generalize (length (filter (fun x => negb (x =? 0)) (silent k j))). intros n C.
  destruct (Nat.eqb j 0); lia.
Qed.

Definition swap_count (k j m : nat) : nat :=
  (if Nat.eqb k 16 && Nat.eqb j 2 && Nat.eqb m 14 then 256 else 128)%nat.

Definition swap_sweep (k : nat) : bool :=
  let t := map (window_basis k) (seq 0 k) in
  forallb (fun j => forallb (fun m =>
    if Nat.ltb j m then nth 0 (tab (map2_lxor (nth j t []) (nth m t []))) 0 =? Z.of_nat (swap_count k j m) else true)
    (seq 1 (k - 1))) (seq 1 (k - 1)).

Lemma swap_counts : forallb swap_sweep [14%nat; 16%nat] = true.
Proof. vm_compute. reflexivity. Qed.

Lemma swap_count_ok k j m : (k = 14 \/ k = 16)%nat -> (1 <= j < m)%nat -> (m < k)%nat ->
  length (silent_swap k j m) = swap_count k j m.
Proof.
  intros Hk Hjm Hm. pose proof swap_counts as SC. rewrite forallb_forall in SC.
  assert (Ik : In k [14%nat; 16%nat]) by (destruct Hk; subst; cbn; auto).
  specialize (SC k Ik). unfold swap_sweep in SC. cbv zeta in SC. rewrite forallb_forall in SC.
  assert (Ij : In j (seq 1 (k - 1))) by (apply in_seq; lia).
  specialize (SC j Ij). rewrite forallb_forall in SC.
  assert (Im : In m (seq 1 (k - 1))) by (apply in_seq; lia).
  specialize (SC m Im). assert (Hlt : Nat.ltb j m = true) by (apply Nat.ltb_lt; lia).
  rewrite Hlt in SC. apply Z.eqb_eq in SC.
  assert (T : forall i, (i < k)%nat -> nth i (map (window_basis k) (seq 0 k)) [] = window_basis k i).
  { intros i Hi. rewrite (nth_indep _ [] (window_basis k 0)) by (rewrite map_length, seq_length; auto).
    rewrite map_nth, seq_nth by auto. reflexivity. }
  rewrite !T in SC by lia. rewrite <- silent_swap_len in SC by lia.
  rewrite zlen_eq in SC. revert SC. generalize (length (silent_swap k j m)). intros n SC. lia.
Qed.
