From Coq Require Import Lia ZifyBool ZifyNat.
From Verif.Model Require Import GoBase Env MnemonicPkg.
From Verif.Spec Require Import EnvSpec PhraseSpec.
From Verif.Proofs Require Import BitsP.

Lemma p4096_pos k : 0 <= k -> 0 < 4096 ^ k.
Proof. intros; apply Z.pow_pos_nonneg; lia. Qed.
Lemma pow4096 n : 0 <= n -> 2 ^ (12 * n) = 4096 ^ n.
Proof. intros. rewrite Z.pow_mul_r by lia. reflexivity. Qed.

Definition digits (k : nat) (n : Z) : list Z := map (digit k n) (seq 0 k).

Lemma digits_length k n : length (digits k n) = k.
Proof. unfold digits. rewrite map_length, seq_length. auto. Qed.

Lemma digit_bound k n j : 0 <= digit k n j < 4096.
Proof. unfold digit. apply Z.mod_pos_bound; lia. Qed.

Lemma digits_bound k n : Forall (fun i => 0 <= i < 4096) (digits k n).
Proof. unfold digits. apply Forall_forall. intros x H. apply in_map_iff in H as [j [<- _]]. apply digit_bound. Qed.

Lemma digits_snoc k n : digits (S k) n = digits k (n / 4096) ++ [n mod 4096].
Proof.
  unfold digits. rewrite seq_S, map_app. cbn [map]. f_equal; [|f_equal].
  - apply map_ext_in. intros j Hj. apply in_seq in Hj. unfold digit.
    replace (S k - 1 - j)%nat with (S (k - 1 - j)) by lia.
    rewrite Nat2Z.inj_succ, Z.pow_succ_r by lia. rewrite Z.div_div; auto; lia.
  - unfold digit. replace (S k - 1 - (0 + k))%nat with 0%nat by lia. change (Z.of_nat 0) with 0.
    rewrite Z.pow_0_r, Z.div_1_r. reflexivity.
Qed.

Lemma digits_cons k n : digits (S k) n = (n / 4096 ^ Z.of_nat k) mod 4096 :: digits k n.
Proof.
  unfold digits. cbn [seq map]. f_equal.
  - unfold digit. f_equal. f_equal. f_equal. lia.
  - rewrite <- seq_shift, map_map. apply map_ext_in. intros j Hj. apply in_seq in Hj.
    unfold digit. f_equal. f_equal. f_equal. lia.
Qed.

Lemma digits_0 k : digits k 0 = repeat 0 k.
Proof.
  induction k; auto. rewrite digits_snoc. cbn [repeat].
  change (0 / 4096) with 0. change (0 mod 4096) with 0. rewrite IHk.
  symmetry. apply repeat_cons.
Qed.

(** Horner value of a digit list *)
Definition value_of (l : list Z) : Z := fold_left (fun a d => a * 4096 + d) l 0.

Lemma value_digits k n : 0 <= n < 4096 ^ Z.of_nat k -> value_of (digits k n) = n.
Proof.
  revert n. induction k; intros n H.
  - simpl in H. unfold value_of. simpl. lia.
  - rewrite digits_snoc. unfold value_of. rewrite fold_left_app. simpl.
    change (fold_left _ (digits k (n / 4096)) 0) with (value_of (digits k (n / 4096))).
    rewrite Nat2Z.inj_succ, Z.pow_succ_r in H by lia.
    rewrite IHk by lia. lia.
Qed.

Lemma value_bound l : Forall (fun i => 0 <= i < 4096) l -> 0 <= value_of l < 4096 ^ zlen l.
Proof.
  induction l as [|x l IH] using rev_ind; intros H.
  - cbv. split; congruence.
  - apply Forall_app in H as [H1 H2]. specialize (IH H1). inversion H2; subst.
    unfold value_of, zlen in *. rewrite fold_left_app, app_length. simpl.
    replace (Z.of_nat (length l + 1)) with (Z.succ (Z.of_nat (length l))) by lia.
    rewrite Z.pow_succ_r by lia. lia.
Qed.

Lemma digits_value l : Forall (fun i => 0 <= i < 4096) l -> digits (length l) (value_of l) = l.
Proof.
  induction l as [|x l IH] using rev_ind; intros H; auto.
  apply Forall_app in H as [H1 H2]. inversion H2; subst.
  rewrite app_length. simpl. rewrite Nat.add_1_r, digits_snoc.
  unfold value_of. rewrite fold_left_app. simpl.
  change (fold_left _ l 0) with (value_of l).
  replace ((value_of l * 4096 + x) / 4096) with (value_of l) by lia.
  replace ((value_of l * 4096 + x) mod 4096) with x by lia.
  rewrite IH; auto.
Qed.

Lemma encode_loop_ok k n acc : 0 <= n < 4096 ^ Z.of_nat k ->
  encode_loop k n acc = Ok (digits k n ++ acc, 0).
Proof.
  revert n acc. induction k; intros n acc H; cbn [encode_loop]; rewrite bit_len_0.
  - simpl in H. replace n with 0 by lia. reflexivity.
  - destruct (n =? 0) eqn:E.
    + replace n with 0 by lia. rewrite digits_0. reflexivity.
    + cbn [negb]. rewrite Nat2Z.inj_succ, Z.pow_succ_r in H by lia.
      unfold bits_per_word, word_mask. rewrite land_mask' by (unfold bits_per_word; lia).
      rewrite Z.shiftr_div_pow2 by lia. change (2 ^ 12) with 4096. unfold bits_per_word. change (2 ^ 12) with 4096.
      rewrite IHk by lia.
      rewrite digits_snoc, <- app_assoc. simpl. do 4 f_equal.
      unfold u16, big_uint64, u64.
      assert (0 <= n mod 4096 < 4096) by lia.
      rewrite Z.abs_eq by lia. rewrite (Z.mod_small _ (2 ^ 64)) by lia. rewrite Z.mod_small; lia.
Qed.

Lemma encode_loop_neg k n acc : n < 0 -> encode_loop k n acc = Panic.
Proof.
  revert n acc. induction k; intros n acc H; cbn [encode_loop]; rewrite bit_len_0;
    replace (n =? 0) with false by lia; cbn [negb]; auto.
  apply IHk. apply Z.shiftr_neg. auto.
Qed.

Lemma word_count_ok bs : 0 <= bs <= 12 * 2 ^ 47 -> word_count bs = (bs + 11) / 12 /\ make_uint16_ok (word_count bs) = true.
Proof.
  intros H. assert (E : word_count bs = (bs + 11) / 12).
  { unfold word_count, u64, bits_per_word. rewrite Z.mod_small by lia. f_equal. lia. }
  split; [exact E|]. rewrite E. unfold make_uint16_ok. apply Z.leb_le. lia.
Qed.
Lemma encode_to_indices_ok n bs : 0 <= bs <= 12 * 2 ^ 47 -> 0 <= n < 2 ^ bs ->
  encode_to_indices n bs = Ok (digits (Z.to_nat ((bs + 11) / 12)) n, 0).
Proof.
  intros HB ?. unfold encode_to_indices. rewrite bit_len_gtb_false by lia.
  destruct (word_count_ok bs HB) as [EW ->]. rewrite EW. cbn [negb]. clear EW.
  rewrite encode_loop_ok, app_nil_r; auto.
  rewrite <- pow4096 by lia. split; [lia|]. apply Z.lt_le_trans with (2 ^ bs); [lia|].
  apply Z.pow_le_mono_r; [lia|]. assert (0 <= (bs + 11) / 12) by lia. rewrite Z2Nat.id; lia.
Qed.

Lemma decode_indices_from_ok l a : 0 <= a -> Forall (fun i => 0 <= i < 4096) l ->
  decode_indices_from a l = Ok (fold_left (fun a d => a * 4096 + d) l a).
Proof.
  intros Ha H. revert a Ha. induction H as [|i l Hi Hl IH]; intros a Ha; cbn [decode_indices_from fold_left]; auto.
  unfold bits_per_word. rewrite bit_len_gtb_false by lia.
  rewrite lor_shiftl_add by lia. change (2 ^ 12) with 4096. apply IH. lia.
Qed.

Lemma decode_indices_ok l : Forall (fun i => 0 <= i < 4096) l -> decode_indices l = Ok (value_of l).
Proof. intros. unfold decode_indices. apply decode_indices_from_ok; auto; lia. Qed.

(** word list lookups *)
Lemma index_from_spec w l i0 r : index_from w l i0 = Some r ->
  i0 <= r < i0 + zlen l /\ nth_error l (Z.to_nat (r - i0)) = Some w.
Proof.
  unfold zlen. revert i0. induction l as [|x l IH]; intros i0; cbn [index_from]; [discriminate|].
  destruct (bytes_eqb w x) eqn:E.
  - apply bytes_eqb_eq in E. subst. intros [= <-]. cbn [length]. split; [lia|].
    replace (i0 - i0) with 0 by lia. reflexivity.
  - intros H. apply IH in H as [H1 H2]. cbn [length]. split; [lia|].
    replace (Z.to_nat (r - i0)) with (S (Z.to_nat (r - (i0 + 1)))) by lia. auto.
Qed.

Lemma index_from_none w l i0 : index_from w l i0 = None <-> ~ In w l.
Proof.
  revert i0. induction l as [|x l IH]; intros i0; cbn [index_from In]; [tauto|].
  destruct (bytes_eqb w x) eqn:E.
  - apply bytes_eqb_eq in E. subst. split; [discriminate|tauto].
  - apply bytes_eqb_neq in E. rewrite IH. split; [|tauto].
    intros H [H'|H']; subst; tauto.
Qed.

Lemma index_from_nth w l i0 j : NoDup l -> nth_error l j = Some w ->
  index_from w l i0 = Some (i0 + Z.of_nat j).
Proof.
  intros Hn. revert i0 j. induction Hn as [|x l Hx Hn IH]; intros i0 j Hj.
  - destruct j; discriminate.
  - cbn [index_from]. destruct j; simpl in Hj.
    + injection Hj as ->. rewrite bytes_eqb_refl. f_equal. lia.
    + destruct (bytes_eqb w x) eqn:E.
      * apply bytes_eqb_eq in E. subst. apply nth_error_In in Hj. contradiction.
      * rewrite (IH _ _ Hj). f_equal. lia.
Qed.

Section WL.
Variable E : Env.
Hypothesis W : wordlist_ok E.

Lemma wl_zlen : zlen (wl_words E) = 4096.
Proof. unfold zlen. rewrite (wlo_length E W). reflexivity. Qed.

Lemma word_map_spec w i : word_map E w = Some i <->
  (0 <= i < 4096 /\ nth_error (wl_words E) (Z.to_nat i) = Some w).
Proof.
  unfold word_map. split.
  - intros H. apply index_from_spec in H. rewrite wl_zlen, Z.sub_0_r in H. intuition lia.
  - intros [H1 H2]. rewrite (index_from_nth _ _ _ _ (wlo_nodup E W) H2). f_equal. lia.
Qed.

Lemma word_map_none w : word_map E w = None <-> ~ In w (wl_words E).
Proof. apply index_from_none. Qed.

Lemma nth_word i : 0 <= i < 4096 ->
  nth_error (wl_words E) (Z.to_nat i) = Some (nth (Z.to_nat i) (wl_words E) []).
Proof.
  intros. apply nth_error_nth'. pose proof wl_zlen. unfold zlen in *. lia.
Qed.

Lemma word_map_nth i : 0 <= i < 4096 -> word_map E (nth (Z.to_nat i) (wl_words E) []) = Some i.
Proof. intros. apply word_map_spec. split; auto. apply nth_word; auto. Qed.

Definition spell_indices (l : list Z) : list bytes := map (fun i => nth (Z.to_nat i) (wl_words E) []) l.

Lemma encode_to_words_ok l : Forall (fun i => 0 <= i < 4096) l ->
  encode_to_words E l = Ok (spell_indices l).
Proof.
  induction 1 as [|i l Hi Hl IH]; cbn [encode_to_words spell_indices map]; auto.
  unfold bits_per_word. rewrite bit_len_gtb_false by lia.
  unfold go_index. rewrite (nth_word i Hi). cbn [bind]. rewrite IH. reflexivity.
Qed.

Lemma words_of_int_spell k n : words_of_int E k n = spell_indices (digits k n).
Proof. unfold words_of_int, spell_indices, digits. rewrite map_map. reflexivity. Qed.

Lemma word_in i : 0 <= i < 4096 -> In (nth (Z.to_nat i) (wl_words E) []) (wl_words E).
Proof. intros. eapply nth_error_In. apply nth_word. auto. Qed.

Lemma to_lower_word w : In w (wl_words E) -> to_lower E w = w.
Proof.
  intros Hin. pose proof (wlo_letters E W) as HL. rewrite Forall_forall in HL. specialize (HL _ Hin).
  unfold to_lower, is_ascii.
  assert (H1 : forallb (fun b => b <? 128) w = true).
  { apply forallb_forall. rewrite Forall_forall in HL. intros x Hx. specialize (HL x Hx). unfold lower_letter in HL. lia. }
  rewrite H1. clear H1 Hin. induction HL as [|b w Hb Hw IH]; auto. simpl. rewrite IH. f_equal.
  unfold ascii_lower_byte. unfold lower_letter in Hb. replace ((65 <=? b) && (b <=? 90)) with false by lia. auto.
Qed.

(** decode_words succeeds exactly on phrases whose lower-cased words are spelled by the indices *)
Lemma decode_words_spec ws l : decode_words E ws = Ok l <->
  (Forall (fun i => 0 <= i < 4096) l /\ map (to_lower E) ws = spell_indices l).
Proof.
  revert l. induction ws as [|w ws IH]; intros l; cbn [decode_words map].
  - split.
    + intros [= <-]. split; auto.
    + intros [_ H]. destruct l; [auto|discriminate].
  - destruct (word_map E (to_lower E w)) as [i|] eqn:Ew.
    + apply word_map_spec in Ew as [Hi Hw].
      destruct (decode_words E ws) as [is|e|] eqn:Ed; cbn [bind].
      * split.
        -- intros [= <-]. destruct (IH is) as [IH1 _]. destruct (IH1 eq_refl) as [Hf Hm].
           split; [constructor; auto|]. cbn. rewrite Hm. f_equal.
           rewrite nth_word in Hw by auto. congruence.
        -- intros [Hf Hm]. destruct l as [|j l]; [discriminate|]. cbn in Hm. injection Hm as Hj Hm.
           inversion Hf; subst. assert (E1 : Ok is = Ok l) by (apply IH; auto).
           injection E1 as ->. f_equal. f_equal.
           rewrite Hj in Hw. pose proof (word_map_nth j H1) as X.
           assert (word_map E (nth (Z.to_nat j) (wl_words E) []) = Some i) by (apply word_map_spec; auto).
           congruence.
      * split; [discriminate|]. intros [Hf Hm]. destruct l as [|j l]; [discriminate|].
        cbn in Hm. injection Hm as Hj Hm. inversion Hf; subst.
        assert (E1 : Err e = Ok l) by (apply IH; auto). discriminate.
      * split; [discriminate|]. intros [Hf Hm]. destruct l as [|j l]; [discriminate|].
        cbn in Hm. injection Hm as Hj Hm. inversion Hf; subst.
        assert (E1 : @Panic (list Z) = Ok l) by (apply IH; auto). discriminate.
    + split; [discriminate|]. intros [Hf Hm]. destruct l as [|j l]; [discriminate|].
      cbn in Hm. injection Hm as Hj Hm. inversion Hf; subst.
      apply word_map_none in Ew. rewrite Hj in Ew. destruct Ew. apply word_in; auto.
Qed.

Lemma decode_words_not_ok ws : (forall l, decode_words E ws <> Ok l) ->
  decode_words E ws = Err ErrInvalidWord.
Proof.
  induction ws as [|w ws IH]; cbn [decode_words]; intros H.
  - destruct (H [] eq_refl).
  - destruct (word_map E (to_lower E w)) as [i|]; auto.
    destruct (decode_words E ws) as [is|e|] eqn:Ed; cbn [bind] in *.
    + destruct (H (i :: is) eq_refl).
    + rewrite IH; auto; try congruence.
    + rewrite IH; auto; try congruence.
Qed.

Lemma decode_words_total ws :
  (Forall (fun w => In (to_lower E w) (wl_words E)) ws /\
   exists l, decode_words E ws = Ok l /\ length l = length ws) \/
  (~ Forall (fun w => In (to_lower E w) (wl_words E)) ws /\
   decode_words E ws = Err ErrInvalidWord).
Proof.
  induction ws as [|w ws IH]; cbn [decode_words].
  - left. split; auto. exists []. auto.
  - destruct (word_map E (to_lower E w)) as [i|] eqn:Ew.
    + assert (Hin : In (to_lower E w) (wl_words E)).
      { apply word_map_spec in Ew as [_ Ew]. eapply nth_error_In; eauto. }
      destruct IH as [[IH1 [l [IH2 IH3]]] | [IH1 IH2]]; rewrite IH2; cbn [bind].
      * left. split; auto. exists (i :: l). simpl. auto.
      * right. split; auto. intros X. inversion X; auto.
    + right. split; auto. apply word_map_none in Ew. intros X. inversion X; auto.
Qed.

Lemma spell_indices_in l : Forall (fun i => 0 <= i < 4096) l ->
  Forall (fun w => In w (wl_words E)) (spell_indices l).
Proof. induction 1; cbn; constructor; auto. apply word_in; auto. Qed.

Lemma lower_spell l : Forall (fun i => 0 <= i < 4096) l ->
  map (to_lower E) (spell_indices l) = spell_indices l.
Proof.
  intros H. apply spell_indices_in in H. induction H as [|w ws Hw Hws IH]; cbn; auto.
  rewrite to_lower_word by auto. f_equal. exact IH.
Qed.

Lemma decode_words_spell l : Forall (fun i => 0 <= i < 4096) l ->
  decode_words E (spell_indices l) = Ok l.
Proof. intros. apply decode_words_spec. split; auto. apply lower_spell; auto. Qed.

Lemma spell_inj l1 l2 : Forall (fun i => 0 <= i < 4096) l1 -> Forall (fun i => 0 <= i < 4096) l2 ->
  spell_indices l1 = spell_indices l2 -> l1 = l2.
Proof.
  intros H1 H2 H. pose proof (decode_words_spell l1 H1). pose proof (decode_words_spell l2 H2).
  congruence.
Qed.

Lemma spells_unique ws n m : spells E ws n -> spells E ws m -> n = m.
Proof.
  unfold spells. intros [Hn Hw] [Hm Hw']. rewrite words_of_int_spell in *.
  assert (digits (length ws) n = digits (length ws) m).
  { apply spell_inj; try apply digits_bound. congruence. }
  unfold zlen in *. rewrite <- (value_digits _ _ Hn), <- (value_digits _ _ Hm). congruence.
Qed.

Lemma spells_words_of_int k n : 0 <= n < 4096 ^ Z.of_nat k -> spells E (words_of_int E k n) n.
Proof.
  intros. unfold spells. assert (L : length (words_of_int E k n) = k).
  { unfold words_of_int. rewrite map_length, seq_length. auto. }
  unfold zlen. rewrite L. split; auto. rewrite words_of_int_spell. apply lower_spell, digits_bound.
Qed.

Lemma spells_decode ws n : spells E ws n <->
  exists l, decode_words E ws = Ok l /\ length l = length ws /\ decode_indices l = Ok n.
Proof.
  unfold spells. split.
  - intros [Hn Hw]. rewrite words_of_int_spell in Hw. exists (digits (length ws) n).
    rewrite digits_length. split; [|split]; auto.
    + apply decode_words_spec. split; auto. apply digits_bound.
    + rewrite decode_indices_ok by apply digits_bound. f_equal. apply value_digits. auto.
  - intros [l [H1 [H2 H3]]]. apply decode_words_spec in H1 as [H0 H1].
    rewrite decode_indices_ok in H3 by auto. injection H3 as <-.
    rewrite words_of_int_spell, <- H2, digits_value by auto.
    split; auto. pose proof (value_bound l H0). unfold zlen in *. rewrite <- H2. auto.
Qed.
End WL.
