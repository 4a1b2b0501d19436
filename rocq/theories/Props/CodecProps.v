(** C22, C23, C24: package mnemonic. *)
From Coq Require Import Lia ZifyBool ZifyNat.
From Verif.Model Require Import GoBase Env MnemonicPkg.
From Verif.Spec Require Import EnvSpec PhraseSpec DecodeSpec.
From Verif.Proofs Require Import BitsP WordsP EnvInst.
Ltac Zify.zify_post_hook ::= Z.div_mod_to_equations.

(** ** C22 *)
(** Every bit size whose indices a Go slice can hold: 2^47 of them, at two bytes each. *)
Theorem indices_roundtrip : forall n bit_size, 0 <= bit_size <= 12 * 2 ^ 47 -> 0 <= n < 2 ^ bit_size ->
  exists is rest,
    encode_to_indices n bit_size = Ok (is, rest) /\
    zlen is = (bit_size + 11) / 12 /\
    (forall j i, nth_error is j = Some i -> i = digit (length is) n j) /\
    decode_indices is = Ok n.
Proof.
  intros n b Hb Hn. rewrite encode_to_indices_ok by auto. eexists. eexists. split; [reflexivity|].
  set (k := Z.to_nat ((b + 11) / 12)).
  assert (Hk : Z.of_nat k = (b + 11) / 12) by (unfold k; rewrite Z2Nat.id; lia).
  split; [unfold zlen; rewrite digits_length; auto|]. split.
  - intros j i Hj. rewrite digits_length. unfold digits in Hj.
    rewrite nth_error_map in Hj. destruct (nth_error (seq 0 k) j) as [j'|] eqn:Q; [|discriminate].
    cbn in Hj. injection Hj as <-.
    assert (j < k)%nat. { rewrite <- (seq_length k 0). apply nth_error_Some. congruence. }
    rewrite (nth_error_nth' _ 0%nat) in Q by (rewrite seq_length; auto). injection Q as <-. rewrite seq_nth by auto.
    reflexivity.
  - rewrite decode_indices_ok by apply digits_bound. f_equal. apply value_digits.
    rewrite Hk. rewrite <- pow4096 by lia. split; [lia|].
    apply Z.lt_le_trans with (2 ^ b); [lia|]. apply Z.pow_le_mono_r; lia.
Qed.
Print Assumptions indices_roundtrip.

Example indices_roundtrip_case : encode_to_indices 0xabcdef 29 = Ok ([0; 0xabc; 0xdef], 0).
Proof. vm_compute. reflexivity. Qed.

(** the limit is the one on the length of a Go slice of uint16, so no list of Go is left out *)
Theorem indices_roundtrip_back : forall is, zlen is <= 2 ^ 47 -> Forall (fun i => 0 <= i < 4096) is ->
  exists n rest, decode_indices is = Ok n /\ encode_to_indices n (12 * zlen is) = Ok (is, rest).
Proof.
  intros is L H. exists (value_of is), 0. split; [apply decode_indices_ok; auto|].
  pose proof (value_bound is H) as B. pose proof (zlen_nonneg is).
  rewrite encode_to_indices_ok; [|lia|rewrite pow4096 by lia; exact B].
  do 2 f_equal. replace (Z.to_nat ((12 * zlen is + 11) / 12)) with (length is) by (unfold zlen; lia).
  apply digits_value; auto.
Qed.
Print Assumptions indices_roundtrip_back.

Theorem encode_indices_too_large : forall n bit_size, 0 <= bit_size -> 2 ^ bit_size <= n ->
  encode_to_indices n bit_size = Err ErrPayloadTooLarge.
Proof.
  intros. unfold encode_to_indices. rewrite bit_len_gtb by auto.
  pose proof (pow2_pos bit_size H). replace (Z.abs n <? 2 ^ bit_size) with false by lia. reflexivity.
Qed.
Print Assumptions encode_indices_too_large.

(** Past that limit the call never succeeds, but for one case: within 11 of the greatest uint the
    computation of the number of words wraps around to none, and 0 gets no index at all. *)
Theorem encode_indices_panics_exactly : forall n bit_size, 0 <= bit_size < 2 ^ 64 -> - 2 ^ bit_size < n < 2 ^ bit_size ->
  (encode_to_indices n bit_size = Panic <->
   n < 0 \/ 12 * 2 ^ 47 < bit_size < 2 ^ 64 - 11 \/ (n > 0 /\ 2 ^ 64 - 11 <= bit_size)).
Proof.
  intros n b Hb Hn. pose proof (pow2_pos b (proj1 Hb)) as Pw.
  destruct (Z.le_gt_cases b (12 * 2 ^ 47)) as [S|S].
  - destruct (Z.le_gt_cases 0 n) as [N|N].
    + rewrite encode_to_indices_ok by lia. split; [discriminate|lia].
    + split; [intros _; left; exact N|intros _]. unfold encode_to_indices. rewrite bit_len_gtb by lia.
      replace (Z.abs n <? 2 ^ b) with true by (symmetry; apply Z.ltb_lt; lia). cbn [negb].
      destruct (word_count_ok b (conj (proj1 Hb) S)) as [_ ->]. cbn [negb]. apply encode_loop_neg. exact N.
  - unfold encode_to_indices. rewrite bit_len_gtb by lia.
    replace (Z.abs n <? 2 ^ b) with true by (symmetry; apply Z.ltb_lt; lia). cbn [negb]. clear Hn Pw.
    destruct (Z.lt_ge_cases b (2 ^ 64 - 11)) as [T|T].
    + assert (E : word_count b = (b + 11) / 12) by (unfold word_count, u64, bits_per_word; rewrite Z.mod_small by lia; f_equal; lia).
      rewrite E. unfold make_uint16_ok. replace (2 * ((b + 11) / 12) <=? 2 ^ 48) with false by (symmetry; apply Z.leb_gt; lia). cbn [negb].
      split; [intros _; lia|reflexivity].
    + assert (E : word_count b = 0).
      { unfold word_count, u64, bits_per_word. replace (b + 12 - 1) with (b + 11 - 2 ^ 64 + 1 * 2 ^ 64) by lia.
        rewrite Z.mod_add by lia. rewrite Z.mod_small by lia. apply Z.div_small. lia. }
      rewrite E. change (make_uint16_ok 0) with true. cbn [negb Z.to_nat encode_loop]. rewrite bit_len_0.
      destruct (n =? 0) eqn:Q; cbn [negb]; (split; [|intros H]); [discriminate|lia|intros _; lia|reflexivity].
Qed.
Print Assumptions encode_indices_panics_exactly.

(** The documented number of words, for every n that fits: false. *)
Theorem indices_count_refuted : exists n bit_size, 0 <= bit_size < 2 ^ 64 /\ 0 <= n < 2 ^ bit_size /\
  encode_to_indices n bit_size = Ok ([], n) /\ (bit_size + 11) / 12 <> 0.
Proof.
  exists 0, (2 ^ 64 - 1). split; [lia|]. split; [split; [lia|apply pow2_pos; lia]|].
  split; [reflexivity|vm_compute; discriminate].
Qed.
Print Assumptions indices_count_refuted.

(** the indices are uint16, so "too large" means 4096 <= i < 65536 *)
Theorem decode_indices_refuses : forall is, Forall (fun i => 0 <= i < 65536) is ->
  (exists n, decode_indices is = Ok n) /\ Forall (fun i => i < 4096) is \/
  decode_indices is = Err ErrInvalidIndex /\ ~ Forall (fun i => i < 4096) is.
Proof.
  unfold decode_indices. intros is H. generalize 0 as a.
  induction H as [|i is Hi His IH]; intros a; cbn [decode_indices_from].
  - left. eauto.
  - unfold bits_per_word. rewrite bit_len_gtb by lia. change (2 ^ 12) with 4096.
    destruct (Z.abs i <? 4096) eqn:Q; cbn [negb].
    + destruct (IH (Z.lor (Z.shiftl a 12) i)) as [[E F]|[E F]].
      * left. split; auto. constructor; auto. lia.
      * right. split; auto. intros X. inversion X; auto.
    + right. split; auto. intros X. inversion X; lia.
Qed.
Print Assumptions decode_indices_refuses.

(** ** C23 *)
Theorem encode_indices_zeroes_argument : forall n bit_size is rest, 0 <= n ->
  encode_to_indices n bit_size = Ok (is, rest) -> rest = 0.
Proof.
  intros n b is rest Hn. unfold encode_to_indices. destruct (bit_len n >? b); [discriminate|].
  destruct (negb _); [discriminate|]. generalize (@nil Z). revert n Hn. generalize (Z.to_nat (word_count b)).
  intros k. induction k as [|k IH]; intros n Hn acc; cbn [encode_loop]; rewrite bit_len_0;
    destruct (n =? 0) eqn:Q; cbn [negb].
  - intros [= _ <-]. lia.
  - discriminate.
  - intros [= _ <-]. lia.
  - apply IH. apply Z.shiftr_nonneg. auto.
Qed.
Print Assumptions encode_indices_zeroes_argument.

Theorem encode_indices_keeps_argument_refuted : exists n bit_size is rest,
  encode_to_indices n bit_size = Ok (is, rest) /\ rest <> n.
Proof. exists 5, 12, [5], 0. vm_compute. split; [reflexivity|discriminate]. Qed.
Print Assumptions encode_indices_keeps_argument_refuted.

(** ** C24 *)
Theorem words_roundtrip : forall E is, wordlist_ok E -> Forall (fun i => 0 <= i < 4096) is ->
  exists ws, encode_to_words E is = Ok ws /\ decode_words E ws = Ok is /\
    (forall j i, nth_error is j = Some i -> nth_error ws j = nth_error (wl_words E) (Z.to_nat i)).
Proof.
  intros E is W H. exists (spell_indices E is). split; [apply (encode_to_words_ok E W); auto|].
  split; [apply (decode_words_spell E W); auto|].
  intros j i Hj. unfold spell_indices. rewrite nth_error_map, Hj. cbn.
  rewrite (nth_word E W); auto. rewrite Forall_forall in H. apply H. eapply nth_error_In; eauto.
Qed.
Print Assumptions words_roundtrip.

Theorem encode_words_refuses : forall E is, wordlist_ok E -> Forall (fun i => 0 <= i < 65536) is ->
  (exists ws, encode_to_words E is = Ok ws /\ length ws = length is) /\ Forall (fun i => i < 4096) is \/
  encode_to_words E is = Err ErrInvalidIndex /\ ~ Forall (fun i => i < 4096) is.
Proof.
  intros E is W H.
  induction H as [|i is Hi His IH]; cbn [encode_to_words].
  - left. split; eauto.
  - unfold bits_per_word. rewrite bit_len_gtb by lia. change (2 ^ 12) with 4096.
    destruct (Z.abs i <? 4096) eqn:Q; cbn [negb].
    + unfold go_index. rewrite (nth_word E W) by lia. cbn [bind].
      destruct IH as [[[ws [-> L]] F]|[-> F]]; cbn [bind].
      * left. split; [|constructor; auto; lia]. eexists. split; eauto. cbn. auto.
      * right. split; auto. intros X. inversion X; auto.
    + right. split; auto. intros X. inversion X; lia.
Qed.
Print Assumptions encode_words_refuses.

Theorem decode_words_exact : forall E ws, wordlist_ok E ->
  (Forall (known_word E) ws /\ exists is, decode_words E ws = Ok is /\ length is = length ws /\
     encode_to_words E is = Ok (map (to_lower E) ws)) \/
  (~ Forall (known_word E) ws /\ decode_words E ws = Err ErrInvalidWord).
Proof.
  intros E ws W. destruct (decode_words_total E W ws) as [[H [l [D L]]]|[H D]].
  - left. split; auto. exists l. split; auto. split; auto.
    apply (decode_words_spec E W) in D as [B M]. rewrite M. apply (encode_to_words_ok E W); auto.
  - right. auto.
Qed.
Print Assumptions decode_words_exact.

Example words_case : decode_words toy_env [bs "ABC"; bs "ppp"] = Ok [18; 4095] /\
  decode_words toy_env [bs "ABC"; bs "ppq"] = Err ErrInvalidWord.
Proof. vm_compute. auto. Qed.
