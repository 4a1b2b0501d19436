(** C08-C10: what the five checksum bits detect. *)
From Coq Require Import Lia ZifyBool ZifyNat FinFun.
From Verif.Model Require Import GoBase Env Crc32 Recovery.
From Verif.Spec Require Import EnvSpec PhraseSpec DecodeSpec CorruptSpec.
From Verif.Proofs Require Import BitsP WordsP CrcP PhraseP DecodeP EnvInst RoundtripP CorruptP.
Ltac Zify.zify_post_hook ::= Z.div_mod_to_equations.

(** ** C08 *)
Theorem one_wrong_word : forall E ws j, wordlist_ok E -> accepted E ws -> (j < length ws)%nat ->
  exists good, NoDup good /\ length good = (if Nat.eqb j 0 then 7 else 127)%nat /\
    forall i, In i good <-> 0 <= i < 4096 /\ word E i <> to_lower E (nth j ws []) /\
                            accepted E (put_word ws j (word E i)).
Proof.
  intros E ws j W A Hj. destruct (accepted_spells E W ws A) as [n HS].
  set (k := length ws) in *. set (c := digit k n j).
  assert (Hc : 0 <= c < 4096) by apply digit_bound.
  exists (map (Z.lxor c) (silent_other k j)).
  split.
  { apply Injective_map_NoDup; [apply lxor_inj | apply silent_other_nodup]. }
  split.
  { rewrite map_length. apply silent_count; auto. apply (accepted_length E W ws A). }
  assert (key : forall x, 0 <= x < 4096 ->
     (accepted E (put_word ws j (word E (Z.lxor c x))) <-> In x (silent k j))).
  { intros x Hx. rewrite (accepted_lxor E ws _ n (place k j x)); auto.
    - symmetry. apply silent_spec; auto.
    - unfold put_word. rewrite map_length, seq_length. reflexivity.
    - apply (spells_put E W); auto. }
  intros i. rewrite in_map_iff. split.
  - intros [x [<- Hx]]. apply silent_other_spec in Hx as [Hx Hnz].
    pose proof (silent_bound _ _ _ Hx) as Bx.
    assert (Bc : 0 <= Z.lxor c x < 2 ^ 12) by (apply lxor_bound; lia).
    split; [lia|]. split.
    + rewrite (spells_digit E ws n j) by auto. fold k c. intros H. apply (word_inj E W) in H; try lia.
      assert (x = 0); [|lia]. rewrite <- (Z.lxor_0_r c) in H at 2. apply lxor_inj in H. auto.
    + apply key; auto.
  - intros [Hi [Hne Hac]]. exists (Z.lxor c i).
    assert (R : Z.lxor c (Z.lxor c i) = i) by (rewrite <- Z.lxor_assoc, Z.lxor_nilpotent, Z.lxor_0_l; auto).
    split; auto. assert (Bx : 0 <= Z.lxor c i < 2 ^ 12) by (apply lxor_bound; lia).
    apply silent_other_spec. split.
    + apply key; [lia|]. rewrite R. auto.
    + intros H0. apply (proj1 (lxor_eq_iff _ _)) in H0. apply Hne.
      rewrite (spells_digit E ws n j) by auto. rewrite <- H0. reflexivity.
Qed.
Print Assumptions one_wrong_word.

(** ** C09 *)
Lemma swap_decided k j m E ws a b : (1 <= j < m)%nat -> (m < k)%nat ->
  wordlist_ok E -> accepted E ws -> length ws = k -> 0 <= a < 4096 -> 0 <= b < 4096 ->
  to_lower E (nth j ws []) = word E a -> to_lower E (nth m ws []) = word E b ->
  (accepted E (swap_words ws j m) <-> In (Z.lxor a b) (silent_swap k j m)).
Proof.
  intros Hjm Hm.  intros W A L Ha Hb Wa Wb. destruct (accepted_spells E W ws A) as [n HS].
  assert (Ea : a = digit k n j).
  { apply (word_inj E W); auto; [apply digit_bound|]. rewrite <- Wa, <- L. apply spells_digit; auto. lia. }
  assert (Eb : b = digit k n m).
  { apply (word_inj E W); auto; [apply digit_bound|]. rewrite <- Wb, <- L. apply spells_digit; auto. lia. }
  assert (Bx : 0 <= Z.lxor a b < 2 ^ 12) by (apply lxor_bound; lia).
  rewrite silent_swap_spec by lia. rewrite <- L.
  apply (accepted_lxor E ws _ n); auto.
  - unfold swap_words. rewrite map_length, seq_length. reflexivity.
  - rewrite Ea, Eb, <- L. apply spells_swap; auto; lia.
Qed.

(** For each phrase length k and two positions past the first there is a set of word-number
    differences, the same for all word lists and phrases, that decides; it has 128 members
    except for the third and fifteenth words of an encrypted phrase, where it has 256. *)
Theorem two_words_swapped : forall k j m, (k = 14 \/ k = 16)%nat -> (1 <= j < m)%nat -> (m < k)%nat ->
  exists diffs, NoDup diffs /\
    length diffs = (if Nat.eqb k 16 && Nat.eqb j 2 && Nat.eqb m 14 then 256 else 128)%nat /\
    forall E ws a b, wordlist_ok E -> accepted E ws -> length ws = k ->
      0 <= a < 4096 -> 0 <= b < 4096 ->
      to_lower E (nth j ws []) = word E a -> to_lower E (nth m ws []) = word E b ->
      (accepted E (swap_words ws j m) <-> In (Z.lxor a b) diffs).
Proof.
  intros k j m Hk Hjm Hm. exists (silent_swap k j m).
  split; [apply silent_swap_nodup|].
  split; [apply swap_count_ok; auto|].
  intros E ws a b W A L Ha Hb Wa Wb. apply (swap_decided k j m); auto.
Qed.
Print Assumptions two_words_swapped.

(** two distinct words, so a real swap, can go unnoticed: the set above always has a non-zero member *)
Theorem adjacent_swaps : forall k j, (k = 14 \/ k = 16)%nat -> (1 <= j)%nat -> (S j < k)%nat ->
  exists diffs, NoDup diffs /\ length diffs = 127%nat /\ ~ In 0 diffs /\
    forall E ws a b, wordlist_ok E -> accepted E ws -> length ws = k ->
      0 <= a < 4096 -> 0 <= b < 4096 -> a <> b ->
      to_lower E (nth j ws []) = word E a -> to_lower E (nth (S j) ws []) = word E b ->
      (accepted E (swap_words ws j (S j)) <-> In (Z.lxor a b) diffs).
Proof.
  intros k j Hk Hj Hm. pose proof (silent_swap_nodup k j (S j)) as ND.
  pose proof (swap_count_ok k j (S j) Hk ltac:(lia) Hm) as L. unfold swap_count in L.
  replace (Nat.eqb k 16 && Nat.eqb j 2 && Nat.eqb (S j) 14) with false in L
    by (symmetry; destruct (Nat.eqb j 2) eqn:Q; [apply Nat.eqb_eq in Q; subst; destruct (Nat.eqb k 16); reflexivity | destruct (Nat.eqb k 16); reflexivity]).
  assert (D : forall E ws a b, wordlist_ok E -> accepted E ws -> length ws = k -> 0 <= a < 4096 -> 0 <= b < 4096 ->
      to_lower E (nth j ws []) = word E a -> to_lower E (nth (S j) ws []) = word E b ->
      (accepted E (swap_words ws j (S j)) <-> In (Z.lxor a b) (silent_swap k j (S j))))
    by (intros; apply swap_decided; auto; lia).
  assert (Z0 : In 0 (silent_swap k j (S j))).
  { apply silent_swap_spec; try lia. unfold place. rewrite !Z.mul_0_l. change (Z.lxor 0 0) with 0.
    split; [apply Z.div_0_l; apply Z.pow_nonzero; unfold vshift; lia | apply delta_0]. }
  remember (silent_swap k j (S j)) as ds eqn:Hds. clear Hds.
  apply in_split in Z0 as [l1 [l2 ->]]. exists (l1 ++ l2).
  split; [apply NoDup_remove_1 in ND; auto|].
  split; [rewrite app_length in *; cbn in L; lia|].
  split; [apply NoDup_remove_2 in ND; auto|].
  intros E ws a b W A Lw Ha Hb Hab Wa Wb. rewrite (D E ws a b W A Lw Ha Hb Wa Wb).
  rewrite !in_app_iff. cbn. split; [intros [?|[H|?]]; auto|intros [?|?]; auto].
  symmetry in H. apply (proj1 (lxor_eq_iff _ _)) in H. congruence.
Qed.
Print Assumptions adjacent_swaps.

(** non-trivial instances over the toy list: an accepted phrase, an accepted and a rejected wrong
    word; an accepted swap of distinct words and a rejected one *)
Definition accepts (r : res decoded) : bool := match r with Ok _ => true | _ => false end.

Example corrupt_case :
  let ws := words_of_int toy_env 14 (plain_int 0x0123456789abcdef0123456789abcdef 1268800) in
  accepts (decode_mnemonic toy_env ws) = true /\ nth 4 ws [] = word toy_env 3021 /\
  accepts (decode_mnemonic toy_env (put_word ws 4 (word toy_env 3011))) = true /\
  accepts (decode_mnemonic toy_env (put_word ws 4 (word toy_env 3022))) = false.
Proof. vm_compute. auto. Qed.

Example swap_case :
  let ws := words_of_int toy_env 14 (plain_int (0x100 * 2 ^ 72 + 0x117 * 2 ^ 60 + 5) 77) in
  accepts (decode_mnemonic toy_env ws) = true /\
  nth 4 ws [] = word toy_env 0x100 /\ nth 5 ws [] = word toy_env 0x117 /\
  accepts (decode_mnemonic toy_env (swap_words ws 4 5)) = true /\
  accepts (decode_mnemonic toy_env (swap_words ws 4 6)) = false.
Proof. vm_compute. auto. Qed.

(** ** C10 *)
(** For phrases of one version, over any two word lists: whether a difference of the spelled
    numbers is detected does not depend on the phrase. *)
Theorem detection_depends_on_difference : forall E E' ws ws' vs vs' n m d,
  wordlist_ok E -> wordlist_ok E' ->
  accepted E ws -> accepted E' vs -> length ws = length vs ->
  length ws' = length ws -> length vs' = length vs ->
  spells E ws n -> spells E ws' (Z.lxor n d) ->
  spells E' vs m -> spells E' vs' (Z.lxor m d) ->
  (accepted E ws' <-> accepted E' vs').
Proof.
  intros E E' ws ws' vs vs' n m d W W' A B L L1 L2 S1 S2 S3 S4.
  rewrite (accepted_lxor E ws ws' n d), (accepted_lxor E' vs vs' m d) by auto. rewrite L. reflexivity.
Qed.
Print Assumptions detection_depends_on_difference.

(** Even across versions, for differences within the bits both kinds have below the version. *)
Theorem detection_independent_of_version : forall E ws ws' vs vs' n m d,
  wordlist_ok E -> accepted E ws -> accepted E vs -> length ws = 14%nat -> length vs = 16%nat ->
  length ws' = 14%nat -> length vs' = 16%nat -> 0 <= d < 2 ^ 164 ->
  spells E ws n -> spells E ws' (Z.lxor n d) ->
  spells E vs m -> spells E vs' (Z.lxor m d) ->
  (accepted E ws' <-> accepted E vs').
Proof.
  intros E ws ws' vs vs' n m d W A B L M L1 L2 Hd S1 S2 S3 S4.
  rewrite (accepted_lxor E ws ws' n d), (accepted_lxor E vs vs' m d) by (auto; congruence).
  rewrite L, M. rewrite (Z.div_small d (2 ^ vshift 14)), (Z.div_small d (2 ^ vshift 16)) by (change (vshift 14) with 164; change (vshift 16) with 188; lia).
  change (nbytes 14) with 21%nat. change (nbytes 16) with 24%nat.
  replace (delta 24 d) with (delta 21 d); [reflexivity|].
  unfold delta. f_equal. f_equal.
  assert (Hb : forall k x, (21 <= k)%nat -> 0 <= x < 2 ^ 168 -> be_bytes (S k) x = 0 :: be_bytes k x).
  { intros k x Hk Hx. cbn [be_bytes]. rewrite Z.div_small; [reflexivity|].
    split; [lia|]. apply Z.lt_le_trans with (2 ^ 168); [lia|]. apply Z.pow_le_mono_r; lia. }
  rewrite (Hb 23%nat), (Hb 22%nat), (Hb 21%nat) by lia.
  assert (Z0 : forall l, crc_register 0 (0 :: l) = crc_register 0 l) by (intros; unfold crc_register; cbn [fold_left]; change (crc_byte 0 0) with 0; auto).
  rewrite !Z0. auto.
Qed.
Print Assumptions detection_independent_of_version.

(** Single flipped bits that are never detected, counted from the least significant bit of the
    number the phrase spells (bits 0-4 are the checksum, 5-35 the offset). *)
Definition blind_bits_plain : list Z := [12; 26; 27; 28; 38; 39; 83; 85; 100; 147].
Definition blind_bits_enc : list Z := [12; 26; 27; 28; 38; 39; 83; 85; 100; 147; 173; 174; 175; 176].

Theorem blind_bits : forall E ws ws' n b,
  wordlist_ok E -> accepted E ws -> length ws' = length ws ->
  0 <= b < 12 * zlen ws -> spells E ws n -> spells E ws' (Z.lxor n (2 ^ b)) ->
  (accepted E ws' <-> In b (if Nat.eqb (length ws) 14 then blind_bits_plain else blind_bits_enc)).
Proof.
  intros E ws ws' n b W A L Hb S1 S2.
  rewrite (accepted_lxor E ws ws' n (2 ^ b)) by auto.
  assert (sweep : forall k B, (forallb (fun i => let b := Z.of_nat i in
     Bool.eqb ((2 ^ b / 2 ^ vshift k =? 0) && (delta (nbytes k) (2 ^ b) =? 0)) (existsb (Z.eqb b) B)) (seq 0 (12 * k)) = true) ->
     0 <= b < 12 * Z.of_nat k -> (2 ^ b / 2 ^ vshift k = 0 /\ delta (nbytes k) (2 ^ b) = 0 <-> In b B)).
  { intros k B SW Hk. rewrite forallb_forall in SW.
    assert (Ib : In (Z.to_nat b) (seq 0 (12 * k))) by (apply in_seq; lia).
    specialize (SW _ Ib). cbv zeta in SW. rewrite Z2Nat.id in SW by lia. apply eqb_prop in SW.
    rewrite <- !Z.eqb_eq, <- andb_true_iff, SW, existsb_exists. split.
    - intros [x [Hx Q]]. apply Z.eqb_eq in Q. congruence.
    - intros H. exists b. split; auto. apply Z.eqb_refl. }
  unfold zlen in Hb. destruct (accepted_length E W ws A) as [Lk|Lk]; rewrite Lk in *.
  - apply sweep; [vm_compute; reflexivity|lia].
  - apply sweep; [vm_compute; reflexivity|lia].
Qed.
Print Assumptions blind_bits.

Example blind_bit_case :
  let n := plain_int 0x0123456789abcdef0123456789abcdef 1268800 in
  decode_mnemonic toy_env (words_of_int toy_env 14 n) = Ok (mk_decoded 0 0x0123456789abcdef0123456789abcdef 0 0 1268800) /\
  decode_mnemonic toy_env (words_of_int toy_env 14 (Z.lxor n (2 ^ 147))) = Ok (mk_decoded 0 (Z.lxor 0x0123456789abcdef0123456789abcdef (2 ^ 111)) 0 0 1268800).
Proof. cbv zeta. split; vm_compute; reflexivity. Qed.
