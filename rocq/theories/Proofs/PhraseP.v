From Coq Require Import Lia ZifyBool ZifyNat.
From Verif.Model Require Import GoBase Env BitBuffer Crc32 MnemonicPkg Version Seed Encoding Recovery.
From Verif.Spec Require Import EnvSpec PhraseSpec DecodeSpec.
From Verif.Proofs Require Import BitsP BitBufferP WordsP CrcP.
Ltac Zify.zify_post_hook ::= Z.div_mod_to_equations.

Lemma checksum_model nb x k : 0 <= x -> k = ((nb + 7) / 8)%nat ->
  Z.land checksum_mask (crc32 (be_bytes k x)) = checksum_spec nb x.
Proof.
  intros Hx ->. unfold checksum_mask, checksum_bits. rewrite land_mask by lia.
  unfold checksum_spec. rewrite bytes_of_bits_be.
  destruct (crc32_correct _ (be_bytes_byte ((nb + 7) / 8) x)) as [-> _]. reflexivity.
Qed.

Lemma crc_nonneg l : Forall byte l -> 0 <= crc32 l.
Proof. intros H. apply crc32_correct in H. lia. Qed.

Section P.
Variable E : Env.
Hypothesis W : wordlist_ok E.

Lemma encode_mnemonic_ok version nb k p :
  0 <= p < 2 ^ Z.of_nat nb ->
  payload_bit_count version = Z.of_nat nb + 5 ->
  (nb + 5 = 12 * k)%nat ->
  encode_mnemonic E version (mk_bb p (Z.of_nat nb)) =
  Ok (words_of_int E k (p * 2 ^ 5 + checksum_spec nb p)).
Proof.
  intros Hp Hc Hk. unfold encode_mnemonic. rewrite bytes_ok by lia. cbn [bind].
  rewrite (checksum_model nb) by lia.
  pose proof (checksum_spec_bound nb p) as Hcs.
  unfold checksum_bits. rewrite append_trailing_ok by lia. cbn [bind bb_nbits bb_value].
  rewrite Hc, Z.eqb_refl. cbn [negb].
  assert (B : 0 <= p * 2 ^ 5 + checksum_spec nb p < 2 ^ (Z.of_nat nb + 5)).
  { rewrite Z.pow_add_r by lia. change (2 ^ 5) with 32 in *. nia. }
  assert (S : Z.of_nat nb + 5 <= 12 * 2 ^ 47) by (rewrite <- Hc; unfold payload_bit_count; destruct (version =? 0); [|destruct (version =? 1)]; vm_compute; discriminate).
  rewrite encode_to_indices_ok by lia. cbn [bind].
  rewrite (encode_to_words_ok E W) by apply digits_bound.
  rewrite (words_of_int_spell E). do 3 f_equal. lia.
Qed.

Lemma encode_plain_ok s off :
  seed_era s = 0 -> 0 <= seed_value s < 2 ^ 128 -> 0 <= off < 2 ^ 31 ->
  encode_mnemonic_plaintext E s off = Ok (words_of_int E 14 (plain_int (seed_value s) off)).
Proof.
  intros He Hs Ho. unfold encode_mnemonic_plaintext. rewrite He. cbn [era_check bind].
  change (era_check 0) with (Ok tt). cbn [bind].
  unfold version_bits, entropy_bits, offset_bits, seed_int.
  rewrite new_bitbuf_ok by lia. cbn [bind].
  rewrite append_trailing_ok by lia. cbn [bind].
  rewrite append_trailing_ok by lia. cbn [bind].
  change (4 + 128 + 31) with (Z.of_nat 163).
  rewrite (encode_mnemonic_ok 0 163 14); [|lia|reflexivity|reflexivity].
  unfold plain_int. replace ((0 * 2 ^ 128 + seed_value s) * 2 ^ 31 + off) with (plain_payload (seed_value s) off)
    by (unfold plain_payload; lia). reflexivity.
Qed.

Lemma encode_enc_payload_ok e salt ver off :
  0 <= e < 2 ^ 128 -> 0 <= salt < 2 ^ 19 -> 0 <= ver < 2 ^ 5 -> 0 <= off < 2 ^ 31 ->
  (let* buf := new_bitbuf 1 version_bits in
   let* buf := append_trailing buf e entropy_bits in
   let* buf := append_trailing buf salt salt_bits in
   let* buf := append_trailing buf ver verify_bits in
   let* buf := append_trailing buf off offset_bits in
   encode_mnemonic E 1 buf) = Ok (words_of_int E 16 (enc_int e salt ver off)).
Proof.
  intros. unfold version_bits, entropy_bits, offset_bits, salt_bits, verify_bits.
  rewrite new_bitbuf_ok by lia. cbn [bind].
  do 4 (rewrite append_trailing_ok by lia; cbn [bind]).
  change (4 + 128 + 19 + 5 + 31) with (Z.of_nat 187).
  rewrite (encode_mnemonic_ok 1 187 16); [|lia|reflexivity|reflexivity].
  unfold enc_int.
  replace ((((1 * 2 ^ 128 + e) * 2 ^ 19 + salt) * 2 ^ 5 + ver) * 2 ^ 31 + off)
    with (enc_payload e salt ver off) by (unfold enc_payload; lia). reflexivity.
Qed.

(** first word and version *)
Lemma first_index_parse ws i : first_index E ws i ->
  exists w0 rest, ws = w0 :: rest /\
    parse_mnemonic_version E w0 = (if i / 256 >? 1 then Err ErrInvalidVersionNumber else Ok (i / 256)) /\ i < 4096.
Proof.
  intros [Hi [w0 [rest [-> Hw]]]]. exists w0, rest. split; auto.
  assert (Hb : i < 4096).
  { assert (nth_error (wl_words E) (Z.to_nat i) <> None) by congruence.
    apply nth_error_Some in H. pose proof (wl_zlen E W). unfold zlen in *. lia. }
  split; auto.
  unfold parse_mnemonic_version, parse_version_raw.
  assert (Hm : word_map E (to_lower E w0) = Some i) by (apply (word_map_spec E W); split; auto; lia).
  rewrite Hm. unfold version_check, version_latest, bits_per_word, version_bits.
  rewrite Z.shiftr_div_pow2 by lia. change (2 ^ (12 - 4)) with 256.
  destruct (i / 256 >? 1); reflexivity.
Qed.

Lemma spells_first ws n : ws <> [] -> spells E ws n ->
  first_index E ws (n / 4096 ^ (zlen ws - 1)).
Proof.
  intros Hne [Hn Hw]. destruct ws as [|w0 rest]; [congruence|].
  unfold zlen in *. cbn [length] in *.
  rewrite (words_of_int_spell E), digits_cons in Hw. cbn [map spell_indices] in Hw.
  injection Hw as Hw _.
  replace (Z.of_nat (S (length rest)) - 1) with (Z.of_nat (length rest)) by lia.
  rewrite Nat2Z.inj_succ, Z.pow_succ_r in Hn by lia.
  pose proof (p4096_pos (Z.of_nat (length rest))) as Hp.
  assert (Hd : 0 <= n / 4096 ^ Z.of_nat (length rest) < 4096).
  { split; [apply Z.div_pos; lia|]. apply Z.div_lt_upper_bound; lia. }
  rewrite Z.mod_small in Hw by lia.
  split; [lia|]. exists w0, rest. split; auto. rewrite Hw. apply (nth_word E W). auto.
Qed.

Lemma first_index_unique ws i j : first_index E ws i -> first_index E ws j -> i = j.
Proof.
  intros [Hi [w [r [-> Hw]]]] [Hj [w' [r' [[= <- <-] Hw']]]].
  assert (Z.to_nat i = Z.to_nat j); [|lia].
  eapply (proj1 (NoDup_nth_error (wl_words E))); [apply (wlo_nodup E W)| |congruence].
  apply nth_error_Some. congruence.
Qed.

(** core of the decoder once version, count and words are fine *)
Lemma decode_core_plain ws n : length ws = 14%nat -> spells E ws n -> n / 2 ^ 164 = 0 ->
  decode_mnemonic E ws =
  if n mod 32 =? checksum_spec 163 (n / 32)
  then Ok (mk_decoded 0 (n / 2 ^ 36) 0 0 (n / 32 mod 2 ^ 31))
  else Err ErrInvalidChecksum.
Proof.
  intros HL HS HV.
  assert (Hne : ws <> []) by (destruct ws; discriminate).
  pose proof (spells_first ws n Hne HS) as HF. unfold zlen in HF. rewrite HL in HF.
  assert (Hb : 0 <= n < 2 ^ 168).
  { destruct HS as [HS _]. unfold zlen in HS. rewrite HL in HS. exact HS. }
  change (4096 ^ (Z.of_nat 14 - 1)) with (2 ^ 156) in HF.
  destruct (first_index_parse _ _ HF) as [w0 [rest [-> [HP _]]]].
  replace (n / 2 ^ 156 / 256) with 0 in HP by (rewrite Z.div_div by lia; exact (eq_sym HV)).
  cbn [Z.gtb Z.compare] in HP.
  apply (spells_decode E W) in HS as [l [Hd [Hl Hi]]].
  unfold decode_mnemonic. rewrite HP. cbn [bind].
  change (version_check 0) with (Ok tt). cbn [bind].
  unfold zlen. rewrite HL. change (Z.of_nat 14 =? mnemonic_size 0) with true. cbn [negb].
  rewrite Hd. cbn [bind]. rewrite Hi. cbn [bind].
  change (Z.of_nat 14 * bits_per_word) with 168.
  rewrite new_bitbuf_ok by lia. cbn [bind].
  unfold checksum_bits. rewrite pop_trailing_ok by lia. cbn [bind].
  change (168 - 5) with 163. change (2 ^ 5) with 32.
  rewrite bytes_ok by lia. cbn [bind].
  rewrite (checksum_model 163) by (try reflexivity; lia).
  unfold u32, big_uint64, u64.
  rewrite (Z.abs_eq (n mod 32)) by lia.
  rewrite (Z.mod_small (n mod 32) (2 ^ 64)), (Z.mod_small (n mod 32) (2 ^ 32)) by lia.
  rewrite (Z.eqb_sym (checksum_spec _ _)).
  destruct (n mod 32 =? checksum_spec 163 (n / 32)); cbn [negb]; auto.
  unfold version_bits. rewrite pop_leading_ok by lia. cbn [bind].
  assert (X : (n / 32) mod 2 ^ (163 - 4) = n / 32) by (apply Z.mod_small; lia). rewrite X.
  unfold entropy_bits. rewrite pop_leading_ok by lia. cbn [bind].
  change (0 =? 1) with false. cbn [bind].
  unfold offset_bits. rewrite pop_leading_ok by lia. cbn [bind bb_nbits].
  change (163 - 4 - 128 - 31 =? 0) with true. cbn [negb].
  change (163 - 4 - 128 - 31) with 0. change (163 - 4 - 128) with 31.
  change (2 ^ 0) with 1. rewrite Z.div_1_r.
  rewrite Z.div_div by lia. change (32 * 2 ^ 31) with (2 ^ 36).
  do 2 f_equal. rewrite Z.abs_eq by lia. rewrite (Z.mod_small _ (2 ^ 64)) by lia. apply Z.mod_small. lia.
Qed.

Lemma decode_core_enc ws n : length ws = 16%nat -> spells E ws n -> n / 2 ^ 188 = 1 ->
  decode_mnemonic E ws =
  if n mod 32 =? checksum_spec 187 (n / 32)
  then Ok (mk_decoded 1 (n / 2 ^ 60 mod 2 ^ 128) (n / 2 ^ 41 mod 2 ^ 19)
             (n / 2 ^ 36 mod 2 ^ 5) (n / 32 mod 2 ^ 31))
  else Err ErrInvalidChecksum.
Proof.
  intros HL HS HV.
  assert (Hne : ws <> []) by (destruct ws; discriminate).
  pose proof (spells_first ws n Hne HS) as HF. unfold zlen in HF. rewrite HL in HF.
  assert (Hb : 0 <= n < 2 ^ 192).
  { destruct HS as [HS _]. unfold zlen in HS. rewrite HL in HS. exact HS. }
  change (4096 ^ (Z.of_nat 16 - 1)) with (2 ^ 180) in HF.
  destruct (first_index_parse _ _ HF) as [w0 [rest [-> [HP _]]]].
  replace (n / 2 ^ 180 / 256) with 1 in HP by (rewrite Z.div_div by lia; exact (eq_sym HV)).
  cbn [Z.gtb Z.compare] in HP. change (1 >? 1) with false in HP. cbn in HP.
  apply (spells_decode E W) in HS as [l [Hd [Hl Hi]]].
  unfold decode_mnemonic. rewrite HP. cbn [bind].
  change (version_check 1) with (Ok tt). cbn [bind].
  unfold zlen. rewrite HL. change (Z.of_nat 16 =? mnemonic_size 1) with true. cbn [negb].
  rewrite Hd. cbn [bind]. rewrite Hi. cbn [bind].
  change (Z.of_nat 16 * bits_per_word) with 192.
  rewrite new_bitbuf_ok by lia. cbn [bind].
  unfold checksum_bits. rewrite pop_trailing_ok by lia. cbn [bind].
  change (192 - 5) with 187. change (2 ^ 5) with 32.
  rewrite bytes_ok by lia. cbn [bind].
  rewrite (checksum_model 187) by (try reflexivity; lia).
  unfold u32, big_uint64, u64.
  rewrite (Z.abs_eq (n mod 32)) by lia.
  rewrite (Z.mod_small (n mod 32) (2 ^ 64)), (Z.mod_small (n mod 32) (2 ^ 32)) by lia.
  rewrite (Z.eqb_sym (checksum_spec _ _)).
  destruct (n mod 32 =? checksum_spec 187 (n / 32)); cbn [negb]; auto.
  set (p := n / 32) in *.
  assert (Hp : 0 <= p < 2 ^ 187) by (unfold p; lia).
  assert (P1 : n / 2 ^ 60 = p / 2 ^ 55) by (unfold p; rewrite Z.div_div by lia; reflexivity).
  assert (P2 : n / 2 ^ 41 = p / 2 ^ 36) by (unfold p; rewrite Z.div_div by lia; reflexivity).
  assert (P3 : n / 2 ^ 36 = p / 2 ^ 31) by (unfold p; rewrite Z.div_div by lia; reflexivity).
  rewrite P1, P2, P3. clearbody p. clear - Hp.
  unfold version_bits. rewrite pop_leading_ok by lia. cbn [bind].
  unfold entropy_bits. rewrite pop_leading_ok by lia. cbn [bind].
  change (1 =? 1) with true. cbn [bind].
  unfold salt_bits. rewrite pop_leading_ok by lia. cbn [bind].
  unfold verify_bits. rewrite pop_leading_ok by lia. cbn [bind].
  unfold offset_bits. rewrite pop_leading_ok by lia. cbn [bind bb_nbits].
  change (187 - 4 - 128 - 19 - 5 - 31) with 0.
  change (0 =? 0) with true. cbn [negb].
  change (187 - 4 - 128 - 19 - 5) with 31.
  change (187 - 4 - 128 - 19) with 36.
  change (187 - 4 - 128) with 55. change (187 - 4) with 183.
  change (2 ^ 0) with 1. rewrite Z.div_1_r. unfold u8.
  set (a := p mod 2 ^ 183). set (b := a mod 2 ^ 55). set (c := b mod 2 ^ 36). set (d := c mod 2 ^ 31).
  assert (0 <= a < 2 ^ 183) by (apply Z.mod_pos_bound; lia).
  assert (0 <= b < 2 ^ 55) by (apply Z.mod_pos_bound; lia).
  assert (0 <= c < 2 ^ 36) by (apply Z.mod_pos_bound; lia).
  assert (0 <= d < 2 ^ 31) by (apply Z.mod_pos_bound; lia).
  assert (0 <= c / 2 ^ 31 < 32) by lia.
  rewrite !Z.abs_eq by lia. rewrite !(Z.mod_small _ (2 ^ 64)) by lia.
  rewrite (Z.mod_small d) by lia. rewrite (Z.mod_small (c / 2 ^ 31)) by lia.
  assert (Mb : b = p mod 2 ^ 55).
  { unfold b, a. symmetry. apply Znumtheory.Zmod_div_mod; try lia. exists (2 ^ 128). lia. }
  assert (Mc : c = p mod 2 ^ 36).
  { unfold c. rewrite Mb. symmetry. apply Znumtheory.Zmod_div_mod; try lia. exists (2 ^ 19). lia. }
  assert (Md : d = p mod 2 ^ 31).
  { unfold d. rewrite Mc. symmetry. apply Znumtheory.Zmod_div_mod; try lia. exists (2 ^ 5). lia. }
  clearbody b c d.
  apply f_equal. unfold a in *. clear a. f_equal; subst b c d; try reflexivity; lia.
Qed.
End P.
