From Coq Require Import Lia ZifyBool ZifyNat.
From Verif.Model Require Import GoBase Env BitBuffer Crc32 MnemonicPkg Version Seed Encoding Recovery.
From Verif.Spec Require Import EnvSpec PhraseSpec DecodeSpec CaseSpec.
From Verif.Proofs Require Import BitsP BitBufferP WordsP CrcP PhraseP DecodeP.
Ltac Zify.zify_post_hook ::= Z.div_mod_to_equations.

Lemma new_seed_ok era e : era = 0 -> 0 <= e < 2 ^ 128 -> new_seed era e = Ok (mk_seed era e).
Proof.
  intros -> He. unfold new_seed. change (era_check 0) with (Ok tt). cbn [bind].
  unfold entropy_bits. rewrite bit_len_gtb_false by lia. reflexivity.
Qed.

Lemma seed_eta s : seed_era s = 0 -> mk_seed 0 (seed_value s) = s.
Proof. destruct s; cbn; intros ->; auto. Qed.

Lemma dm_seed_plain e a b o : 0 <= e < 2 ^ 128 -> dm_seed (mk_decoded 0 e a b o) = Ok (mk_seed 0 e).
Proof. intros. change (dm_seed (mk_decoded 0 e a b o)) with (new_seed 0 e). apply new_seed_ok; auto. Qed.

Lemma words_of_int_length E k n : length (words_of_int E k n) = k.
Proof. unfold words_of_int. rewrite map_length, seq_length. auto. Qed.

Lemma words_of_int_in E k n : wordlist_ok E -> Forall (fun w => In w (wl_words E)) (words_of_int E k n).
Proof. intros W. rewrite words_of_int_spell. apply (spell_indices_in E W), digits_bound. Qed.

Lemma p164 : 2 ^ 164 < 4096 ^ Z.of_nat 14. Proof. reflexivity. Qed.
Lemma p189 : 2 ^ 189 < 4096 ^ Z.of_nat 16. Proof. reflexivity. Qed.

Lemma decode_plain_words E e o : wordlist_ok E -> 0 <= e < 2 ^ 128 -> 0 <= o < 2 ^ 31 ->
  decode_mnemonic E (words_of_int E 14 (plain_int e o)) = Ok (mk_decoded 0 e 0 0 o).
Proof.
  intros W He Ho. apply (decode_iff_outcome E W).
  apply O_plain; try assumption; try apply words_of_int_length.
  apply (spells_words_of_int E W). pose proof (plain_int_bound e o He Ho). pose proof p164. lia.
Qed.

Lemma decode_enc_words E e s v o : wordlist_ok E ->
  0 <= e < 2 ^ 128 -> 0 <= s < 2 ^ 19 -> 0 <= v < 2 ^ 5 -> 0 <= o < 2 ^ 31 ->
  decode_mnemonic E (words_of_int E 16 (enc_int e s v o)) = Ok (mk_decoded 1 e s v o).
Proof.
  intros W He Hs Hv Ho. apply (decode_iff_outcome E W).
  apply O_encrypted; try assumption; try apply words_of_int_length.
  apply (spells_words_of_int E W). pose proof (enc_int_bound e s v o He Hs Hv Ho). pose proof p189. lia.
Qed.

(** random source *)
Lemma firstn_byte n (l : bytes) : Forall byte l -> Forall byte (firstn n l).
Proof. intros H. revert n. induction H; intros [|n]; cbn; constructor; auto. Qed.

Lemma rand_int_salt src : Forall byte src -> (3 <= length src)%nat ->
  rand_int src (Z.shiftl 1 salt_bits) = Ok (be_uint (firstn 3 src) mod 2 ^ 19, skipn 3 src).
Proof.
  intros Hb Hl. unfold rand_int, salt_bits.
  change (Z.shiftl 1 19) with (2 ^ 19).
  replace (2 ^ 19 <=? 0) with false by reflexivity.
  replace (bit_len (2 ^ 19 - 1)) with 19 by reflexivity.
  cbn [Z.eqb]. change (19 mod 8 =? 0) with false. change (19 mod 8) with 3.
  change (Z.to_nat ((19 + 7) / 8)) with 3%nat.
  cbn [rand_int_loop]. unfold read_full.
  replace (Nat.ltb (length src) 3) with false by (symmetry; apply Nat.ltb_ge; lia).
  cbn [bind]. destruct src as [|a [|b [|c src]]]; try (cbn in Hl; lia).
  cbn [firstn skipn mask_first]. inversion Hb as [|? ? Ha Hb1]; subst. inversion Hb1 as [|? ? Hb' Hb2]; subst.
  inversion Hb2; subst. unfold byte in *.
  rewrite land_mask' by lia. change (2 ^ 3) with 8.
  assert (E1 : be_uint [a mod 8; b; c] = be_uint [a; b; c] mod 2 ^ 19).
  { unfold be_uint. cbn [fold_left]. lia. }
  rewrite E1. replace (be_uint [a; b; c] mod 2 ^ 19 <? 2 ^ 19) with true; auto.
  symmetry. apply Z.ltb_lt. apply Z.mod_pos_bound. lia.
Qed.

Lemma rand_int_salt_short src : (length src < 3)%nat ->
  rand_int src (Z.shiftl 1 salt_bits) = Err ErrRandomSource.
Proof.
  intros Hl. unfold rand_int, salt_bits. change (Z.shiftl 1 19) with (2 ^ 19).
  replace (2 ^ 19 <=? 0) with false by reflexivity.
  replace (bit_len (2 ^ 19 - 1)) with 19 by reflexivity.
  cbn [Z.eqb]. change (19 mod 8 =? 0) with false. change (Z.to_nat ((19 + 7) / 8)) with 3%nat.
  cbn [rand_int_loop]. unfold read_full.
  replace (Nat.ltb (length src) 3) with true by (symmetry; apply Nat.ltb_lt; lia). reflexivity.
Qed.

Lemma mask_first_255 l : Forall byte l -> mask_first 8 l = l.
Proof.
  destruct 1 as [|b l Hb Hl]; auto. cbn [mask_first]. rewrite land_mask' by lia.
  unfold byte in Hb. rewrite Z.mod_small by lia. reflexivity.
Qed.

Lemma rand_int_seed src : Forall byte src -> (16 <= length src)%nat ->
  rand_int src (Z.shiftl 1 entropy_bits) = Ok (be_uint (firstn 16 src), skipn 16 src).
Proof.
  intros Hb Hl. unfold rand_int, entropy_bits. change (Z.shiftl 1 128) with (2 ^ 128).
  replace (2 ^ 128 <=? 0) with false by reflexivity.
  replace (bit_len (2 ^ 128 - 1)) with 128 by reflexivity.
  cbn [Z.eqb]. change (128 mod 8 =? 0) with true. change (Z.to_nat ((128 + 7) / 8)) with 16%nat.
  cbn [rand_int_loop]. unfold read_full.
  replace (Nat.ltb (length src) 16) with false by (symmetry; apply Nat.ltb_ge; lia).
  cbn [bind]. assert (Hf : Forall byte (firstn 16 src)) by (apply firstn_byte; auto).
  rewrite mask_first_255 by auto. pose proof (be_uint_bound _ Hf) as B.
  unfold zlen in B. rewrite firstn_length_le in B by lia.
  replace (be_uint (firstn 16 src) <? 2 ^ 128) with true; auto.
  symmetry. apply Z.ltb_lt. exact (proj2 B).
Qed.

Lemma rand_int_seed_short src : (length src < 16)%nat ->
  rand_int src (Z.shiftl 1 entropy_bits) = Err ErrRandomSource.
Proof.
  intros Hl. unfold rand_int, entropy_bits. change (Z.shiftl 1 128) with (2 ^ 128).
  replace (2 ^ 128 <=? 0) with false by reflexivity.
  replace (bit_len (2 ^ 128 - 1)) with 128 by reflexivity.
  cbn [Z.eqb]. change (128 mod 8 =? 0) with true. change (Z.to_nat ((128 + 7) / 8)) with 16%nat.
  cbn [rand_int_loop]. unfold read_full.
  replace (Nat.ltb (length src) 16) with true by (symmetry; apply Nat.ltb_lt; lia). reflexivity.
Qed.

Lemma enc_seed_key_ok E pw salt off : 0 <= salt < 2 ^ 19 -> 0 <= off < 2 ^ 31 ->
  enc_seed_key E pw salt off = Ok (phrase_key E pw salt off).
Proof.
  intros Hs Ho. unfold enc_seed_key, salt_bits, offset_bits.
  rewrite new_bitbuf_ok by lia. cbn [bind]. rewrite append_trailing_ok by lia. cbn [bind].
  rewrite bytes_ok by lia. cbn [bind]. unfold phrase_key. rewrite bytes_of_bits_be. reflexivity.
Qed.

Lemma phrase_key_ok E pw salt off : argon_ok E ->
  length (phrase_key E pw salt off) = 17%nat /\ Forall byte (phrase_key E pw salt off).
Proof. intros A. apply A. lia. Qed.

Lemma key16_block E pw salt off : argon_ok E -> block16 (firstn 16 (phrase_key E pw salt off)).
Proof.
  intros A. destruct (phrase_key_ok E pw salt off A) as [L B]. split.
  - rewrite firstn_length_le; lia.
  - apply firstn_byte; auto.
Qed.

Lemma go_index_16 E pw salt off : argon_ok E ->
  go_index (phrase_key E pw salt off) 16 = Ok (nth 16 (phrase_key E pw salt off) 0).
Proof.
  intros A. destruct (phrase_key_ok E pw salt off A) as [L _]. unfold go_index.
  rewrite (nth_error_nth' _ 0) by lia. reflexivity.
Qed.

Lemma aes_key_ok_16 k : length k = 16%nat -> aes_key_ok k = true.
Proof. intros H. unfold aes_key_ok, zlen. rewrite H. reflexivity. Qed.

Lemma seed_bytes_ok s : 0 <= seed_value s < 2 ^ 128 -> seed_bytes s = Ok (be_bytes 16 (seed_value s)).
Proof. intros. unfold seed_bytes. apply fill_bytes_ok. exact H. Qed.

Lemma seed_block v : block16 (be_bytes 16 v).
Proof. split; [apply be_bytes_length|apply be_bytes_byte]. Qed.

Lemma cipher_int_bound E pw salt off v : argon_ok E -> aes_ok E -> 0 <= cipher_int E pw salt off v < 2 ^ 128.
Proof.
  intros A X. unfold cipher_int. rewrite bytes_of_bits_be.
  destruct (X _ (be_bytes ((128 + 7) / 8) v) (key16_block E pw salt off A) (seed_block v)) as [[L B] _].
  pose proof (be_uint_bound _ B) as Q. unfold zlen in Q. rewrite L in Q. exact Q.
Qed.

Lemma salt_of_bound src : 0 <= salt_of src < 2 ^ 19.
Proof. unfold salt_of. apply Z.mod_pos_bound. lia. Qed.

Lemma key_verify_bound E pw salt off : 0 <= key_verify E pw salt off < 2 ^ 5.
Proof. unfold key_verify. change (2 ^ 5) with 32. apply Z.mod_pos_bound. lia. Qed.

Lemma encode_enc_ok E s off pw src : wordlist_ok E -> argon_ok E -> aes_ok E ->
  seed_ok s -> 0 <= off < 2 ^ 31 -> pw <> [] -> Forall byte src -> (3 <= length src)%nat ->
  encode_mnemonic_encrypted E s off pw src =
  Ok (words_of_int E 16 (enc_int (cipher_int E pw (salt_of src) off (seed_value s)) (salt_of src)
        (key_verify E pw (salt_of src) off) off)).
Proof.
  intros W A X [He Hs] Ho Hp Hb Hl.
  unfold encode_mnemonic_encrypted. rewrite He. change (era_check 0) with (Ok tt). cbn [bind].
  replace (zlen pw =? 0) with false by (destruct pw; [congruence | unfold zlen; cbn [length]; lia]).
  unfold version_bits at 1. rewrite new_bitbuf_ok by lia. cbn [bind].
  rewrite rand_int_salt by auto. cbn [bind]. fold (salt_of src).
  pose proof (salt_of_bound src) as HS.
  rewrite enc_seed_key_ok by auto. cbn [bind].
  destruct (key16_block E pw (salt_of src) off A) as [Lk Bk].
  rewrite aes_key_ok_16 by auto. cbn [negb].
  rewrite seed_bytes_ok by auto. cbn [bind].
  rewrite go_index_16 by auto. cbn [bind].
  unfold verify_mask. rewrite land_mask' by (unfold verify_bits; lia).
  change (2 ^ verify_bits) with 32. fold (key_verify E pw (salt_of src) off).
  replace (be_uint (aes_encrypt E (firstn 16 (phrase_key E pw (salt_of src) off)) (be_bytes 16 (seed_value s))))
    with (cipher_int E pw (salt_of src) off (seed_value s)).
  2:{ unfold cipher_int. rewrite bytes_of_bits_be. reflexivity. }
  rewrite <- (encode_enc_payload_ok E W); auto.
  - apply cipher_int_bound; auto.
  - apply key_verify_bound.
Qed.

Lemma decrypt_ok E pw salt off v : argon_ok E -> aes_ok E ->
  0 <= v < 2 ^ 128 -> 0 <= salt < 2 ^ 19 -> 0 <= off < 2 ^ 31 ->
  dm_decrypt_seed E (mk_decoded 1 (cipher_int E pw salt off v) salt (key_verify E pw salt off) off) pw
  = Ok (mk_seed 0 v).
Proof.
  intros A X Hv Hs Ho. unfold dm_decrypt_seed. cbn [dm_encrypted version_encrypted dm_version Z.eqb].
  change (version_encrypted 1) with true. unfold dm_encrypted. cbn [dm_version dm_salt dm_offset dm_verify dm_entropy].
  change (version_encrypted 1) with true. cbn [negb].
  rewrite enc_seed_key_ok by auto. cbn [bind]. rewrite go_index_16 by auto. cbn [bind].
  unfold verify_mask. rewrite land_mask' by (unfold verify_bits; lia).
  change (2 ^ verify_bits) with 32. fold (key_verify E pw salt off). rewrite Z.eqb_refl. cbn [negb].
  pose proof (key16_block E pw salt off A) as BK. destruct BK as [Lk Bk] eqn:EBK.
  rewrite aes_key_ok_16 by auto. cbn [negb].
  pose proof (cipher_int_bound E pw salt off v A X) as CB.
  rewrite fill_bytes_ok by exact CB. cbn [bind].
  destruct (X _ (be_bytes 16 v) BK (seed_block v)) as [[L B] [_ [D _]]].
  assert (C : be_bytes 16 (cipher_int E pw salt off v) = aes_encrypt E (firstn 16 (phrase_key E pw salt off)) (be_bytes 16 v)).
  { unfold cipher_int. rewrite bytes_of_bits_be. change ((128 + 7) / 8)%nat with 16%nat.
    rewrite <- L at 1. apply be_bytes_be_uint. auto. }
  rewrite C, D. change (version_era 1) with 0. rewrite be_uint_be_bytes_small by exact Hv.
  apply new_seed_ok; auto.
Qed.

(** general form: what DecryptSeed does on a decoded encrypted phrase *)
Lemma plain_of_cipher_bound E pw salt off c : argon_ok E -> aes_ok E -> 0 <= plain_of_cipher E pw salt off c < 2 ^ 128.
Proof.
  intros A X. unfold plain_of_cipher. rewrite bytes_of_bits_be.
  destruct (X _ (be_bytes ((128 + 7) / 8) c) (key16_block E pw salt off A) (seed_block c)) as [_ [[L B] _]].
  pose proof (be_uint_bound _ B) as Q. unfold zlen in Q. rewrite L in Q. exact Q.
Qed.

Lemma decrypt_general E pw e salt ver off : argon_ok E -> aes_ok E ->
  0 <= e < 2 ^ 128 -> 0 <= salt < 2 ^ 19 -> 0 <= off < 2 ^ 31 ->
  dm_decrypt_seed E (mk_decoded 1 e salt ver off) pw =
  if key_verify E pw salt off =? ver then Ok (mk_seed 0 (plain_of_cipher E pw salt off e))
  else Err ErrMnemonicDecryption.
Proof.
  intros A X Hv Hs Ho. unfold dm_decrypt_seed. unfold dm_encrypted. cbn [dm_version dm_salt dm_offset dm_verify dm_entropy].
  change (version_encrypted 1) with true. cbn [negb].
  rewrite enc_seed_key_ok by auto. cbn [bind]. rewrite go_index_16 by auto. cbn [bind].
  unfold verify_mask. rewrite land_mask' by (unfold verify_bits; lia).
  change (2 ^ verify_bits) with 32. fold (key_verify E pw salt off).
  destruct (key_verify E pw salt off =? ver); cbn [negb]; auto.
  destruct (key16_block E pw salt off A) as [Lk Bk].
  rewrite aes_key_ok_16 by auto. cbn [negb].
  rewrite fill_bytes_ok by exact Hv. cbn [bind].
  change (version_era 1) with 0.
  replace (be_uint (aes_decrypt E (firstn 16 (phrase_key E pw salt off)) (be_bytes 16 e)))
    with (plain_of_cipher E pw salt off e) by (unfold plain_of_cipher; rewrite bytes_of_bits_be; reflexivity).
  apply new_seed_ok; auto. apply plain_of_cipher_bound; auto.
Qed.

Lemma cipher_of_plain E pw salt off c : argon_ok E -> aes_ok E -> 0 <= c < 2 ^ 128 ->
  cipher_int E pw salt off (plain_of_cipher E pw salt off c) = c.
Proof.
  intros A X Hc. unfold cipher_int, plain_of_cipher. rewrite !bytes_of_bits_be. change ((128 + 7) / 8)%nat with 16%nat.
  pose proof (key16_block E pw salt off A) as BK.
  destruct (X _ (be_bytes 16 c) BK (seed_block c)) as [_ [[L B] [_ D]]].
  rewrite <- L at 2. rewrite be_bytes_be_uint by auto. rewrite D. apply be_uint_be_bytes_small. exact Hc.
Qed.

(** letter case *)
Lemma case_variant_lower E w w' : case_variant w w' -> to_lower E w = to_lower E w'.
Proof.
  unfold case_variant. intros H. unfold to_lower.
  assert (A : is_ascii w = true /\ is_ascii w' = true /\ map ascii_lower_byte w = map ascii_lower_byte w').
  { unfold is_ascii. induction H as [|b c w w' Hb Hw IH]; auto. cbn. destruct IH as [I1 [I2 I3]].
    rewrite I1, I2, I3. unfold same_letter in Hb. unfold ascii_lower_byte.
    replace (b <? 128) with true by lia. replace (c <? 128) with true by lia.
    repeat split; auto. f_equal.
    destruct ((65 <=? b) && (b <=? 90)) eqn:P, ((65 <=? c) && (c <=? 90)) eqn:Q; lia. }
  destruct A as [-> [-> ->]]. reflexivity.
Qed.

Lemma case_variants_lower E ws ws' : Forall2 case_variant ws ws' -> map (to_lower E) ws = map (to_lower E) ws'.
Proof. induction 1; cbn; auto. f_equal; auto. apply case_variant_lower; auto. Qed.

Lemma decode_words_lower E ws ws' : map (to_lower E) ws = map (to_lower E) ws' ->
  decode_words E ws = decode_words E ws'.
Proof.
  revert ws'. induction ws as [|w ws IH]; intros [|w' ws']; cbn; try discriminate; auto.
  intros [= H1 H2]. rewrite H1, (IH ws') by auto. reflexivity.
Qed.

Lemma decode_mnemonic_lower E ws ws' : map (to_lower E) ws = map (to_lower E) ws' ->
  decode_mnemonic E ws = decode_mnemonic E ws'.
Proof.
  intros H. pose proof (f_equal (@length _) H) as L. rewrite !map_length in L.
  unfold decode_mnemonic. destruct ws as [|w ws], ws' as [|w' ws']; try discriminate; auto.
  rewrite (decode_words_lower E _ _ H). unfold zlen. rewrite L.
  unfold parse_mnemonic_version, parse_version_raw. injection H as -> _. reflexivity.
Qed.
