(** C17 (exact panic set), C18, C19, C20: seeds, random sources, encoder domains. *)
From Coq Require Import Lia ZifyBool ZifyNat.
From Verif.Model Require Import GoBase Env BitBuffer MnemonicPkg Version Seed Encoding Recovery.
From Verif.Spec Require Import EnvSpec PhraseSpec DecodeSpec.
From Verif.Proofs Require Import BitsP BitBufferP WordsP CrcP PhraseP DecodeP RoundtripP EnvInst.
Ltac Zify.zify_post_hook ::= Z.div_mod_to_equations.

(** ** C17: exactly which arguments make the plaintext encoder panic *)
Lemma append_trailing_neg a m v n : 0 <= n -> (a < 0 \/ v < 0) ->
  append_trailing (mk_bb a m) v n = Panic \/
  exists c, c < 0 /\ append_trailing (mk_bb a m) v n = Ok (mk_bb c (m + n)).
Proof.
  intros Hn H. unfold append_trailing. cbn [bb_value bb_nbits]. destruct (bit_len v >? n); [left; auto|right].
  eexists. split; [|reflexivity].
  apply Z.lor_neg. rewrite Z.shiftl_neg. auto.
Qed.

Lemma encode_mnemonic_neg E version a m : a < 0 -> encode_mnemonic E version (mk_bb a m) = Panic \/
  encode_mnemonic E version (mk_bb a m) = Err ErrPayloadBitLen \/
  encode_mnemonic E version (mk_bb a m) = Err ErrPayloadTooLarge.
Proof.
  intros Ha. unfold encode_mnemonic.
  destruct (bb_bytes (mk_bb a m)) as [p|e|] eqn:B; cbn [bind]; auto.
  2:{ unfold bb_bytes, fill_bytes in B. destruct (_ >? _); discriminate. }
  destruct (append_trailing_neg a m (Z.land checksum_mask (Crc32.crc32 p)) checksum_bits) as [-> | [c [Hc ->]]];
    [unfold checksum_bits; lia | auto | auto | ].
  cbn [bind bb_nbits bb_value]. destruct (negb _); auto.
  unfold encode_to_indices. destruct (bit_len c >? _); auto. destruct (negb _); auto.
  rewrite encode_loop_neg by auto. auto.
Qed.

Theorem encode_plaintext_panics_exactly : forall E era v s off,
  wordlist_ok E -> new_seed era v = Ok s -> 0 <= off < 2 ^ 32 ->
  (encode_mnemonic_plaintext E s off = Panic <-> (v < 0 \/ 2 ^ 31 <= off)).
Proof.
  intros E era v s off W Hs Ho.
  assert (Hera : era = 0 /\ s = mk_seed 0 v /\ Z.abs v < 2 ^ 128).
  { revert Hs. unfold new_seed, era_check, era_latest.
    destruct ((era >? 0) || (era <? 0)) eqn:Q; cbn [bind]; [discriminate|].
    unfold entropy_bits. rewrite bit_len_gtb by lia.
    destruct (Z.abs v <? 2 ^ 128) eqn:L; cbn [negb]; [|discriminate].
    intros [= <-]. assert (era = 0) by lia. subst. repeat split; lia. }
  destruct Hera as [-> [-> Hv]]. clear Hs. split.
  - intros HP. destruct (Z_lt_ge_dec v 0); auto. destruct (Z_lt_ge_dec off (2 ^ 31)); [|lia].
    rewrite (encode_plain_ok E W) in HP; [discriminate|reflexivity|cbn; lia|lia].
  - intros Hbad. unfold encode_mnemonic_plaintext. cbn [seed_era].
    change (era_check 0) with (Ok tt). cbn [bind].
    unfold version_bits. rewrite new_bitbuf_ok by lia. cbn [bind]. unfold seed_int. cbn [seed_value].
    destruct (Z_lt_ge_dec v 0).
    + assert (A1 : append_trailing (mk_bb 0 4) v entropy_bits = Ok (mk_bb v 132)).
      { unfold append_trailing, entropy_bits. rewrite bit_len_gtb by lia.
        replace (Z.abs v <? 2 ^ 128) with true by lia. reflexivity. }
      rewrite A1. cbn [bind].
      unfold append_trailing, offset_bits. rewrite bit_len_gtb by lia. cbn [bb_value bb_nbits].
      destruct (Z.abs off <? 2 ^ 31) eqn:Q; cbn [negb bind]; auto.
      rewrite lor_shiftl_add by lia.
      unfold encode_mnemonic.
      assert (Bd : - 2 ^ 159 < v * 2 ^ 31 + off < 0) by lia.
      unfold bb_bytes, fill_bytes. cbn [bb_value bb_nbits]. rewrite bit_len_gtb by lia.
      change (Z.to_nat ((132 + 31 + 7) / 8)) with 21%nat.
      replace (Z.abs (v * 2 ^ 31 + off) <? 2 ^ (8 * Z.of_nat 21)) with true by lia. cbn [negb bind].
      rewrite (checksum_model 163) by (try reflexivity; lia).
      pose proof (checksum_spec_bound 163 (Z.abs (v * 2 ^ 31 + off))) as CB.
      unfold checksum_bits. rewrite append_trailing_ok by lia. cbn [bind bb_nbits bb_value].
      change (payload_bit_count 0) with 168. change (132 + 31 + 5 =? 168) with true. cbn [negb].
      unfold encode_to_indices. rewrite bit_len_gtb by lia.
      set (c := checksum_spec _ _) in *. clearbody c.
      replace (Z.abs ((v * 2 ^ 31 + off) * 2 ^ 5 + c) <? 2 ^ (132 + 31 + 5)) with true by lia. cbn [negb].
      destruct (negb _); [reflexivity|]. rewrite encode_loop_neg by lia. reflexivity.
    + rewrite append_trailing_ok by (unfold entropy_bits; lia). cbn [bind].
      unfold append_trailing, offset_bits. rewrite bit_len_gtb by lia.
      replace (Z.abs off <? 2 ^ 31) with false by lia. reflexivity.
Qed.
Print Assumptions encode_plaintext_panics_exactly.

Theorem encode_encrypted_panics_exactly : forall E era v s off pw src,
  wordlist_ok E -> argon_ok E -> aes_ok E ->
  new_seed era v = Ok s -> 0 <= off < 2 ^ 32 -> pw <> [] -> Forall byte src -> (3 <= length src)%nat ->
  (encode_mnemonic_encrypted E s off pw src = Panic <-> 2 ^ 31 <= off).
Proof.
  intros E era v s off pw src W A X Hs Ho Hp Hb Hl.
  assert (Hera : era = 0 /\ s = mk_seed 0 v /\ Z.abs v < 2 ^ 128).
  { revert Hs. unfold new_seed, era_check, era_latest.
    destruct ((era >? 0) || (era <? 0)) eqn:Q; cbn [bind]; [discriminate|].
    unfold entropy_bits. rewrite bit_len_gtb by lia.
    destruct (Z.abs v <? 2 ^ 128) eqn:L; cbn [negb]; [|discriminate].
    intros [= <-]. assert (era = 0) by lia. subst. repeat split; lia. }
  destruct Hera as [-> [-> Hv]]. clear Hs. 
  assert (Habs : encode_mnemonic_encrypted E (mk_seed 0 v) off pw src =
                 encode_mnemonic_encrypted E (mk_seed 0 (Z.abs v)) off pw src).
  { unfold encode_mnemonic_encrypted. cbn [seed_era].
    assert (B : seed_bytes (mk_seed 0 v) = seed_bytes (mk_seed 0 (Z.abs v))).
    { unfold seed_bytes, fill_bytes. cbn [seed_value]. rewrite !bit_len_gtb by (unfold entropy_bits; lia).
      rewrite Z.abs_involutive. reflexivity. }
    rewrite B. reflexivity. }
  split.
  - intros HP. destruct (Z_lt_ge_dec off (2 ^ 31)); [|lia].
    rewrite Habs, encode_enc_ok in HP; auto; [discriminate|split; cbn; [auto|lia]|lia].
  - intros Hbad. unfold encode_mnemonic_encrypted. cbn [seed_era].
    change (era_check 0) with (Ok tt). cbn [bind].
    replace (zlen pw =? 0) with false by (destruct pw; [congruence | unfold zlen; cbn [length]; lia]).
    unfold version_bits. rewrite new_bitbuf_ok by lia. cbn [bind].
    rewrite rand_int_salt by auto. cbn [bind]. fold (salt_of src).
    pose proof (salt_of_bound src).
    unfold enc_seed_key. rewrite new_bitbuf_ok by (unfold salt_bits; lia). cbn [bind].
    unfold append_trailing, offset_bits. rewrite bit_len_gtb by lia.
    replace (Z.abs off <? 2 ^ 31) with false by lia. reflexivity.
Qed.
Print Assumptions encode_encrypted_panics_exactly.

(** an empty password is refused, whatever else is passed *)
Theorem encrypt_empty_password : forall E s off src, seed_era s = 0 ->
  encode_mnemonic_encrypted E s off [] src = Err ErrEmptyPassword.
Proof. intros E s off src H. unfold encode_mnemonic_encrypted. rewrite H. reflexivity. Qed.
Print Assumptions encrypt_empty_password.

(** ** C18 *)
Theorem new_seed_exact : forall era e,
  (exists s, new_seed era e = Ok s) <-> (era = 0 /\ - 2 ^ 128 < e < 2 ^ 128).
Proof.
  intros era e. unfold new_seed, era_check, era_latest.
  destruct ((era >? 0) || (era <? 0)) eqn:Q; cbn [bind].
  - split; [intros [s H]; discriminate | lia].
  - unfold entropy_bits. rewrite bit_len_gtb by lia.
    destruct (Z.abs e <? 2 ^ 128) eqn:L; cbn [negb].
    + split; [lia | eauto].
    + split; [intros [s H]; discriminate | lia].
Qed.
Print Assumptions new_seed_exact.

Theorem new_seed_errors : forall era e err, new_seed era e = Err err ->
  (era <> 0 /\ err = ErrInvalidEraNumber) \/ (era = 0 /\ 2 ^ 128 <= Z.abs e /\ err = ErrEntropyTooLarge).
Proof.
  intros era e err. unfold new_seed, era_check, era_latest.
  destruct ((era >? 0) || (era <? 0)) eqn:Q; cbn [bind].
  - intros [= <-]. left. split; [lia|auto].
  - unfold entropy_bits. rewrite bit_len_gtb by lia.
    destruct (Z.abs e <? 2 ^ 128) eqn:L; cbn [negb]; [discriminate|]. intros [= <-]. right. repeat split; lia.
Qed.
Print Assumptions new_seed_errors.

Theorem seed_int_bytes_agree : forall era e s, new_seed era e = Ok s -> 0 <= e ->
  seed_int s = e /\ seed_bytes s = Ok (bytes_of_bits 128 e) /\ be_uint (bytes_of_bits 128 e) = e.
Proof.
  intros era e s H He.
  assert (H' := proj1 (new_seed_exact era e) (ex_intro _ s H)). destruct H' as [-> Hb].
  rewrite new_seed_ok in H by lia. injection H as <-. split; [reflexivity|].
  rewrite seed_bytes_ok by (cbn; lia). rewrite bytes_of_bits_be. split; [reflexivity|].
  apply be_uint_be_bytes_small. change ((128 + 7) / 8)%nat with 16%nat. change (256 ^ Z.of_nat 16) with (2 ^ 128). lia.
Qed.
Print Assumptions seed_int_bytes_agree.

(** without e >= 0 the agreement fails *)
Theorem seed_int_bytes_agree_refuted : exists e s b,
  new_seed 0 e = Ok s /\ seed_bytes s = Ok b /\ be_uint b <> seed_int s.
Proof. exists (-1), (mk_seed 0 (-1)), (be_bytes 16 1). vm_compute. repeat split; auto. discriminate. Qed.
Print Assumptions seed_int_bytes_agree_refuted.

(** hence a negative seed encrypts to a phrase that decrypts to a different seed *)
Theorem encrypt_negative_seed_refuted : exists E s ws dm,
  wordlist_ok E /\ argon_ok E /\ aes_ok E /\ new_seed 0 (-5) = Ok s /\
  encode_mnemonic_encrypted E s 0 [1] [1; 2; 3] = Ok ws /\ decode_mnemonic E ws = Ok dm /\
  dm_decrypt_seed E dm [1] = Ok (mk_seed 0 5) /\ seed_int s = -5.
Proof.
  exists toy_env, (mk_seed 0 (-5)).
  destruct (encode_mnemonic_encrypted toy_env (mk_seed 0 (-5)) 0 [1] [1; 2; 3]) as [ws|e|] eqn:Q;
    [ | vm_compute in Q; discriminate | vm_compute in Q; discriminate].
  destruct (decode_mnemonic toy_env ws) as [dm|e|] eqn:D.
  2,3: exfalso; vm_compute in Q; injection Q as <-; vm_compute in D; discriminate.
  exists ws, dm. split; [apply toy_wordlist_ok|]. split; [apply toy_argon_ok|]. split; [apply toy_aes_ok|].
  split; [reflexivity|]. split; auto. split; auto. split; [|reflexivity].
  vm_compute in Q. injection Q as <-. vm_compute in D. injection D as <-. vm_compute. reflexivity.
Qed.
Print Assumptions encrypt_negative_seed_refuted.

(** ** C19 *)
Theorem generate_seed_exact : forall src, Forall byte src ->
  ((16 <= length src)%nat ->
     generate_seed src = Ok (mk_seed 0 (be_uint (firstn 16 src)), skipn 16 src)) /\
  ((length src < 16)%nat -> generate_seed src = Err ErrRandomSource).
Proof.
  intros src Hb. split; intros Hl; unfold generate_seed.
  - rewrite rand_int_seed by auto. cbn [bind].
    assert (Hf : Forall byte (firstn 16 src)) by (apply firstn_byte; auto).
    pose proof (be_uint_bound _ Hf) as B. unfold zlen in B. rewrite firstn_length_le in B by lia.
    rewrite new_seed_ok; [reflexivity|reflexivity|exact B].
  - rewrite rand_int_seed_short by auto. reflexivity.
Qed.
Print Assumptions generate_seed_exact.

(** each seed comes from exactly one 16-byte string *)
Theorem generate_seed_bijective : forall v rest, 0 <= v < 2 ^ 128 -> Forall byte rest ->
  exists first, Forall byte first /\ length first = 16%nat /\
    generate_seed (first ++ rest) = Ok (mk_seed 0 v, rest) /\
    forall first', Forall byte first' -> length first' = 16%nat ->
      generate_seed (first' ++ rest) = Ok (mk_seed 0 v, rest) -> first' = first.
Proof.
  intros v rest Hv Hr.
  assert (G : forall f, Forall byte f -> length f = 16%nat -> generate_seed (f ++ rest) = Ok (mk_seed 0 (be_uint f), rest)).
  { intros f Hf Lf. destruct (generate_seed_exact (f ++ rest)) as [G _]; [apply Forall_app; auto|].
    rewrite G by (rewrite app_length; lia).
    rewrite <- Lf, firstn_app, skipn_app, Nat.sub_diag, firstn_all, skipn_all. cbn. rewrite app_nil_r. reflexivity. }
  exists (be_bytes 16 v). split; [apply be_bytes_byte|]. split; [apply be_bytes_length|]. split.
  - rewrite G by (try apply be_bytes_byte; apply be_bytes_length). rewrite be_uint_be_bytes_small; auto.
  - intros f Hf Lf H. rewrite G in H by auto. injection H as H. rewrite <- H, <- Lf. symmetry. apply be_bytes_be_uint; auto.
Qed.
Print Assumptions generate_seed_bijective.

Example generate_seed_case : generate_seed (map Z.of_nat (seq 1 18)) =
  Ok (mk_seed 0 0x0102030405060708090a0b0c0d0e0f10, [17; 18]).
Proof. vm_compute. reflexivity. Qed.

(** ** C20 *)
Theorem salt_uniform : forall salt, 0 <= salt < 2 ^ 19 ->
  exists sources, length sources = 32%nat /\ NoDup sources /\
    forall src, In src sources <->
      (Forall byte src /\ length src = 3%nat /\ rand_int src (Z.shiftl 1 salt_bits) = Ok (salt, [])).
Proof.
  intros salt Hs.
  exists (map (fun k => be_bytes 3 (Z.of_nat k * 2 ^ 19 + salt)) (seq 0 32)).
  split; [rewrite map_length, seq_length; auto|].
  assert (R : forall k, In k (seq 0 32) -> 0 <= Z.of_nat k * 2 ^ 19 + salt < 256 ^ Z.of_nat 3).
  { intros k Hk. apply in_seq in Hk. change (256 ^ Z.of_nat 3) with (2 ^ 24). lia. }
  split.
  - assert (N : NoDup (seq 0 32)) by apply seq_NoDup. revert N R.
    generalize (seq 0 32). intros l. induction 1 as [|k l Hk N IH]; intros R; cbn [map]; constructor.
    + intros Hin. apply in_map_iff in Hin as [j [Hj Hin]]. apply Hk.
      apply be_bytes_inj in Hj; [|apply R; right; auto|apply R; left; auto].
      assert (j = k) by lia. subst. auto.
    + apply IH. intros; apply R; right; auto.
  - intros src. split.
    + intros Hin. apply in_map_iff in Hin as [k [<- Hk]].
      split; [apply be_bytes_byte|]. split; [apply be_bytes_length|].
      rewrite rand_int_salt; [|apply be_bytes_byte|rewrite be_bytes_length; auto].
      rewrite firstn_all2, skipn_all2 by (rewrite be_bytes_length; auto).
      rewrite be_uint_be_bytes_small by (apply R; auto). do 2 f_equal. lia.
    + intros [Hb [Hl H]]. rewrite rand_int_salt in H by (auto; lia). assert (H1 : be_uint (firstn 3 src) mod 2 ^ 19 = salt) by congruence. clear H. rename H1 into H.
      rewrite firstn_all2 in H by lia.
      pose proof (be_uint_bound src Hb) as B. unfold zlen in B. rewrite Hl in B.
      change (256 ^ Z.of_nat 3) with (2 ^ 24) in B.
      apply in_map_iff. exists (Z.to_nat (be_uint src / 2 ^ 19)). split.
      * rewrite Z2Nat.id by lia. replace (be_uint src / 2 ^ 19 * 2 ^ 19 + salt) with (be_uint src) by lia.
        rewrite <- Hl. apply be_bytes_be_uint; auto.
      * apply in_seq. lia.
Qed.
Print Assumptions salt_uniform.

(** the salt in the phrase is the one drawn, and too short a source is an error *)
Theorem encrypted_phrase_salt : forall E s off pw src ws dm,
  wordlist_ok E -> argon_ok E -> aes_ok E ->
  seed_ok s -> 0 <= off < 2 ^ 31 -> pw <> [] -> Forall byte src ->
  ((length src < 3)%nat -> encode_mnemonic_encrypted E s off pw src = Err ErrRandomSource) /\
  ((3 <= length src)%nat -> encode_mnemonic_encrypted E s off pw src = Ok ws -> decode_mnemonic E ws = Ok dm ->
     rand_int src (Z.shiftl 1 salt_bits) = Ok (dm_salt dm, skipn 3 src)).
Proof.
  intros E s off pw src ws dm W A X Hs Ho Hp Hb. split; intros Hl.
  - unfold encode_mnemonic_encrypted. destruct Hs as [-> _]. change (era_check 0) with (Ok tt). cbn [bind].
    replace (zlen pw =? 0) with false by (destruct pw; [congruence | unfold zlen; cbn [length]; lia]).
    unfold version_bits. rewrite new_bitbuf_ok by lia. cbn [bind]. rewrite rand_int_salt_short by auto. reflexivity.
  - rewrite encode_enc_ok by auto. intros [= <-].
    rewrite decode_enc_words; auto using salt_of_bound, cipher_int_bound, key_verify_bound.
    intros [= <-]. cbn [dm_salt]. apply rand_int_salt; auto.
Qed.
Print Assumptions encrypted_phrase_salt.
