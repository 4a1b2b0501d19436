(** C01-C07, C11, C12, C17-C20, C22-C24: the recovery phrase codec. *)
From Coq Require Import Lia ZifyBool ZifyNat.
From Verif.Model Require Import GoBase Env BitBuffer MnemonicPkg Version Seed Encoding Recovery.
From Verif.Spec Require Import EnvSpec PhraseSpec DecodeSpec CaseSpec.
From Verif.Proofs Require Import BitsP WordsP CrcP PhraseP DecodeP RoundtripP EnvInst.
Ltac Zify.zify_post_hook ::= Z.div_mod_to_equations.

(** ** C01 *)
Theorem plaintext_roundtrip : forall E s off,
  wordlist_ok E -> seed_ok s -> 0 <= off < 2 ^ 31 ->
  exists ws dm,
    encode_mnemonic_plaintext E s off = Ok ws /\
    length ws = 14%nat /\ Forall (fun w => In w (wl_words E)) ws /\
    decode_mnemonic E ws = Ok dm /\
    dm_version dm = 0 /\ dm_encrypted dm = false /\ dm_offset dm = off /\ dm_seed dm = Ok s.
Proof.
  intros E s off W [He Hs] Ho.
  exists (words_of_int E 14 (plain_int (seed_value s) off)), (mk_decoded 0 (seed_value s) 0 0 off).
  split; [apply (encode_plain_ok E W); auto|].
  split; [apply words_of_int_length|]. split; [apply words_of_int_in; auto|].
  split; [apply decode_plain_words; auto|]. repeat split.
  rewrite dm_seed_plain by auto. rewrite seed_eta; auto.
Qed.
Print Assumptions plaintext_roundtrip.

(** every seed NewSeed builds from a non-negative integer is covered *)
Theorem new_seed_covered : forall era e s, new_seed era e = Ok s -> 0 <= e -> seed_ok s.
Proof.
  intros era e s. unfold new_seed, era_check, era_latest.
  destruct ((era >? 0) || (era <? 0)) eqn:Q; cbn [bind]; [discriminate|].
  unfold entropy_bits. rewrite bit_len_gtb by lia.
  destruct (Z.abs e <? 2 ^ 128) eqn:L; cbn [negb]; [|discriminate].
  intros [= <-] H. split; cbn; lia.
Qed.
Print Assumptions new_seed_covered.

Example plaintext_roundtrip_case :
  wordlist_ok toy_env /\ seed_ok (mk_seed 0 0x0123456789abcdef0123456789abcdef) /\ 0 <= 1268800 < 2 ^ 31 /\
  encode_mnemonic_plaintext toy_env (mk_seed 0 0x0123456789abcdef0123456789abcdef) 1268800
  = Ok [[97;97;98];[99;100;101];[102;103;104];[105;106;107];[108;109;110];[111;112;97];[98;99;100];
        [101;102;103];[104;105;106];[107;108;109];[110;111;112];[97;97;99];[103;108;105];[105;97;107]].
Proof.
  split; [apply toy_wordlist_ok|]. split; [split; cbn; lia|]. split; [lia|]. vm_compute. reflexivity.
Qed.

(** ** C02 *)
Theorem encrypted_roundtrip : forall E s off pw src,
  wordlist_ok E -> argon_ok E -> aes_ok E ->
  seed_ok s -> 0 <= off < 2 ^ 31 -> pw <> [] -> Forall byte src -> (3 <= length src)%nat ->
  exists ws dm,
    encode_mnemonic_encrypted E s off pw src = Ok ws /\
    length ws = 16%nat /\ Forall (fun w => In w (wl_words E)) ws /\
    decode_mnemonic E ws = Ok dm /\
    dm_version dm = 1 /\ dm_encrypted dm = true /\ dm_offset dm = off /\
    dm_decrypt_seed E dm pw = Ok s.
Proof.
  intros E s off pw src W A X Hs Ho Hp Hb Hl.
  pose proof (salt_of_bound src) as HS. destruct Hs as [He Hs].
  pose proof (cipher_int_bound E pw (salt_of src) off (seed_value s) A X) as HC.
  pose proof (key_verify_bound E pw (salt_of src) off) as HV.
  eexists. eexists. split; [apply encode_enc_ok; auto; split; auto|].
  split; [apply words_of_int_length|]. split; [apply words_of_int_in; auto|].
  split; [apply decode_enc_words; auto|].
  do 3 (split; [reflexivity|]). rewrite decrypt_ok by auto. rewrite seed_eta; auto.
Qed.
Print Assumptions encrypted_roundtrip.

Example encrypted_roundtrip_case :
  wordlist_ok toy_env /\ argon_ok toy_env /\ aes_ok toy_env /\
  (let* ws := encode_mnemonic_encrypted toy_env (mk_seed 0 12345678901234567890) 77 [112; 119] [255; 1; 2; 3] in
   let* dm := decode_mnemonic toy_env ws in
   let* good := dm_decrypt_seed toy_env dm [112; 119] in
   Ok (dm_salt dm, good, dm_decrypt_seed toy_env dm [112; 118]))
  = Ok (0x70102, mk_seed 0 12345678901234567890, Err ErrMnemonicDecryption).
Proof.
  split; [apply toy_wordlist_ok|]. split; [apply toy_argon_ok|]. split; [apply toy_aes_ok|].
  vm_compute. reflexivity.
Qed.

(** ** C03 *)
Theorem plaintext_layout : forall E s off,
  wordlist_ok E -> seed_ok s -> 0 <= off < 2 ^ 31 ->
  encode_mnemonic_plaintext E s off = Ok (words_of_int E 14 (plain_int (seed_value s) off)).
Proof. intros E s off W [He Hs] Ho. apply (encode_plain_ok E W); auto. Qed.
Print Assumptions plaintext_layout.

Theorem encrypted_layout : forall E s off pw src,
  wordlist_ok E -> argon_ok E -> aes_ok E ->
  seed_ok s -> 0 <= off < 2 ^ 31 -> pw <> [] -> Forall byte src -> (3 <= length src)%nat ->
  encode_mnemonic_encrypted E s off pw src =
  Ok (words_of_int E 16 (enc_int (cipher_int E pw (salt_of src) off (seed_value s))
        (salt_of src) (key_verify E pw (salt_of src) off) off)).
Proof. intros. apply encode_enc_ok; auto. Qed.
Print Assumptions encrypted_layout.

(** the CRC used in the layout is the textbook CRC-32; standard check values *)
Example crc32_spec_check : crc32_spec (bs "123456789") = 0xCBF43926 /\ crc32_spec (bs "hey") mod 32 = 16.
Proof. vm_compute. split; reflexivity. Qed.

(** ** C04 *)
Theorem plaintext_canonical : forall E ws dm s,
  wordlist_ok E -> decode_mnemonic E ws = Ok dm -> dm_version dm = 0 -> dm_seed dm = Ok s ->
  encode_mnemonic_plaintext E s (dm_offset dm) = Ok (map (to_lower E) ws).
Proof.
  intros E ws dm s W Hd Hv Hs. apply (decode_iff_outcome E W) in Hd.
  inversion Hd as [| | | | | | e o He Ho Hl Hsp Eq | e sa v o He Hsa Hvv Ho Hl Hsp Eq]; subst dm; cbn in Hv; [|discriminate].
  rewrite dm_seed_plain in Hs by auto. injection Hs as <-.
  cbn [dm_offset]. rewrite (encode_plain_ok E W) by auto. cbn [seed_value].
  destruct Hsp as [_ Hsp]. rewrite Hl in Hsp. congruence.
Qed.
Print Assumptions plaintext_canonical.

(** a decoded plaintext phrase always has a seed, so the hypothesis of [plaintext_canonical] is
    never the obstacle *)
Theorem plaintext_seed_exists : forall E ws dm,
  wordlist_ok E -> decode_mnemonic E ws = Ok dm -> dm_version dm = 0 -> exists s, dm_seed dm = Ok s /\ seed_ok s.
Proof.
  intros E ws dm W Hd Hv. apply (decode_iff_outcome E W) in Hd.
  inversion Hd as [| | | | | | e o He Ho Hl Hsp Eq | e sa v o He Hsa Hvv Ho Hl Hsp Eq]; subst dm; cbn in Hv; [|discriminate].
  exists (mk_seed 0 e). rewrite dm_seed_plain by auto. split; auto. split; auto.
Qed.
Print Assumptions plaintext_seed_exists.

Theorem decode_injective : forall E ws ws' dm,
  wordlist_ok E -> decode_mnemonic E ws = Ok dm -> decode_mnemonic E ws' = Ok dm ->
  map (to_lower E) ws = map (to_lower E) ws'.
Proof.
  intros E ws ws' dm W H H'. apply (decode_iff_outcome E W) in H, H'.
  inversion H as [| | | | | | e o He Ho Hl Hsp Eq | e sa v o He Hsa Hvv Ho Hl Hsp Eq]; subst dm;
  inversion H' as [| | | | | | e' o' He' Ho' Hl' Hsp' Eq' | e' sa' v' o' He' Hsa' Hvv' Ho' Hl' Hsp' Eq']; subst;
  destruct Hsp as [_ ->], Hsp' as [_ ->]; rewrite Hl, Hl'; reflexivity.
Qed.
Print Assumptions decode_injective.

(** ** C05 *)
Theorem encrypted_canonical : forall E ws dm pw s src,
  wordlist_ok E -> argon_ok E -> aes_ok E ->
  decode_mnemonic E ws = Ok dm -> dm_version dm = 1 -> pw <> [] ->
  dm_decrypt_seed E dm pw = Ok s ->
  Forall byte src -> (3 <= length src)%nat -> be_uint (firstn 3 src) mod 2 ^ 19 = dm_salt dm ->
  encode_mnemonic_encrypted E s (dm_offset dm) pw src = Ok (map (to_lower E) ws).
Proof.
  intros E ws dm pw s src W A X Hd Hv Hp Hs Hb Hl Hsalt. apply (decode_iff_outcome E W) in Hd.
  inversion Hd as [| | | | | | e o He Ho Hln Hsp Eq | e sa v o He Hsa Hvv Ho Hln Hsp Eq]; subst dm; cbn in Hv; [discriminate|].
  rewrite decrypt_general in Hs by auto.
  destruct (key_verify E pw sa o =? v) eqn:Q; [|discriminate]. injection Hs as <-.
  cbn [dm_offset dm_salt] in *. fold (salt_of src) in Hsalt.
  rewrite encode_enc_ok; auto.
  - rewrite Hsalt. cbn [seed_value]. rewrite cipher_of_plain by auto.
    replace (key_verify E pw sa o) with v by lia.
    destruct Hsp as [_ Hsp]. rewrite Hln in Hsp. congruence.
  - split; auto. cbn. apply plain_of_cipher_bound; auto.
Qed.
Print Assumptions encrypted_canonical.

(** the required salt bytes always exist *)
Theorem encrypted_canonical_salt_exists : forall E ws dm,
  wordlist_ok E -> decode_mnemonic E ws = Ok dm ->
  exists src, Forall byte src /\ length src = 3%nat /\ be_uint (firstn 3 src) mod 2 ^ 19 = dm_salt dm.
Proof.
  intros E ws dm W Hd. exists (be_bytes 3 (dm_salt dm)).
  split; [apply be_bytes_byte|]. split; [apply be_bytes_length|].
  rewrite firstn_all2 by (rewrite be_bytes_length; auto). rewrite be_uint_be_bytes.
  apply (decode_iff_outcome E W) in Hd.
  inversion Hd as [| | | | | | e o He Ho Hln Hsp Eq | e sa v o He Hsa Hvv Ho Hln Hsp Eq]; subst dm; cbn [dm_salt]; [reflexivity|].
  change (256 ^ Z.of_nat 3) with (2 ^ 24). rewrite (Z.mod_small sa (2 ^ 24)) by lia. apply Z.mod_small; lia.
Qed.
Print Assumptions encrypted_canonical_salt_exists.

(** ** C06 *)
Theorem decode_exact : forall E ws r, wordlist_ok E -> (decode_mnemonic E ws = r <-> outcome E ws r).
Proof. intros. apply decode_iff_outcome; auto. Qed.
Print Assumptions decode_exact.

Theorem decode_never_panics : forall E ws, wordlist_ok E -> decode_mnemonic E ws <> Panic.
Proof. intros E ws W H. apply (decode_iff_outcome E W) in H. inversion H. Qed.
Print Assumptions decode_never_panics.

(** each row of the table is met by some phrase *)
Example decode_outcomes_inhabited :
  let w i := nth i toy_words [] in
  decode_mnemonic toy_env [] = Err ErrInvalidWordCount /\
  decode_mnemonic toy_env [bs "zzz"] = Err ErrInvalidWord /\
  decode_mnemonic toy_env [w 512%nat] = Err ErrInvalidVersionNumber /\
  decode_mnemonic toy_env (repeat (w 0%nat) 13) = Err ErrInvalidWordCount /\
  decode_mnemonic toy_env (repeat (w 0%nat) 13 ++ [bs "zzz"]) = Err ErrInvalidWord /\
  decode_mnemonic toy_env (repeat (w 0%nat) 14) = Err ErrInvalidChecksum /\
  decode_mnemonic toy_env (repeat (w 0%nat) 13 ++ [w 11%nat]) = Ok (mk_decoded 0 0 0 0 0).
Proof. vm_compute. repeat split; reflexivity. Qed.

(** ** C07 *)
Theorem decode_case_insensitive : forall E ws ws',
  Forall2 case_variant ws ws' ->
  decode_mnemonic E ws = decode_mnemonic E ws' /\ decode_words E ws = decode_words E ws'.
Proof.
  intros E ws ws' H. pose proof (case_variants_lower E _ _ H) as L. split.
  - apply decode_mnemonic_lower; auto.
  - apply decode_words_lower; auto.
Qed.
Print Assumptions decode_case_insensitive.

Theorem version_case_insensitive : forall E w w',
  case_variant w w' -> parse_mnemonic_version E w = parse_mnemonic_version E w'.
Proof.
  intros E w w' H. unfold parse_mnemonic_version, parse_version_raw.
  rewrite (case_variant_lower E _ _ H). reflexivity.
Qed.
Print Assumptions version_case_insensitive.

Example case_variant_case : case_variant (bs "aBc") (bs "AbC") /\
  parse_mnemonic_version toy_env (bs "AbC") = Ok 0.
Proof.
  split; [|vm_compute; reflexivity].
  unfold case_variant. cbn -[same_letter].
  repeat (apply Forall2_cons; [unfold same_letter; lia|]). constructor.
Qed.

(** ** C11 *)
Theorem parse_version_exact : forall E w v, wordlist_ok E ->
  (parse_mnemonic_version E w = Ok v <->
   exists i, (i < 512)%nat /\ nth_error (wl_words E) i = Some (to_lower E w) /\ v = Z.of_nat (i / 256)).
Proof.
  intros E w v W. unfold parse_mnemonic_version, parse_version_raw.
  destruct (word_map E (to_lower E w)) as [i|] eqn:Ew.
  - pose proof Ew as Ew'. apply (word_map_spec E W) in Ew as [Hi Hw].
    unfold version_check, version_latest, bits_per_word, version_bits. rewrite Z.shiftr_div_pow2 by lia.
    change (2 ^ (12 - 4)) with 256. destruct (i / 256 >? 1) eqn:Q; cbn [bind]; split.
    + discriminate.
    + intros [j [Hj [Hn ->]]]. exfalso.
      assert (Z.to_nat i = j); [|lia].
      eapply (proj1 (NoDup_nth_error (wl_words E))); [apply (wlo_nodup E W)| |congruence].
      apply nth_error_Some. congruence.
    + intros [= <-]. exists (Z.to_nat i). split; [lia|]. split; auto. lia.
    + intros [j [Hj [Hn ->]]].
      assert (Z.to_nat i = j); [|f_equal; lia].
      eapply (proj1 (NoDup_nth_error (wl_words E))); [apply (wlo_nodup E W)| |congruence].
      apply nth_error_Some. congruence.
  - split; [discriminate|]. intros [j [Hj [Hn ->]]]. apply (word_map_none E) in Ew.
    destruct Ew. eapply nth_error_In; eauto.
Qed.
Print Assumptions parse_version_exact.
(** Both results together: a word of the list gives its version, supported or not; any other text gives version 0 with
    ErrInvalidWord. *)
Theorem parse_version_results : forall E w, wordlist_ok E ->
  (forall i, nth_error (wl_words E) i = Some (to_lower E w) ->
     parse_version_raw E w = (Z.of_nat (i / 256), if Nat.ltb i 512 then Ok tt else Err ErrInvalidVersionNumber)) /\
  (~ In (to_lower E w) (wl_words E) -> parse_version_raw E w = (0, Err ErrInvalidWord)).
Proof.
  intros E w W. unfold parse_version_raw. destruct (word_map E (to_lower E w)) as [j|] eqn:Ew.
  - apply (word_map_spec E W) in Ew as [Hj Hw]. split.
    + intros i H. assert (Z.to_nat j = i) as <-.
      { eapply (proj1 (NoDup_nth_error (wl_words E))); [apply (wlo_nodup E W)| |congruence]. apply nth_error_Some. congruence. }
      unfold version_check, version_latest, bits_per_word, version_bits. rewrite Z.shiftr_div_pow2 by lia. change (2 ^ (12 - 4)) with 256.
      f_equal; [lia|]. destruct (Nat.ltb_spec (Z.to_nat j) 512), (Z.gtb_spec (j / 256) 1); [lia|reflexivity|reflexivity|lia].
    + intros N. destruct N. eapply nth_error_In; eauto.
  - split; [|reflexivity]. intros i H. apply (word_map_none E) in Ew. destruct Ew. eapply nth_error_In; eauto.
Qed.
Print Assumptions parse_version_results.

Theorem version_agrees_with_decode : forall E ws dm, wordlist_ok E -> decode_mnemonic E ws = Ok dm ->
  exists w0 rest, ws = w0 :: rest /\ parse_mnemonic_version E w0 = Ok (dm_version dm) /\
    zlen ws = mnemonic_size (dm_version dm) /\
    forall n, spells E ws n -> dm_version dm = n / 2 ^ (12 * zlen ws - 4).
Proof.
  intros E ws dm W Hd. pose proof Hd as Hd'. apply (decode_iff_outcome E W) in Hd.
  destruct ws as [|w0 rest]; [discriminate|]. exists w0, rest. split; auto.
  unfold decode_mnemonic in Hd'.
  destruct (parse_mnemonic_version E w0) as [v|e|] eqn:Hp; cbn [bind] in Hd'; try discriminate.
  assert (Hv : v = dm_version dm).
  { destruct (version_check v) as [[]|e|]; cbn [bind] in Hd'; try discriminate.
    destruct (negb _); [discriminate|].
    repeat match type of Hd' with
    | bind ?x _ = _ => destruct x as [?|?|]; cbn [bind] in Hd'; try discriminate
    | (let '(_, _) := ?p in _) = _ => destruct p
    | (if ?b then _ else _) = _ => destruct b; try discriminate
    end; injection Hd' as <-; reflexivity. }
  split; [congruence|].
  inversion Hd as [| | | | | | e o He Ho Hln Hsp Eq | e sa v' o He Hsa Hvv Ho Hln Hsp Eq]; subst dm; cbn [dm_version].
  - unfold zlen. rewrite Hln. split; [reflexivity|]. intros n Hn.
    rewrite (spells_unique E W _ _ _ Hn Hsp). symmetry. apply (plain_int_fields e o); auto.
  - unfold zlen. rewrite Hln. split; [reflexivity|]. intros n Hn.
    rewrite (spells_unique E W _ _ _ Hn Hsp). symmetry. apply (enc_int_fields e sa v' o); auto.
Qed.
Print Assumptions version_agrees_with_decode.

(** ** C12 *)
Theorem decrypt_seed_exact : forall E ws dm pw,
  wordlist_ok E -> argon_ok E -> aes_ok E ->
  decode_mnemonic E ws = Ok dm -> dm_version dm = 1 ->
  (key_verify E pw (dm_salt dm) (dm_offset dm) <> dm_verify dm /\
   dm_decrypt_seed E dm pw = Err ErrMnemonicDecryption) \/
  (key_verify E pw (dm_salt dm) (dm_offset dm) = dm_verify dm /\
   dm_decrypt_seed E dm pw = Ok (mk_seed 0 (plain_of_cipher E pw (dm_salt dm) (dm_offset dm) (dm_entropy dm)))).
Proof.
  intros E ws dm pw W A X Hd Hv. apply (decode_iff_outcome E W) in Hd.
  inversion Hd as [| | | | | | e o He Ho Hln Hsp Eq | e sa v o He Hsa Hvv Ho Hln Hsp Eq]; subst dm; cbn in Hv; [discriminate|].
  cbn [dm_salt dm_offset dm_verify dm_entropy]. rewrite decrypt_general by auto.
  destruct (key_verify E pw sa o =? v) eqn:Q; [right|left]; split; auto; lia.
Qed.
Print Assumptions decrypt_seed_exact.

Theorem seed_of_encrypted_refused : forall dm, dm_version dm = 1 -> dm_seed dm = Err ErrMnemonicDecryption.
Proof. intros dm H. unfold dm_seed, dm_encrypted. rewrite H. reflexivity. Qed.
Print Assumptions seed_of_encrypted_refused.

Theorem decrypt_plaintext_ignores_password : forall E dm pw, dm_version dm <> 1 ->
  dm_decrypt_seed E dm pw = dm_seed dm.
Proof.
  intros E dm pw H. unfold dm_decrypt_seed, dm_encrypted, version_encrypted.
  destruct (dm_version dm =? 1) eqn:Q; [lia|reflexivity].
Qed.
Print Assumptions decrypt_plaintext_ignores_password.

(** ** C17: the literal claim (no panic for every NewSeed seed and uint32 offset) is false *)
Theorem encode_no_panic_refuted : exists E s off,
  wordlist_ok E /\ new_seed 0 (-1) = Ok s /\ off = 0 /\ encode_mnemonic_plaintext E s off = Panic.
Proof.
  exists toy_env, (mk_seed 0 (-1)), 0. split; [apply toy_wordlist_ok|]. vm_compute. auto.
Qed.
Print Assumptions encode_no_panic_refuted.

Theorem encode_offset_panic_refuted : exists E s off,
  wordlist_ok E /\ seed_ok s /\ 0 <= off < 2 ^ 32 /\
  encode_mnemonic_plaintext E s off = Panic /\ encode_mnemonic_encrypted E s off [1] [1; 2; 3] = Panic.
Proof.
  exists toy_env, (mk_seed 0 5), (2 ^ 31). split; [apply toy_wordlist_ok|].
  split; [split; cbn; lia|]. split; [lia|]. vm_compute. auto.
Qed.
Print Assumptions encode_offset_panic_refuted.
