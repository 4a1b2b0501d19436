From Coq Require Import Lia ZifyBool ZifyNat.
From Verif.Model Require Import GoBase Env BitBuffer Crc32 MnemonicPkg Version Seed Encoding Recovery.
From Verif.Spec Require Import EnvSpec PhraseSpec DecodeSpec.
From Verif.Proofs Require Import BitsP BitBufferP WordsP CrcP PhraseP.
Ltac Zify.zify_post_hook ::= Z.div_mod_to_equations.

Lemma plain_int_bound e o : 0 <= e < 2 ^ 128 -> 0 <= o < 2 ^ 31 -> 0 <= plain_int e o < 2 ^ 164.
Proof.
  intros. unfold plain_int. pose proof (checksum_spec_bound 163 (plain_payload e o)).
  unfold plain_payload in *. lia.
Qed.

Lemma plain_int_fields e o : 0 <= e < 2 ^ 128 -> 0 <= o < 2 ^ 31 ->
  plain_int e o / 2 ^ 164 = 0 /\ plain_int e o / 2 ^ 36 = e /\ plain_int e o / 32 mod 2 ^ 31 = o /\
  plain_int e o / 32 = plain_payload e o /\ plain_int e o mod 32 = checksum_spec 163 (plain_payload e o).
Proof.
  intros. unfold plain_int. pose proof (checksum_spec_bound 163 (plain_payload e o)).
  set (c := checksum_spec _ _) in *. clearbody c. unfold plain_payload. lia.
Qed.

Lemma plain_int_of n : 0 <= n < 2 ^ 164 -> n mod 32 = checksum_spec 163 (n / 32) ->
  n = plain_int (n / 2 ^ 36) (n / 32 mod 2 ^ 31) /\ 0 <= n / 2 ^ 36 < 2 ^ 128.
Proof.
  intros Hn Hc. unfold plain_int.
  assert (P : plain_payload (n / 2 ^ 36) (n / 32 mod 2 ^ 31) = n / 32) by (unfold plain_payload; lia).
  rewrite P. lia.
Qed.

Lemma enc_int_bound e s v o : 0 <= e < 2 ^ 128 -> 0 <= s < 2 ^ 19 -> 0 <= v < 2 ^ 5 -> 0 <= o < 2 ^ 31 ->
  2 ^ 188 <= enc_int e s v o < 2 ^ 189.
Proof.
  intros. unfold enc_int. pose proof (checksum_spec_bound 187 (enc_payload e s v o)).
  unfold enc_payload in *. lia.
Qed.

Lemma enc_int_fields e s v o : 0 <= e < 2 ^ 128 -> 0 <= s < 2 ^ 19 -> 0 <= v < 2 ^ 5 -> 0 <= o < 2 ^ 31 ->
  let n := enc_int e s v o in
  n / 2 ^ 188 = 1 /\ n / 2 ^ 60 mod 2 ^ 128 = e /\ n / 2 ^ 41 mod 2 ^ 19 = s /\ n / 2 ^ 36 mod 2 ^ 5 = v /\
  n / 32 mod 2 ^ 31 = o /\ n / 32 = enc_payload e s v o /\ n mod 32 = checksum_spec 187 (enc_payload e s v o).
Proof.
  intros He Hs Hv Ho. cbv zeta. unfold enc_int. pose proof (checksum_spec_bound 187 (enc_payload e s v o)).
  set (c := checksum_spec _ _) in *. clearbody c. unfold enc_payload.
  repeat split; lia.
Qed.

Lemma enc_int_of n : 2 ^ 188 <= n < 2 ^ 189 -> n mod 32 = checksum_spec 187 (n / 32) ->
  n = enc_int (n / 2 ^ 60 mod 2 ^ 128) (n / 2 ^ 41 mod 2 ^ 19) (n / 2 ^ 36 mod 2 ^ 5) (n / 32 mod 2 ^ 31).
Proof.
  intros Hn Hc. unfold enc_int.
  assert (P : enc_payload (n / 2 ^ 60 mod 2 ^ 128) (n / 2 ^ 41 mod 2 ^ 19) (n / 2 ^ 36 mod 2 ^ 5) (n / 32 mod 2 ^ 31)
              = n / 32).
  { unfold enc_payload.
    set (p := n / 32). 
    assert (P1 : n / 2 ^ 60 = p / 2 ^ 55) by (unfold p; rewrite Z.div_div by lia; reflexivity).
    assert (P2 : n / 2 ^ 41 = p / 2 ^ 36) by (unfold p; rewrite Z.div_div by lia; reflexivity).
    assert (P3 : n / 2 ^ 36 = p / 2 ^ 31) by (unfold p; rewrite Z.div_div by lia; reflexivity).
    rewrite P1, P2, P3. assert (2 ^ 183 <= p < 2 ^ 184) by (unfold p; lia). clearbody p.
    rewrite (Z.mod_eq (p / 2 ^ 31) (2 ^ 5)), Z.div_div by lia. change (2 ^ 31 * 2 ^ 5) with (2 ^ 36).
    rewrite (Z.mod_eq (p / 2 ^ 36) (2 ^ 19)), Z.div_div by lia. change (2 ^ 36 * 2 ^ 19) with (2 ^ 55).
    rewrite (Z.mod_eq (p / 2 ^ 55) (2 ^ 128)), Z.div_div by lia. change (2 ^ 55 * 2 ^ 128) with (2 ^ 183).
    rewrite (Z.mod_eq p (2 ^ 31)) by lia.
    assert (p / 2 ^ 183 = 1) by lia. lia. }
  rewrite P. lia.
Qed.

Section D.
Variable E : Env.
Hypothesis W : wordlist_ok E.

Lemma spells_bound ws n : spells E ws n -> 0 <= n < 2 ^ (12 * zlen ws).
Proof. intros [H _]. rewrite pow4096; auto. apply zlen_nonneg. Qed.

Lemma outcome_sound ws r : outcome E ws r -> decode_mnemonic E ws = r.
Proof.
  destruct 1 as [-> | w0 rest -> Hk | i Hf Hv | i Hf Hv Hl | i Hf Hv Hl Hk | i n Hf Hv Hl Hs Hc
                | e o He Ho Hl Hs | e s v o He Hs' Hv Ho Hl Hs].
  - reflexivity.
  - unfold decode_mnemonic, parse_mnemonic_version, parse_version_raw.
    apply (word_map_none E) in Hk. rewrite Hk. reflexivity.
  - destruct (first_index_parse E W _ _ Hf) as [w0 [rest [-> [Hp _]]]].
    unfold decode_mnemonic. rewrite Hp. replace (i / 256 >? 1) with true by lia. reflexivity.
  - destruct (first_index_parse E W _ _ Hf) as [w0 [rest [-> [Hp Hb]]]].
    unfold decode_mnemonic. rewrite Hp. replace (i / 256 >? 1) with false by lia. cbn [bind].
    unfold version_check, version_latest. replace (i / 256 >? 1) with false by lia. cbn [bind].
    assert (Hsz : mnemonic_size (i / 256) = Z.of_nat (phrase_words (i / 256))).
    { destruct Hf as [Hi _]. assert (D : i / 256 = 0 \/ i / 256 = 1) by lia. destruct D as [-> | ->]; reflexivity. }
    rewrite Hsz. unfold zlen. destruct (_ =? _) eqn:Q; cbn [negb]; auto. lia.
  - destruct (first_index_parse E W _ _ Hf) as [w0 [rest [-> [Hp Hb]]]].
    unfold decode_mnemonic. rewrite Hp. replace (i / 256 >? 1) with false by lia. cbn [bind].
    unfold version_check, version_latest. replace (i / 256 >? 1) with false by lia. cbn [bind].
    assert (Hsz : mnemonic_size (i / 256) = Z.of_nat (phrase_words (i / 256))).
    { destruct Hf as [Hi _]. assert (D : i / 256 = 0 \/ i / 256 = 1) by lia. destruct D as [-> | ->]; reflexivity. }
    rewrite Hsz. unfold zlen. rewrite Hl, Z.eqb_refl. cbn [negb].
    destruct (decode_words_total E W (w0 :: rest)) as [[Ht _] | [_ Ht]].
    + contradiction.
    + rewrite Ht. reflexivity.
  - assert (Hne : ws <> []) by (destruct Hf as [_ [? [? [-> _]]]]; discriminate).
    pose proof (spells_first E W ws n Hne Hs) as Hf'.
    pose proof (first_index_unique E W _ _ _ Hf Hf') as Hi.
    pose proof (spells_bound _ _ Hs) as Hb.
    destruct Hf as [Hi0 _]. unfold zlen in *.
    assert (D : i / 256 = 0 \/ i / 256 = 1) by lia.
    destruct D as [D | D]; rewrite D in Hl; cbn in Hl; rewrite Hl in *.
    + change (4096 ^ (Z.of_nat 14 - 1)) with (2 ^ 156) in Hi.
      assert (V : n / 2 ^ 164 = 0).
      { change (2 ^ 164) with (2 ^ 156 * 256). rewrite <- Z.div_div, <- Hi by lia. auto. }
      rewrite (decode_core_plain E W ws n Hl Hs V).
      change (12 * 14 - 5)%nat with 163%nat in Hc.
      destruct (n mod 32 =? checksum_spec 163 (n / 32)) eqn:Q; auto. lia.
    + change (4096 ^ (Z.of_nat 16 - 1)) with (2 ^ 180) in Hi.
      assert (V : n / 2 ^ 188 = 1).
      { change (2 ^ 188) with (2 ^ 180 * 256). rewrite <- Z.div_div, <- Hi by lia. auto. }
      rewrite (decode_core_enc E W ws n Hl Hs V).
      change (12 * 16 - 5)%nat with 187%nat in Hc.
      destruct (n mod 32 =? checksum_spec 187 (n / 32)) eqn:Q; auto. lia.
  - destruct (plain_int_fields e o He Ho) as [F1 [F2 [F3 [F4 F5]]]].
    rewrite (decode_core_plain E W ws _ Hl Hs F1).
    rewrite F2, F3, F4, F5, Z.eqb_refl. reflexivity.
  - destruct (enc_int_fields e s v o He Hs' Hv Ho) as [F1 [F2 [F3 [F4 [F5 [F6 F7]]]]]].
    rewrite (decode_core_enc E W ws _ Hl Hs F1).
    rewrite F2, F3, F4, F5, F6, F7, Z.eqb_refl. reflexivity.
Qed.

Lemma outcome_total ws : exists r, outcome E ws r.
Proof.
  destruct ws as [|w0 rest] eqn:Ews; [eexists; apply O_empty; auto|].
  destruct (word_map E (to_lower E w0)) as [i|] eqn:Ew.
  2:{ eexists. eapply O_first_unknown; eauto. apply (word_map_none E); auto. }
  apply (word_map_spec E W) in Ew as [Hi Hw].
  assert (Hf : first_index E (w0 :: rest) i) by (split; [lia|]; eauto).
  rewrite <- Ews in *.
  destruct (Z_lt_ge_dec 1 (i / 256)); [eexists; eapply O_version; eauto|].
  destruct (Nat.eq_dec (length ws) (phrase_words (i / 256))) as [Hl|Hl].
  2:{ eexists. eapply O_count; eauto. lia. }
  destruct (decode_words_total E W ws) as [[Hk [l [Hd Hll]]] | [Hk _]].
  2:{ eexists. eapply O_unknown; eauto. lia. }
  pose proof Hd as Hd'. apply (decode_words_spec E W) in Hd' as [Hb _].
  assert (Hs : spells E ws (value_of l)).
  { apply (spells_decode E W). exists l. repeat split; auto. apply decode_indices_ok; auto. }
  set (n := value_of l) in *. clearbody n.
  destruct (Z.eq_dec (n mod 32) (checksum_spec (12 * length ws - 5) (n / 32))) as [Hc|Hc].
  2:{ eexists. eapply O_checksum; eauto. lia. }
  assert (Hne : ws <> []) by (rewrite Ews; discriminate).
  pose proof (spells_first E W ws n Hne Hs) as Hf'.
  pose proof (first_index_unique E W _ _ _ Hf Hf') as Hi'.
  pose proof (spells_bound _ _ Hs) as Hbd. unfold zlen in *.
  assert (D : i / 256 = 0 \/ i / 256 = 1) by lia.
  destruct D as [D | D]; rewrite D in Hl; cbn in Hl; rewrite Hl in *.
  - change (4096 ^ (Z.of_nat 14 - 1)) with (2 ^ 156) in Hi'.
    change (12 * 14 - 5)%nat with 163%nat in Hc.
    assert (V : n / 2 ^ 164 = 0).
    { change (2 ^ 164) with (2 ^ 156 * 256). rewrite <- Z.div_div, <- Hi' by lia. auto. }
    assert (Hn : 0 <= n < 2 ^ 164) by lia.
    destruct (plain_int_of n Hn Hc) as [P1 P2].
    eexists. eapply O_plain; [exact P2 | | auto | rewrite <- P1; exact Hs]. lia.
  - change (4096 ^ (Z.of_nat 16 - 1)) with (2 ^ 180) in Hi'.
    change (12 * 16 - 5)%nat with 187%nat in Hc.
    assert (V : n / 2 ^ 188 = 1).
    { change (2 ^ 188) with (2 ^ 180 * 256). rewrite <- Z.div_div, <- Hi' by lia. auto. }
    assert (Hn : 2 ^ 188 <= n < 2 ^ 189) by lia.
    pose proof (enc_int_of n Hn Hc) as P1.
    eexists. eapply O_encrypted; [ | | | | auto | rewrite <- P1; exact Hs]; lia.
Qed.

Lemma decode_iff_outcome ws r : decode_mnemonic E ws = r <-> outcome E ws r.
Proof.
  split; [|apply outcome_sound]. intros <-. destruct (outcome_total ws) as [r Hr].
  rewrite (outcome_sound _ _ Hr). auto.
Qed.
End D.
