(** C37-C41: the OpenPGP building blocks against the reader of Spec/PgpSpec.v. *)
From Coq Require Import Lia ZifyBool ZifyNat.
From Verif.Model Require Import GoBase Env GoTime Seed Encoding PgpWire PgpS2k PgpKeys.
From Verif.Spec Require Import EnvSpec PhraseSpec KeySpec PgpSpec ExportSpec.
From Verif.Proofs Require Import BitsP EnvInst RoundtripP KeysP PgpP S2kP SignP ExportP.
Ltac Zify.zify_post_hook ::= Z.div_mod_to_equations.

(** ** C37 *)
Theorem length_roundtrip : forall n r, 0 <= n < 2 ^ 32 ->
  read_length (packet_length_encode n ++ r) = Some (n, r) /\
  read_sublength (packet_length_encode n ++ r) = Some (n, r).
Proof. intros n r H. split; [apply read_length_encode|apply read_sublength_encode]; auto. Qed.
Print Assumptions length_roundtrip.

(** no other octets of the RFC give the same length in fewer; never a partial-body header *)
Theorem length_shortest : forall n l, 0 <= n < 2 ^ 32 -> read_length l = Some (n, []) ->
  Forall byte l -> zlen (packet_length_encode n) <= zlen l.
Proof.
  intros n l Hn H B. unfold read_length in H. destruct l as [|a l]; [discriminate|].
  rewrite read_int_1 in H. cbn [obind] in H. inversion B as [|? ? Ba Bl]; subst. unfold byte in *.
  unfold packet_length_encode. destruct (a <? 192) eqn:Q1.
  - inversion H; subst. replace (n <=? 191) with true by lia. rewrite !zlen_cons. cbn. lia.
  - destruct (a <? 224) eqn:Q2.
    + destruct l as [|b l]; [discriminate|]. rewrite read_int_1 in H. cbn [obind] in H. inversion H; subst.
      inversion Bl; subst. replace ((a - 192) * 256 + b + 192 <=? 8383) with true by lia.
      destruct (_ <=? 191); cbn; lia.
    + destruct (a =? 255) eqn:Q3; [|discriminate].
      unfold read_int, take in H. destruct ((0 <=? 4) && (4 <=? zlen l)) eqn:Q4; [|discriminate].
      destruct (n <=? 191); [|destruct (n <=? 8383)]; rewrite !zlen_cons; unfold u32; rewrite ?zlen_be; cbn [zlen length Z.of_nat] in *; lia.
Qed.
Print Assumptions length_shortest.

Theorem length_never_partial : forall n, 0 <= n < 2 ^ 32 ->
  exists b r, packet_length_encode n = b :: r /\ ~ 224 <= b < 255.
Proof.
  intros n H. unfold packet_length_encode, u8. change (2 ^ 8) with 256.
  destruct (n <=? 191) eqn:A; [|destruct (n <=? 8383) eqn:B].
  - do 2 eexists. split; [reflexivity|]. lia.
  - do 2 eexists. split; [reflexivity|].
    rewrite Z.shiftr_div_pow2 by lia. change (2 ^ 8) with 256.
    replace (((n - 192) / 256 mod 256 + 192) mod 256) with ((n - 192) / 256 + 192) by lia. lia.
  - do 2 eexists. split; [reflexivity|]. lia.
Qed.
Print Assumptions length_never_partial.
Example length_cases :
  map packet_length_encode [0; 191; 192; 8383; 8384; 4294967295] =
  [[0]; [191]; [192; 0]; [223; 255]; [255; 0; 0; 32; 192]; [255; 255; 255; 255; 255]].
Proof. reflexivity. Qed.

(** ** C38 *)
Theorem mpi_roundtrip : forall n r, 0 <= n < 2 ^ 65535 -> read_mpi (encode_mpi n ++ r) = Some (n, r).
Proof.
  intros n r [H1 H2]. assert (B : bit_len n <= 65535) by (apply bit_len_small; [discriminate|exact (conj H1 H2)]).
  clear H2. apply read_mpi_encode; [exact H1|lia].
Qed.
Print Assumptions mpi_roundtrip.
Theorem mpi_no_leading_zero : forall n, 0 < n ->
  exists h b r, encode_mpi n = h ++ b :: r /\ length h = 2%nat /\ 0 < b < 256.
Proof.
  intros n H. unfold encode_mpi. pose proof (bit_len_bound n ltac:(lia)) as [U L].
  destruct (big_bytes_spec n ltac:(lia)) as [Z V].
  assert (bit_len n > 0) by (unfold bit_len; replace (n =? 0) with false by lia; pose proof (Z.log2_nonneg (Z.abs n)); lia).
  destruct (big_bytes n) as [|b r] eqn:Q.
  - cbn in Z. lia.
  - exists (be_bytes 2 (u16 (bit_len n))), b, r. split; [reflexivity|]. split; [apply be_bytes_length|].
    assert (B : Forall byte (b :: r)) by (rewrite <- Q; apply be_bytes_byte).
    inversion_clear B as [|? ? Bb Br]. unfold byte in Bb. split; [|lia].
    assert (b <> 0); [|lia]. intros ->. rewrite be_uint_cons in V. rewrite Z.mul_0_l, Z.add_0_l in V.
    pose proof (be_uint_bound r Br) as X. rewrite V in X. rewrite zlen_cons in Z.
    rewrite <- pow256 in X by apply zlen_nonneg. destruct L as [L|L]; [lia|].
    assert (2 ^ (8 * zlen r) <= 2 ^ (bit_len n - 1)) by (apply Z.pow_le_mono_r; lia). lia.
Qed.
Print Assumptions mpi_no_leading_zero.
Theorem checksum_is_sum : forall l, checksum_mpi l = bytes_of_bits 16 (fold_right Z.add 0 l).
Proof.
  intros l. unfold checksum_mpi. rewrite checksum_spec, <- be_u16. reflexivity.
Qed.
Print Assumptions checksum_is_sum.
Example mpi_cases : map encode_mpi [0; 1; 255; 256; 511] = [[0; 0]; [0; 1; 1]; [0; 8; 255]; [0; 9; 1; 0]; [0; 9; 1; 255]].
Proof. reflexivity. Qed.
(** the limit is sharp: one bit more and the bit count wraps to 0 *)
Theorem mpi_too_long : forall n r, bit_len n = 65536 -> 0 <= n -> read_mpi (encode_mpi n ++ r) = Some (0, big_bytes n ++ r).
Proof.
  intros n r H Hn. unfold encode_mpi, read_mpi, u16. rewrite H. change (65536 mod 2 ^ 16) with 0. rewrite <- app_assoc.
  rewrite read_int_be; [|reflexivity|split; reflexivity || discriminate]. cbn [obind].
  change ((0 + 7) / 8) with 0. rewrite <- (app_nil_l (big_bytes n ++ r)) at 1. rewrite take_app by reflexivity. reflexivity.
Qed.
Print Assumptions mpi_too_long.

(** ** C39 *)
Theorem s2k_is_rfc : forall E salt pw, 0 < zlen (salt ++ pw) <= 65011712 ->
  string_to_key E 8 pw salt (s2k_count_decode 255) = Ok (sha256 E (s2k_input salt pw (s2k_octets 255))).
Proof.
  intros E salt pw H. unfold string_to_key. change (hash_new E 8) with (Some (sha256 E)).
  replace (zlen (salt ++ pw) =? 0) with false by lia. change (s2k_count_decode 255) with 65011712.
  rewrite s2k_octets_max, s2k_preimage_ok by auto. reflexivity.
Qed.
Print Assumptions s2k_is_rfc.
Theorem s2k_count_is_rfc : forall c, 0 <= c < 256 -> s2k_count_decode c = s2k_octets c.
Proof.
  intros c H. unfold s2k_count_decode, s2k_octets. rewrite Z.shiftl_mul_pow2, Z.shiftr_div_pow2.
  - change 15 with (Z.ones 4). rewrite Z.land_ones by lia. reflexivity.
  - lia.
  - rewrite Z.shiftr_div_pow2 by lia. change (2 ^ 4) with 16. lia.
Qed.
Print Assumptions s2k_count_is_rfc.
Lemma s2k_input_long salt pw c : c < zlen (salt ++ pw) -> s2k_input salt pw c = salt ++ pw.
Proof.
  intros H. unfold s2k_input. rewrite Z.max_r by lia. rewrite zlen_eq, Nat2Z.id. rewrite cycle_firstn by lia.
  apply firstn_all.
Qed.
(** longer passwords are cut where the RFC says the whole of salt and password is hashed once *)
Theorem s2k_long_truncates : forall E salt pw c, 0 <= c < zlen (salt ++ pw) ->
  string_to_key E 8 pw salt c = Ok (sha256 E (firstn (Z.to_nat c) (salt ++ pw))) /\
  s2k_input salt pw c = salt ++ pw.
Proof.
  intros E salt pw c H. split; [|apply s2k_input_long; lia].
  unfold string_to_key. change (hash_new E 8) with (Some (sha256 E)).
  replace (zlen (salt ++ pw) =? 0) with false by lia. unfold s2k_preimage.
  rewrite Z.div_small, Z.mod_small by lia. reflexivity.
Qed.
Print Assumptions s2k_long_truncates.
Lemma s2k_long_differs N : 0 < N < 2 ^ 64 -> exists E salt pw, hash_ok E /\ zlen salt = 8 /\
  string_to_key E 8 pw salt N <> Ok (sha256 E (s2k_input salt pw N)).
Proof.
  intros HN. pose (E := {| wl_words := wl_words toy_env; wl_search := wl_search toy_env; unicode_lower := unicode_lower toy_env;
    trim_space := trim_space toy_env; argon2id := argon2id toy_env; aes_encrypt := aes_encrypt toy_env;
    aes_decrypt := aes_decrypt toy_env; sha1 := sha1 toy_env; sha256 := fun m => be_bytes 32 (zlen m);
    sha384 := sha384 toy_env; sha512 := sha512 toy_env; hkdf_expand_sha256 := hkdf_expand_sha256 toy_env;
    ed25519_public := ed25519_public toy_env; ed25519_sign := ed25519_sign toy_env; x25519_base := x25519_base toy_env;
    rand_int31n := rand_int31n toy_env; seconds_u32 := seconds_u32 toy_env; armor_encode := armor_encode toy_env |}).
  exists E, (repeat 1 8), (repeat 2 (Z.to_nat N)).
  assert (L : zlen (repeat 1 8 ++ repeat 2 (Z.to_nat N)) = N + 8).
  { rewrite zlen_app, !zlen_eq, !repeat_length, Z2Nat.id by lia. lia. }
  split; [|split].
  - intros m. split; [exact (proj1 (toy_hash_env_ok m))|]. split; [apply be_bytes_length|apply be_bytes_byte].
  - reflexivity.
  - destruct (s2k_long_truncates E (repeat 1 8) (repeat 2 (Z.to_nat N)) N) as [-> ->]; [lia|].
    set (p := repeat 1 8 ++ repeat 2 (Z.to_nat N)) in *.
    intros X. assert (X' : be_bytes 32 (zlen (firstn (Z.to_nat N) p)) = be_bytes 32 (zlen p)) 
      by exact (f_equal (fun r => match r with Ok a => a | _ => [] end) X). clear X.
    rename X' into X.
    assert (L2 : zlen (firstn (Z.to_nat N) p) = N).
    { rewrite zlen_eq in *. rewrite firstn_length. lia. }
    rewrite L, L2 in X. apply (f_equal be_uint) in X. rewrite !be_uint_be_bytes in X.
    change (256 ^ Z.of_nat 32) with (2 ^ 256) in X. rewrite !Z.mod_small in X by lia. lia.
Qed.
Theorem s2k_long_password_refuted : exists E salt pw, hash_ok E /\ zlen salt = 8 /\
  string_to_key E 8 pw salt 65011712 <> Ok (sha256 E (s2k_input salt pw 65011712)).
Proof. apply s2k_long_differs. lia. Qed.
Print Assumptions s2k_long_password_refuted.
Example s2k_case : s2k_input [1; 2] [3] 8 = [1; 2; 3; 1; 2; 3; 1; 2] /\ s2k_octets 0 = 1024.
Proof. split; reflexivity. Qed.

(** ** C40 *)
Definition fingerprint_input (k : ecc_key) : bytes :=
  0x99 :: bytes_of_bits 16 (zlen (encode_public k)) ++ encode_public k.
Lemma expressible_ok k : expressible k -> ecc_ok k.
Proof.
  intros (H1 & H2 & H3 & H4 & H5). repeat (split; auto). destruct H5 as [[A [p P]]|[A B]]; [left|right]; auto.
  split; auto. exists (u8 (kdf_hash p)), (u8 (kdf_cipher p)). exact P.
Qed.
Theorem fingerprint_preimage : forall E k, fingerprint_v4 E k = sha1 E (fingerprint_input k).
Proof. intros E k. unfold fingerprint_v4, fingerprint_input. rewrite be_u16. reflexivity. Qed.
Print Assumptions fingerprint_preimage.
Theorem fingerprint_commits : forall k k', expressible k -> expressible k' ->
  fingerprint_input k = fingerprint_input k' ->
  ec_creation k / ns = ec_creation k' / ns /\ ec_alg k = ec_alg k' /\ ec_oid k = ec_oid k' /\
  ec_public k = ec_public k' /\ ec_extra k = ec_extra k'.
Proof.
  intros k k' H H' Q. apply expressible_ok in H, H'. unfold fingerprint_input in Q.
  assert (P : encode_public k = encode_public k').
  { change 16%nat with (8 * 2)%nat in Q. rewrite !bytes_of_bits_be in Q.
    pose proof (f_equal (fun l => skipn 3 l) Q) as X. exact X. }
  pose proof (read_public_encode k [] H) as R. pose proof (read_public_encode k' [] H') as R'.
  rewrite P in R. rewrite R in R'. inversion R' as [[X1 X2 X3 X4 X5 X6]]. repeat split; auto.
  destruct H as (_ & _ & _ & _ & X), H' as (_ & _ & _ & _ & X').
  destruct X as [(A & h & c & Y)|[A Y]], X' as [(A' & h' & c' & Y')|[A' Y']]; rewrite Y, Y'; try congruence.
  unfold kdf_of in X5. rewrite Y, Y' in X5. inversion X5. reflexivity.
Qed.
Print Assumptions fingerprint_commits.
(** so two different keys with one fingerprint are a SHA-1 collision *)
Theorem fingerprint_collision : forall E k k', expressible k -> expressible k' ->
  fingerprint_v4 E k = fingerprint_v4 E k' ->
  (ec_creation k / ns, ec_alg k, ec_oid k, ec_public k, ec_extra k) =
  (ec_creation k' / ns, ec_alg k', ec_oid k', ec_public k', ec_extra k') \/
  fingerprint_input k <> fingerprint_input k' /\ sha1 E (fingerprint_input k) = sha1 E (fingerprint_input k').
Proof.
  intros E k k' H H' F. rewrite !fingerprint_preimage in F.
  destruct (list_eq_dec Z.eq_dec (fingerprint_input k) (fingerprint_input k')) as [Q|Q]; auto.
  left. destruct (fingerprint_commits k k' H H' Q) as (-> & -> & -> & -> & ->). reflexivity.
Qed.
Print Assumptions fingerprint_collision.
Example expressible_case : exists k, new_curve_key toy_env (repeat 7 32) (1700000000 * ns) 0 None = Ok k /\ expressible (cv_base k).
Proof.
  eexists. split; [reflexivity|]. split; [vm_compute; split; congruence|]. split; [split; [reflexivity|repeat constructor; lia]|].
  split; [reflexivity|]. split; [split; [discriminate|reflexivity]|]. left. split; [reflexivity|]. exists default_kdf. reflexivity.
Qed.

(** ** C41 *)
Theorem curve_secret : forall E sd c x kdf k, x25519_ok E -> block32 sd ->
  new_curve_key E sd c x kdf = Ok k ->
  let n := number (ec_private (cv_base k)) in
  n = 2 ^ 254 + (number (rev sd) mod 2 ^ 254) / 8 * 8 /\
  n mod 8 = 0 /\ 2 ^ 254 <= n < 2 ^ 255 /\
  (exists d, encode_mpi n = [0; 255] ++ d /\ length d = 32%nat) /\
  ec_public (cv_base k) = x25519_base E (rev (bytes_of_bits 256 n)).
Proof.
  intros E sd c x kdf k [_ HX] Hsd H. rewrite new_curve_key_ok in H by apply Hsd. injection H as <-.
  unfold curve_of. cbn [cv_base ec_private ec_public]. cbv zeta. rewrite !number_be.
  pose proof (clamp_block sd Hsd) as Hc. rewrite clamp_value by auto.
  pose proof (rev_block _ Hc) as Hr. pose proof (bytes_of_bits_256 _ Hr) as BB. rewrite clamp_value in BB by auto.
  set (m := be_uint (rev sd) mod 2 ^ 254) in *.
  assert (Hm : 0 <= m < 2 ^ 254) by (apply Z.mod_pos_bound; lia).
  set (n := 2 ^ 254 + m / 8 * 8) in *.
  assert (Hn : 2 ^ 254 <= n < 2 ^ 255) by (unfold n; lia).
  split; [reflexivity|]. split; [unfold n; clear; change (2 ^ 254) with (2 ^ 251 * 8); generalize (2 ^ 251); intros; lia|].
  split; [exact Hn|]. split.
  - assert (BL : bit_len n = 255).
    { unfold bit_len. replace (n =? 0) with false by lia. rewrite Z.abs_eq by lia.
      rewrite (Z.log2_unique n 254) by lia. reflexivity. }
    unfold encode_mpi. rewrite BL. exists (big_bytes n). split; [reflexivity|].
    destruct (big_bytes_spec n ltac:(lia)) as [L _]. rewrite BL, zlen_eq in L. change ((255 + 7) / 8) with 32 in L. lia.
  - rewrite BB, rev_involutive. apply HX; auto. pose proof (clamp_same_bits sd Hsd) as [S1 S2]. split; auto.
    intros i Hi. cbv zeta. intros j Hj. symmetry. apply S2; auto. lia.
Qed.
Print Assumptions curve_secret.
Example curve_secret_case :
  res_map (fun k => number (ec_private (cv_base k))) (new_curve_key toy_env (repeat 255 32) 0 0 None) = Ok (2 ^ 255 - 8).
Proof. reflexivity. Qed.
