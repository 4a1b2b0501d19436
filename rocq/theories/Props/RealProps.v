(** C68, C69: the properties that assume something of the cryptographic packages, restated with the
    standard algorithms in their place. *)
From Coq Require Import Lia ZifyBool ZifyNat.
From Verif.Model Require Import GoBase Env GoTime Seed Encoding Recovery PgpWire PgpKeys Mnemonikey.
From Verif.Spec Require Import EnvSpec PhraseSpec DecodeSpec KeySpec PgpSpec ExportSpec Sha Aes Curve25519 Argon2 RealEnv EdVerify GoRand.
From Verif.Proofs Require Import BitsP RoundtripP KeysP PgpP RealP EdSignP RandP EnvInst.
From Verif.Props Require Import PhraseProps KeyProps ExportProps.
Ltac Zify.zify_post_hook ::= Z.div_mod_to_equations.

(** ** C68 *)
Theorem std_primitives : forall E0, let E := std_env E0 in
  argon_ok E /\ aes_ok E /\ aes256_ok E /\ hkdf_ok E /\ hash_ok E /\ x25519_ok E /\
  (forall sd m, block32 (ed25519_public E sd) /\
     length (ed25519_sign E (sd ++ ed25519_public E sd) m) = 64%nat /\
     Forall byte (ed25519_sign E (sd ++ ed25519_public E sd) m)).
Proof.
  intros E0 E. split; [intros p s t m th n _; apply argon2_bytes|].
  split; [intros key blk [L F] Hb; apply (cipher_ok 4); auto; lia|].
  split; [intros key blk [L F] Hb; apply (cipher_ok 8); auto; lia|].
  split; [intros key info n; apply hkdf_bytes|].
  split; [intros m; split; [apply sha1_bytes|apply sha256_bytes]|].
  split; [split; [intros sd _; change (nbytes 32 (std_x25519_base sd)); unfold std_x25519_base; apply x25519_bytes|]|].
  - intros a b Ha Hb H. change (std_x25519_base a = std_x25519_base b). unfold std_x25519_base, x25519. rewrite (clamp_same a b Ha Hb H). reflexivity.
  - intros sd m. split; [exact (ed25519_public_bytes sd)|].
    exact (ed25519_sign_bytes (sd ++ std_ed25519_public sd) m).
Qed.
Print Assumptions std_primitives.

(** [std_env] keeps the word list. *)
Lemma std_wordlist E0 : wordlist_ok E0 -> wordlist_ok (std_env E0).
Proof. intros [A B C D]. constructor; assumption. Qed.

(** C02 without any assumption about cryptography *)
Theorem std_encrypted_roundtrip : forall E0 s off pw src, wordlist_ok E0 ->
  seed_ok s -> 0 <= off < 2 ^ 31 -> pw <> [] -> Forall byte src -> (3 <= length src)%nat ->
  exists ws dm,
    encode_mnemonic_encrypted (std_env E0) s off pw src = Ok ws /\
    length ws = 16%nat /\ Forall (fun w => In w (wl_words E0)) ws /\
    decode_mnemonic (std_env E0) ws = Ok dm /\
    dm_version dm = 1 /\ dm_encrypted dm = true /\ dm_offset dm = off /\
    dm_decrypt_seed (std_env E0) dm pw = Ok s.
Proof.
  intros E0 s off pw src W. destruct (std_primitives E0) as (A & X & _).
  exact (encrypted_roundtrip (std_env E0) s off pw src (std_wordlist E0 W) A X).
Qed.
Print Assumptions std_encrypted_roundtrip.

(** C14 without any assumption about cryptography *)
Theorem std_recovery : forall E0 s t opts m pw src, wordlist_ok E0 ->
  seed_ok s -> opts_ok (opts_of opts) -> mnk_new (std_env E0) s t opts = Ok m ->
  pw <> [] -> Forall byte src -> (3 <= length src)%nat ->
  exists plain enc,
    mnk_encode_plaintext (std_env E0) m = Ok plain /\ mnk_encode_encrypted (std_env E0) m pw src = Ok enc /\
    forall opts', opts_ok (opts_of opts') ->
      recover_plaintext (std_env E0) plain opts' = mnk_new (std_env E0) s t opts' /\
      recover_encrypted (std_env E0) enc pw opts' = mnk_new (std_env E0) s t opts'.
Proof.
  intros E0 s t opts m pw src W S O N Hp Hb Hl. destruct (std_primitives E0) as (A & X & _ & H & _).
  destruct (recover_from_plaintext (std_env E0) s t opts m (std_wordlist E0 W) H S O N) as (plain & P1 & P2).
  destruct (recover_from_encrypted (std_env E0) s t opts m pw src (std_wordlist E0 W) A X H S O N Hp Hb Hl)
    as (enc & Q1 & _ & Q2).
  exists plain, enc. split; [exact P1|]. split; [exact Q1|]. intros opts' O'.
  split; [apply P2, O'|apply Q2, O'].
Qed.
Print Assumptions std_recovery.

(** C13 without any assumption about cryptography *)
Theorem std_conversion : forall E0 p q, wordlist_ok E0 -> converts_many (std_env E0) p q ->
  forall opts, recover_encrypted (std_env E0) (fst q) (snd q) opts =
               recover_encrypted (std_env E0) (fst p) (snd p) opts.
Proof.
  intros E0 p q W. destruct (std_primitives E0) as (A & X & _).
  exact (conversion_preserves_key (std_env E0) p q (std_wordlist E0 W) A X).
Qed.
Print Assumptions std_conversion.

(** ** C73: what Ed25519 signs, Ed25519 verification accepts, for every key and message *)
Theorem ed25519_complete : forall sd m, block32 sd ->
  let public := std_ed25519_public sd in
  let sig := std_ed25519_sign (sd ++ public) m in
  std_ed25519_verify public m sig = true /\ ed25519_verify_bytes public m sig = true.
Proof. intros sd m [L _]. exact (verify_signature sd m L). Qed.
Print Assumptions ed25519_complete.

(** What the export properties (C30 to C41, C57 to C61, C66, C67) assume of cryptography is true. *)
Theorem std_exports : forall E0,
  env_ok (std_env E0) std_ed25519_verify /\ env_ok (std_env E0) ed25519_verify_bytes.
Proof.
  intros E0. assert (R : rand_ok (std_env E0)) by (intros sd k n; exact (rand_range sd k n)). destruct (std_primitives E0) as (_ & _ & A & _ & H & X & D).
  assert (K : forall edv, (forall sd m, block32 sd ->
     edv (std_ed25519_public sd) m (std_ed25519_sign (sd ++ std_ed25519_public sd) m) = true) -> env_ok (std_env E0) edv).
  { intros edv V. split; [exact H|]. split; [exact A|]. split; [|split; [exact X|exact R]].
    intros sd B. split; [apply (D sd [])|]. intros m. destruct (D sd m) as (_ & D2 & D3).
    split; [exact D2|]. split; [exact D3|]. exact (V sd m B). }
  split; apply K; intros sd m B; apply (ed25519_complete sd m B).
Qed.
Print Assumptions std_exports.

(** C34 without any assumption about cryptography: every signature in every export verifies by the
    algorithm of RFC 8032, and is by and about the keys it is next to. *)
Theorem std_export_signatures : forall E0 f ks pw tape t, built (std_env E0) ks -> password_ok pw ->
  Forall byte tape -> exports (std_env E0) f ks pw tape t ->
  let ok := verifies (std_env E0) std_ed25519_verify in
  (forall c, tk_cert t = Some c -> ok (tk_key t) (key_hash_input (tk_key t) ++ uid_hash_input (tk_uid t)) c = true) /\
  subkeys_match ks t (fun k _ _ b =>
     ok (tk_key t) (key_hash_input (tk_key t) ++ key_hash_input (sb_key b)) (sb_binding b) = true /\
     (k = Signing -> cross_certified (std_env E0) std_ed25519_verify t b)).
Proof.
  intros E0 f ks pw tape t B P T X. cbv zeta. destruct (std_exports E0) as [EV _].
  destruct (export_signatures (std_env E0) std_ed25519_verify f ks pw tape t EV B P T X) as [C S].
  split; [intros c H; apply (C c H)|]. destruct S as (order & PO & F).
  exists order. split; [exact PO|]. induction F as [|q b l l' (K & _ & _ & V & G) _ IH]; constructor; [|exact IH].
  split; [exact K|]. split; [exact V|exact G].
Qed.
Print Assumptions std_export_signatures.

(** ** C69 *)
Lemma num_be_be : forall n x, num_be n x = be_bytes n x.
Proof.
  induction n as [|n IH]; intros x; [reflexivity|]. cbn [num_be]. rewrite IH.
  assert (A : forall n x, be_bytes n (x / 256) ++ [x mod 256] = be_bytes (S n) x); [|apply A].
  clear. induction n as [|n IH]; intros x; cbn [be_bytes app].
  - change (8 * Z.of_nat 0) with 0. rewrite Z.div_1_r. reflexivity.
  - cbn [be_bytes] in IH. rewrite IH. f_equal. f_equal.
    replace (8 * Z.of_nat (S n)) with (8 + 8 * Z.of_nat n) by lia.
    rewrite Z.pow_add_r by lia. rewrite Z.div_div by lia. reflexivity.
Qed.
Lemma mpi_point l : block32 l -> encode_mpi (be_uint (mpi_prefix_eddsa :: l)) = mpi_bytes (0x40 :: l).
Proof.
  intros H. destruct (point_bounds l H) as (B & _). destruct H as [L F].
  set (n := be_uint (mpi_prefix_eddsa :: l)) in *.
  assert (N : bit_len n = 263).
  { assert (bit_len n <= 263) by (apply bit_len_le; lia).
    assert (~ bit_len n <= 262) by (rewrite bit_len_le by lia; lia). lia. }
  unfold encode_mpi, mpi_bytes, big_bytes. rewrite N, num_be_be, zlen_eq. cbn [length]. rewrite L.
  f_equal. rewrite Z.abs_eq by lia. unfold n. change (Z.to_nat ((263 + 7) / 8)) with 33%nat.
  replace 33%nat with (length (mpi_prefix_eddsa :: l)) by (cbn; congruence).
  apply be_bytes_be_uint. constructor; [unfold byte, mpi_prefix_eddsa; lia|exact F].
Qed.
Lemma v4_ok E0 k : block32 (ec_public k) -> zlen (ec_oid k) < 16 -> zlen (ec_extra k) < 16 ->
  0 <= t_unix (ec_creation k) < 2 ^ 32 ->
  fingerprint_v4 (std_env E0) k =
  v4_fingerprint (t_unix (ec_creation k)) (ec_alg k) (ec_oid k) (ec_public k) (ec_extra k).
Proof.
  intros P O X T. pose proof (zlen_nonneg (ec_oid k)). pose proof (zlen_nonneg (ec_extra k)).
  assert (Q : encode_public k = [4] ++ num_be 4 (t_unix (ec_creation k)) ++ [ec_alg k] ++
    [zlen (ec_oid k)] ++ ec_oid k ++ mpi_bytes (0x40 :: ec_public k) ++ ec_extra k).
  { unfold encode_public. rewrite mpi_point by exact P. unfold u32, u8. rewrite num_be_be.
    rewrite !Z.mod_small by lia. reflexivity. }
  unfold fingerprint_v4, v4_fingerprint. cbv zeta. rewrite <- Q, !num_be_be. unfold u16.
  change (2 ^ 16) with (256 ^ Z.of_nat 2). rewrite be_bytes_mod by lia. reflexivity.
Qed.

Lemma ok_eq {A} (a b : A) : Ok a = Ok b -> a = b.
Proof. congruence. Qed.

(** Every fingerprint New, and so Recover*, can report: a formula in the standard algorithms. *)
Theorem std_fingerprints : forall E0 s t opts m, seed_ok s -> opts_ok (opts_of opts) ->
  mnk_new (std_env E0) s t opts = Ok m ->
  let at_second := t / ns in
  let sec info := std_secret (seed_value s) at_second info in
  let eddsa sd := v4_fingerprint at_second 22 RealEnv.oid_ed25519 (std_ed25519_public sd) [] in
  let ecdh sd := v4_fingerprint at_second 18 RealEnv.oid_curve25519 (std_x25519_base sd) [3; 1; 8; 7] in
  mnk_fingerprint (std_env E0) m = eddsa (sec (bs "mnemonikey master key")) /\
  forall k, mnk_subkey_fingerprint (std_env E0) m (kind_name k) =
    if existsb (bytes_eqb (kind_name k)) (mnk_subkey_types m) then
      let sd := sec (bs "mnemonikey " ++ kind_name k ++ bs " subkey" ++ num_be 2 (index_of (opts_of opts) k)) in
      Some (match k with Encryption => ecdh sd | _ => eddsa sd end)
    else None.
Proof.
  intros E0 s t opts m S O N at_second sec eddsa ecdh.
  destruct (std_primitives E0) as (_ & _ & _ & H & _ & X & D).
  destruct (mnk_new_window_only _ _ _ _ _ N) as (_ & T & R). destruct (window_second t R) as (B1 & B2 & B3).
  rewrite mnk_new_window in N by auto. apply ok_eq in N. subst m.
  change ns with second in at_second.
  assert (U : t_unix (t / second * second) = at_second) by (unfold t_unix, at_second; exact B3).
  assert (W : 0 <= at_second < 2 ^ 32).
  { unfold at_second. rewrite last_val in R. rewrite second_val, first_val in *. lia. }
  assert (SE : forall r, secret (std_env E0) (seed_value s) at_second r = sec (label r)).
  { intros r. unfold secret, sec, std_secret, std_root, root.
    change 128%nat with (8 * 16)%nat. change 32%nat with (8 * 4)%nat at 1. rewrite !bytes_of_bits_be, !num_be_be. reflexivity. }
  assert (EB : forall sd x, fingerprint_v4 (std_env E0) (ed_base (ed_of (std_env E0) sd (t / second * second) x)) = eddsa sd).
  { intros sd x. rewrite v4_ok; cbn [ed_of ed_base ec_public ec_oid ec_extra ec_creation ec_alg].
    - rewrite U. reflexivity.
    - exact (proj1 (D sd [])).
    - reflexivity.
    - reflexivity.
    - rewrite U. exact W. }
  assert (CB : forall sd x, block32 sd ->
    fingerprint_v4 (std_env E0) (cv_base (curve_of (std_env E0) sd (t / second * second) x default_kdf)) = ecdh sd).
  { intros sd x B. rewrite v4_ok; cbn [curve_of cv_base ec_public ec_oid ec_extra ec_creation ec_alg].
    - rewrite U. reflexivity.
    - exact (proj1 X sd B).
    - reflexivity.
    - reflexivity.
    - rewrite U. exact W. }
  unfold mnk_fingerprint, mnk_subkey_fingerprint, mnk_subkey_types, derived.
  cbn [mnk_keys ks_master ks_enc ks_auth ks_sign]. rewrite U. clearbody sec eddsa ecdh at_second. split.
  - rewrite EB, SE. reflexivity.
  - assert (KN : forall k j, bytes_eqb (kind_name k) (kind_name j) =
      match k, j with Encryption, Encryption | Authentication, Authentication | Signing, Signing => true | _, _ => false end)
      by (intros [] []; reflexivity).
    assert (LB : forall k i, 0 <= i < 65536 -> bs "mnemonikey " ++ kind_name k ++ bs " subkey" ++ num_be 2 i = label (Subkey k i))
      by (intros k i Hi; rewrite num_be_be, be2 by exact Hi; reflexivity).
    intros k. change type_encryption with (kind_name Encryption). change type_authentication with (kind_name Authentication).
    change type_signing with (kind_name Signing). rewrite !KN.
    assert (IX : 0 <= index_of (opts_of opts) k < 65536) by (destruct O as (O1 & O2 & O3); destruct k; assumption).
    rewrite LB by exact IX. rewrite <- SE.
    destruct (subkey_enabled (opts_of opts) (kind_name Encryption)), (subkey_enabled (opts_of opts) (kind_name Authentication)),
      (subkey_enabled (opts_of opts) (kind_name Signing)); cbn [app existsb]; rewrite ?KN;
      destruct k; cbn [orb option_map index_of];
      match goal with
      | |- None = None => reflexivity
      | |- context [curve_of] => rewrite CB; [reflexivity|apply H]
      | |- _ => rewrite EB; reflexivity
      end.
Qed.
Print Assumptions std_fingerprints.

(** The hypotheses of C68 and C69 are met: a word list, a seed, a time and options for which New
    succeeds with the standard algorithms, and a phrase that converts. *)
Definition real_seed : seed := mk_seed 0 0x0194fdc2fa2ffcc041d3ff12045b73c8.
Definition real_time : Z := 1673800000 * ns + 123456789.
Example std_case :
  wordlist_ok toy_env /\ seed_ok real_seed /\ opts_ok (opts_of None) /\
  (exists m, mnk_new (std_env toy_env) real_seed real_time None = Ok m) /\
  (exists ws ws', converts (std_env toy_env) (ws, bs "hunter2") (ws', bs "correct horse") /\ length ws' = 16%nat).
Proof.
  destruct (std_primitives toy_env) as (A & X & _ & H & _).
  assert (S : seed_ok real_seed) by (split; vm_compute; intuition congruence).
  assert (O : opts_ok (opts_of None)) by (repeat split; vm_compute; congruence).
  split; [exact toy_wordlist_ok|]. split; [exact S|]. split; [exact O|]. split.
  - eexists. apply mnk_new_window; [exact H|exact S|exact O|discriminate|vm_compute; intuition congruence].
  - destruct (std_encrypted_roundtrip toy_env real_seed 5 (bs "hunter2") [1; 2; 3] toy_wordlist_ok S) as (ws & dm & _ & _ & _ & D & _ & _ & _ & Q);
      [lia|discriminate|repeat constructor; unfold byte; lia|cbn; lia|].
    destruct (conversion_possible (std_env toy_env) ws (bs "hunter2") dm real_seed (std_wordlist _ toy_wordlist_ok) A X D Q) as [_ C].
    destruct (C (bs "correct horse") [4; 5; 6]) as (ws' & L & C'); [discriminate|repeat constructor; unfold byte; lia|cbn; lia|].
    exists ws, ws'. split; [exact C'|exact L].
Qed.
