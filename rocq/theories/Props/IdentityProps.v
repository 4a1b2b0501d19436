(** C58-C61: what a Mnemonikey reports about itself, public packets, the certification and the order of
    subkeys, compared with the exported key as an independent reader sees it. *)
From Coq Require Import Lia ZifyBool ZifyNat Permutation.
From Verif.Model Require Import GoBase Env Seed Encoding GoTime Recovery PgpWire PgpS2k PgpKeys Mnemonikey.
From Verif.Spec Require Import EnvSpec PhraseSpec DecodeSpec KeySpec PgpSpec ExportSpec.
From Verif.Proofs Require Import BitsP RoundtripP KeysP EnvInst PgpP S2kP SignP ExportP.
From Verif.Props Require Import KeyProps ExportProps LifeProps.
Ltac Zify.zify_post_hook ::= Z.div_mod_to_equations.

(** ** C58 *)
(** The fingerprints, user ID, creation time and subkey types a Mnemonikey reports are those of the key
    it exports. *)
Theorem reported_identity : forall E edv f s t0 opts m pw tape t, hkdf_ok E -> env_ok E edv -> seed_ok s -> opts_ok (opts_of opts) ->
  zlen (ko_name (opts_of opts)) + zlen (ko_email (opts_of opts)) < 2 ^ 31 -> mnk_new E s t0 opts = Ok m ->
  password_ok pw -> Forall byte tape -> exports E f (mnk_keys m) pw tape t ->
  mnk_fingerprint E m = fingerprint E (tk_key t) /\
  mnk_user_id m = tk_uid t /\
  mnk_created_at m = pk_time (tk_key t) * 1000000000 /\
  length (mnk_subkey_types m) = length (tk_subkeys t) /\
  subkeys_match (mnk_keys m) t (fun k _ _ b =>
    In (kind_name k) (mnk_subkey_types m) /\
    mnk_subkey_fingerprint E m (kind_name k) = Some (fingerprint E (sb_key b)) /\
    pk_time (sb_key b) = pk_time (tk_key t)).
Proof.
  intros E edv f s t0 opts m pw tape t HK HE S O L N Hp Ht X.
  pose proof (new_key_set_built E edv s t0 opts m HK HE S O L N) as HB.
  pose proof (exports_inv E edv f _ pw tape t HE HB Ht Hp X) as G.
  assert (C : mnk_created_at m = pk_time (tk_key t) * 1000000000 /\
    forall k base x, subkey (mnk_keys m) k = Some (base, x) -> ec_creation base = ec_creation (ed_base (ks_master (mnk_keys m)))).
  { rewrite (eg_key _ _ _ _ _ _ _ G). destruct (mnk_new_window_only _ _ _ _ _ N) as (_ & T & R).
    rewrite mnk_new_window in N by auto. injection N as <-. split.
    - cbn [mnk_created_at mnk_creation mnk_keys derived ks_master ed_of ed_base public_of pk_time ec_creation]. unfold t_unix.
      change 1000000000 with second. rewrite Z.div_mul by (pose proof second_pos; lia). reflexivity.
    - intros k base x Q. unfold subkey, derived in Q. cbn [mnk_keys ks_enc ks_auth ks_sign] in Q.
      destruct k; (destruct (subkey_enabled (opts_of opts) _); cbn [option_map] in Q; [|discriminate]; injection Q as <- _; reflexivity). }
  destruct C as [C1 C2]. split; [|split; [|split; [exact C1|split]]].
  - rewrite (eg_key _ _ _ _ _ _ _ G). apply fingerprint_spec.
  - rewrite (eg_uid _ _ _ _ _ _ _ G). reflexivity.
  - assert (LT : length (tk_subkeys t) = length (subkeys_along (mnk_keys m) all_kinds)).
    { rewrite (Permutation_length (along_perm _ _ _ (order_perm E (mnk_keys m) (proj2 (proj2 (proj2 (proj2 HE))))))).
      pose proof (eg_subkeys _ _ _ _ _ _ _ G) as F. clear - F. induction F; cbn [length]; auto. }
    rewrite LT. unfold mnk_subkey_types, subkeys_along, all_kinds. cbn [flat_map]. rewrite !app_length. unfold subkey.
    destruct (ks_enc (mnk_keys m)), (ks_auth (mnk_keys m)), (ks_sign (mnk_keys m)); reflexivity.
  - eapply good_match; [exact HE|exact G|]. intros k base x b Q B. rewrite (bg_key _ _ _ _ _ _ _ _ _ B), (eg_key _ _ _ _ _ _ _ G).
    pose proof (C2 _ _ _ Q) as Cq. unfold mnk_subkey_types, mnk_subkey_fingerprint. rewrite <- fingerprint_spec.
    split; [|split; [|cbn [public_of pk_time]; rewrite Cq; reflexivity]].
    + destruct k; cbn [subkey] in Q.
      * destruct (ks_enc (mnk_keys m)); [|discriminate]. apply in_or_app. left. left. reflexivity.
      * destruct (ks_auth (mnk_keys m)); [|discriminate]. apply in_or_app. right. apply in_or_app. left. left. reflexivity.
      * destruct (ks_sign (mnk_keys m)); [|discriminate]. apply in_or_app. right. apply in_or_app. right. left. reflexivity.
    + destruct k; cbn [subkey] in Q; cbn [kind_name].
      * destruct (ks_enc (mnk_keys m)); [|discriminate]. injection Q as <- <-. reflexivity.
      * destruct (ks_auth (mnk_keys m)); [|discriminate]. injection Q as <- <-. reflexivity.
      * destruct (ks_sign (mnk_keys m)); [|discriminate]. injection Q as <- <-. reflexivity.
Qed.
Print Assumptions reported_identity.

(** ** C59 *)
(** The public packets hold the same public keys as the exported secret packets, under the tags for public
    keys (6) and public subkeys (14), and nothing else. *)
Definition holds_public (packet : bytes) (tag : Z) (pk : public_key) : Prop :=
  exists body, read_packets packet = Some [(tag, body)] /\ read_public body = Some (pk, []).
Theorem public_packets : forall E edv f ks pw tape t, env_ok E edv -> built E ks -> password_ok pw ->
  Forall byte tape -> exports E f ks pw tape t ->
  holds_public (public_packet (ed_base (ks_master ks))) 6 (tk_key t) /\
  subkeys_match ks t (fun _ base _ b => holds_public (public_subkey_packet base) 14 (sb_key b)).
Proof.
  intros E edv f ks pw tape t HE HB Hp Ht X. pose proof (exports_inv E edv f ks pw tape t HE HB Ht Hp X) as G.
  pose proof HE as (HH & _ & HS & HX & _).
  assert (P : forall tag k, 0 <= tag < 64 -> ecc_ok k -> holds_public (encode_packet tag (encode_public k)) tag (public_of k)).
  { intros tag k T K. exists (encode_public k). split.
    - pose proof (read_packets_encode [(tag, encode_public k)]) as R. unfold encode_pairs in R. cbn [map concat fst snd] in R.
      rewrite app_nil_r in R. apply R. constructor; [|constructor]. split; [exact T|]. cbn [snd]. pose proof (zlen_public k K). lia.
    - pose proof (read_public_encode k [] K) as R. rewrite app_nil_r in R. exact R. }
  split.
  - rewrite (eg_key _ _ _ _ _ _ _ G). apply P; [split; [discriminate|reflexivity]|].
    apply (ed_base_ok E edv _ HS (built_ed_ok _ _ (built_master _ _ HB))).
  - eapply good_match; [exact HE|exact G|]. intros k base x b Q B. rewrite (bg_key _ _ _ _ _ _ _ _ _ B).
    destruct (subkey_facts E edv ks k base x HS HX HB Q) as (BO & _ & _). apply P; [split; [discriminate|reflexivity]|exact BO].
Qed.
Print Assumptions public_packets.

(** FingerprintV5 hashes the marker 0x9A, the length in four bytes and the version-4 body (whose first byte
    is 4): a layout of its own, not the version-5 fingerprint of a version-5 key. *)
Theorem fingerprint_v5_input : forall E edv f ks pw tape t, env_ok E edv -> built E ks -> password_ok pw ->
  Forall byte tape -> exports E f ks pw tape t ->
  let hashed_as base pk := exists len, zlen len = 4 /\ number len = zlen (pk_raw pk) /\ nth 0 (pk_raw pk) 0 = 4 /\
    fingerprint_v5 E base = sha256 E (0x9A :: len ++ pk_raw pk) in
  hashed_as (ed_base (ks_master ks)) (tk_key t) /\
  subkeys_match ks t (fun _ base _ b => hashed_as base (sb_key b)).
Proof.
  intros E edv f ks pw tape t HE HB Hp Ht X hashed_as. pose proof (exports_inv E edv f ks pw tape t HE HB Ht Hp X) as G.
  pose proof HE as (HH & _ & HS & HX & _).
  assert (P : forall k, ecc_ok k -> hashed_as k (public_of k)).
  { intros k K. exists (bytes_of_bits 32 (zlen (encode_public k))). pose proof (zlen_public k K) as Z.
    assert (0 <= zlen (encode_public k)) by (rewrite zlen_eq; lia).
    change 32%nat with (8 * 4)%nat. rewrite bytes_of_bits_be. cbn [public_of pk_raw].
    split; [rewrite zlen_eq, be_bytes_length; reflexivity|]. split; [|split].
    - rewrite number_be. rewrite be_uint_be_bytes. apply Z.mod_small. change (2 ^ (8 * Z.of_nat 4)) with (2 ^ 32). lia.
    - reflexivity.
    - unfold fingerprint_v5. rewrite <- app_comm_cons. unfold u32. rewrite Z.mod_small by lia. reflexivity. }
  split.
  - rewrite (eg_key _ _ _ _ _ _ _ G). apply P. apply (ed_base_ok E edv _ HS (built_ed_ok _ _ (built_master _ _ HB))).
  - eapply good_match; [exact HE|exact G|]. intros k base x b Q B. rewrite (bg_key _ _ _ _ _ _ _ _ _ B).
    destruct (subkey_facts E edv ks k base x HS HX HB Q) as (BO & _ & _). apply P, BO.
Qed.
Print Assumptions fingerprint_v5_input.

(** ** C60 *)
(** README.md:709-728, with the numbers RFC 4880 gives these algorithms and subpackets *)
Definition readme_ciphers : bytes := [9; 8; 7].              (* AES256 AES192 AES128 *)
Definition readme_hashes : bytes := [10; 9; 8; 11; 2].       (* SHA512 SHA384 SHA256 SHA224 SHA1 *)
Definition readme_compressions : bytes := [2; 3; 1].         (* ZLIB BZIP2 ZIP *)
Definition readme_order (expires : bool) : list Z :=
  [33; 2; 27] ++ (if expires then [9] else []) ++ [11; 21; 22; 30; 23].

Theorem certification_content : forall E edv f ks pw tape t c, env_ok E edv -> built E ks -> password_ok pw ->
  Forall byte tape -> exports E f ks pw tape t -> tk_cert t = Some c ->
  map fst (sp_hashed c) = readme_order (negb (ed_expiry (ks_master ks) =? year_one)) /\
  map fst (sp_unhashed c) = [16] /\
  find_sub 27 (sp_hashed c) = Some [0x01] /\
  find_sub 21 (sp_hashed c) = Some readme_hashes /\
  find_sub 22 (sp_hashed c) = Some readme_compressions /\
  find_sub 30 (sp_hashed c) = Some [0x01] /\
  find_sub 23 (sp_hashed c) = Some [0x80] /\
  find_sub 11 (sp_hashed c) = Some (readme_ciphers ++ [2]).
Proof.
  intros E edv f ks pw tape t c HE HB Hp Ht X Hc. pose proof (exports_inv E edv f ks pw tape t HE HB Ht Hp X) as G.
  pose proof (eg_cert _ _ _ _ _ _ _ G) as C. rewrite Hc in C. destruct C as [_ (s & -> & S1 & S2 & S3 & S4)].
  unfold sig_of. cbn [sp_hashed sp_unhashed]. rewrite S2, S3. unfold expiry_subs.
  change (is_zero_time (ed_expiry (ks_master ks))) with (ed_expiry (ks_master ks) =? year_one).
  destruct (ed_expiry (ks_master ks) =? year_one); repeat split; reflexivity.
Qed.
Print Assumptions certification_content.

(** The README's cipher preferences are not met, by any export with a certification: Triple-DES (2) is
    listed as well. *)
Theorem readme_ciphers_refuted : forall E edv f ks pw tape t c, env_ok E edv -> built E ks -> password_ok pw ->
  Forall byte tape -> exports E f ks pw tape t -> tk_cert t = Some c ->
  find_sub 11 (sp_hashed c) <> Some readme_ciphers.
Proof.
  intros E edv f ks pw tape t c HE HB Hp Ht X Hc.
  destruct (certification_content E edv f ks pw tape t c HE HB Hp Ht X Hc) as (_ & _ & _ & _ & _ & _ & _ & ->). discriminate.
Qed.
Print Assumptions readme_ciphers_refuted.

(** ** C61 *)
(** README.md:686-699: encryption, authentication and signing subkey, in this order.  The code shuffles
    them: some key set exports them as authentication, signing, encryption.  (The generator here always
    answers 0; C31 has what holds in general.) *)
Definition zero_env : Env := {|
  wl_words := wl_words toy_env; wl_search := wl_search toy_env; unicode_lower := unicode_lower toy_env;
  trim_space := trim_space toy_env; argon2id := argon2id toy_env; aes_encrypt := aes_encrypt toy_env;
  aes_decrypt := aes_decrypt toy_env; sha1 := sha1 toy_env; sha256 := sha256 toy_env; sha384 := sha384 toy_env;
  sha512 := sha512 toy_env; hkdf_expand_sha256 := hkdf_expand_sha256 toy_env; ed25519_public := ed25519_public toy_env;
  ed25519_sign := ed25519_sign toy_env; x25519_base := x25519_base toy_env;
  rand_int31n := fun _ _ _ => 0;
  seconds_u32 := seconds_u32 toy_env; armor_encode := armor_encode toy_env |}.
Lemma zero_env_ok : env_ok zero_env toy_verify.
Proof.
  destruct toy_env_ok as (H & A & S & X & _). split; [exact H|]. split; [exact A|]. split; [exact S|]. split; [exact X|].
  intros sd k n Hn. cbn [rand_int31n zero_env]. lia.
Qed.

(** the role a binding signature gives its subkey *)
Definition role_flags (b : subkey_block) : option bytes := find_sub 27 (sp_hashed (sb_binding b)).
Definition readme_subkey_order : list (option bytes) := [Some [0x0C]; Some [0x20]; Some [0x02]].
Theorem readme_subkey_order_refuted : exists E edv ks tape t,
  env_ok E edv /\ built E ks /\ Forall byte tape /\ exports E Full ks [] tape t /\
  map role_flags (tk_subkeys t) = [Some [0x20]; Some [0x02]; Some [0x0C]] /\
  map role_flags (tk_subkeys t) <> readme_subkey_order.
Proof.
  assert (S : seed_ok (mk_seed 0 77)) by (split; vm_compute; intuition congruence).
  assert (O : opts_ok (opts_of (Some (case_opts 0)))) by (repeat split; vm_compute; congruence).
  assert (N : exists m, mnk_new zero_env (mk_seed 0 77) (1700000000 * ns + 5) (Some (case_opts 0)) = Ok m /\
              exists a b c, subkeys_along (mnk_keys m) [Authentication; Signing; Encryption] = [(Authentication, a); (Signing, b); (Encryption, c)]).
  { eexists. split; [apply mnk_new_window; [exact toy_hkdf_ok|exact S|exact O|discriminate|vm_compute; intuition congruence]|]. do 3 eexists. reflexivity. }
  destruct N as (m & N & a & b & c & K).
  assert (B : built zero_env (mnk_keys m)).
  { eapply new_key_set_built; [exact toy_hkdf_ok|apply zero_env_ok|exact S|exact O| |exact N]. vm_compute. reflexivity. }
  assert (P : password_ok []) by (vm_compute; congruence).
  destruct (export_wellformed zero_env toy_verify Full (mnk_keys m) [] [] zero_env_ok B P) as (out & _ & t & X & _ & _ & R & _);
    [constructor|cbn; lia|].
  assert (Y : exports zero_env Full (mnk_keys m) [] [] t) by (exists out; eauto).
  pose proof (exports_inv zero_env toy_verify Full _ [] [] t zero_env_ok B (Forall_nil _) P Y) as G.
  pose proof (eg_subkeys _ _ _ _ _ _ _ G) as F.
  change (order zero_env (mnk_keys m)) with [Authentication; Signing; Encryption] in F. rewrite K in F.
  assert (M : map role_flags (tk_subkeys t) = [Some [0x20]; Some [0x02]; Some [0x0C]]).
  { inversion F as [|? b1 ? ? B1 F1]; subst. inversion F1 as [|? b2 ? ? B2 F2]; subst. inversion F2 as [|? b3 ? ? B3 F3]; subst.
    inversion F3; subst. cbn [map].
    assert (Q : forall p tp k base x bl, block_good zero_env toy_verify p [] tp k base x bl -> role_flags bl = Some [usage k]).
    { intros p tp k base x bl Bg. destruct (bg_binding _ _ _ _ _ _ _ _ _ Bg) as (s & emb & Es & _ & Hs & _).
      unfold role_flags. rewrite Es. unfold sig_of. cbn [sp_hashed]. rewrite Hs. reflexivity. }
    rewrite (Q _ _ _ _ _ _ B1), (Q _ _ _ _ _ _ B2), (Q _ _ _ _ _ _ B3). reflexivity. }
  exists zero_env, toy_verify, (mnk_keys m), [], t. split; [exact zero_env_ok|]. split; [exact B|]. split; [constructor|]. split; [exact Y|].
  split; [exact M|]. rewrite M. discriminate.
Qed.
Print Assumptions readme_subkey_order_refuted.

(** ** The hypotheses are met *)
Example identity_case : exists m t c,
  mnk_new toy_env (mk_seed 0 77) (1700000000 * ns + 5) (Some (case_opts (31536000 * ns))) = Ok m /\
  exports toy_env Full (mnk_keys m) (bs "hunter2") case_tape t /\
  mnk_fingerprint toy_env m = fingerprint toy_env (tk_key t) /\ length (mnk_subkey_types m) = 3%nat /\
  tk_cert t = Some c /\ map fst (sp_hashed c) = [33; 2; 27; 9; 11; 21; 22; 30; 23] /\
  holds_public (public_packet (ed_base (ks_master (mnk_keys m)))) 6 (tk_key t).
Proof.
  destruct (case_exists (31536000 * ns)) as (m & N & B & K & _); [discriminate|].
  assert (P : password_ok (bs "hunter2")) by (vm_compute; congruence).
  assert (T : Forall byte case_tape).
  { apply Forall_forall. intros x Hx. apply repeat_spec in Hx. subst. split; reflexivity || discriminate. }
  destruct (export_wellformed toy_env toy_verify Full (mnk_keys m) (bs "hunter2") case_tape toy_env_ok B P T)
    as (out & _ & t & X1 & _ & _ & X2 & _ & _ & X3 & _).
  { unfold randomness, secrets_in. rewrite K. cbn. lia. }
  assert (Y : exports toy_env Full (mnk_keys m) (bs "hunter2") case_tape t) by (exists out; eauto).
  destruct (tk_cert t) as [c|] eqn:Z; [|exfalso; apply X3; reflexivity].
  exists m, t, c. split; [exact N|]. split; [exact Y|].
  destruct (reported_identity toy_env toy_verify Full (mk_seed 0 77) (1700000000 * ns + 5) (Some (case_opts (31536000 * ns))) m
    (bs "hunter2") case_tape t) as (I1 & _ & _ & I4 & I5);
    [exact toy_hkdf_ok|exact toy_env_ok|split; vm_compute; intuition congruence|repeat split; vm_compute; congruence|
     vm_compute; reflexivity|exact N|exact P|exact T|exact Y|].
  split; [exact I1|]. split; [|split; [exact Z|]].
  - rewrite I4. destruct I5 as (o & PM & F). rewrite (Permutation_length (along_perm _ _ _ PM)) in K.
    rewrite <- K. symmetry. clear - F. induction F; cbn [length]; auto.
  - destruct (certification_content toy_env toy_verify Full _ _ _ t c toy_env_ok B P T Y Z) as (C & _).
    split; [|apply (public_packets toy_env toy_verify Full _ _ _ t toy_env_ok B P T Y)]. rewrite C.
    assert (X : (ed_expiry (ks_master (mnk_keys m)) =? year_one) = false).
    { clear - N. rewrite mnk_new_window in N; [|exact toy_hkdf_ok|split; vm_compute; intuition congruence|repeat split; vm_compute; congruence|discriminate|vm_compute; intuition congruence].
      injection N as <-. reflexivity. }
    rewrite X. reflexivity.
Qed.
