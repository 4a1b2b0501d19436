From Coq Require Import Lia ZifyBool ZifyNat.
From Verif.Model Require Import GoBase Env Version Seed Encoding GoTime Recovery PgpWire PgpKeys Mnemonikey.
From Verif.Spec Require Import EnvSpec PhraseSpec DecodeSpec KeySpec.
From Verif.Proofs Require Import BitsP BitBufferP RoundtripP DecodeP.
Ltac Zify.zify_post_hook ::= Z.div_mod_to_equations.

Lemma zlen_eq {A} (l : list A) : zlen l = Z.of_nat (length l).
Proof. reflexivity. Qed.

(** keys the constructors return for 32-byte seeds *)
Definition ed_of (E : Env) (sd : bytes) (c x : Z) : ed_key :=
  mk_ed (mk_ecc sd (ed25519_public E sd) (Some (sd ++ ed25519_public E sd)) c alg_eddsa oid_ed25519 [])
        (sd ++ ed25519_public E sd) x.
Definition curve_of (E : Env) (sd : bytes) (c x : Z) (kdf : kdf_params) : curve_key :=
  mk_curve (mk_ecc (rev (clamp sd)) (x25519_base E sd) None c alg_ecdh oid_curve25519 (kdf_encode kdf))
           (clamp sd) x kdf.

Lemma new_ed_key_ok E sd c x : length sd = 32%nat -> new_ed_key E sd c x = Ok (ed_of E sd c x).
Proof.
  intros L. unfold new_ed_key. rewrite zlen_eq, L. cbn [Z.of_nat Pos.of_succ_nat Pos.succ Z.eqb Pos.eqb negb].
  unfold ed_of. rewrite firstn_app, L, Nat.sub_diag, firstn_O, app_nil_r, firstn_all2 by lia. reflexivity.
Qed.
Lemma new_curve_key_ok E sd c x kdf : length sd = 32%nat ->
  new_curve_key E sd c x kdf = Ok (curve_of E sd c x (match kdf with None => default_kdf | Some k => k end)).
Proof.
  intros L. unfold new_curve_key. rewrite zlen_eq, L. reflexivity.
Qed.

Lemma bytes_of_bits_be n x : bytes_of_bits (8 * n) x = be_bytes n x.
Proof.
  unfold bytes_of_bits. replace ((8 * n + 7) / 8)%nat with n.
  2:{ replace (8 * n + 7)%nat with (7 + n * 8)%nat by lia. rewrite Nat.div_add by lia. reflexivity. }
  induction n as [|n IH]; [reflexivity|]. rewrite seq_S, rev_app_distr. cbn [rev app map be_bytes].
  rewrite IH. f_equal. rewrite pow256 by lia. reflexivity.
Qed.

Lemma label_master : expand_info_master = label Master. Proof. reflexivity. Qed.
Lemma be2 i : 0 <= i < 65536 -> be_bytes 2 i = [i / 256; i mod 256].
Proof. intros H. cbn. rewrite Z.div_1_r. f_equal. change (2 ^ 8) with 256. lia. Qed.
Lemma label_subkey k i : 0 <= i < 65536 -> expand_info_subkey (kind_name k) i = label (Subkey k i).
Proof. intros H. unfold expand_info_subkey, label. rewrite be2 by auto. reflexivity. Qed.

Lemma root_key_ok E s c : seed_ok s -> root_key E s c = Ok (root E (seed_value s) (t_unix c)).
Proof.
  intros [_ H]. unfold root_key. rewrite seed_bytes_ok by auto. cbn [bind]. unfold root.
  change 128%nat with (8 * 16)%nat. change 32%nat with (8 * 4)%nat. rewrite !bytes_of_bits_be.
  unfold u32. change (2 ^ 32) with (256 ^ Z.of_nat 4). rewrite be_bytes_mod by lia. reflexivity.
Qed.

Definition derived (E : Env) (s : seed) (c : Z) (o : key_options) : key_set :=
  let x := derive_expiry c (ko_ttl o) in
  let sec := secret E (seed_value s) (t_unix c) in
  mk_set (mk_uid (ko_name o) (ko_email o))
    (ed_of E (sec Master) c x)
    (if subkey_enabled o type_encryption
     then Some (curve_of E (sec (Subkey Encryption (ko_enc_index o))) c x default_kdf) else None)
    (if subkey_enabled o type_authentication
     then Some (ed_of E (sec (Subkey Authentication (ko_auth_index o))) c x) else None)
    (if subkey_enabled o type_signing
     then Some (ed_of E (sec (Subkey Signing (ko_sign_index o))) c x) else None).

Lemma derive_key_set_ok E s c o : hkdf_ok E -> seed_ok s -> opts_ok o ->
  derive_key_set E s c o = Ok (derived E s c o).
Proof.
  intros H S (I1 & I2 & I3). unfold derive_key_set, derived. rewrite root_key_ok by auto. cbn [bind].
  unfold hkdf_expand. rewrite label_master.
  change type_encryption with (kind_name Encryption). change type_authentication with (kind_name Authentication).
  change type_signing with (kind_name Signing). rewrite !label_subkey by auto. fold (secret E (seed_value s) (t_unix c)).
  assert (L : forall r, length (hkdf_expand_sha256 E (root E (seed_value s) (t_unix c)) (label r) 32) = 32%nat)
    by (intros; apply H).
  rewrite new_ed_key_ok by apply L. cbn [bind].
  destruct (subkey_enabled o (kind_name Encryption)); [rewrite new_curve_key_ok by apply L|]; cbn [bind];
  (destruct (subkey_enabled o (kind_name Authentication)); [rewrite new_ed_key_ok by apply L|]; cbn [bind];
  (destruct (subkey_enabled o (kind_name Signing)); [rewrite new_ed_key_ok by apply L|]; cbn [bind]; reflexivity)).
Qed.

Lemma max_creation : max_creation_time = last_second * second.
Proof. vm_compute. reflexivity. Qed.
Lemma epoch_first : epoch_start = first_second * second.
Proof. reflexivity. Qed.

Lemma floor_generic S F t : S = 1000000000 -> F = 1672531200 -> F * S <= t <= (F + 2 ^ 31 - 1) * S ->
  t_add (F * S) (d_mul S (d_quot (t_sub t (F * S)) S)) = t / S * S.
Proof.
  intros -> -> W. unfold t_sub, d_quot, d_mul, t_add, i64.
  replace (t - 1672531200 * 1000000000 >? 2 ^ 63 - 1) with false by lia.
  replace (t - 1672531200 * 1000000000 <? - 2 ^ 63) with false by lia.
  rewrite Z.quot_div_nonneg by lia.
  rewrite (Z.mod_small (1000000000 * _ + _)) by lia. lia.
Qed.
Lemma second_val : second = 1000000000. Proof. reflexivity. Qed.
Lemma first_val : first_second = 1672531200. Proof. reflexivity. Qed.
Lemma last_val : last_second = first_second + 2 ^ 31 - 1. Proof. reflexivity. Qed.
Lemma inc_second : epoch_increment = second. Proof. reflexivity. Qed.
Lemma floor_creation t : first_second * second <= t <= last_second * second ->
  t_add (first_second * second)
    (d_mul epoch_increment (d_quot (t_sub t (first_second * second)) epoch_increment)) = t / second * second.
Proof.
  intros W. rewrite inc_second. apply floor_generic; [apply second_val|apply first_val|].
  rewrite last_val in W. exact W.
Qed.

Lemma mnk_new_window E s t opts : hkdf_ok E -> seed_ok s -> opts_ok (opts_of opts) ->
  0 <= ko_ttl (opts_of opts) -> first_second * second <= t <= last_second * second ->
  mnk_new E s t opts =
  Ok (mk_mnk (derived E s (t / second * second) (opts_of opts)) s (t / second * second)).
Proof.
  intros H S O T W. unfold mnk_new. destruct S as [Era Val]. rewrite Era. change (era_check 0) with (Ok tt).
  cbn [bind]. change (match opts with None => zero_options | Some o => o end) with (opts_of opts). rewrite max_creation, epoch_first.
  replace (ko_ttl (opts_of opts) <? 0) with false by lia.
  unfold t_after, t_before.
  replace (t >? last_second * second) with false by lia.
  replace (t <? first_second * second) with false by lia.
  rewrite floor_creation by auto. rewrite derive_key_set_ok; auto. split; auto.
Qed.

Lemma mnk_new_window_only E s t opts m : mnk_new E s t opts = Ok m ->
  era_check (seed_era s) = Ok tt /\ 0 <= ko_ttl (opts_of opts) /\ first_second * second <= t <= last_second * second.
Proof.
  unfold mnk_new. destruct (era_check (seed_era s)) as [[]| |]; cbn [bind]; try discriminate.
  change (match opts with None => zero_options | Some o => o end) with (opts_of opts). rewrite max_creation, epoch_first. unfold t_after, t_before.
  destruct (ko_ttl (opts_of opts) <? 0) eqn:A; [discriminate|].
  destruct (t >? last_second * second) eqn:B; [discriminate|].
  destruct (t <? first_second * second) eqn:C; [discriminate|].
  intros _. split; auto. lia.
Qed.

Lemma offset_generic S F t : S = 1000000000 -> F = 1672531200 -> F * S <= t <= (F + 2 ^ 31 - 1) * S ->
  u32 (d_quot (t_sub (t / S * S) (F * S)) S) = t / S - F.
Proof.
  intros -> -> W. unfold t_sub, d_quot, u32.
  replace (t / 1000000000 * 1000000000 - 1672531200 * 1000000000 >? 2 ^ 63 - 1) with false by lia.
  replace (t / 1000000000 * 1000000000 - 1672531200 * 1000000000 <? - 2 ^ 63) with false by lia.
  rewrite Z.quot_div_nonneg by lia. rewrite <- Z.mul_sub_distr_r, Z.div_mul by lia.
  apply Z.mod_small. lia.
Qed.
Lemma creation_offset_ok ks s t : first_second * second <= t <= last_second * second ->
  mnk_creation_offset (mk_mnk ks s (t / second * second)) = t / second - first_second.
Proof.
  intros W. unfold mnk_creation_offset. cbn [mnk_creation]. rewrite epoch_first, inc_second.
  apply offset_generic; [apply second_val|apply first_val|]. rewrite last_val in W. exact W.
Qed.

Lemma mul_generic S F o : S = 1000000000 -> 0 <= o < 2 ^ 31 -> t_add (F * S) (d_mul o S) = (F + o) * S.
Proof. intros -> Ho. unfold t_add, d_mul, i64. rewrite (Z.mod_small (o * 1000000000 + _)) by lia. lia. Qed.
Lemma dm_creation_ok v e sa ve o : 0 <= o < 2 ^ 31 ->
  dm_creation (mk_decoded v e sa ve o) = (first_second + o) * second.
Proof.
  intros Ho. unfold dm_creation. cbn [dm_offset]. rewrite epoch_first, inc_second.
  apply mul_generic; [apply second_val|auto].
Qed.

Lemma second_pos : 0 < second. Proof. reflexivity. Qed.

(** re-creating a key at its own creation second *)
Lemma mnk_new_same_second E s t t' opts : hkdf_ok E -> seed_ok s -> opts_ok (opts_of opts) ->
  first_second * second <= t <= last_second * second -> first_second * second <= t' <= last_second * second ->
  t / second = t' / second -> mnk_new E s t opts = mnk_new E s t' opts.
Proof.
  intros H S O W W' Q. destruct (Z.lt_ge_cases (ko_ttl (opts_of opts)) 0) as [N|P].
  - unfold mnk_new. destruct S as [-> _]. change (era_check 0) with (Ok tt). cbn [bind].
    change (match opts with None => zero_options | Some o => o end) with (opts_of opts). replace (ko_ttl (opts_of opts) <? 0) with true by lia. reflexivity.
  - rewrite !mnk_new_window by auto. rewrite Q. reflexivity.
Qed.

Lemma window_second t : first_second * second <= t <= last_second * second ->
  0 <= t / second - first_second < 2 ^ 31 /\
  first_second * second <= t / second * second <= last_second * second /\ (t / second * second) / second = t / second.
Proof.
  rewrite last_val. generalize second_val. generalize second. intros S ->. generalize first_val.
  generalize first_second. intros F ->. lia.
Qed.
