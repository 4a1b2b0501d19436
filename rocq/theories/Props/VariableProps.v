(** C99: programs that assign the exported variables EpochStart and MaxCreationTime, and those of the package pgp. *)
From Coq Require Import Lia ZifyBool ZifyNat.
From Verif.Props Require Import PhraseProps SeedProps FieldProps.
From Verif.Spec Require Import EnvSpec PhraseSpec DecodeSpec SliceSpec FieldSpec KeySpec.
From Verif.Proofs Require Import BitsP RoundtripP DecodeP KeysP EnvInst PgpFieldsP.
From Verif.Model Require Import GoBase Env Version GoTime Seed Encoding Recovery PgpWire PgpS2k PgpKeys Mnemonikey ZeroValues PgpFields Variables.
Ltac Zify.zify_post_hook ::= Z.div_mod_to_equations.

(** ** As the variables are initialised *)
Theorem variables_unassigned : forall E,
  v_new E first_variables = mnk_new E /\ v_encode_plaintext E first_variables = mnk_encode_plaintext E /\
  v_encode_encrypted E first_variables = mnk_encode_encrypted E /\
  v_recover_plaintext E first_variables = recover_plaintext E /\ v_recover_encrypted E first_variables = recover_encrypted E.
Proof. intros E. repeat split. Qed.
Print Assumptions variables_unassigned.

(** ** New *)
Definition derived_with (E : Env) (p : kdf_params) (s : seed) (c : Z) (o : key_options) : key_set :=
  let x := derive_expiry c (ko_ttl o) in
  let sec := secret E (seed_value s) (t_unix c) in
  mk_set (mk_uid (ko_name o) (ko_email o))
    (ed_of E (sec Master) c x)
    (if subkey_enabled o type_encryption then Some (curve_of E (sec (Subkey Encryption (ko_enc_index o))) c x p) else None)
    (if subkey_enabled o type_authentication then Some (ed_of E (sec (Subkey Authentication (ko_auth_index o))) c x) else None)
    (if subkey_enabled o type_signing then Some (ed_of E (sec (Subkey Signing (ko_sign_index o))) c x) else None).
Lemma v_derive_ok E vs s c o : hkdf_ok E -> seed_ok s -> opts_ok o ->
  v_derive E vs s c o =
  match v_kdf vs with
  | Some p => Ok (derived_with E p s c o)
  | None => if subkey_enabled o type_encryption then Panic else Ok (derived_with E default_kdf s c o)
  end.
Proof.
  intros H S (I1 & I2 & I3). unfold v_derive, derived_with. rewrite root_key_ok by auto. cbn [bind].
  unfold hkdf_expand. rewrite label_master.
  change type_encryption with (kind_name Encryption). change type_authentication with (kind_name Authentication).
  change type_signing with (kind_name Signing). rewrite !label_subkey by auto. fold (secret E (seed_value s) (t_unix c)).
  assert (L : forall r, length (hkdf_expand_sha256 E (root E (seed_value s) (t_unix c)) (label r) 32) = 32%nat)
    by (intros; apply H).
  rewrite new_ed_key_ok by apply L. cbn [bind]. destruct (v_kdf vs) as [p|]; cbn [deref bind];
  (destruct (subkey_enabled o (kind_name Encryption)); [try (rewrite new_curve_key_ok by apply L)|]; cbn [bind]; try reflexivity;
  (destruct (subkey_enabled o (kind_name Authentication)); [rewrite new_ed_key_ok by apply L|]; cbn [bind];
  (destruct (subkey_enabled o (kind_name Signing)); [rewrite new_ed_key_ok by apply L|]; cbn [bind]; reflexivity))).
Qed.

(** whole seconds after the epoch; time.Duration ends after 9223372036 of them *)
Definition seconds_after (epoch t : Z) : Z := Z.min ((t - epoch) / ns) 9223372036.
Lemma quot_generic e t : e <= t -> d_quot (t_sub t e) epoch_increment = seconds_after e t.
Proof.
  intros L. unfold seconds_after, d_quot, t_sub, epoch_increment. change ns with 1000000000. change second with 1000000000.
  destruct (t - e >? 2 ^ 63 - 1) eqn:B; [|replace (t - e <? - 2 ^ 63) with false by lia]; rewrite Z.quot_div_nonneg by lia.
  - change ((2 ^ 63 - 1) / 1000000000) with 9223372036. lia.
  - lia.
Qed.
Lemma mul_generic k : 0 <= k <= 9223372036 -> d_mul epoch_increment k = k * ns.
Proof. intros K. unfold d_mul, i64, epoch_increment. change ns with 1000000000. change second with 1000000000. rewrite Z.mod_small by lia. lia. Qed.
Lemma mul_generic' k : 0 <= k <= 9223372036 -> d_mul k epoch_increment = k * ns.
Proof. intros K. unfold d_mul. rewrite Z.mul_comm. apply (mul_generic k K). Qed.
Lemma seconds_bound e t : e <= t -> 0 <= seconds_after e t <= 9223372036.
Proof. intros L. unfold seconds_after. change ns with 1000000000. lia. Qed.
Lemma v_new_inside E vs s t opts : seed_ok s -> 0 <= ko_ttl (opts_of opts) -> v_epoch vs <= t <= v_max vs ->
  let c := v_epoch vs + seconds_after (v_epoch vs) t * ns in
  v_new E vs s t opts = let* ks := v_derive E vs s c (opts_of opts) in Ok (mk_mnk ks s c).
Proof.
  intros [Era _] T W c. unfold v_new. rewrite Era. change (era_check 0) with (Ok tt). cbn [bind]. change (match opts with None => zero_options | Some o => o end) with (opts_of opts).
  replace (ko_ttl (opts_of opts) <? 0) with false by lia. unfold t_after, t_before. replace (t >? v_max vs) with false by lia. replace (t <? v_epoch vs) with false by lia.
  rewrite quot_generic by lia. rewrite mul_generic by (apply seconds_bound; lia). unfold t_add. fold c. reflexivity.
Qed.
(** New by the values the variables have: errors in order, the panic about nil DefaultKDFParameters, and the key. *)
Theorem new_by_variables : forall E vs s t opts, hkdf_ok E -> seed_ok s -> opts_ok (opts_of opts) ->
  let o := opts_of opts in
  let c := v_epoch vs + seconds_after (v_epoch vs) t * ns in
  (ko_ttl o < 0 -> v_new E vs s t opts = Err ErrTTLInvalid) /\
  (0 <= ko_ttl o -> v_max vs < t -> v_new E vs s t opts = Err ErrCreationTooLate) /\
  (0 <= ko_ttl o -> t < v_epoch vs -> t <= v_max vs -> v_new E vs s t opts = Err ErrCreationTooEarly) /\
  (0 <= ko_ttl o -> v_epoch vs <= t <= v_max vs ->
     (v_kdf vs = None -> subkey_enabled o type_encryption = true -> v_new E vs s t opts = Panic) /\
     (v_kdf vs <> None \/ subkey_enabled o type_encryption = false -> exists m, v_new E vs s t opts = Ok m /\
        mnk_created_at m = c /\ (t - v_epoch vs < 2 ^ 63 -> c <= t < c + ns))).
Proof.
  intros E vs s t opts H S O o c. split; [|split; [|split]].
  - intros T. destruct S as [Era _]. unfold v_new. rewrite Era. change (era_check 0) with (Ok tt). cbn [bind]. change (match opts with None => zero_options | Some o => o end) with (opts_of opts). fold o.
    replace (ko_ttl o <? 0) with true by lia. reflexivity.
  - intros T L. destruct S as [Era _]. unfold v_new. rewrite Era. change (era_check 0) with (Ok tt). cbn [bind]. change (match opts with None => zero_options | Some o => o end) with (opts_of opts). fold o.
    replace (ko_ttl o <? 0) with false by lia. unfold t_after. replace (t >? v_max vs) with true by lia. reflexivity.
  - intros T L M. destruct S as [Era _]. unfold v_new. rewrite Era. change (era_check 0) with (Ok tt). cbn [bind]. change (match opts with None => zero_options | Some o => o end) with (opts_of opts). fold o.
    replace (ko_ttl o <? 0) with false by lia. unfold t_after, t_before. replace (t >? v_max vs) with false by lia. replace (t <? v_epoch vs) with true by lia. reflexivity.
  - intros T W. rewrite (v_new_inside E vs s t opts S T W). fold c. rewrite v_derive_ok by assumption. fold o. split.
    + intros -> ->. reflexivity.
    + intros K. assert (R : c <= t < c + ns \/ 2 ^ 63 <= t - v_epoch vs).
      { destruct (Z.lt_ge_cases (t - v_epoch vs) (2 ^ 63)); [left|right; lia]. unfold c, seconds_after. change ns with 1000000000. lia. }
      destruct (v_kdf vs) as [p|]; [|destruct K as [K| ->]; [congruence|]]; (eexists; split; [reflexivity|]; split; [reflexivity|]; intros; destruct R; [assumption|lia]).
Qed.
Print Assumptions new_by_variables.

(** ** Phrases *)
Lemma new_made E vs s t opts m : hkdf_ok E -> seed_ok s -> opts_ok (opts_of opts) -> v_new E vs s t opts = Ok m ->
  mnk_seed m = s /\ 0 <= ko_ttl (opts_of opts) /\ v_epoch vs <= t <= v_max vs /\ mnk_created_at m = v_epoch vs + seconds_after (v_epoch vs) t * ns /\
  (v_kdf vs = None -> subkey_enabled (opts_of opts) type_encryption = false) /\
  m = mk_mnk (derived_with E (match v_kdf vs with Some p => p | None => default_kdf end) s (mnk_created_at m) (opts_of opts)) s (mnk_created_at m).
Proof.
  intros H S O N. destruct (new_by_variables E vs s t opts H S O) as (A1 & A2 & A3 & _). cbv zeta in *.
  destruct (Z.lt_ge_cases (ko_ttl (opts_of opts)) 0) as [L|L]; [rewrite A1 in N by lia; discriminate|].
  destruct (Z.lt_ge_cases (v_max vs) t) as [L2|L2]; [rewrite A2 in N by lia; discriminate|].
  destruct (Z.lt_ge_cases t (v_epoch vs)) as [L3|L3]; [rewrite A3 in N by lia; discriminate|].
  rewrite v_new_inside in N by (assumption || lia). rewrite v_derive_ok in N by assumption. unfold mnk_created_at.
  destruct (v_kdf vs) as [p|]; [|destruct (subkey_enabled (opts_of opts) type_encryption) eqn:Q; [discriminate|]]; cbn [bind] in N; apply SafeP.ok_inj in N; subst m; cbn [mnk_seed mnk_creation]; repeat split; auto; discriminate.
Qed.
(** A phrase holds the seconds from the EpochStart of its making, modulo 2^32; recovering counts them from the EpochStart of
    then, and makes the key of that time.  Nothing else of the variables gets into a phrase. *)
Theorem phrases_by_variables : forall E vs vs' m opts, wordlist_ok E -> seed_ok (mnk_seed m) -> v_epoch vs <= mnk_created_at m ->
  let j := seconds_after (v_epoch vs) (mnk_created_at m) mod 2 ^ 32 in
  (j < 2 ^ 31 -> exists ws, v_encode_plaintext E vs m = Ok ws /\ v_recover_plaintext E vs' ws opts = v_new E vs' (mnk_seed m) (v_epoch vs' + j * ns) opts) /\
  (2 ^ 31 <= j -> v_encode_plaintext E vs m = Panic) /\
  (forall pw src, argon_ok E -> aes_ok E -> pw <> [] -> Forall byte src -> (3 <= length src)%nat ->
     (j < 2 ^ 31 -> exists ws, v_encode_encrypted E vs m pw src = Ok ws /\ v_recover_encrypted E vs' ws pw opts = v_new E vs' (mnk_seed m) (v_epoch vs' + j * ns) opts) /\
     (2 ^ 31 <= j -> v_encode_encrypted E vs m pw src = Panic)).
Proof.
  intros E vs vs' m opts W S L j. assert (J : 0 <= j < 2 ^ 32) by (apply Z.mod_pos_bound; lia).
  assert (F : v_creation_offset vs m = j). { unfold v_creation_offset. change (mnk_creation m) with (mnk_created_at m). rewrite quot_generic by exact L. reflexivity. }
  assert (N : new_seed 0 (seed_value (mnk_seed m)) = Ok (mnk_seed m)).
  { destruct S as [Z0 B]. destruct (mnk_seed m) as [era v]. cbn [seed_era seed_value] in *. subst era. unfold new_seed. cbn [era_check bind]. change (era_check 0) with (Ok tt). cbn [bind].
    unfold entropy_bits. rewrite bit_len_gtb by lia. rewrite (proj2 (Z.ltb_lt _ _)) by lia. reflexivity. }
  unfold v_encode_plaintext, v_encode_encrypted. rewrite F. split; [|split].
  - intros J2. destruct (plaintext_roundtrip E (mnk_seed m) j W S ltac:(lia)) as (ws & dm & E1 & _ & _ & E2 & _ & _ & E3 & E4). exists ws. split; [exact E1|].
    unfold v_recover_plaintext. rewrite E2. cbn [bind]. rewrite E4. cbn [bind]. unfold v_dm_creation. rewrite E3, mul_generic' by lia. reflexivity.
  - intros J2. apply (encode_plaintext_panics_exactly E 0 _ _ j W N J). right. exact J2.
  - intros pw src A X P B3 L3. split.
    + intros J2. destruct (encrypted_roundtrip E (mnk_seed m) j pw src W A X S ltac:(lia) P B3 L3) as (ws & dm & E1 & _ & _ & E2 & _ & _ & E3 & E4). exists ws. split; [exact E1|].
      unfold v_recover_encrypted. rewrite E2. cbn [bind]. rewrite E4. cbn [bind]. unfold v_dm_creation. rewrite E3, mul_generic' by lia. reflexivity.
    + intros J2. apply (encode_encrypted_panics_exactly E 0 _ _ j pw src W A X N J P B3 L3). exact J2.
Qed.
Print Assumptions phrases_by_variables.

(** The same EpochStart when a phrase is made and when it is used, and the same DefaultKDFParameters when the key is made and
    when it is recovered, are enough: with MaxCreationTime not before the key's time, and the time in the first 2^31 seconds. *)
Theorem recovery_by_variables : forall E vs1 vs2 vs3 s t opts m k, wordlist_ok E -> hkdf_ok E -> seed_ok s -> opts_ok (opts_of opts) ->
  v_new E vs1 s t opts = Ok m ->
  v_epoch vs3 = v_epoch vs2 -> v_kdf vs3 = v_kdf vs1 -> mnk_created_at m <= v_max vs3 ->
  mnk_created_at m = v_epoch vs2 + k * ns -> 0 <= k < 2 ^ 31 ->
  (exists ws, v_encode_plaintext E vs2 m = Ok ws /\ v_recover_plaintext E vs3 ws opts = Ok m) /\
  (forall pw src, argon_ok E -> aes_ok E -> pw <> [] -> Forall byte src -> (3 <= length src)%nat ->
     exists ws, v_encode_encrypted E vs2 m pw src = Ok ws /\ v_recover_encrypted E vs3 ws pw opts = Ok m).
Proof.
  intros E vs1 vs2 vs3 s t opts m k W H S O N E3 K3 X3 C K. destruct (new_made E vs1 s t opts m H S O N) as (M1 & M2 & M3 & M4 & M5 & M6).
  assert (J : seconds_after (v_epoch vs2) (mnk_created_at m) mod 2 ^ 32 = k).
  { rewrite C. unfold seconds_after. replace (v_epoch vs2 + k * ns - v_epoch vs2) with (k * ns) by lia. rewrite Z.div_mul by discriminate. rewrite Z.min_l by lia. apply Z.mod_small. lia. }
  assert (L : v_epoch vs2 <= mnk_created_at m) by (rewrite C; change ns with 1000000000; lia).
  rewrite <- M1 in S. assert (R : v_new E vs3 (mnk_seed m) (v_epoch vs3 + k * ns) opts = Ok m).
  { rewrite E3, <- C. rewrite v_new_inside by (assumption || (rewrite E3; lia)). rewrite E3.
    replace (v_epoch vs2 + seconds_after (v_epoch vs2) (mnk_created_at m) * ns) with (mnk_created_at m).
    2:{ rewrite C. unfold seconds_after. replace (v_epoch vs2 + k * ns - v_epoch vs2) with (k * ns) by lia. rewrite Z.div_mul by discriminate. rewrite Z.min_l by lia. reflexivity. }
    rewrite v_derive_ok by assumption. rewrite K3. rewrite M1. clear - M5 M6. destruct (v_kdf vs1) as [p|]; [|rewrite M5 by reflexivity]; cbn [bind]; rewrite M6 at 3; reflexivity. }
  destruct (phrases_by_variables E vs2 vs3 m opts W S L) as (P1 & _ & P3). rewrite J in *. rewrite R in *. split.
  - apply P1. lia.
  - intros pw src A X P B L3. apply (P3 pw src A X P B L3). lia.
Qed.
Print Assumptions recovery_by_variables.

(** MaxCreationTime as the initialiser has it, 2^31 - 1 seconds after EpochStart, wherever that is: every key can be encoded
    and comes back. *)
Definition full_window (vs : variables) : Prop := v_max vs = v_epoch vs + (2 ^ 31 - 1) * ns.
Corollary moved_window : forall E vs s t opts m, wordlist_ok E -> hkdf_ok E -> seed_ok s -> opts_ok (opts_of opts) -> full_window vs -> v_new E vs s t opts = Ok m ->
  (exists ws, v_encode_plaintext E vs m = Ok ws /\ v_recover_plaintext E vs ws opts = Ok m) /\
  (forall pw src, argon_ok E -> aes_ok E -> pw <> [] -> Forall byte src -> (3 <= length src)%nat ->
     exists ws, v_encode_encrypted E vs m pw src = Ok ws /\ v_recover_encrypted E vs ws pw opts = Ok m).
Proof.
  intros E vs s t opts m W H S O F N. destruct (new_made E vs s t opts m H S O N) as (_ & _ & T & C & _). unfold full_window in F.
  assert (B : 0 <= seconds_after (v_epoch vs) t < 2 ^ 31) by (unfold seconds_after; change ns with 1000000000 in *; lia).
  apply (recovery_by_variables E vs vs vs s t opts m (seconds_after (v_epoch vs) t) W H S O N eq_refl eq_refl); [|exact C|exact B].
  rewrite C, F. change ns with 1000000000. lia.
Qed.
Print Assumptions moved_window.
(** A key older than EpochStart by a second or more, and by less than 2^31 seconds, cannot be encoded: that panics. *)
Theorem older_than_epoch_panics : forall E vs m, wordlist_ok E -> seed_ok (mnk_seed m) ->
  v_epoch vs - 2 ^ 31 * ns <= mnk_created_at m <= v_epoch vs - ns ->
  v_encode_plaintext E vs m = Panic /\
  forall pw src, argon_ok E -> aes_ok E -> pw <> [] -> Forall byte src -> (3 <= length src)%nat -> v_encode_encrypted E vs m pw src = Panic.
Proof.
  intros E vs m W S L. assert (F : 2 ^ 31 <= v_creation_offset vs m < 2 ^ 32).
  { unfold v_creation_offset. change (mnk_creation m) with (mnk_created_at m). unfold d_quot, t_sub, epoch_increment, u32. change second with 1000000000. change ns with 1000000000 in *.
    replace (mnk_created_at m - v_epoch vs >? 2 ^ 63 - 1) with false by lia. replace (mnk_created_at m - v_epoch vs <? - 2 ^ 63) with false by lia.
    assert (L' : - 2 ^ 31 * 1000000000 <= mnk_created_at m - v_epoch vs <= - 1000000000) by lia. generalize dependent (mnk_created_at m - v_epoch vs). intros d D. rewrite <- (Z.opp_involutive d). rewrite Z.quot_opp_l by discriminate. rewrite Z.quot_div_nonneg by lia.
    assert (Q : 1 <= - d / 1000000000 <= 2 ^ 31) by lia. generalize dependent (- d / 1000000000). intros q Q. rewrite <- (Z.mod_add (- q) 1 (2 ^ 32)) by discriminate. rewrite Z.mod_small; lia. }
  assert (N : new_seed 0 (seed_value (mnk_seed m)) = Ok (mnk_seed m)).
  { destruct S as [Z0 B]. destruct (mnk_seed m) as [era v]. cbn [seed_era seed_value] in *. subst era. unfold new_seed. change (era_check 0) with (Ok tt). cbn [bind].
    unfold entropy_bits. rewrite bit_len_gtb by lia. rewrite (proj2 (Z.ltb_lt _ _)) by lia. reflexivity. }
  split.
  - apply (encode_plaintext_panics_exactly E 0 _ _ (v_creation_offset vs m) W N ltac:(lia)). right. lia.
  - intros pw src A X P B3 L3. apply (encode_encrypted_panics_exactly E 0 _ _ (v_creation_offset vs m) pw src W A X N ltac:(lia) P B3 L3). lia.
Qed.
Print Assumptions older_than_epoch_panics.

(** DefaultKDFParameters: keys made with different ones differ in nothing but the parameters of the encryption subkey. *)
Theorem kdf_by_variables : forall E vs vs' s t opts m m', hkdf_ok E -> seed_ok s -> opts_ok (opts_of opts) ->
  v_epoch vs' = v_epoch vs -> v_new E vs s t opts = Ok m -> v_new E vs' s t opts = Ok m' ->
  mnk_created_at m' = mnk_created_at m /\ ks_uid (mnk_keys m') = ks_uid (mnk_keys m) /\ ks_master (mnk_keys m') = ks_master (mnk_keys m) /\
  ks_auth (mnk_keys m') = ks_auth (mnk_keys m) /\ ks_sign (mnk_keys m') = ks_sign (mnk_keys m) /\
  match ks_enc (mnk_keys m) with
  | None => ks_enc (mnk_keys m') = None
  | Some k => exists k', ks_enc (mnk_keys m') = Some k' /\ v_kdf vs = Some (cv_kdf k) /\ v_kdf vs' = Some (cv_kdf k') /\
      ec_extra (cv_base k) = kdf_encode (cv_kdf k) /\ ec_extra (cv_base k') = kdf_encode (cv_kdf k') /\
      cv_private k' = cv_private k /\ cv_expiry k' = cv_expiry k /\ ec_private (cv_base k') = ec_private (cv_base k) /\ ec_public (cv_base k') = ec_public (cv_base k) /\
      ec_creation (cv_base k') = ec_creation (cv_base k)
  end.
Proof.
  intros E vs vs' s t opts m m' H S O Ep N N'. destruct (new_made E vs s t opts m H S O N) as (_ & _ & _ & C & K & Q). destruct (new_made E vs' s t opts m' H S O N') as (_ & _ & _ & C' & K' & Q').
  assert (CC : mnk_created_at m' = mnk_created_at m) by (rewrite C, C', Ep; reflexivity). rewrite CC in *. rewrite Q, Q'. unfold mnk_created_at at 1 2. cbn [mnk_creation mnk_keys]. unfold derived_with. cbn [ks_uid ks_master ks_auth ks_sign ks_enc].
  split; [reflexivity|]. split; [reflexivity|]. split; [reflexivity|]. split; [reflexivity|]. split; [reflexivity|]. destruct (subkey_enabled (opts_of opts) type_encryption); [|reflexivity].
  eexists. split; [reflexivity|]. cbn [cv_kdf cv_base curve_of ec_extra cv_private cv_expiry ec_private ec_public ec_creation].
  destruct (v_kdf vs); [|discriminate K; reflexivity]. destruct (v_kdf vs'); [|discriminate K'; reflexivity]. repeat split.
Qed.
Print Assumptions kdf_by_variables.

(** ** Refutations *)
(** MaxCreationTime assigned later than 2^31 - 1 seconds after EpochStart: New makes keys whose phrases bring back another
    key, without an error. *)
Theorem later_maximum_recovers_refuted : ~ forall E vs s t opts m ws m', wordlist_ok E -> hkdf_ok E -> seed_ok s -> v_epoch vs = epoch_start -> v_max vs >= max_creation_time ->
  v_new E vs s t opts = Ok m -> v_encode_plaintext E vs m = Ok ws -> v_recover_plaintext E vs ws opts = Ok m' -> mnk_created_at m' = mnk_created_at m.
Proof.
  intros X. pose (vs := mk_vars epoch_start (epoch_start + 2 ^ 33 * ns) (Some default_kdf) 8). pose (s := mk_seed 0 77).
  specialize (X toy_env vs s (epoch_start + (2 ^ 32 + 5) * ns) None). assert (S : seed_ok s) by (split; cbn; lia). assert (O : opts_ok (opts_of None)) by (unfold opts_ok; cbn; lia).
  destruct (new_by_variables toy_env vs s (epoch_start + (2 ^ 32 + 5) * ns) None toy_hkdf_ok S O) as (_ & _ & _ & A). cbv zeta in A.
  destruct (A ltac:(cbn; lia) ltac:(cbn [v_epoch v_max vs]; change ns with 1000000000; lia)) as [_ [m [M [C _]]]]; [left; discriminate|]. 
  assert (C' : mnk_created_at m = epoch_start + (2 ^ 32 + 5) * ns) by exact C. clear C.
  assert (Sm : mnk_seed m = s) by exact (proj1 (new_made toy_env vs s _ None m toy_hkdf_ok S O M)).
  assert (Lm : v_epoch vs <= mnk_created_at m) by (rewrite C'; change (v_epoch vs) with epoch_start; change ns with 1000000000; lia).
  assert (S' := S). rewrite <- Sm in S'. destruct (phrases_by_variables toy_env vs vs m None toy_wordlist_ok S' Lm) as [P _].
  assert (J : seconds_after (v_epoch vs) (mnk_created_at m) mod 2 ^ 32 = 5) by (rewrite C'; reflexivity). rewrite J in P. destruct P as (ws & W1 & W2); [reflexivity|].
  destruct (new_by_variables toy_env vs (mnk_seed m) (v_epoch vs + 5 * ns) None toy_hkdf_ok S' O) as (_ & _ & _ & A'). cbv zeta in A'.
  destruct (A' ltac:(cbn; lia) ltac:(cbn [v_epoch v_max vs]; change ns with 1000000000; lia)) as [_ [m' [M' [C _]]]]; [left; discriminate|].
  rewrite M' in W2. specialize (X m ws m' toy_wordlist_ok toy_hkdf_ok S eq_refl ltac:(unfold vs; cbn [v_max]; vm_compute; discriminate) M W1 W2).
  rewrite C, C' in X. vm_compute in X. discriminate X.
Qed.
Print Assumptions later_maximum_recovers_refuted.

(** EpochStart assigned earlier, and MaxCreationTime left: New makes keys that cannot be encoded. *)
Theorem earlier_epoch_encodes_refuted : ~ forall E vs s t opts m, wordlist_ok E -> hkdf_ok E -> seed_ok s -> v_epoch vs <= epoch_start -> v_max vs = max_creation_time ->
  v_new E vs s t opts = Ok m -> v_encode_plaintext E vs m <> Panic.
Proof.
  intros X. pose (vs := mk_vars 0 max_creation_time (Some default_kdf) 8). pose (s := mk_seed 0 77).
  specialize (X toy_env vs s ((2 ^ 31 + 5) * ns) None). assert (S : seed_ok s) by (split; cbn; lia). assert (O : opts_ok (opts_of None)) by (unfold opts_ok; cbn; lia).
  destruct (new_by_variables toy_env vs s ((2 ^ 31 + 5) * ns) None toy_hkdf_ok S O) as (_ & _ & _ & A). cbv zeta in A.
  destruct (A ltac:(cbn; lia) ltac:(split; vm_compute; discriminate)) as [_ [m [M [C _]]]]; [left; discriminate|].
  assert (C' : mnk_created_at m = (2 ^ 31 + 5) * ns) by exact C. clear C.
  assert (Sm : mnk_seed m = s) by exact (proj1 (new_made toy_env vs s _ None m toy_hkdf_ok S O M)).
  assert (Lm : v_epoch vs <= mnk_created_at m) by (rewrite C'; vm_compute; discriminate).
  apply (X m toy_wordlist_ok toy_hkdf_ok S ltac:(vm_compute; discriminate) eq_refl M).
  rewrite <- Sm in S. apply (proj1 (proj2 (phrases_by_variables toy_env vs vs m None toy_wordlist_ok S Lm))). rewrite C'. vm_compute. discriminate.
Qed.
Print Assumptions earlier_epoch_encodes_refuted.

(** EpochStart changed between encoding and recovering: another key, without an error. *)
Theorem changed_epoch_recovers_refuted : ~ forall E vs vs' s t opts m ws m', wordlist_ok E -> hkdf_ok E -> seed_ok s -> full_window vs -> full_window vs' ->
  v_new E vs s t opts = Ok m -> v_encode_plaintext E vs m = Ok ws -> v_recover_plaintext E vs' ws opts = Ok m' -> mnk_created_at m' = mnk_created_at m.
Proof.
  intros X. pose (vs := first_variables). pose (vs' := mk_vars 0 ((2 ^ 31 - 1) * ns) (Some default_kdf) 8). pose (s := mk_seed 0 77).
  specialize (X toy_env vs vs' s (epoch_start + 5 * ns) None). assert (S : seed_ok s) by (split; cbn; lia). assert (O : opts_ok (opts_of None)) by (unfold opts_ok; cbn; lia).
  destruct (new_by_variables toy_env vs s (epoch_start + 5 * ns) None toy_hkdf_ok S O) as (_ & _ & _ & A). cbv zeta in A.
  destruct (A ltac:(cbn; lia) ltac:(split; vm_compute; discriminate)) as [_ [m [M [C _]]]]; [left; discriminate|].
  assert (C' : mnk_created_at m = epoch_start + 5 * ns) by exact C. clear C.
  assert (Sm : mnk_seed m = s) by exact (proj1 (new_made toy_env vs s _ None m toy_hkdf_ok S O M)).
  assert (Lm : v_epoch vs <= mnk_created_at m) by (rewrite C'; vm_compute; discriminate).
  assert (S' := S). rewrite <- Sm in S'. destruct (phrases_by_variables toy_env vs vs' m None toy_wordlist_ok S' Lm) as [P _].
  assert (J : seconds_after (v_epoch vs) (mnk_created_at m) mod 2 ^ 32 = 5) by (rewrite C'; reflexivity). rewrite J in P. destruct P as (ws & W1 & W2); [reflexivity|].
  destruct (new_by_variables toy_env vs' (mnk_seed m) (v_epoch vs' + 5 * ns) None toy_hkdf_ok S' O) as (_ & _ & _ & A'). cbv zeta in A'.
  destruct (A' ltac:(cbn; lia) ltac:(split; vm_compute; discriminate)) as [_ [m' [M' [C _]]]]; [left; discriminate|].
  rewrite M' in W2. specialize (X m ws m' toy_wordlist_ok toy_hkdf_ok S eq_refl eq_refl M W1 W2).
  rewrite C, C' in X. vm_compute in X. discriminate X.
Qed.
Print Assumptions changed_epoch_recovers_refuted.

(** ** Exports *)
Section exports.
Variable E : Env.
Hypothesis SZ : sizes_ok E.
Definition has_subkeys (ks : key_set) : bool := match ks_enc ks, ks_auth ks, ks_sign ks with None, None, None => false | _, _, _ => true end.
Definition set_made (ks : key_set) : Prop :=
  length (ed_private (ks_master ks)) = 64%nat /\ (forall k, ks_auth ks = Some k -> signs_64 (ed_base k)) /\ (forall k, ks_sign ks = Some k -> signs_64 (ed_base k)).
Lemma memory_value ks : set_made ks -> set_value (set_memory ks) 5 ks.
Proof.
  intros (P & _). destruct ks as [u [mb mp mx] enc auth sign]. cbn [ks_master ed_private] in P.
  apply (set_is (set_memory (mk_set u (mk_ed mb mp mx) enc auth sign)) 5 (mk_fset 0 1 2 3 4) (ed_object (mk_ed mb mp mx)) mb u enc auth sign); try reflexivity; [exact P|destruct enc as [[a b c d]|]|destruct auth as [[a b c]|]|destruct sign as [[a b c]|]].
  - apply (curve_present _ _ (curve_object (mk_curve a b c d)) a d); reflexivity.
  - apply curve_absent. reflexivity.
  - apply (ed_present _ _ (ed_object (mk_ed a b c)) a); reflexivity.
  - apply ed_absent. reflexivity.
  - apply (ed_present _ _ (ed_object (mk_ed a b c)) a); reflexivity.
  - apply ed_absent. reflexivity.
Qed.
Lemma memory_signs ks : set_made ks -> forall q k b, subkey_at (set_memory ks) q = Some k -> fe_base k = Some b -> signs_64 b.
Proof using.
  intros (_ & A & S) q k b Q B. destruct ks as [u m enc auth sign]. unfold subkey_at, set_memory in Q. cbn [ks_uid ks_master ks_enc ks_auth ks_sign] in *.
  destruct q as [|[|[|[|[|[|q]]]]]]; cbn [nth] in Q; try discriminate.
  - destruct enc; discriminate.
  - destruct auth as [x|]; [|discriminate]. apply SafeP.some_inj in Q. subst k. cbn [fe_base ed_object] in B. apply SafeP.some_inj in B. subst b. apply A. reflexivity.
  - destruct sign as [x|]; [|discriminate]. apply SafeP.some_inj in Q. subst k. cbn [fe_base ed_object] in B. apply SafeP.some_inj in B. subst b. apply S. reflexivity.
  - destruct q; discriminate.
Qed.

(** the hash function matters only where a password is *)
Lemma hash_unused h hash ks tape : f_encode_packets E h hash ks [] tape = f_encode_packets E h 8 ks [] tape.
Proof using. reflexivity. Qed.
Lemma hash_unused_subkeys h hash ks cert tape : f_encode_subkey_packets E h hash ks [] cert tape = f_encode_subkey_packets E h 8 ks [] cert tape.
Proof using. reflexivity. Qed.
Lemma export_value m pw tape cert hash : set_made (mnk_keys m) -> pw = [] \/ hash = 8 ->
  f_encode_packets E (set_memory (mnk_keys m)) hash (keys_at (set_memory (mnk_keys m)) 5) pw tape = mnk_encode_pgp E m pw tape /\
  f_encode_subkey_packets E (set_memory (mnk_keys m)) hash (keys_at (set_memory (mnk_keys m)) 5) pw cert tape = mnk_encode_subkeys_pgp E m pw cert tape.
Proof.
  intros M H. assert (Q : f_encode_packets E (set_memory (mnk_keys m)) 8 (keys_at (set_memory (mnk_keys m)) 5) pw tape = mnk_encode_pgp E m pw tape /\
    f_encode_subkey_packets E (set_memory (mnk_keys m)) 8 (keys_at (set_memory (mnk_keys m)) 5) pw cert tape = mnk_encode_subkeys_pgp E m pw cert tape).
  { split; [apply (packets_value E SZ)|apply (subkey_packets_value E SZ)]; try exact (memory_signs _ M); exact (memory_value _ M). }
  destruct H as [-> | ->]; [rewrite hash_unused, hash_unused_subkeys|]; exact Q.
Qed.
(** with a password: as the first key packet with secrets fares *)
Definition fares (r : res (bytes * bytes)) (hash : Z) (random : nat) : Prop :=
  ((random < 24)%nat \/ hash = 9 \/ hash = 10 -> exists e, r = Err e) /\ ((24 <= random)%nat -> hash <> 8 -> hash <> 9 -> hash <> 10 -> r = Panic).
Lemma meets_fares hash random (r : res (bytes * bytes)) : meets (judge [Secret hash] random) r -> fares r hash random.
Proof using.
  intros M. cbn [judge] in M. unfold known_hash in M. split; intros H.
  - destruct (Nat.ltb_spec random 24) as [L|L]; [destruct r as [[]| |]; try contradiction; eauto|]. destruct H as [H|H]; [lia|].
    replace ((hash =? 8) || (hash =? 9) || (hash =? 10)) with true in M by lia. replace (hash =? 8) with false in M by lia. cbn [negb] in M. destruct r as [[]| |]; try contradiction; eauto.
  - intros N1 N2 N3. replace (Nat.ltb random 24) with false in M by lia. replace ((hash =? 8) || (hash =? 9) || (hash =? 10)) with false in M by lia. cbn [negb] in M. destruct r as [[]| |]; try contradiction. reflexivity.
Qed.
Lemma fares_bind r hash random (k : bytes * bytes -> res (bytes * bytes)) : fares r hash random -> fares (let* x := r in k x) hash random.
Proof using.
  intros [F1 F2]. split.
  - intros H. destruct (F1 H) as [e ->]. exists e. reflexivity.
  - intros A B C D. rewrite (F2 A B C D). reflexivity.
Qed.
Lemma private_fares hash tag b pw tape : pw <> [] -> fares (f_private_packet E hash tag (Some b) pw tape) hash (length tape).
Proof.
  intros P. apply meets_fares. pose proof (private_meets E SZ (mk_notes [] true hash) tag (Some b) pw tape) as M. cbn [made judge n_hash] in M. destruct pw; [contradiction|]. exact M.
Qed.
Lemma subkey_fares hash h m b flags x pw tape : pw <> [] -> fares (f_subkey_packets E h hash m (Some b) flags x pw tape) hash (length tape).
Proof. intros P. unfold f_subkey_packets. apply fares_bind. apply private_fares, P. Qed.
Lemma packets_fare ks hash pw tape : pw <> [] -> fares (f_encode_packets E (set_memory ks) hash (keys_at (set_memory ks) 5) pw tape) hash (length tape).
Proof. intros P. exact (fares_bind _ _ _ _ (private_fares hash tag_secret_key (ed_base (ks_master ks)) pw tape P)). Qed.
Lemma subkeys_fare ks cert hash pw tape : set_made ks -> has_subkeys ks = true -> pw <> [] ->
  fares (f_encode_subkey_packets E (set_memory ks) hash (keys_at (set_memory ks) 5) pw cert tape) hash (length tape).
Proof.
  intros M K P. unfold f_encode_subkey_packets. change (keys_at (set_memory ks) 5) with (Some (mk_fset 0 1 2 3 4)). cbn [deref bind fs_master fs_uid].
  change (master_at (set_memory ks) 1) with (Some (ed_object (ks_master ks))). change (user_at (set_memory ks) 0) with (Some (ks_uid ks)). cbn [deref bind fe_base ed_object f_dummy_packet f_encode_public f_uid_packet f_uid_encode].
  assert (C : exists x, (if cert then f_self_certification E (set_memory ks) (mk_fset 0 1 2 3 4) else Ok []) = Ok x).
  { destruct cert; [|eauto]. unfold f_self_certification. cbn [fs_master fs_uid]. change (master_at (set_memory ks) 1) with (Some (ed_object (ks_master ks))). change (user_at (set_memory ks) 0) with (Some (ks_uid ks)).
    destruct (certify_value E SZ (set_memory ks) (ed_object (ks_master ks)) (ed_base (ks_master ks)) (ks_uid ks) eq_refl (proj1 M) eq_refl) as (sg & _ & L & ->). cbn [bind]. rewrite packet_value by exact L. eauto. }
  destruct C as [x ->]. cbn [bind]. apply fares_bind. unfold f_all_subkeys. cbn [fs_master fs_enc fs_auth fs_sign].
  destruct ks as [u mk enc auth sign]. unfold has_subkeys in K. cbn [ks_enc ks_auth ks_sign] in K. unfold curve_at, subkey_at, set_memory. cbn [nth ks_enc ks_auth ks_sign].
  destruct enc as [k|]; [apply fares_bind, subkey_fares, P|]. cbn [bind].
  destruct auth as [k|]; [apply fares_bind, subkey_fares, P|]. cbn [bind].
  destruct sign as [k|]; [apply fares_bind, subkey_fares, P|discriminate].
Qed.
Lemma subkeys_without ks cert hash pw tape : has_subkeys ks = false ->
  f_encode_subkey_packets E (set_memory ks) hash (keys_at (set_memory ks) 5) pw cert tape = f_encode_subkey_packets E (set_memory ks) 8 (keys_at (set_memory ks) 5) pw cert tape.
Proof using. destruct ks as [u mk [?|] [?|] [?|]]; try discriminate. reflexivity. Qed.
End exports.
Lemma derived_made E p s c o : hkdf_ok E -> sizes_ok E -> set_made (derived_with E p s c o).
Proof.
  intros H Z. assert (L : forall r, length (secret E (seed_value s) (t_unix c) r) = 32%nat) by (intros; apply H).
  assert (L2 : forall r, length (secret E (seed_value s) (t_unix c) r ++ ed25519_public E (secret E (seed_value s) (t_unix c) r)) = 64%nat) by (intros; rewrite app_length, (size_public E Z), L by apply L; reflexivity).
  unfold derived_with. split; [apply L2|]. cbn [ks_auth ks_sign]. split; (destruct (subkey_enabled o _); [|discriminate]); intros k Q; apply SafeP.some_inj in Q; subst k; eexists; (split; [reflexivity|apply L2]).
Qed.
(** Exports of a key that New made, whatever the variables were then, by the hash function that DefaultStringToKeyHashFunc
    holds now: as usual with SHA-256 (8) and without a password; else errors (SHA-384, SHA-512) and panics (others).
    EncodeSubkeysPGP has secrets only with subkeys.  As initialised the variable holds SHA-256. *)
Theorem exports_by_variables : forall E vs1 vs2 s t opts m pw tape cert, hkdf_ok E -> sizes_ok E -> seed_ok s -> opts_ok (opts_of opts) -> v_new E vs1 s t opts = Ok m ->
  (pw = [] \/ v_hash vs2 = 8 -> v_encode_pgp E vs2 m pw tape = mnk_encode_pgp E m pw tape /\ v_encode_subkeys_pgp E vs2 m pw cert tape = mnk_encode_subkeys_pgp E m pw cert tape) /\
  (pw <> [] -> fares (v_encode_pgp E vs2 m pw tape) (v_hash vs2) (length tape)) /\
  (pw <> [] -> has_subkeys (mnk_keys m) = true -> fares (v_encode_subkeys_pgp E vs2 m pw cert tape) (v_hash vs2) (length tape)) /\
  (has_subkeys (mnk_keys m) = false -> v_encode_subkeys_pgp E vs2 m pw cert tape = mnk_encode_subkeys_pgp E m pw cert tape) /\
  v_encode_pgp E first_variables m pw tape = mnk_encode_pgp E m pw tape /\ v_encode_subkeys_pgp E first_variables m pw cert tape = mnk_encode_subkeys_pgp E m pw cert tape.
Proof.
  intros E vs1 vs2 s t opts m pw tape cert H Z S O N. assert (M : set_made (mnk_keys m)).
  { destruct (new_made E vs1 s t opts m H S O N) as (_ & _ & _ & _ & _ & ->). apply derived_made; assumption. }
  split; [|split; [|split; [|split]]].
  - intros P. exact (export_value E Z m pw tape cert (v_hash vs2) M P).
  - intros P. exact (packets_fare E Z (mnk_keys m) (v_hash vs2) pw tape P).
  - intros P K. exact (subkeys_fare E Z (mnk_keys m) cert (v_hash vs2) pw tape M K P).
  - intros K. unfold v_encode_subkeys_pgp. rewrite subkeys_without by exact K. apply (export_value E Z m pw tape cert 8 M). right. reflexivity.
  - apply (export_value E Z m pw tape cert (v_hash first_variables) M). right. reflexivity.
Qed.
Print Assumptions exports_by_variables.

(** ** Concrete cases *)
(** EpochStart moved to 1970 and MaxCreationTime with it; other parameters for the encryption subkey; no SHA-256 *)
Definition case_variables : variables := mk_vars 0 ((2 ^ 31 - 1) * ns) (Some (mk_kdf hash_sha512 cipher_aes256)) 2.
Definition case_opts : option key_options := Some (mk_opts (bs "Al") [] (30 * ns) 1 2 3 (Some [type_encryption; type_signing])).
Example case_window : full_window case_variables /\ seed_ok (mk_seed 0 77) /\ opts_ok (opts_of case_opts) /\
  exists m ws, v_new toy_env case_variables (mk_seed 0 77) (1000000000 * ns + 7) case_opts = Ok m /\ mnk_created_at m = 1000000000 * ns /\
    v_encode_plaintext toy_env case_variables m = Ok ws /\ length ws = 14%nat /\
    option_map cv_kdf (ks_enc (mnk_keys m)) = v_kdf case_variables /\ has_subkeys (mnk_keys m) = true.
Proof.
  split; [reflexivity|]. split; [split; cbn; lia|]. split; [unfold opts_ok; cbn; lia|]. do 2 eexists.
  split; [vm_compute; reflexivity|]. split; [reflexivity|]. split; [vm_compute; reflexivity|]. split; [reflexivity|]. split; reflexivity.
Qed.
(** the key of New there, encoded with the usual EpochStart, is older than it; encoded with an EpochStart of the year before,
    it comes back where that is set *)
Example case_recovery : exists m ws, v_new toy_env case_variables (mk_seed 0 77) (1000000000 * ns + 7) case_opts = Ok m /\
  v_encode_plaintext toy_env first_variables m = Panic /\ epoch_start - 2 ^ 31 * ns <= mnk_created_at m <= epoch_start - ns /\
  let early := mk_vars (970000000 * ns) max_creation_time (v_kdf case_variables) 8 in
  mnk_created_at m = v_epoch early + 30000000 * ns /\ v_encode_plaintext toy_env early m = Ok ws /\
  match v_recover_plaintext toy_env early ws case_opts with Ok m' => mnk_created_at m' =? mnk_created_at m | _ => false end = true.
Proof.
  do 2 eexists. split; [vm_compute; reflexivity|]. split; [vm_compute; reflexivity|]. split; [split; vm_compute; discriminate|]. cbv zeta. split; [reflexivity|]. split; [vm_compute; reflexivity|]. vm_compute. reflexivity.
Qed.
