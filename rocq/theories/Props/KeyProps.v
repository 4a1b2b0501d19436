(** C13-C16, C25-C29: the key of a phrase. *)
From Coq Require Import Lia ZifyBool ZifyNat.
From Verif.Model Require Import GoBase Env Version Seed Encoding GoTime Recovery PgpWire PgpKeys Mnemonikey.
From Verif.Spec Require Import EnvSpec PhraseSpec DecodeSpec KeySpec.
From Verif.Proofs Require Import BitsP BitBufferP RoundtripP DecodeP KeysP EnvInst.
From Verif.Props Require Import PhraseProps.
Ltac Zify.zify_post_hook ::= Z.div_mod_to_equations.

(** ** C15 *)
Theorem new_error_order : forall E s t opts, seed_ok s ->
  let o := opts_of opts in
  (ko_ttl o < 0 -> mnk_new E s t opts = Err ErrTTLInvalid) /\
  (0 <= ko_ttl o -> last_second * ns < t -> mnk_new E s t opts = Err ErrCreationTooLate) /\
  (0 <= ko_ttl o -> t < first_second * ns -> mnk_new E s t opts = Err ErrCreationTooEarly).
Proof.
  intros E s t opts [Era _] o. unfold mnk_new. rewrite Era. change (era_check 0) with (Ok tt). cbn [bind].
  change (match opts with None => zero_options | Some o => o end) with (opts_of opts). fold o. rewrite max_creation, epoch_first. unfold t_after, t_before.
  change ns with second. pose proof second_val as V. pose proof first_val. pose proof last_val.
  split; [|split].
  - intros H1. replace (ko_ttl o <? 0) with true by lia. reflexivity.
  - intros H1 H2. replace (ko_ttl o <? 0) with false by lia.
    replace (t >? last_second * second) with true by lia. reflexivity.
  - intros H1 H2. replace (ko_ttl o <? 0) with false by lia.
    replace (t >? last_second * second) with false by lia.
    replace (t <? first_second * second) with true by lia. reflexivity.
Qed.
Print Assumptions new_error_order.

Theorem new_bad_era : forall E s t opts, seed_era s <> 0 -> mnk_new E s t opts = Err ErrInvalidEraNumber.
Proof.
  intros E s t opts H. unfold mnk_new, era_check, era_latest.
  replace ((seed_era s >? 0) || (seed_era s <? 0)) with true by lia. reflexivity.
Qed.
Print Assumptions new_bad_era.

Theorem new_succeeds : forall E s t opts,
  wordlist_ok E -> argon_ok E -> aes_ok E -> hkdf_ok E -> seed_ok s ->
  let o := opts_of opts in opts_ok o ->
  0 <= ko_ttl o -> first_second * ns <= t <= last_second * ns ->
  exists m, mnk_new E s t opts = Ok m /\
    mnk_created_at m mod ns = 0 /\ mnk_created_at m <= t < mnk_created_at m + ns /\
    0 <= mnk_creation_offset m < 2 ^ 31 /\
    first_second * ns + mnk_creation_offset m * ns = mnk_created_at m /\
    (exists ws, mnk_encode_plaintext E m = Ok ws) /\
    (forall pw src, pw <> [] -> Forall byte src -> (3 <= length src)%nat ->
       exists ws, mnk_encode_encrypted E m pw src = Ok ws).
Proof.
  intros E s t opts W A X H S o O T R. change ns with second in *.
  eexists. split; [apply mnk_new_window; auto|]. fold o.
  destruct (window_second t R) as (B1 & B2 & B3). rewrite creation_offset_ok by auto.
  unfold mnk_created_at, mnk_encode_plaintext, mnk_encode_encrypted. cbn [mnk_creation mnk_seed].
  rewrite creation_offset_ok by auto. split; [apply Z.mod_mul; discriminate|]. split; [|split; [auto|split]].
  - pose proof (Z.mod_pos_bound t second second_pos). pose proof (Z.div_mod t second). 
    assert (second <> 0) by discriminate. lia.
  - ring.
  - split.
    + destruct (plaintext_roundtrip E s (t / second - first_second) W S B1) as (ws & _ & P & _). eauto.
    + intros pw src Hp Hb Hl.
      destruct (encrypted_roundtrip E s (t / second - first_second) pw src W A X S B1 Hp Hb Hl) as (ws & _ & P & _). eauto.
Qed.
Print Assumptions new_succeeds.

(** ** C16 *)
Theorem subsecond_irrelevant : forall E s t t' opts, hkdf_ok E -> seed_ok s -> opts_ok (opts_of opts) ->
  t / ns = t' / ns -> t / ns < last_second -> mnk_new E s t opts = mnk_new E s t' opts.
Proof.
  intros E s t t' opts H S O Q L. change ns with second in *.
  pose proof second_val as SV. pose proof first_val as FV. pose proof last_val as LV.
  destruct (new_error_order E s t opts S) as (E1 & E2 & E3).
  destruct (new_error_order E s t' opts S) as (F1 & F2 & F3). change ns with second in *.
  destruct (Z.lt_ge_cases (ko_ttl (opts_of opts)) 0); [rewrite E1, F1; auto|].
  destruct (Z.lt_ge_cases t (first_second * second)).
  - rewrite E3, F3; auto. lia.
  - apply mnk_new_same_second; auto; lia.
Qed.
Print Assumptions subsecond_irrelevant.

Theorem subsecond_same_key : forall E s t t' opts m m', hkdf_ok E -> seed_ok s -> opts_ok (opts_of opts) ->
  t / ns = t' / ns -> mnk_new E s t opts = Ok m -> mnk_new E s t' opts = Ok m' -> m = m'.
Proof.
  intros E s t t' opts m m' H S O Q N N'. change ns with second in *.
  destruct (mnk_new_window_only _ _ _ _ _ N) as (_ & _ & B). destruct (mnk_new_window_only _ _ _ _ _ N') as (_ & _ & B').
  rewrite (mnk_new_same_second E s t t') in N by auto. congruence.
Qed.
Print Assumptions subsecond_same_key.

(** the last second of the window is cut short: only its first instant is accepted *)
Theorem subsecond_last_second_refuted : exists E s t t' opts m,
  hkdf_ok E /\ seed_ok s /\ t / ns = t' / ns /\
  mnk_new E s t opts = Ok m /\ mnk_new E s t' opts = Err ErrCreationTooLate.
Proof.
  exists toy_env, (mk_seed 0 5), (last_second * second), (last_second * second + 1), None.
  eexists. split; [apply toy_hkdf_ok|]. split; [split; vm_compute; intuition congruence|].
  split; [vm_compute; reflexivity|]. split.
  - rewrite mnk_new_window; [reflexivity|apply toy_hkdf_ok|split; vm_compute; intuition congruence|
      repeat split; vm_compute; congruence|vm_compute; congruence|].
    split; [vm_compute; congruence|lia].
  - apply (new_error_order toy_env (mk_seed 0 5) _ None); [split; vm_compute; intuition congruence| vm_compute; congruence |].
    change ns with second. lia.
Qed.
Print Assumptions subsecond_last_second_refuted.

(** ** C14 *)
Theorem recover_from_plaintext : forall E s t opts m,
  wordlist_ok E -> hkdf_ok E -> seed_ok s -> opts_ok (opts_of opts) ->
  mnk_new E s t opts = Ok m ->
  exists ws, mnk_encode_plaintext E m = Ok ws /\
    forall opts', opts_ok (opts_of opts') ->
      recover_plaintext E ws opts' = mnk_new E s t opts' /\
      forall pw, recover_encrypted E ws pw opts' = mnk_new E s t opts'.
Proof.
  intros E s t opts m W H S O N.
  destruct (mnk_new_window_only _ _ _ _ _ N) as (_ & T & R). destruct (window_second t R) as (B1 & B2 & B3).
  rewrite mnk_new_window in N by auto. injection N as <-.
  unfold mnk_encode_plaintext. rewrite creation_offset_ok by auto. cbn [mnk_seed].
  destruct (plaintext_roundtrip E s (t / second - first_second) W S B1) as (ws & dm & P & _ & _ & D & V & En & Of & Se).
  exists ws. split; [exact P|]. intros opts' O'.
  assert (Q : mnk_new E s (dm_creation dm) opts' = mnk_new E s t opts').
  { destruct dm as [v e sa ve of]. cbn [dm_offset] in Of. subst of. rewrite dm_creation_ok by auto.
    replace (first_second + (t / second - first_second)) with (t / second) by ring.
    apply mnk_new_same_second; auto. }
  unfold recover_plaintext, recover_encrypted. rewrite D. cbn [bind]. rewrite Se. cbn [bind]. split; [exact Q|].
  intros pw. unfold dm_decrypt_seed. rewrite En. cbn [negb]. rewrite Se. cbn [bind]. exact Q.
Qed.
Print Assumptions recover_from_plaintext.

Theorem recover_from_encrypted : forall E s t opts m pw src,
  wordlist_ok E -> argon_ok E -> aes_ok E -> hkdf_ok E -> seed_ok s -> opts_ok (opts_of opts) ->
  mnk_new E s t opts = Ok m -> pw <> [] -> Forall byte src -> (3 <= length src)%nat ->
  exists ws, mnk_encode_encrypted E m pw src = Ok ws /\
    (forall opts', recover_plaintext E ws opts' = Err ErrMnemonicDecryption) /\
    forall opts', opts_ok (opts_of opts') -> recover_encrypted E ws pw opts' = mnk_new E s t opts'.
Proof.
  intros E s t opts m pw src W A X H S O N Hp Hb Hl.
  destruct (mnk_new_window_only _ _ _ _ _ N) as (_ & T & R). destruct (window_second t R) as (B1 & B2 & B3).
  rewrite mnk_new_window in N by auto. injection N as <-.
  unfold mnk_encode_encrypted. rewrite creation_offset_ok by auto. cbn [mnk_seed].
  destruct (encrypted_roundtrip E s (t / second - first_second) pw src W A X S B1 Hp Hb Hl)
    as (ws & dm & P & _ & _ & D & V & En & Of & Se).
  exists ws. split; [exact P|]. split.
  - intros opts'. unfold recover_plaintext. rewrite D. cbn [bind]. unfold dm_seed. rewrite En. reflexivity.
  - intros opts' O'. unfold recover_encrypted. rewrite D. cbn [bind]. rewrite Se. cbn [bind].
    destruct dm as [v e sa ve of]. cbn [dm_offset] in Of. subst of. rewrite dm_creation_ok by auto.
    replace (first_second + (t / second - first_second)) with (t / second) by ring.
    apply mnk_new_same_second; auto.
Qed.
Print Assumptions recover_from_encrypted.

(** ** C13 *)
Lemma decoded_offset E ws dm : wordlist_ok E -> decode_mnemonic E ws = Ok dm -> 0 <= dm_offset dm < 2 ^ 31.
Proof. intros W D. apply (decode_iff_outcome E W) in D. inversion D; auto. Qed.
Lemma decrypted_seed_ok E ws dm pw s : wordlist_ok E -> argon_ok E -> aes_ok E ->
  decode_mnemonic E ws = Ok dm -> dm_decrypt_seed E dm pw = Ok s -> seed_ok s.
Proof.
  intros W A X D Q. pose proof D as D'. apply (decode_iff_outcome E W) in D'. inversion D'; subst.
  - unfold dm_decrypt_seed in Q. change (dm_encrypted (mk_decoded 0 entropy 0 0 offset)) with false in Q.
    cbn [negb] in Q. rewrite dm_seed_plain in Q by auto. injection Q as <-. split; auto.
  - destruct (decrypt_seed_exact E ws _ pw W A X D eq_refl) as [[_ K]|[_ K]]; rewrite K in Q; [discriminate|].
    injection Q as <-. split; [reflexivity|]. apply plain_of_cipher_bound; auto.
Qed.

Theorem conversion_preserves_key : forall E p q, wordlist_ok E -> argon_ok E -> aes_ok E ->
  converts_many E p q ->
  forall opts, recover_encrypted E (fst q) (snd q) opts = recover_encrypted E (fst p) (snd p) opts.
Proof.
  intros E p q W A X C. induction C as [|p q r C Cs IH]; auto. intros opts. rewrite IH. clear IH Cs.
  inversion C as [ws pw dm s ws' pw' D Q N | ws pw dm s pw' src ws' D Q Bs N]; subst; cbn [fst snd];
    pose proof (decoded_offset _ _ _ W D) as Of; pose proof (decrypted_seed_ok _ _ _ _ _ W A X D Q) as S;
    unfold recover_encrypted at 2; rewrite D; cbn [bind]; rewrite Q; cbn [bind].
  - destruct (plaintext_roundtrip E s (dm_offset dm) W S Of) as (ws2 & dm2 & N2 & _ & _ & D2 & V & En & Of2 & Se).
    rewrite N in N2. injection N2 as <-. unfold recover_encrypted. rewrite D2. cbn [bind].
    unfold dm_decrypt_seed. rewrite En. cbn [negb]. rewrite Se. cbn [bind]. unfold dm_creation. rewrite Of2. reflexivity.
  - assert (Hp : pw' <> []).
    { intros ->. unfold encode_mnemonic_encrypted in N. destruct S as [Era _]. rewrite Era in N. discriminate. }
    assert (Hl : (3 <= length src)%nat).
    { destruct (Nat.le_gt_cases 3 (length src)); auto. exfalso.
      unfold encode_mnemonic_encrypted in N. destruct S as [Era _]. rewrite Era in N.
      change (era_check 0) with (Ok tt) in N. cbn [bind] in N.
      destruct (zlen pw' =? 0); [discriminate|].
      destruct (BitBuffer.new_bitbuf 1 version_bits); cbn [bind] in N; try discriminate.
      rewrite rand_int_salt_short in N by auto. discriminate. }
    destruct (encrypted_roundtrip E s (dm_offset dm) pw' src W A X S Of Hp Bs Hl)
      as (ws2 & dm2 & N2 & _ & _ & D2 & V & En & Of2 & Se).
    rewrite N in N2. injection N2 as <-. unfold recover_encrypted. rewrite D2. cbn [bind].
    rewrite Se. cbn [bind]. unfold dm_creation. rewrite Of2. reflexivity.
Qed.
Print Assumptions conversion_preserves_key.

(** every phrase that opens can be converted, both ways *)
Theorem conversion_possible : forall E ws pw dm s, wordlist_ok E -> argon_ok E -> aes_ok E ->
  decode_mnemonic E ws = Ok dm -> dm_decrypt_seed E dm pw = Ok s ->
  (forall pw', exists ws', converts E (ws, pw) (ws', pw')) /\
  (forall pw' src, pw' <> [] -> Forall byte src -> (3 <= length src)%nat ->
     exists ws', length ws' = 16%nat /\ converts E (ws, pw) (ws', pw')).
Proof.
  intros E ws pw dm s W A X D Q. pose proof (decoded_offset _ _ _ W D) as Of.
  pose proof (decrypted_seed_ok _ _ _ _ _ W A X D Q) as S. split.
  - intros pw'. destruct (plaintext_roundtrip E s (dm_offset dm) W S Of) as (ws2 & dm2 & N2 & _).
    exists ws2. eapply To_plaintext; eauto.
  - intros pw' src Hp Hb Hl.
    destruct (encrypted_roundtrip E s (dm_offset dm) pw' src W A X S Of Hp Hb Hl) as (ws2 & dm2 & N2 & L & _).
    exists ws2. split; auto. eapply To_encrypted; eauto.
Qed.
Print Assumptions conversion_possible.

(** ** C25 *)
Theorem labels_distinct : forall r r', role_ok r -> role_ok r' -> label r = label r' -> r = r'.
Proof.
  assert (I : forall i j, 0 <= i < 65536 -> 0 <= j < 65536 -> i / 256 = j / 256 -> i mod 256 = j mod 256 -> i = j)
    by (intros; lia).
  intros [|[] i] [|[] j] H H'; cbn [role_ok] in *; cbn; intros Q; try discriminate Q; auto;
    injection Q as Q1 Q2; rewrite (I i j) by auto; reflexivity.
Qed.
Print Assumptions labels_distinct.

(** ** C26 and C25: the labels are those the code uses *)
Theorem keys_derived_by_label : forall E s t opts m, hkdf_ok E -> seed_ok s -> opts_ok (opts_of opts) ->
  mnk_new E s t opts = Ok m ->
  let sec := secret E (seed_value s) (t / ns) in
  ec_private (master_base m) = sec Master /\
  ec_public (master_base m) = ed25519_public E (sec Master) /\
  forall k b, subkey_base m k = Some b ->
    let sd := sec (Subkey k (index_of (opts_of opts) k)) in
    match k with
    | Encryption => ec_private b = rev (clamp sd) /\ ec_public b = x25519_base E sd
    | _ => ec_private b = sd /\ ec_public b = ed25519_public E sd
    end.
Proof.
  intros E s t opts m H S O N sec. destruct (mnk_new_window_only _ _ _ _ _ N) as (_ & T & R).
  destruct (window_second t R) as (B1 & B2 & B3).
  rewrite mnk_new_window in N by auto. injection N as <-. unfold master_base, subkey_base. cbn [mnk_keys].
  unfold derived. cbn [ks_master ks_enc ks_auth ks_sign ed_base ed_of ec_private ec_public].
  unfold sec. change ns with second. unfold t_unix. rewrite B3. split; [reflexivity|]. split; [reflexivity|].
  intros k b Hb. destruct k; [destruct (subkey_enabled _ type_encryption)|destruct (subkey_enabled _ type_authentication)|
    destruct (subkey_enabled _ type_signing)]; cbn [option_map] in Hb; try discriminate; injection Hb as <-; split; reflexivity.
Qed.
Print Assumptions keys_derived_by_label.

Theorem keys_independent : forall E s t opts opts' m m', hkdf_ok E -> seed_ok s ->
  opts_ok (opts_of opts) -> opts_ok (opts_of opts') ->
  mnk_new E s t opts = Ok m -> mnk_new E s t opts' = Ok m' ->
  master_base m = master_base m' /\ mnk_fingerprint E m = mnk_fingerprint E m' /\
  mnk_created_at m = mnk_created_at m' /\
  forall k, index_of (opts_of opts) k = index_of (opts_of opts') k ->
    requested (opts_of opts) k -> requested (opts_of opts') k ->
    subkey_base m k = subkey_base m' k /\
    mnk_subkey_fingerprint E m (kind_name k) = mnk_subkey_fingerprint E m' (kind_name k).
Proof.
  intros E s t opts opts' m m' H S O O' N N'. destruct (mnk_new_window_only _ _ _ _ _ N) as (_ & T & R).
  destruct (mnk_new_window_only _ _ _ _ _ N') as (_ & T' & _).
  rewrite mnk_new_window in N by auto. injection N as <-.
  rewrite mnk_new_window in N' by auto. injection N' as <-.
  split; [reflexivity|]. split; [reflexivity|]. split; [reflexivity|].
  intros k I Q Q'.
  assert (En : forall o, requested o k -> subkey_enabled o (kind_name k) = true).
  { intros o. unfold requested, subkey_enabled. destruct (ko_subkeys o) as [l|]; auto.
    intros Hin. apply existsb_exists. exists (kind_name k). split; auto. apply bytes_eqb_refl. }
  pose proof (En _ Q) as E1. pose proof (En _ Q') as E2.
  destruct k; cbn [kind_name index_of] in *;
    change (bs "encryption") with type_encryption in *; change (bs "authentication") with type_authentication in *;
    change (bs "signing") with type_signing in *;
    unfold subkey_base, mnk_subkey_fingerprint, derived; cbn [mnk_keys ks_enc ks_auth ks_sign];
    rewrite E1, E2, I; split; reflexivity.
Qed.
Print Assumptions keys_independent.

(** ** C27 *)
Theorem subkey_selection : forall E s t opts m, hkdf_ok E -> seed_ok s -> opts_ok (opts_of opts) ->
  mnk_new E s t opts = Ok m ->
  (forall k, subkey_base m k <> None <-> requested (opts_of opts) k) /\
  (forall k, In (kind_name k) (mnk_subkey_types m) <-> requested (opts_of opts) k) /\
  (exists keep : subkey_kind -> bool,
     mnk_subkey_types m = map kind_name (filter keep [Encryption; Authentication; Signing])) /\
  (forall ty, mnk_subkey_fingerprint E m ty <> None <-> In ty (mnk_subkey_types m)).
Proof.
  intros E s t opts m H S O N. destruct (mnk_new_window_only _ _ _ _ _ N) as (_ & T & R).
  rewrite mnk_new_window in N by auto. injection N as <-. set (o := opts_of opts) in *.
  assert (En : forall k, subkey_enabled o (kind_name k) = true <-> requested o k).
  { intros k. unfold requested, subkey_enabled. destruct (ko_subkeys o) as [l|]; [|tauto].
    rewrite existsb_exists. split.
    - intros (x & Hx & Q). apply bytes_eqb_eq in Q. subst. auto.
    - intros Hin. exists (kind_name k). split; auto. apply bytes_eqb_refl. }
  pose proof (En Encryption) as E1. pose proof (En Authentication) as E2. pose proof (En Signing) as E3.
  change (kind_name Encryption) with type_encryption in E1. change (kind_name Authentication) with type_authentication in E2.
  change (kind_name Signing) with type_signing in E3. clear En.
  unfold subkey_base, mnk_subkey_types, mnk_subkey_fingerprint, derived. cbn [mnk_keys ks_enc ks_auth ks_sign].
  destruct (subkey_enabled o type_encryption), (subkey_enabled o type_authentication), (subkey_enabled o type_signing);
    (split; [|split; [|split]]);
    try (intros []; cbn [option_map In app kind_name];
         change type_encryption with (bs "encryption"); change type_authentication with (bs "authentication");
         change type_signing with (bs "signing");
         (intuition (try discriminate; try congruence)); fail);
    try (exists (fun k => match k with Encryption => true | Authentication => true | Signing => true end); reflexivity);
    try (exists (fun k => match k with Encryption => true | Authentication => true | Signing => false end); reflexivity);
    try (exists (fun k => match k with Encryption => true | Authentication => false | Signing => true end); reflexivity);
    try (exists (fun k => match k with Encryption => true | Authentication => false | Signing => false end); reflexivity);
    try (exists (fun k => match k with Encryption => false | Authentication => true | Signing => true end); reflexivity);
    try (exists (fun k => match k with Encryption => false | Authentication => true | Signing => false end); reflexivity);
    try (exists (fun k => match k with Encryption => false | Authentication => false | Signing => true end); reflexivity);
    try (exists (fun k => match k with Encryption => false | Authentication => false | Signing => false end); reflexivity).
  all: intros ty; cbn [app In];
    destruct (bytes_eqb ty type_encryption) eqn:D1; [apply bytes_eqb_eq in D1|apply bytes_eqb_neq in D1;
    destruct (bytes_eqb ty type_authentication) eqn:D2; [apply bytes_eqb_eq in D2|apply bytes_eqb_neq in D2;
    destruct (bytes_eqb ty type_signing) eqn:D3; [apply bytes_eqb_eq in D3|apply bytes_eqb_neq in D3]]];
    subst; cbn [option_map]; intuition (try discriminate; try congruence).
Qed.
Print Assumptions subkey_selection.

Example selection_case :
  let o := Some (mk_opts (bs "n") [] 0 1 2 3 (Some [bs "signing"; bs "bogus"; bs "encryption"; bs "signing"])) in
  res_map (fun m => (mnk_subkey_types m, mnk_subkey_fingerprint toy_env m (bs "authentication"), mnk_created_at m))
    (mnk_new toy_env (mk_seed 0 77) (1700000000 * ns + 5) o)
  = Ok ([bs "encryption"; bs "signing"], None, 1700000000 * ns).
Proof. vm_compute. reflexivity. Qed.

(** ** C29 *)
Theorem user_id_forms : forall E s t opts m, hkdf_ok E -> seed_ok s -> opts_ok (opts_of opts) ->
  mnk_new E s t opts = Ok m ->
  mnk_user_id m =
    match ko_name (opts_of opts), ko_email (opts_of opts) with
    | name, [] => name
    | [], email => email
    | name, email => name ++ [32; 60] ++ email ++ [62]
    end.
Proof.
  intros E s t opts m H S O N. destruct (mnk_new_window_only _ _ _ _ _ N) as (_ & T & R).
  rewrite mnk_new_window in N by auto. injection N as <-.
  unfold mnk_user_id, derived, uid_encode. cbn [mnk_keys ks_uid uid_name uid_email].
  destruct (ko_name (opts_of opts)), (ko_email (opts_of opts)); reflexivity.
Qed.
Print Assumptions user_id_forms.

Definition with_name (o : key_options) (name email : bytes) : key_options :=
  mk_opts name email (ko_ttl o) (ko_enc_index o) (ko_auth_index o) (ko_sign_index o) (ko_subkeys o).

Theorem whole_user_id_as_name : forall E s t o m, hkdf_ok E -> seed_ok s -> opts_ok o ->
  mnk_new E s t (Some o) = Ok m ->
  exists m', mnk_new E s t (Some (with_name o (mnk_user_id m) [])) = Ok m' /\
    mnk_user_id m' = mnk_user_id m /\
    forall pw tape flag,
      mnk_encode_pgp E m' pw tape = mnk_encode_pgp E m pw tape /\
      mnk_encode_subkeys_pgp E m' pw flag tape = mnk_encode_subkeys_pgp E m pw flag tape.
Proof.
  intros E s t o m H S O N. destruct (mnk_new_window_only _ _ _ _ _ N) as (_ & T & R).
  rewrite mnk_new_window in N by auto. injection N as <-.
  eexists. split.
  - rewrite mnk_new_window; [reflexivity|auto|auto|exact O|exact T|auto].
  - split; [reflexivity|]. intros pw tape flag.
    set (u := mnk_user_id _).
    unfold mnk_encode_pgp, mnk_encode_subkeys_pgp, encode_packets, encode_subkey_packets, self_certification,
      all_subkey_packets, self_certify, uid_packet. cbn [mnk_keys derived opts_of with_name ks_uid ks_master ks_enc ks_auth ks_sign
      ko_name ko_email ko_ttl ko_enc_index ko_auth_index ko_sign_index].
    assert (Q : uid_encode (mk_uid u []) = uid_encode (mk_uid (ko_name o) (ko_email o))) by reflexivity.
    rewrite Q. split; reflexivity.
Qed.
Print Assumptions whole_user_id_as_name.

(** The hypotheses above can be met together: the toy environment, seed 77, an instant in 2023. *)
Example hypotheses_met : wordlist_ok toy_env /\ argon_ok toy_env /\ aes_ok toy_env /\ hkdf_ok toy_env /\
  seed_ok (mk_seed 0 77) /\ opts_ok (opts_of None) /\
  (exists m, mnk_new toy_env (mk_seed 0 77) (1700000000 * ns + 5) None = Ok m) /\
  (exists ws dm s pw', converts toy_env (ws, []) (ws, pw') /\ length ws = 14%nat /\
     decode_mnemonic toy_env ws = Ok dm /\ dm_decrypt_seed toy_env dm [] = Ok s /\ seed_value s = 77).
Proof.
  assert (S : seed_ok (mk_seed 0 77)) by (split; vm_compute; intuition congruence).
  assert (O : opts_ok (opts_of None)) by (repeat split; vm_compute; congruence).
  assert (W := toy_wordlist_ok). assert (H := toy_hkdf_ok).
  split; [exact W|]. split; [apply toy_argon_ok|]. split; [apply toy_aes_ok|]. split; [exact H|].
  split; [exact S|]. split; [exact O|]. split.
  - eexists. apply mnk_new_window; auto; [vm_compute; congruence|]. vm_compute. intuition congruence.
  - destruct (plaintext_roundtrip toy_env (mk_seed 0 77) 1234 W S ltac:(lia))
      as (ws & dm & N & L & _ & D & V & En & Of & Se).
    assert (Q : dm_decrypt_seed toy_env dm [] = Ok (mk_seed 0 77)).
    { unfold dm_decrypt_seed. rewrite En. exact Se. }
    exists ws, dm, (mk_seed 0 77), [7]. split; [|auto]. eapply To_plaintext; eauto. rewrite Of. exact N.
Qed.

Example labels_case : label (Subkey Signing 258) = bs "mnemonikey signing subkey" ++ [1; 2].
Proof. reflexivity. Qed.
