(** C28, C36: what an exported Mnemonikey says about its lifetime, and that plain exports repeat. *)
From Coq Require Import Lia ZifyBool ZifyNat.
From Verif.Model Require Import GoBase Env Version Seed Encoding GoTime Recovery PgpWire PgpS2k PgpKeys Mnemonikey.
From Verif.Spec Require Import EnvSpec PhraseSpec DecodeSpec KeySpec PgpSpec ExportSpec.
From Verif.Proofs Require Import BitsP BitBufferP RoundtripP DecodeP KeysP EnvInst PgpP S2kP SignP ExportP.
From Verif.Props Require Import PhraseProps KeyProps ExportProps.
Ltac Zify.zify_post_hook ::= Z.div_mod_to_equations.

(** ** the keys of a Mnemonikey are built keys *)
Theorem new_key_set_built : forall E edv s t opts m, hkdf_ok E -> env_ok E edv -> seed_ok s -> opts_ok (opts_of opts) ->
  zlen (ko_name (opts_of opts)) + zlen (ko_email (opts_of opts)) < 2 ^ 31 ->
  mnk_new E s t opts = Ok m -> built E (mnk_keys m).
Proof.
  intros E edv s t opts m H HE S O L N. destruct (mnk_new_window_only _ _ _ _ _ N) as (_ & T & R).
  rewrite mnk_new_window in N by auto. injection N as <-. cbn [mnk_keys].
  destruct (window_second t R) as (B1 & B2 & B3). pose proof first_val. pose proof second_pos.
  assert (C : 0 <= (t / second * second) / ns < 2 ^ 32).
  { change ns with second. rewrite Z.div_mul by lia. lia. }
  assert (K : forall r, block32 (secret E (seed_value s) (t_unix (t / second * second)) r)) by (intros r; split; apply H).
  unfold derived. constructor; cbn [ks_master ks_enc ks_auth ks_sign ks_uid].
  - do 3 eexists. split; [apply K|]. split; [exact C|]. apply new_ed_key_ok, K.
  - destruct (subkey_enabled _ _); intros k Q; [|discriminate]. injection Q as <-.
    do 3 eexists. split; [apply K|]. split; [exact C|]. apply new_curve_key_ok, K.
  - destruct (subkey_enabled _ _); intros k Q; [|discriminate]. injection Q as <-.
    do 3 eexists. split; [apply K|]. split; [exact C|]. apply new_ed_key_ok, K.
  - destruct (subkey_enabled _ _); intros k Q; [|discriminate]. injection Q as <-.
    do 3 eexists. split; [apply K|]. split; [exact C|]. apply new_ed_key_ok, K.
  - unfold uid_encode. cbn [uid_name uid_email]. revert L. generalize (ko_name (opts_of opts)), (ko_email (opts_of opts)).
    intros nm em L. pose proof (zlen_nonneg nm). pose proof (zlen_nonneg em).
    apply Z.le_lt_trans with (zlen nm + zlen em + 3); [|lia].
    destruct em as [|e em], nm as [|n nm]; try lia.
    change (zlen ((n :: nm) ++ bs " <" ++ (e :: em) ++ bs ">") <= zlen (n :: nm) + zlen (e :: em) + 3).
    rewrite !zlen_app. change (zlen (bs " <")) with 2. change (zlen (bs ">")) with 1. lia.
Qed.
Print Assumptions new_key_set_built.

(** ** C36 *)
Lemma lifetime_subs E fp time fl c x l : find_sub 9 (map sub_pair l) = None ->
  forall s, sp_hashed s = map sub_pair (stamp_subs fp time ++ [mk_sub 27 [fl]] ++ expiry_subs E c x ++ l) ->
  seconds_ok E ->
  lifetime s = if is_zero_time x then None
               else let n := seconds_u32 E (t_sub x c) in if n =? 0 then None else Some n.
Proof.
  intros L s H SO. unfold lifetime. rewrite H. unfold expiry_subs. destruct (is_zero_time x).
  - assert (Q : find_sub 9 (map sub_pair (stamp_subs fp time ++ [mk_sub 27 [fl]] ++ [] ++ l)) = None) by exact L.
    rewrite Q. reflexivity.
  - change (find_sub 9 _) with (Some (bytes_of_bits 32 (seconds_u32 E (t_sub x c)))). cbv iota.
    rewrite number_32 by apply SO. reflexivity.
Qed.

Lemma mnk_subkey_times E s t opts m k base x : hkdf_ok E -> seed_ok s -> opts_ok (opts_of opts) ->
  mnk_new E s t opts = Ok m -> subkey (mnk_keys m) k = Some (base, x) ->
  ec_creation base = mnk_created_at m /\ x = mnk_expiry m.
Proof.
  intros H S O N Q. destruct (mnk_new_window_only _ _ _ _ _ N) as (_ & T & R).
  rewrite mnk_new_window in N by auto. injection N as <-. unfold mnk_expiry, mnk_created_at, derived in *.
  cbn [mnk_keys mnk_creation ks_master ed_of ed_expiry] in *.
  destruct k; cbn [subkey ks_enc ks_auth ks_sign] in Q; (destruct (subkey_enabled _ _); [|discriminate]);
    injection Q as <- <-; split; reflexivity.
Qed.
Lemma expiry_arith S c n : 0 < S -> (c * S + n) / S = c + n / S.
Proof. intros H. rewrite Z.add_comm, Z.div_add by lia. lia. Qed.
Lemma mnk_times E s t opts m : hkdf_ok E -> seed_ok s -> opts_ok (opts_of opts) -> mnk_new E s t opts = Ok m ->
  ec_creation (ed_base (ks_master (mnk_keys m))) = mnk_created_at m /\
  mnk_created_at m = t / ns * ns /\ first_second <= t / ns <= last_second /\ 0 <= ko_ttl (opts_of opts) /\
  mnk_expiry m = if ko_ttl (opts_of opts) =? 0 then zero_time else mnk_created_at m + ko_ttl (opts_of opts) / ns * ns.
Proof.
  intros H S O N. destruct (mnk_new_window_only _ _ _ _ _ N) as (_ & T & R).
  rewrite mnk_new_window in N by auto. injection N as <-. unfold mnk_expiry, mnk_created_at, derived.
  cbn [mnk_keys mnk_creation ks_master ed_of ed_expiry ed_base ec_creation]. change ns with second.
  destruct (window_second t R) as (B1 & B2 & B3).
  split; [reflexivity|]. split; [reflexivity|]. split; [pose proof first_val; pose proof last_val; lia|]. split; [exact T|].
  unfold derive_expiry. destruct (ko_ttl (opts_of opts) =? 0) eqn:Q.
  - replace (ko_ttl (opts_of opts) >? 0) with false by lia. reflexivity.
  - replace (ko_ttl (opts_of opts) >? 0) with true by lia. unfold t_from_unix, t_unix, t_add.
    rewrite expiry_arith by apply second_pos. apply Z.mul_add_distr_r.
Qed.
Lemma exports_lifetimes E edv f s t0 opts m pw tape t : hkdf_ok E -> env_ok E edv -> seconds_ok E -> seed_ok s ->
  opts_ok (opts_of opts) -> zlen (ko_name (opts_of opts)) + zlen (ko_email (opts_of opts)) < 2 ^ 31 ->
  mnk_new E s t0 opts = Ok m -> password_ok pw -> Forall byte tape -> exports E f (mnk_keys m) pw tape t ->
  let life := if is_zero_time (mnk_expiry m) then None
              else let n := seconds_u32 E (t_sub (mnk_expiry m) (mnk_created_at m)) in if n =? 0 then None else Some n in
  (forall c, tk_cert t = Some c -> lifetime c = life) /\
  subkeys_match (mnk_keys m) t (fun _ _ _ b => lifetime (sb_binding b) = life).
Proof.
  intros H HE SO S O L N Hp Ht X life.
  pose proof (new_key_set_built E edv s t0 opts m H HE S O L N) as HB.
  pose proof (exports_inv E edv f _ pw tape t HE HB Ht Hp X) as G.
  destruct (mnk_times E s t0 opts m H S O N) as (T1 & _). split.
  - intros c Hc. pose proof (eg_cert _ _ _ _ _ _ _ G) as C. rewrite Hc in C. destruct C as [_ (sg & -> & S1 & S2 & S3 & S4)].
    unfold life. rewrite <- T1. eapply lifetime_subs; [|unfold sig_of; cbn [sp_hashed]; rewrite S2; reflexivity|auto]. reflexivity.
  - eapply good_match; [exact HE|exact G|]. intros k base x b Q B.
    destruct (mnk_subkey_times E s t0 opts m k base x H S O N Q) as [T2 T3].
    destruct (bg_binding _ _ _ _ _ _ _ _ _ B) as (sg & emb & B1 & B2 & B3 & B4 & B5 & B6). rewrite B1.
    unfold life. rewrite <- T2, <- T3. eapply lifetime_subs with (l := []); [reflexivity| |auto].
    unfold sig_of. cbn [sp_hashed]. rewrite B3, app_nil_r. reflexivity.
Qed.
Lemma sub_exact S n c : S = 1000000000 -> 0 <= n < 2 ^ 32 -> t_sub (c * S + n * S) (c * S) = n * S.
Proof.
  intros -> H. unfold t_sub. replace (c * 1000000000 + n * 1000000000 - c * 1000000000) with (n * 1000000000) by lia.
  replace (n * 1000000000 >? 2 ^ 63 - 1) with false by lia. replace (n * 1000000000 <? - 2 ^ 63) with false by lia. reflexivity.
Qed.
Lemma not_zero_time c n : first_second <= c -> 0 <= n -> is_zero_time (c * ns + n * ns) = false.
Proof.
  intros H1 H2. unfold is_zero_time, zero_time. change second with ns. pose proof first_val.
  change ns with 1000000000. lia.
Qed.

(** a lifetime of n >= 1 whole seconds below 2^32 is exported exactly, and agrees with Expiry(); fractions
    of a second are dropped from both *)
Theorem expiry_exact : forall E edv f s t0 opts m pw tape t, hkdf_ok E -> env_ok E edv -> seconds_ok E -> seed_ok s ->
  opts_ok (opts_of opts) -> zlen (ko_name (opts_of opts)) + zlen (ko_email (opts_of opts)) < 2 ^ 31 ->
  mnk_new E s t0 opts = Ok m -> password_ok pw -> Forall byte tape -> exports E f (mnk_keys m) pw tape t ->
  let n := ko_ttl (opts_of opts) / ns in 1 <= n < 2 ^ 32 ->
  mnk_expiry m = mnk_created_at m + n * ns /\
  (forall c, tk_cert t = Some c -> lifetime c = Some n) /\
  subkeys_match (mnk_keys m) t (fun _ _ _ b => lifetime (sb_binding b) = Some n).
Proof.
  intros E edv f s t0 opts m pw tape t H HE SO S O L N Hp Ht X n Hn.
  destruct (mnk_times E s t0 opts m H S O N) as (_ & T2 & T3 & T4 & T5).
  replace (ko_ttl (opts_of opts) =? 0) with false in T5 by (unfold n, ns in Hn; lia). fold n in T5.
  pose proof (exports_lifetimes E edv f s t0 opts m pw tape t H HE SO S O L N Hp Ht X) as Y. cbv zeta in Y.
  rewrite T5, T2 in Y. rewrite not_zero_time, sub_exact in Y by (try reflexivity; lia).
  change ns with (10 ^ 9) in Y. rewrite (proj1 SO) in Y by lia. replace (n =? 0) with false in Y by lia.
  split; [rewrite T5; reflexivity|exact Y].
Qed.
Print Assumptions expiry_exact.
Theorem no_expiry : forall E edv f s t0 opts m pw tape t, hkdf_ok E -> env_ok E edv -> seconds_ok E -> seed_ok s ->
  opts_ok (opts_of opts) -> zlen (ko_name (opts_of opts)) + zlen (ko_email (opts_of opts)) < 2 ^ 31 ->
  mnk_new E s t0 opts = Ok m -> password_ok pw -> Forall byte tape -> exports E f (mnk_keys m) pw tape t ->
  ko_ttl (opts_of opts) = 0 ->
  mnk_expiry m = year_one /\
  (forall c, tk_cert t = Some c -> lifetime c = None) /\
  subkeys_match (mnk_keys m) t (fun _ _ _ b => lifetime (sb_binding b) = None).
Proof.
  intros E edv f s t0 opts m pw tape t H HE SO S O L N Hp Ht X Q.
  destruct (mnk_times E s t0 opts m H S O N) as (_ & T2 & T3 & T4 & T5). rewrite Q in T5. cbv iota in T5.
  pose proof (exports_lifetimes E edv f s t0 opts m pw tape t H HE SO S O L N Hp Ht X) as Y. cbv zeta in Y.
  change (0 =? 0) with true in T5. cbv iota in T5. rewrite T5 in *. change (is_zero_time zero_time) with true in *. split; [reflexivity|exact Y].
Qed.
Print Assumptions no_expiry.
(** a TTL below one second sets an Expiry() but is exported as never expiring *)
Theorem subsecond_ttl_refuted : forall E edv f s t0 opts m pw tape t, hkdf_ok E -> env_ok E edv -> seconds_ok E -> seed_ok s ->
  opts_ok (opts_of opts) -> zlen (ko_name (opts_of opts)) + zlen (ko_email (opts_of opts)) < 2 ^ 31 ->
  mnk_new E s t0 opts = Ok m -> password_ok pw -> Forall byte tape -> exports E f (mnk_keys m) pw tape t ->
  0 < ko_ttl (opts_of opts) < ns ->
  mnk_expiry m = mnk_created_at m /\ mnk_expiry m <> year_one /\
  (forall c, tk_cert t = Some c -> lifetime c = None) /\
  subkeys_match (mnk_keys m) t (fun _ _ _ b => lifetime (sb_binding b) = None).
Proof.
  intros E edv f s t0 opts m pw tape t H HE SO S O L N Hp Ht X Q.
  destruct (mnk_times E s t0 opts m H S O N) as (_ & T2 & T3 & T4 & T5).
  replace (ko_ttl (opts_of opts) =? 0) with false in T5 by lia. rewrite Z.div_small in T5 by lia.
  pose proof (exports_lifetimes E edv f s t0 opts m pw tape t H HE SO S O L N Hp Ht X) as Y. cbv zeta in Y.
  rewrite T5, T2 in Y. rewrite not_zero_time, sub_exact in Y by (try reflexivity; lia).
  change ns with (10 ^ 9) in Y. rewrite (proj1 SO) in Y by lia. cbv iota in Y.
  split; [rewrite T5; lia|]. split; [rewrite T5, T2; unfold year_one; pose proof first_val; change ns with 1000000000; lia|exact Y].
Qed.
Print Assumptions subsecond_ttl_refuted.
(** a TTL of 2^32 seconds or more cannot be exported as it is *)
Theorem huge_ttl_refuted : forall E edv f s t0 opts m pw tape t, hkdf_ok E -> env_ok E edv -> seconds_ok E -> seed_ok s ->
  opts_ok (opts_of opts) -> zlen (ko_name (opts_of opts)) + zlen (ko_email (opts_of opts)) < 2 ^ 31 ->
  mnk_new E s t0 opts = Ok m -> password_ok pw -> Forall byte tape -> exports E f (mnk_keys m) pw tape t ->
  let n := ko_ttl (opts_of opts) / ns in 2 ^ 32 <= n ->
  mnk_expiry m = mnk_created_at m + n * ns /\
  (forall c, tk_cert t = Some c -> lifetime c <> Some n).
Proof.
  intros E edv f s t0 opts m pw tape t H HE SO S O L N Hp Ht X n Hn.
  destruct (mnk_times E s t0 opts m H S O N) as (_ & T2 & T3 & T4 & T5).
  replace (ko_ttl (opts_of opts) =? 0) with false in T5 by (unfold n, ns in Hn; lia). fold n in T5.
  destruct (exports_lifetimes E edv f s t0 opts m pw tape t H HE SO S O L N Hp Ht X) as [Y _]. cbv zeta in Y.
  split; [exact T5|]. intros c Hc. rewrite (Y c Hc). destruct (is_zero_time _); [discriminate|].
  pose proof (proj2 SO (t_sub (mnk_expiry m) (mnk_created_at m))) as B.
  destruct (_ =? 0); [discriminate|]. intros Z. injection Z as Z. lia.
Qed.
Print Assumptions huge_ttl_refuted.

(** ** C28 *)
(** without a password the random source is not touched *)
Lemma export_tape_free E f ks tp : export E f ks [] tp = res_map (fun p => (fst p, tp)) (export E f ks [] []).
Proof.
  assert (PP : forall tg k tp, private_packet E tg k [] tp = Ok (encode_packet tg (encode_public k ++ [0] ++ encode_mpi (be_uint (ec_private k)) ++ checksum_mpi (encode_mpi (be_uint (ec_private k)))), tp)).
  { intros. reflexivity. }
  assert (G : forall m k fl x tp, subkey_packets E m k fl x [] tp = res_map (fun p => (fst p, tp)) (subkey_packets E m k fl x [] [])).
  { intros. unfold subkey_packets. rewrite !PP. cbn [bind]. destruct (bind_subkey _ _ _ _ _); reflexivity. }
  assert (GO : forall k tp, one_group E ks [] k tp = res_map (fun p => (fst p, tp)) (one_group E ks [] k [])).
  { intros k tp'. unfold one_group. destruct (subkey ks k) as [[b x]|]; [apply G|reflexivity]. }
  assert (A : forall tp, all_subkey_packets E ks [] tp = res_map (fun p => (fst p, tp)) (all_subkey_packets E ks [] [])).
  { intros tp'. rewrite !all_subkey_groups. rewrite (GO Encryption tp').
    destruct (one_group E ks [] Encryption []) as [[g0 t0]| |] eqn:Q0; cbn [bind res_map fst]; auto.
    rewrite (GO Authentication tp'), (GO Authentication t0).
    destruct (one_group E ks [] Authentication []) as [[g1 t1]| |] eqn:Q1; cbn [bind res_map fst]; auto.
    rewrite (GO Signing tp'), (GO Signing t0).
    destruct (one_group E ks [] Signing []) as [[g2 t2]| |] eqn:Q2; cbn [bind res_map fst]; auto.
    destruct (shuffle _ _ _); reflexivity. }
  destruct f as [|c]; cbn [export].
  - unfold encode_packets. rewrite !PP. cbn [bind]. destruct (self_certification E ks); cbn [bind]; try reflexivity.
    rewrite (A tp). destruct (all_subkey_packets E ks [] []) as [[s t]| |]; reflexivity.
  - unfold encode_subkey_packets. cbv zeta. destruct (if c then _ else _); cbn [bind]; try reflexivity.
    rewrite (A tp). destruct (all_subkey_packets E ks [] []) as [[s t]| |]; reflexivity.
Qed.
Theorem unencrypted_deterministic : forall E edv f ks, env_ok E edv -> built E ks ->
  exists out, forall tape, Forall byte tape -> export E f ks [] tape = Ok (out, tape).
Proof.
  intros E edv f ks HE HB.
  assert (P : password_ok []) by (unfold password_ok; cbn; lia).
  destruct (export_wellformed E edv f ks [] [] HE HB P) as (out & _ & _ & X & _); [constructor|cbn; lia|].
  exists out. intros tape Ht. rewrite export_tape_free, X. reflexivity.
Qed.
Print Assumptions unencrypted_deterministic.
(** whoever recovers the phrase later gets the same bytes: recovery gives back the very same keys *)
Theorem recovered_export_identical : forall E s t opts m ws, wordlist_ok E -> hkdf_ok E -> seed_ok s -> opts_ok (opts_of opts) ->
  mnk_new E s t opts = Ok m -> mnk_encode_plaintext E m = Ok ws ->
  exists m', recover_plaintext E ws opts = Ok m' /\
    (forall pw tape, mnk_encode_pgp E m' pw tape = mnk_encode_pgp E m pw tape) /\
    (forall pw c tape, mnk_encode_subkeys_pgp E m' pw c tape = mnk_encode_subkeys_pgp E m pw c tape) /\
    (forall pw tape, mnk_encode_pgp_armor E m' pw tape = mnk_encode_pgp_armor E m pw tape).
Proof.
  intros E s t opts m ws W H S O N P. destruct (recover_from_plaintext E s t opts m W H S O N) as (ws' & P' & R).
  rewrite P in P'. injection P' as <-. destruct (R opts O) as [R1 _]. exists m. rewrite R1, N. auto.
Qed.
Print Assumptions recovered_export_identical.
Theorem recovered_encrypted_export_identical : forall E s t opts m pw src ws,
  wordlist_ok E -> argon_ok E -> aes_ok E -> hkdf_ok E -> seed_ok s -> opts_ok (opts_of opts) ->
  mnk_new E s t opts = Ok m -> pw <> [] -> Forall byte src -> (3 <= length src)%nat ->
  mnk_encode_encrypted E m pw src = Ok ws ->
  exists m', recover_encrypted E ws pw opts = Ok m' /\
    (forall pw tape, mnk_encode_pgp E m' pw tape = mnk_encode_pgp E m pw tape) /\
    (forall pw c tape, mnk_encode_subkeys_pgp E m' pw c tape = mnk_encode_subkeys_pgp E m pw c tape) /\
    (forall pw tape, mnk_encode_pgp_armor E m' pw tape = mnk_encode_pgp_armor E m pw tape).
Proof.
  intros E s t opts m pw src ws W A X H S O N Hp Hb Hl P.
  destruct (recover_from_encrypted E s t opts m pw src W A X H S O N Hp Hb Hl) as (ws' & P' & _ & R).
  rewrite P in P'. injection P' as <-. exists m. rewrite (R opts O), N. auto.
Qed.
Print Assumptions recovered_encrypted_export_identical.

(** ** The hypotheses can be met together: the toy environment, a key with all three subkeys, a TTL of a
    year, a user ID; exported in every form, with and without a password *)
Lemma toy_env_ok : env_ok toy_env toy_verify.
Proof.
  split; [apply toy_hash_env_ok|]. split; [apply toy_aes256_ok|]. split; [apply toy_ed25519_ok|].
  split; [apply toy_x25519_ok|apply toy_rand_ok].
Qed.
Definition case_opts (ttl : Z) : key_options :=
  mk_opts (bs "username") (bs "username@email.com") ttl 0 1 2 None.
Definition case_tape : bytes := repeat 7 100.
Lemma case_exists ttl : 0 <= ttl -> exists m,
  mnk_new toy_env (mk_seed 0 77) (1700000000 * ns + 5) (Some (case_opts ttl)) = Ok m /\
  built toy_env (mnk_keys m) /\
  length (subkeys_along (mnk_keys m) all_kinds) = 3%nat /\
  forall f pw, In pw [[]; bs "hunter2"] -> exists t, exports toy_env f (mnk_keys m) pw case_tape t.
Proof.
  intros Hl.
  assert (S : seed_ok (mk_seed 0 77)) by (split; vm_compute; intuition congruence).
  assert (O : opts_ok (opts_of (Some (case_opts ttl)))) by (repeat split; vm_compute; congruence).
  assert (N : exists m, mnk_new toy_env (mk_seed 0 77) (1700000000 * ns + 5) (Some (case_opts ttl)) = Ok m /\
              length (subkeys_along (mnk_keys m) all_kinds) = 3%nat).
  { eexists. split; [apply mnk_new_window; auto; [apply toy_hkdf_ok|vm_compute; intuition congruence]|]. reflexivity. }
  destruct N as (m & N & K). exists m.
  assert (B : built toy_env (mnk_keys m)).
  { eapply new_key_set_built; [apply toy_hkdf_ok|apply toy_env_ok|exact S|exact O| |exact N]. vm_compute. reflexivity. }
  split; [exact N|]. split; [exact B|]. split; [exact K|]. intros f pw Hp.
  assert (Hq : password_ok pw /\ (randomness f (mnk_keys m) pw <= 96)%nat).
  { unfold password_ok, randomness, secrets_in. rewrite K. destruct Hp as [<-|[<-|[]]]; (split; [vm_compute; congruence|]); destruct f; cbn; lia. }
  destruct (export_wellformed toy_env toy_verify f (mnk_keys m) pw case_tape toy_env_ok B (proj1 Hq)) as (out & _ & t & X & _ & _ & R & _).
  - apply Forall_forall. intros x Hx. apply repeat_spec in Hx. subst. split; reflexivity || discriminate.
  - unfold case_tape. rewrite repeat_length. lia.
  - exists t, out. eauto.
Qed.
Example year_case : exists m t, exports toy_env Full (mnk_keys m) (bs "hunter2") case_tape t /\
  built toy_env (mnk_keys m) /\ length (tk_subkeys t) = 3%nat /\
  (exists c, tk_cert t = Some c /\ lifetime c = Some 31536000).
Proof.
  destruct (case_exists (31536000 * ns)) as (m & N & B & K & X); [discriminate|].
  destruct (X Full (bs "hunter2")) as (t & Y); [right; left; reflexivity|]. exists m, t. split; [exact Y|]. split; [exact B|].
  assert (P : password_ok (bs "hunter2")) by (vm_compute; congruence).
  assert (T : Forall byte case_tape).
  { apply Forall_forall. intros x Hx. apply repeat_spec in Hx. subst. split; reflexivity || discriminate. }
  destruct (expiry_exact toy_env toy_verify Full (mk_seed 0 77) (1700000000 * ns + 5) (Some (case_opts (31536000 * ns))) m
    (bs "hunter2") case_tape t) as (_ & C & M);
    [apply toy_hkdf_ok|apply toy_env_ok|apply toy_seconds_ok|split; vm_compute; intuition congruence|
     repeat split; vm_compute; congruence|vm_compute; reflexivity|exact N|exact P|exact T|exact Y|vm_compute; intuition congruence|].
  split.
    + destruct M as (o & PM & F). rewrite (Permutation.Permutation_length (along_perm _ _ _ PM)) in K.
      rewrite <- K. symmetry. clear - F. induction F; cbn [length]; auto.
    + destruct (export_wellformed toy_env toy_verify Full (mnk_keys m) (bs "hunter2") case_tape toy_env_ok B P T) as (out & _ & t' & X1 & _ & _ & X2 & _ & _ & X3 & _).
      * unfold randomness, secrets_in. rewrite K. cbn. lia.
      * destruct Y as (out' & r & Y1 & Y2). rewrite X1 in Y1. injection Y1 as <- <-. rewrite X2 in Y2. injection Y2 as <-.
        destruct (tk_cert t') as [c|]; [exists c; auto|]. exfalso. apply X3; reflexivity.
Qed.
Example half_second_case : exists m t c, exports toy_env Full (mnk_keys m) [] case_tape t /\
  mnk_expiry m = mnk_created_at m /\ tk_cert t = Some c /\ lifetime c = None.
Proof.
  destruct (case_exists (ns / 2)) as (m & N & B & K & X); [discriminate|].
  destruct (X Full []) as (t & Y); [left; reflexivity|].
  assert (P : password_ok []) by (vm_compute; congruence).
  assert (T : Forall byte case_tape).
  { apply Forall_forall. intros x Hx. apply repeat_spec in Hx. subst. split; reflexivity || discriminate. }
  destruct (subsecond_ttl_refuted toy_env toy_verify Full (mk_seed 0 77) (1700000000 * ns + 5) (Some (case_opts (ns / 2))) m
    [] case_tape t) as (Q & _ & C & _);
    [apply toy_hkdf_ok|apply toy_env_ok|apply toy_seconds_ok|split; vm_compute; intuition congruence|
     repeat split; vm_compute; congruence|vm_compute; reflexivity|exact N|exact P|exact T|exact Y|vm_compute; intuition congruence|].
  destruct (export_wellformed toy_env toy_verify Full (mnk_keys m) [] case_tape toy_env_ok B P T) as (out & _ & t' & X1 & _ & _ & X2 & _ & _ & X3 & _).
    * cbn. lia.
    * destruct Y as (out' & r & Y1 & Y2). rewrite X1 in Y1. injection Y1 as <- <-. rewrite X2 in Y2. injection Y2 as <-.
      destruct (tk_cert t') as [c|] eqn:Z; [|exfalso; apply X3; reflexivity].
      exists m, t', c. split; [exists out; eauto|]. auto.
Qed.

(** two master secrets that the subkey-only export cannot tell apart *)
Definition flat_env : Env := {|
  wl_words := wl_words toy_env; wl_search := wl_search toy_env; unicode_lower := unicode_lower toy_env;
  trim_space := trim_space toy_env; argon2id := argon2id toy_env; aes_encrypt := aes_encrypt toy_env;
  aes_decrypt := aes_decrypt toy_env; sha1 := sha1 toy_env; sha256 := sha256 toy_env; sha384 := sha384 toy_env;
  sha512 := sha512 toy_env; hkdf_expand_sha256 := hkdf_expand_sha256 toy_env; ed25519_public := ed25519_public toy_env;
  ed25519_sign := ed25519_sign toy_env; x25519_base := x25519_base toy_env; rand_int31n := fun _ _ _ => 0;
  seconds_u32 := seconds_u32 toy_env; armor_encode := armor_encode toy_env |}.
Definition case_master (secret : Z) : ed_key :=
  mk_ed (mk_ecc (repeat secret 32) (repeat 9 32) None 0 22 oid_ed25519 []) (repeat secret 32 ++ repeat 9 32) zero_time.
Lemma case_master_sign a b d : ed25519_sign flat_env (ed_private (case_master a)) d = ed25519_sign flat_env (ed_private (case_master b)) d.
Proof.
  unfold flat_env, case_master. cbn [ed25519_sign ed_private toy_env].
  assert (Q : forall n, skipn 32 (repeat n 32 ++ repeat 9 32) = repeat 9 32) by reflexivity. rewrite !Q. reflexivity.
Qed.
Lemma case_master_hidden a b c pw tape :
  export flat_env (Subkeys_only c) (mk_set (mk_uid (bs "a") []) (case_master a) None None None) pw tape =
  export flat_env (Subkeys_only c) (mk_set (mk_uid (bs "a") []) (case_master b) None None None) pw tape.
Proof.
  apply subkey_export_hides_master; cbn [ks_uid ks_enc ks_auth ks_sign ks_master];
    [exact toy_hash_env_ok|reflexivity|reflexivity|reflexivity|reflexivity|repeat split|reflexivity|
     intros d; apply case_master_sign|intros k n; reflexivity].
Qed.
Example hidden_master_case : case_master 1 <> case_master 2 /\ forall c pw tape,
  export flat_env (Subkeys_only c) (mk_set (mk_uid (bs "a") []) (case_master 1) None None None) pw tape =
  export flat_env (Subkeys_only c) (mk_set (mk_uid (bs "a") []) (case_master 2) None None None) pw tape.
Proof. split; [discriminate|]. intros. apply case_master_hidden. Qed.
