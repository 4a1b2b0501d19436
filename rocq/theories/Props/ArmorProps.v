(** Armored keys, and what generate and recover print (C66, C67). *)
From Coq Require Import Lia ZifyBool ZifyNat Permutation.
From Verif.Model Require Import GoBase Env Version Seed Encoding GoTime Recovery PgpWire PgpKeys Mnemonikey CliText CliInput CliFlags CliMain.
From Verif.Spec Require Import EnvSpec DecodeSpec KeySpec PgpSpec ExportSpec EndSpec ArmorSpec OutputSpec.
From Verif.Proofs Require Import BitsP RoundtripP S2kP KeysP PgpP ExportP SignP EntryP MainP ArmorP BytesP EnvInst CliInst.
From Verif.Props Require Import KeyProps ExportProps LifeProps IdentityProps InputProps FileProps EndProps.
Ltac Zify.zify_post_hook ::= Z.div_mod_to_equations.

(** ** C66 *)
Lemma kinds_selected E s t opts m : hkdf_ok E -> seed_ok s -> opts_ok (opts_of opts) -> mnk_new E s t opts = Ok m ->
  map fst (subkeys_along (mnk_keys m) all_kinds) = selected (ko_subkeys (opts_of opts)).
Proof.
  intros H S O N. destruct (subkey_selection E s t opts m H S O N) as (K & _).
  assert (B : forall k, subkey (mnk_keys m) k <> None <-> requested (opts_of opts) k).
  { intros k. rewrite <- K. destruct k; cbn [subkey subkey_base];
      [destruct (ks_enc (mnk_keys m))|destruct (ks_auth (mnk_keys m))|destruct (ks_sign (mnk_keys m))];
      cbn [option_map]; split; congruence. }
  unfold selected, subkeys_along. generalize all_kinds. intros l. induction l as [|k l IH]; [reflexivity|].
  cbn [flat_map filter]. rewrite map_app, IH. specialize (B k). unfold requested in B.
  destruct (ko_subkeys (opts_of opts)) as [ts|].
  - assert (X : existsb (bytes_eqb (kind_name k)) ts = true <-> In (kind_name k) ts).
    { rewrite existsb_exists. split; [intros (x & I & Q); apply bytes_eqb_eq in Q; subst; auto|]. intros I. exists (kind_name k).
      split; [auto|]. apply bytes_eqb_eq. reflexivity. }
    destruct (subkey (mnk_keys m) k) eqn:Q; destruct (existsb (bytes_eqb (kind_name k)) ts) eqn:Z1; cbn [map fst app]; try reflexivity; exfalso.
    + assert (false = true) by (apply X, B; discriminate). discriminate.
    + apply B; [apply X; reflexivity|reflexivity].
  - destruct (subkey (mnk_keys m) k) eqn:Q; cbn [map fst app]; [reflexivity|]. destruct (proj2 B I). reflexivity.
Qed.
Lemma match_perm ks t {X} (g : subkey_block -> X) (h : subkey_kind -> X) :
  subkeys_match ks t (fun k _ _ b => g b = h k) -> Permutation (map g (tk_subkeys t)) (map h (map fst (subkeys_along ks all_kinds))).
Proof.
  intros (order & P & F).
  assert (Q : map g (tk_subkeys t) = map h (map fst (subkeys_along ks order))).
  { clear P. revert F. generalize (tk_subkeys t) (subkeys_along ks order). intros l m F.
    induction F as [|q b l' m' [_ Hq] F IH]; [reflexivity|]. cbn [map]. f_equal; auto. }
  rewrite Q. apply Permutation_map, Permutation_map, Permutation_sym, along_perm, P.
Qed.
Lemma match_forall ks t (P : subkey_block -> Prop) : subkeys_match ks t (fun _ _ _ b => P b) -> Forall P (tk_subkeys t).
Proof. intros (order & _ & F). induction F as [|q b l m [_ Hq] F IH]; constructor; auto. Qed.
Lemma match_weaken ks t (P Q : subkey_kind -> ecc_key -> Z -> subkey_block -> Prop) :
  (forall k e x b, P k e x b -> Q k e x b) -> subkeys_match ks t P -> subkeys_match ks t Q.
Proof. intros H (order & Pm & F). exists order. split; auto. induction F as [|q b l m [A B] F IH]; constructor; auto. Qed.

Lemma uid_text n e : uid_encode (mk_uid n e) = user_id_text n e.
Proof. destruct n, e; reflexivity. Qed.
Lemma uid_bytes n e : Forall byte n -> Forall byte e -> Forall byte (user_id_text n e).
Proof.
  intros A B. destruct n, e; cbn [user_id_text]; auto. apply app_byte; auto. apply app_byte; [repeat constructor; vm_compute; congruence|].
  apply app_byte; auto. repeat constructor; vm_compute; congruence.
Qed.
Lemma ok_inj {A} (a b : A) : Ok a = Ok b -> a = b.
Proof. congruence. Qed.
Lemma mnk_uid E s t opts m : mnk_new E s t opts = Ok m ->
  uid_encode (ks_uid (mnk_keys m)) = user_id_text (ko_name (opts_of opts)) (ko_email (opts_of opts)).
Proof.
  intros N. rewrite <- uid_text. unfold mnk_new in N. destruct (era_check (seed_era s)); cbn [bind] in N; try discriminate.
  change (match opts with None => zero_options | Some o => o end) with (opts_of opts) in N.
  destruct (ko_ttl (opts_of opts) <? 0); [discriminate|]. destruct (t_after _ _); [discriminate|]. destruct (t_before _ _); [discriminate|].
  cbv zeta in N. destruct (derive_key_set E s _ (opts_of opts)) as [ks|e|] eqn:D; cbn [bind] in N; try discriminate. apply ok_inj in N. subst m. cbn [mnk_keys].
  unfold derive_key_set in D. cbv zeta in D.
  repeat match type of D with
         | bind ?r _ = Ok _ => destruct r; cbn [bind] in D; try discriminate
         end.
  apply ok_inj in D. subst ks. reflexivity.
Qed.

Lemma api_packets_export E f m pw tape : api_packets E f m pw tape = export E f (mnk_keys m) pw tape.
Proof. destruct f; reflexivity. Qed.
Lemma api_armor_export E f m pw tape : api_armor E f m pw tape =
  bind (export E f (mnk_keys m) pw tape) (fun p => Ok (armor_encode E block_type (fst p), snd p)).
Proof.
  destruct f; cbn [api_armor export]; unfold mnk_encode_pgp_armor, mnk_encode_subkeys_pgp_armor, mnk_encode_pgp, mnk_encode_subkeys_pgp;
    [destruct (encode_packets _ _ _ _) as [[? ?]|?|]|destruct (encode_subkey_packets _ _ _ _ _) as [[? ?]|?|]]; reflexivity.
Qed.
Lemma block_type_text : Forall (fun b => 32 <= b <= 126) block_type.
Proof. repeat constructor; vm_compute; congruence. Qed.

Theorem armored_export : forall E edv f s t0 opts m pw tape,
  hkdf_ok E -> env_ok E edv -> seconds_ok E -> armor_ok E -> seed_ok s -> opts_ok (opts_of opts) ->
  user_id_ok (ko_name (opts_of opts)) (ko_email (opts_of opts)) -> mnk_new E s t0 opts = Ok m ->
  password_ok pw -> Forall byte tape -> (randomness f (mnk_keys m) pw <= length tape)%nat ->
  exists packets text,
    api_packets E f m pw tape = Ok (packets, skipn (randomness f (mnk_keys m) pw) tape) /\
    api_armor E f m pw tape = Ok (text, skipn (randomness f (mnk_keys m) pw) tape) /\
    dearmor text = Some (block_type, packets) /\
    key_block E f pw m (user_id_text (ko_name (opts_of opts)) (ko_email (opts_of opts)))
      (selected (ko_subkeys (opts_of opts))) (ko_ttl (opts_of opts)) packets.
Proof.
  intros E edv f s t0 opts m pw tape HK HE SE HA S O (UN & UE & UL) N HP HT HR.
  pose proof (new_key_set_built E edv s t0 opts m HK HE S O UL N) as HB.
  destruct (export_wellformed E edv f (mnk_keys m) pw tape HE HB HP HT HR) as (out & ps & t & X & _ & _ & RT & _ & U & C & _).
  assert (EX : exports E f (mnk_keys m) pw tape t) by (eexists; eexists; split; [exact X|exact RT]).
  exists out, (armor_encode E block_type out).
  split; [rewrite api_packets_export; exact X|]. split; [rewrite api_armor_export, X; reflexivity|].
  assert (HB2 : Forall byte out).
  { pose proof HE as (h1 & h2 & h3 & h4 & h5).
    refine (proj1 (export_bytes E f (mnk_keys m) pw tape out _ h1 h2 h5 HB HT _ X)). rewrite (mnk_uid _ _ _ _ _ N). apply uid_bytes; auto. }
  split; [apply HA; [apply block_type_text|exact HB2]|].
  exists t. split; [exact RT|].
  destruct (reported_identity E edv f s t0 opts m pw tape t HK HE S O UL N HP HT EX) as (FP & _).
  split; [symmetry; exact FP|]. split; [rewrite U; apply (mnk_uid _ _ _ _ _ N)|]. split; [exact C|].
  destruct (export_secrets E edv f (mnk_keys m) pw tape t HE HB HP HT EX) as [M SU].
  split; [|split; [|split]].
  - destruct f; [destruct (M eq_refl) as [M1 M2]; split; [exact M1|rewrite M2; discriminate]|].
    eapply (subkey_export_has_stub E edv); [exact HE|exact HB|exact HP|exact HT|exact EX].
  - rewrite <- (kinds_selected E s t0 opts m HK S O N).
    apply (match_perm (mnk_keys m) t (fun b => (find_sub 27 (sp_hashed (sb_binding b)), Some (fingerprint E (sb_key b))))
             (fun k => (Some [usage k], mnk_subkey_fingerprint E m (kind_name k)))).
    pose proof (exports_inv E edv f _ pw tape t HE HB HT HP EX) as G.
    eapply good_match; [exact HE|exact G|]. intros k base x b Q B.
    destruct (bg_binding _ _ _ _ _ _ _ _ _ B) as (sg & emb & B1 & B2 & B3 & B4 & B5 & B6).
    rewrite B1, (bg_key _ _ _ _ _ _ _ _ _ B), <- fingerprint_spec. unfold sig_of. cbn [sp_hashed]. rewrite B3. f_equal.
    unfold mnk_subkey_fingerprint. destruct k; cbn [subkey] in Q; cbn [kind_name].
    + destruct (ks_enc (mnk_keys m)); [|discriminate]. injection Q as <- <-. reflexivity.
    + destruct (ks_auth (mnk_keys m)); [|discriminate]. injection Q as <- <-. reflexivity.
    + destruct (ks_sign (mnk_keys m)); [|discriminate]. injection Q as <- <-. reflexivity.
  - apply (match_forall (mnk_keys m)). eapply match_weaken; [|exact SU]. intros k e x b [Z1 Z2]. split; [exact Z1|rewrite Z2; discriminate].
  - intros TL.
    assert (TP : 0 <= ko_ttl (opts_of opts)) by apply (mnk_new_window_only _ _ _ _ _ N).
    assert (LF : (forall c, tk_cert t = Some c -> lifetime c = announced (ko_ttl (opts_of opts))) /\
                 subkeys_match (mnk_keys m) t (fun _ _ _ b => lifetime (sb_binding b) = announced (ko_ttl (opts_of opts)))).
    { unfold announced. change (10 ^ 9) with ns in *. destruct (ko_ttl (opts_of opts) <? ns) eqn:TQ.
      - destruct (Z.eq_dec (ko_ttl (opts_of opts)) 0) as [T0|T0].
        + apply (no_expiry E edv f s t0 opts m pw tape t HK HE SE S O UL N HP HT EX T0).
        + apply (subsecond_ttl_refuted E edv f s t0 opts m pw tape t HK HE SE S O UL N HP HT EX). lia.
      - apply (expiry_exact E edv f s t0 opts m pw tape t HK HE SE S O UL N HP HT EX). set (q := 2 ^ 32) in *. change ns with 1000000000 in *. lia. }
    destruct LF as [L1 L2]. split; [exact L1|]. apply (match_forall (mnk_keys m)). exact L2.
Qed.
Print Assumptions armored_export.

(** with too little randomness nothing is exported *)
Theorem armored_export_short : forall E edv f s t0 opts m pw tape,
  hkdf_ok E -> env_ok E edv -> seed_ok s -> opts_ok (opts_of opts) ->
  user_id_ok (ko_name (opts_of opts)) (ko_email (opts_of opts)) -> mnk_new E s t0 opts = Ok m ->
  password_ok pw -> Forall byte tape -> (length tape < randomness f (mnk_keys m) pw)%nat ->
  api_packets E f m pw tape = Err ErrRandomSource /\ api_armor E f m pw tape = Err ErrRandomSource.
Proof.
  intros E edv f s t0 opts m pw tape HK HE S O (UN & UE & UL) N HP HT HR.
  pose proof (new_key_set_built E edv s t0 opts m HK HE S O UL N) as HB.
  pose proof (export_fails_only_without_randomness E edv f (mnk_keys m) pw tape HE HB HP HT HR) as X.
  rewrite api_packets_export, api_armor_export, X. auto.
Qed.
Print Assumptions armored_export_short.

Lemma case_user_id ttl : user_id_ok (ko_name (opts_of (Some (case_opts ttl)))) (ko_email (opts_of (Some (case_opts ttl)))).
Proof. split; [|split]; [repeat constructor; vm_compute; congruence|repeat constructor; vm_compute; congruence|reflexivity]. Qed.
Lemma case_tape_bytes : Forall byte case_tape.
Proof. apply Forall_forall. intros x Hx. apply repeat_spec in Hx. subst. split; reflexivity || discriminate. Qed.
Example armored_case : forall f pw, In pw [[]; bs "hunter2"] -> exists m packets text rest,
  api_armor toy_env f m pw case_tape = Ok (text, rest) /\ dearmor text = Some (block_type, packets) /\
  key_block toy_env f pw m (bs "username <username@email.com>") all_kinds 0 packets /\
  api_armor toy_env f m (bs "hunter2") (firstn 71 case_tape) = Err ErrRandomSource.
Proof.
  intros f pw Hp. destruct (case_exists 0 ltac:(lia)) as (m & N & B & L & _).
  assert (S : seed_ok (mk_seed 0 77)) by (split; vm_compute; intuition congruence).
  assert (O : opts_ok (opts_of (Some (case_opts 0)))) by (repeat split; vm_compute; congruence).
  assert (P : password_ok pw) by (destruct Hp as [<-|[<-|[]]]; vm_compute; congruence).
  assert (P2 : password_ok (bs "hunter2")) by (vm_compute; congruence).
  destruct (armored_export toy_env toy_verify f _ _ _ m pw case_tape toy_hkdf_ok toy_env_ok toy_seconds_ok toy_armor_ok S O (case_user_id 0) N P case_tape_bytes)
    as (packets & text & _ & A & D & K).
  { unfold randomness, secrets_in. rewrite L. destruct Hp as [<-|[<-|[]]]; destruct f; vm_compute; lia. }
  exists m, packets, text. eexists. split; [exact A|]. split; [exact D|]. split; [exact K|].
  apply (armored_export_short toy_env toy_verify f _ _ _ m (bs "hunter2") (firstn 71 case_tape) toy_hkdf_ok toy_env_ok S O (case_user_id 0) N P2).
  - apply firstn_byte, case_tape_bytes.
  - unfold randomness, secrets_in. rewrite L. destruct f; vm_compute; lia.
Qed.

(** ** C67 *)

(** reading the phrase and asking for passwords draws no randomness *)
Lemma random_ask confirm w : w_random (snd (ask_password confirm w)) = w_random w.
Proof. unfold ask_password. destruct (user_input_password _ _ _) as [r rest]. cbn [snd]. destruct (w_tty _); reflexivity. Qed.
Lemma random_stdin {A} (g : bytes -> res A * bytes) w : w_random (snd (from_stdin g w)) = w_random w.
Proof. unfold from_stdin. destruct (g (w_stdin w)). reflexivity. Qed.
Lemma random_read_phrase E o w : w_random (snd (read_phrase E o w)) = w_random w.
Proof.
  unfold read_phrase. destruct (io_in_file o); [|apply (keeps_read_file w_random E)].
  destruct (io_simple o || negb (w_tty w)); apply random_stdin.
Qed.
Lemma random_decrypt E dm fuel : forall w, w_random (snd (decrypt_loop E fuel dm w)) = w_random w.
Proof.
  induction fuel as [|n IH]; intros w; [reflexivity|]. cbn [decrypt_loop].
  apply (keeps_andthen w_random (if dm_encrypted dm then ask_password false else ret [])).
  - destruct (dm_encrypted dm); [intros v; apply random_ask|apply keeps_ret].
  - intros p v. destruct (dm_decrypt_seed E dm p) as [s|e|]; try reflexivity. destruct e; try reflexivity. apply IH.
Qed.
Lemma random_input E o w : w_random (snd (decode_mnemonic_from_input E o w)) = w_random w.
Proof.
  apply (keeps_andthen w_random); [intros v; apply random_read_phrase|]. intros ws. apply keeps_andthen; [apply keeps_lift|]. intros dm.
  apply keeps_andthen; [intros v; apply random_decrypt|]. intros s. apply keeps_ret.
Qed.

(** the password a prompt returns is not empty *)
Definition reader_ok (r : reader) : Prop :=
  match r with At_confirm p | Sending p => p <> [] | _ => True end.
Lemma reader_step_ok confirm r stdin r' rest : reader_ok r -> reader_step confirm r stdin = Some (r', rest) -> reader_ok r'.
Proof.
  intros R. unfold reader_step. destruct r; try discriminate;
    repeat match goal with
           | |- context [match ?x with _ => _ end] => destruct x eqn:?
           end; intros H; try discriminate; injection H as <- <-; cbn in *; auto; congruence.
Qed.
Lemma prompt_nonempty confirm : forall fuel r stdin pw rest, reader_ok r -> prompt_loop fuel confirm r stdin = (Ok pw, rest) -> pw <> [].
Proof.
  induction fuel as [|n IH]; intros r stdin pw rest R H.
  - destruct r; cbn [prompt_loop] in H; try discriminate. injection H as <- <-. exact R.
  - destruct r; cbn [prompt_loop] in H; try discriminate;
      [| |injection H as <- <-; exact R];
      (match type of H with context [reader_step ?c ?r ?s] => destruct (reader_step c r s) as [[r' rest']|] eqn:Q; [|discriminate] end;
       eapply IH; [eapply reader_step_ok; [exact R|exact Q]|exact H]).
Qed.
Lemma password_nonempty tty confirm stdin pw rest : user_input_password tty confirm stdin = (Ok pw, rest) -> pw <> [].
Proof. unfold user_input_password. destruct tty; [|discriminate]. apply prompt_nonempty. exact I. Qed.

Lemma keys_password (b : bool) w pw w' : (if b then ask_password true else ret []) w = (Ret pw, w') ->
  key_password b (w_tty w) (w_stdin w) pw /\ w_random w' = w_random w /\ w_stdout w' = w_stdout w.
Proof.
  intros H. destruct b.
  - pose proof (random_ask true w) as K. pose proof (keeps_ask _ blind_stdout true w) as K2. rewrite H in K, K2. cbn [snd] in K, K2.
    split; [|auto]. cbn [key_password]. unfold ask_password in H.
    destruct (user_input_password (w_tty w) true (w_stdin w)) as [r rest] eqn:Q. cbn in H.
    destruct r as [p|e|]; cbn [of_res] in H; try discriminate.
    assert (p = pw) by congruence. subst p. split; [eapply password_nonempty; eauto|reflexivity].
  - injection H as <- <-. split; [reflexivity|auto].
Qed.

Definition key_form (master cert : bool) : form := if master then Full else Subkeys_only cert.
Lemma key_armor_api E master m pw cert tape : key_armor E master m pw cert tape = api_armor E (key_form master cert) m pw tape.
Proof. destruct master; reflexivity. Qed.

(** what is printed of a Mnemonikey, whatever follows or precedes it of the newlines of prompts *)
Lemma key_printed E edv f s t0 opts m pw tape text rest : hkdf_ok E -> env_ok E edv -> seconds_ok E -> armor_ok E -> seed_ok s -> opts_ok (opts_of opts) ->
  user_id_ok (ko_name (opts_of opts)) (ko_email (opts_of opts)) -> mnk_new E s t0 opts = Ok m -> password_ok pw -> Forall byte tape ->
  api_armor E f m pw tape = Ok (text, rest) ->
  exists packets, (forall a b, dearmor (repeat 10 a ++ text ++ [10] ++ repeat 10 b) = Some (block_type, packets)) /\
    key_block E f pw m (user_id_text (ko_name (opts_of opts)) (ko_email (opts_of opts)))
      (selected (ko_subkeys (opts_of opts))) (ko_ttl (opts_of opts)) packets.
Proof.
  intros HK HE SE HA S O U N HP HT X.
  destruct (Nat.le_gt_cases (randomness f (mnk_keys m) pw) (length tape)) as [L|L].
  - destruct (armored_export E edv f s t0 opts m pw tape HK HE SE HA S O U N HP HT L) as (packets & text' & _ & X' & D & K).
    rewrite X in X'. apply ok_pair in X' as [<- _]. exists packets. split; [|exact K].
    intros a b. change ([10] ++ repeat 10 b) with (repeat 10 (Datatypes.S b)). apply dearmor_newlines, D.
  - destruct (armored_export_short E edv f s t0 opts m pw tape HK HE S O U N HP HT L) as [_ X']. rewrite X in X'. discriminate.
Qed.

Lemma ttl_option_asked E text ttl v v' : ttl_option E text v = (Ret ttl, v') -> ttl_asked E text ttl.
Proof.
  unfold ttl_option, ttl_asked. destruct text; [unfold ret; congruence|]. destruct (parse_ttl E _); unfold ret, fail; congruence.
Qed.
Lemma asked_ttl_option E text ttl v : ttl_asked E text ttl -> ttl_option E text v = (Ret ttl, v).
Proof. unfold ttl_option, ttl_asked. destruct text; [intros ->; reflexivity|]. intros ->. reflexivity. Qed.
Theorem recover_prints_key : forall E edv o v v',
  wordlist_ok E -> argon_ok E -> aes_ok E -> hkdf_ok E -> env_ok E edv -> seconds_ok E -> armor_ok E -> Forall byte (w_random v) ->
  user_id_ok (trim_space E (ro_name o)) (trim_space E (ro_email o)) ->
  0 <= ro_enc_index o -> 0 <= ro_auth_index o -> 0 <= ro_sign_index o ->
  recover_and_print E o v = (Ret tt, v') ->
  exists ttl master types words v1 dm phrase_password s v2 m pw,
    ttl_asked E (ro_ttl o) ttl /\ decode_only_key_types (ro_only o) = Ok (master, types) /\
    read_phrase E (ro_input o) v = (Ret words, v1) /\ decode_mnemonic E words = Ok dm /\ dm_decrypt_seed E dm phrase_password = Ok s /\
    decode_mnemonic_from_input E (ro_input o) v = (Ret (s, dm), v2) /\
    mnk_new E s (dm_creation dm) (Some (mk_opts (trim_space E (ro_name o)) (trim_space E (ro_email o)) ttl
      (ro_enc_index o) (ro_auth_index o) (ro_sign_index o) types)) = Ok m /\
    key_password (ro_encrypt_keys o) (w_tty v2) (w_stdin v2) pw /\
    (password_ok pw -> exists packets, printed (w_stdout v) (w_stdout v') packets /\
       key_block E (if master then Full else Subkeys_only (ro_self_cert o)) pw m
         (user_id_text (trim_space E (ro_name o)) (trim_space E (ro_email o))) (selected types) ttl packets).
Proof.
  intros E edv o v v' W A X HK HE SE HA BR UO I1 I2 I3 H. unfold recover_and_print in H.
  destruct (ttl_option_pure E (ro_ttl o)) as (rt & T). unfold andthen at 1 in H. rewrite T in H.
  destruct rt as [ttl|e| | |c]; try discriminate.
  destruct ((ro_enc_index o >? max_subkey_index) || (ro_auth_index o >? max_subkey_index) || (ro_sign_index o >? max_subkey_index)) eqn:IX; [discriminate|].
  unfold max_subkey_index in IX.
  assert (J : u16 (ro_enc_index o) = ro_enc_index o /\ u16 (ro_auth_index o) = ro_auth_index o /\ u16 (ro_sign_index o) = ro_sign_index o /\
     ro_enc_index o < 65536 /\ ro_auth_index o < 65536 /\ ro_sign_index o < 65536).
  { unfold u16. rewrite !Z.mod_small by lia. lia. }
  destruct J as (J1 & J2 & J3 & J4 & J5 & J6). rewrite J1, J2, J3 in H.
  unfold andthen at 1 in H. unfold lift at 1 in H.
  destruct (decode_only_key_types (ro_only o)) as [[master types]|e|] eqn:OT; cbn [of_res] in H; try discriminate.
  unfold andthen at 1 in H. destruct (decode_mnemonic_from_input E (ro_input o) v) as [[[s dm]|e| | |c] v2] eqn:D; try discriminate.
  pose proof (random_input E (ro_input o) v) as R2. pose proof (keeps_input _ blind_stdout E (ro_input o) v) as S2. rewrite D in R2, S2. cbn [snd] in R2, S2.
  destruct (retry_sound E (ro_input o) v s dm v2 D) as (words & v1 & pp & RP & DM & DS).
  assert (SO : seed_ok s) by (eapply decrypted_seed_ok; eauto).
  unfold andthen at 1 in H. unfold lift at 1 in H.
  set (opts := Some (mk_opts _ _ _ _ _ _ _)) in H.
  destruct (mnk_new E s (dm_creation dm) opts) as [m|e|] eqn:N; cbn [of_res] in H; try discriminate.
  unfold andthen at 1 in H. destruct ((if ro_encrypt_keys o then ask_password true else ret []) v2) as [[pw|e| | |c] v3] eqn:P; try discriminate.
  destruct (keys_password _ _ _ _ P) as (PN & R3 & S3).
  unfold andthen, with_random in H. fold (key_armor E master m pw (ro_self_cert o)) in H. rewrite key_armor_api in H.
  destruct (api_armor E (key_form master (ro_self_cert o)) m pw (w_random v3)) as [[text rest]|e|] eqn:Y; try discriminate.
  unfold print_out in H. injection H as <-.
  exists ttl, master, types, words, v1, dm, pp, s, v2, m, pw.
  split; [exact (ttl_option_asked _ _ _ _ _ (T v))|]. split; [reflexivity|]. split; [exact RP|]. split; [exact DM|]. split; [exact DS|]. split; [reflexivity|]. split; [exact N|]. split; [exact PN|].
  intros PO. assert (OK : opts_ok (opts_of opts)) by (unfold opts_ok, opts; cbn; lia).
  assert (B3 : Forall byte (w_random v3)) by (rewrite R3, R2; exact BR).
  destruct (key_printed E edv _ s _ opts m pw (w_random v3) text rest HK HE SE HA SO OK UO N PO B3 Y) as (packets & Z1 & Z2).
  exists packets. split; [|exact Z2]. exists text. split; [|exact Z1].
  cbn [set_stdout set_random w_stdout]. rewrite S3, S2. reflexivity.
Qed.
Print Assumptions recover_prints_key.

Theorem generate_prints_key : forall E edv g w w',
  hkdf_ok E -> env_ok E edv -> seconds_ok E -> armor_ok E -> world_ok w ->
  user_id_ok (trim_space E (go_name g)) (trim_space E (go_email g)) ->
  generate_and_print E g w = (Ret tt, w') ->
  exists ttl master types s m pw,
    ttl_asked E (go_ttl g) ttl /\ decode_only_key_types (go_only g) = Ok (master, types) /\ seed_ok s /\
    mnk_new E s (w_now w) (Some (mk_opts (trim_space E (go_name g)) (trim_space E (go_email g)) ttl 0 0 0 types)) = Ok m /\
    key_password (go_encrypt_keys g) (w_tty w) (after_seed g (w_stdin w)) pw /\
    (password_ok pw -> exists packets, printed (w_stdout w) (w_stdout w') packets /\
       key_block E (if master then Full else Subkeys_only true) pw m
         (user_id_text (trim_space E (go_name g)) (trim_space E (go_email g))) (selected types) ttl packets).
Proof.
  intros E edv g w w' HK HE SE HA WO UO H. unfold generate_and_print in H. cbv zeta in H.
  destruct (ttl_option_pure E (go_ttl g)) as (rt & T). unfold andthen at 1 in H. rewrite T in H.
  destruct rt as [ttl|e| | |c]; try discriminate.
  unfold andthen at 1 in H. unfold lift at 1 in H.
  destruct (decode_only_key_types (go_only g)) as [[master types]|e|] eqn:OT; cbn [of_res] in H; try discriminate.
  unfold andthen at 1 in H. destruct (seed_from_source (go_entropy g) w) as [[s|e| | |c] w1] eqn:SS; try discriminate.
  destruct (seed_source_ok g w s w1 WO SS) as (SO & BR & IN & TT & _ & S1 & _).
  unfold andthen at 1 in H. unfold lift at 1 in H. set (opts := Some (mk_opts _ _ _ _ _ _ _)) in H.
  destruct (mnk_new E s (w_now w) opts) as [m|e|] eqn:N; cbn [of_res] in H; try discriminate.
  unfold andthen at 1 in H. destruct ((if go_encrypt_keys g then ask_password true else ret []) w1) as [[pw|e| | |c] w2] eqn:P; try discriminate.
  destruct (keys_password _ _ _ _ P) as (PN & R2 & S2). rewrite TT, IN in PN.
  unfold andthen at 1 in H. unfold with_random at 1 in H. fold (key_armor E master m pw true) in H. rewrite key_armor_api in H.
  destruct (api_armor E (key_form master true) m pw (w_random w2)) as [[text rest]|e|] eqn:Y; try discriminate.
  set (w3 := set_random w2 rest) in *. assert (S3 : w_stdout w3 = w_stdout w) by (cbn [w3 set_random w_stdout]; congruence). clearbody w3.
  exists ttl, master, types, s, m, pw.
  split; [exact (ttl_option_asked _ _ _ _ _ (T w))|]. split; [reflexivity|]. split; [exact SO|]. split; [exact N|]. split; [exact PN|].
  intros PO. assert (OK : opts_ok (opts_of opts)) by (unfold opts_ok, opts; cbn; lia).
  assert (B2 : Forall byte (w_random w2)) by (rewrite R2; exact BR).
  destruct (key_printed E edv _ s _ opts m pw (w_random w2) text rest HK HE SE HA SO OK UO N PO B2 Y) as (packets & Z1 & Z2).
  exists packets. split; [|exact Z2]. exists text. split; [|exact Z1].
  unfold andthen at 1 in H.
  destruct ((if go_encrypt_phrase g then do phrase_password <- ask_password true; (fun w => (of_res (mnk_encode_encrypted E m phrase_password (w_random w)), w))
             else lift (mnk_encode_plaintext E m)) w3) as [[words|e| | |c] w4] eqn:PH; try discriminate.
  assert (S4 : w_stdout w4 = w_stdout w).
  { assert (K : keeps w_stdout (if go_encrypt_phrase g then do phrase_password <- ask_password true; (fun w => (of_res (mnk_encode_encrypted E m phrase_password (w_random w)), w))
             else lift (mnk_encode_plaintext E m))) by (pose proof blind_stdout as B; keeping B). specialize (K w3). rewrite PH in K. cbn [snd] in K. congruence. }
  unfold andthen at 1 in H.
  destruct ((match go_out_file g with [] => ret tt | path => save_mnemonic words path end) w4) as [[[]|e| | |c] w5] eqn:SV; try discriminate.
  assert (S5 : w_stdout w5 = w_stdout w).
  { destruct (go_out_file g) as [|b path]; [injection SV as <-; exact S4|].
    pose proof (keeps_stdout_save words (b :: path) w4) as K. rewrite SV in K. cbn [snd] in K. congruence. }
  unfold andthen, print_out in H. destruct (go_out_file g); [unfold print_mnemonic in H|unfold ret in H].
  - injection H as _ <-. cbn [set_shown set_stdout w_stdout]. rewrite S5. reflexivity.
  - injection H as <-. cbn [set_stdout w_stdout]. rewrite S5. reflexivity.
Qed.
Print Assumptions generate_prints_key.

(** Recovering works whenever the phrase can be read, the options are in order and the key password, if
    one is asked for, is entered twice; 24 bytes of randomness for each of at most four keys are enough. *)
Theorem recover_works : forall E edv o v ttl master types s dm v2 pw,
  wordlist_ok E -> argon_ok E -> aes_ok E -> hkdf_ok E -> env_ok E edv -> Forall byte (w_random v) ->
  user_id_ok (trim_space E (ro_name o)) (trim_space E (ro_email o)) ->
  0 <= ro_enc_index o < 65536 -> 0 <= ro_auth_index o < 65536 -> 0 <= ro_sign_index o < 65536 ->
  ttl_asked E (ro_ttl o) ttl -> 0 <= ttl -> decode_only_key_types (ro_only o) = Ok (master, types) ->
  decode_mnemonic_from_input E (ro_input o) v = (Ret (s, dm), v2) ->
  key_password (ro_encrypt_keys o) (w_tty v2) (w_stdin v2) pw ->
  password_ok pw -> (pw <> [] -> (96 <= length (w_random v))%nat) ->
  exists v', recover_and_print E o v = (Ret tt, v').
Proof.
  intros E edv o v ttl master types s dm v2 pw W A X HK HE BR (UN & UE & UL) I1 I2 I3 T TP OT D PW PO RL.
  pose proof (random_input E (ro_input o) v) as R2. rewrite D in R2. cbn [snd] in R2.
  destruct (retry_sound E (ro_input o) v s dm v2 D) as (words & v1 & pp & RP & DM & DS).
  assert (SO : seed_ok s) by (eapply decrypted_seed_ok; eauto).
  pose proof (decoded_offset E words dm W DM) as OF.
  set (opts := Some (mk_opts (trim_space E (ro_name o)) (trim_space E (ro_email o)) ttl (ro_enc_index o) (ro_auth_index o) (ro_sign_index o) types)).
  assert (OK : opts_ok (opts_of opts)) by (unfold opts_ok, opts; cbn; lia).
  assert (N : exists m, mnk_new E s (dm_creation dm) opts = Ok m).
  { eexists. apply mnk_new_window; auto. destruct dm as [a b c d of]. cbn [dm_offset] in OF. rewrite dm_creation_ok by auto.
    pose proof first_val. pose proof last_val. pose proof second_pos. set (q := 2 ^ 31) in *. nia. }
  destruct N as (m & N).
  pose proof (new_key_set_built E edv s _ opts m HK HE SO OK UL N) as HB.
  assert (P : exists v3, (if ro_encrypt_keys o then ask_password true else ret []) v2 = (Ret pw, v3) /\ w_random v3 = w_random v2).
  { unfold key_password in PW. destruct (ro_encrypt_keys o).
    - destruct PW as [_ PW]. pose proof (random_ask true v2) as K. unfold ask_password in K |- *.
      destruct (user_input_password (w_tty v2) true (w_stdin v2)) as [r rest]. cbn [fst] in PW. subst r. cbn [of_res] in *.
      eexists. split; [reflexivity|]. exact K.
    - subst pw. exists v2. split; reflexivity. }
  destruct P as (v3 & P & R3).
  assert (Y : exists text rest, api_armor E (key_form master (ro_self_cert o)) m pw (w_random v3) = Ok (text, rest)).
  { rewrite R3, R2. rewrite api_armor_export.
    assert (SL : (length (subkeys_along (mnk_keys m) all_kinds) <= 3)%nat).
    { unfold subkeys_along, all_kinds. cbn [flat_map]. rewrite !app_length.
      destruct (subkey _ Encryption), (subkey _ Authentication), (subkey _ Signing); cbn; lia. }
    destruct (export_wellformed E edv (key_form master (ro_self_cert o)) (mnk_keys m) pw (w_random v) HE HB PO BR) as (out & _ & _ & Y & _).
    - unfold randomness, secrets_in. destruct pw as [|b pw]; [lia|]. assert (96 <= length (w_random v))%nat by (apply RL; discriminate).
      destruct (key_form master (ro_self_cert o)); lia.
    - rewrite Y. eexists. eexists. reflexivity. }
  destruct Y as (text & rest & Y).
  unfold recover_and_print. unfold andthen at 1. rewrite (asked_ttl_option _ _ _ _ T). unfold max_subkey_index.
  replace ((ro_enc_index o >? 65535) || (ro_auth_index o >? 65535) || (ro_sign_index o >? 65535)) with false by lia.
  unfold andthen at 1. unfold lift at 1. rewrite OT. cbn [of_res]. unfold andthen at 1. rewrite D.
  replace (u16 (ro_enc_index o)) with (ro_enc_index o) by (unfold u16; rewrite Z.mod_small; lia).
  replace (u16 (ro_auth_index o)) with (ro_auth_index o) by (unfold u16; rewrite Z.mod_small; lia).
  replace (u16 (ro_sign_index o)) with (ro_sign_index o) by (unfold u16; rewrite Z.mod_small; lia).
  unfold andthen at 1. unfold lift. fold opts. rewrite N. cbn [of_res]. unfold andthen at 1. rewrite P.
  unfold andthen, with_random. fold (key_armor E master m pw (ro_self_cert o)). rewrite key_armor_api, Y. eexists. reflexivity.
Qed.
Print Assumptions recover_works.

(** cases: the generated key of EndProps; and subkeys recovered from a saved phrase, with a key password *)
Example generate_prints_case : exists w' packets m, generate_and_print toy_env (case_generate false []) case_start = (Ret tt, w') /\
  printed [] (w_stdout w') packets /\
  key_block toy_env Full [] m (bs "username <username@email.com>") [Encryption] (365 * 86400 * 10 ^ 9) packets.
Proof.
  destruct (case_works false []) as (w' & G & _).
  destruct (generate_prints_key toy_env toy_verify (case_generate false []) case_start w' toy_hkdf_ok toy_env_ok toy_seconds_ok toy_armor_ok case_start_ok) with (2 := G)
    as (ttl & master & types & s & m & pw & TA & OT & _ & _ & PN & K).
  { split; [|split]; [repeat constructor; vm_compute; congruence|repeat constructor; vm_compute; congruence|vm_compute; reflexivity]. }
  vm_compute in OT. injection OT as <- <-.
  cbn [key_password go_encrypt_keys case_generate] in PN. subst pw.
  assert (Q : ttl = 365 * 86400 * 10 ^ 9) by (vm_compute in TA; injection TA as <-; reflexivity). subst ttl.
  destruct K as (packets & P & K); [vm_compute; congruence|]. exists w', packets, m. split; [exact G|]. split; [exact P|].
  exact K.
Qed.

Lemma plain_decodes E ws opts m : recover_plaintext E ws opts = Ok m ->
  exists dm s, decode_mnemonic E ws = Ok dm /\ dm_encrypted dm = false /\ dm_seed dm = Ok s.
Proof.
  unfold recover_plaintext. destruct (decode_mnemonic E ws) as [dm|e|]; cbn [bind]; try discriminate.
  destruct (dm_seed dm) as [s|e|] eqn:DS; cbn [bind]; try discriminate. intros _. exists dm, s. split; [reflexivity|]. split; [|exact DS].
  unfold dm_seed in DS. destruct (dm_encrypted dm); [discriminate|reflexivity].
Qed.
Definition subkeys_recover : recover_options :=
  mk_rec (bs "username ") [] [] true (bs "signing,encryption") (mk_in false (bs "copy")) false 0 0 7.
Example recover_prints_case : exists v v' packets m, recover_and_print toy_env subkeys_recover v = (Ret tt, v') /\ w_tty v = true /\
  printed (w_stdout v) (w_stdout v') packets /\
  key_block toy_env (Subkeys_only false) (bs "hunter2") m (bs "username") [Encryption; Signing] 0 packets.
Proof.
  destruct (case_works false (bs "phrase")) as (w' & G & _).
  destruct (generate_facts toy_env _ case_start _ w' case_start_ok G eq_refl) as [(F & _)|(ttl & ma & ty & s & m & ws & out & _ & _ & SO & N & _ & PO & _ & _ & FC)];
    [destruct F; reflexivity|].
  destruct (FC ltac:(discriminate)) as (_ & _ & FC'). clear FC.
  set (ko := request _ _ _ _ _) in N. assert (OK : opts_ok (opts_of ko)) by (unfold opts_ok; cbn; lia).
  pose proof (phrase_of_ok toy_env _ case_start m ws s _ _ toy_wordlist_ok toy_argon_ok toy_aes_ok toy_hkdf_ok SO OK N PO) as PH.
  destruct (recover_from_plaintext toy_env s _ ko m toy_wordlist_ok toy_hkdf_ok SO OK N) as (ws' & EN & R).
  cbn [phrase_of case_generate go_encrypt_phrase] in PO. rewrite PO in EN. apply ok_inj in EN. subst ws'.
  destruct (R _ OK) as [R1 _]. rewrite N in R1. destruct (plain_decodes _ _ _ _ R1) as (dm & s' & DM & EC & DS). clear R1.
  set (v := mk_world (fun _ => File (word_file_content ws)) (bs "hunter2" ++ [10] ++ bs "hunter2" ++ [10]) true None case_tape 0 [] 0 [] 0).
  assert (RP : read_phrase toy_env (ro_input subkeys_recover) v = (Ret ws, v)).
  { unfold read_phrase, subkeys_recover. cbn [ro_input io_in_file]. cbn [bs].
    unfold read_word_file, andthen, open_file. cbn [v w_files]. unfold lift.
    destruct (killed_save_outcomes toy_env ws toy_wordlist_ok toy_words_short PH) as [_ K]. rewrite firstn_all in K. rewrite K. reflexivity. }
  pose proof (retry_plain toy_env (ro_input subkeys_recover) v ws v dm RP DM EC) as D. rewrite DS in D. cbn [bind of_res] in D.
  assert (UO : user_id_ok (trim_space toy_env (ro_name subkeys_recover)) (trim_space toy_env (ro_email subkeys_recover)))
    by (split; [|split]; [repeat constructor; vm_compute; congruence|constructor|vm_compute; reflexivity]).
  destruct (recover_works toy_env toy_verify subkeys_recover v 0 false (Some [bs "signing"; bs "encryption"]) s' dm v (bs "hunter2"))
    as (v' & RW);
    [apply toy_wordlist_ok|apply toy_argon_ok|apply toy_aes_ok|apply toy_hkdf_ok|apply toy_env_ok|apply case_tape_bytes|exact UO
    |cbn; lia|cbn; lia|cbn; lia|reflexivity|lia|vm_compute; reflexivity|exact D|split; [discriminate|vm_compute; reflexivity]|vm_compute; congruence|intros _; vm_compute; lia|].
  destruct (recover_prints_key toy_env toy_verify subkeys_recover v v') with (13 := RW)
    as (ttl' & master & types & words & v1 & dm' & pp & s2 & v2 & m' & pw & TA & OT & _ & _ & _ & D2 & _ & PN & K);
    [apply toy_wordlist_ok|apply toy_argon_ok|apply toy_aes_ok|apply toy_hkdf_ok|apply toy_env_ok|apply toy_seconds_ok|apply toy_armor_ok|apply case_tape_bytes|exact UO
    |cbn; lia|cbn; lia|cbn; lia|].
  vm_compute in OT. injection OT as <- <-. rewrite D in D2. assert (v2 = v) by congruence. subst v2. clear D2.
  cbn [key_password subkeys_recover ro_encrypt_keys] in PN. destruct PN as [_ PN]. assert (Q : fst (user_input_password (w_tty v) true (w_stdin v)) = Ok (bs "hunter2")) by (vm_compute; reflexivity).
  rewrite Q in PN. apply ok_inj in PN. subst pw. cbn [ttl_asked subkeys_recover ro_ttl] in TA. subst ttl'.
  destruct K as (packets & P & K); [vm_compute; congruence|]. exists v, v', packets, m'. split; [exact RW|]. split; [reflexivity|]. split; [exact P|].
  exact K.
Qed.
