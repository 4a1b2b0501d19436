(** Nothing in the commands panics or runs forever, if the terminal is not too narrow. *)
From Coq Require Import Lia ZifyBool ZifyNat.
From Verif.Model Require Import GoBase Env Version GoTime Seed Encoding Recovery PgpWire PgpS2k PgpKeys Mnemonikey.
From Verif.Model Require Import CliText CliInput CliFlags CliMain.
From Verif.Spec Require Import EnvSpec PhraseSpec DecodeSpec KeySpec ExportSpec CliEnvSpec TextSpec InputSpec FileSpec EndSpec TraceSpec.
From Verif.Spec Require Import LoopSpec.
From Verif.Proofs Require Import BitsP PgpP WordsP RoundtripP DecodeP S2kP KeysP TextP InputP EntryP FileP MainP SpeakP TalkP.
From Verif.Props Require Import PhraseProps SeedProps KeyProps TextProps MainProps EndProps.
Ltac Zify.zify_post_hook ::= Z.div_mod_to_equations.

Lemma ok_inj {A} (a b : A) : Ok a = Ok b -> a = b. Proof. intros [=]. auto. Qed.
Lemma some_inj {T} (a b : T) : Some a = Some b -> a = b. Proof. intros [=]. auto. Qed.
Definition calm {T} (r : res T) : Prop := r <> Panic.
Lemma calm_bind {T U} (r : res T) (f : T -> res U) : calm r -> (forall a, r = Ok a -> calm (f a)) -> calm (let* a := r in f a).
Proof. intros R F. destruct r as [a|e|]; cbn [bind]; [apply F; reflexivity|discriminate|destruct (R eq_refl)]. Qed.
Lemma calm_ok {T} (a : T) : calm (Ok a). Proof. discriminate. Qed.
Lemma calm_err {T} e : calm (@Err T e). Proof. discriminate. Qed.
#[local] Hint Resolve calm_ok calm_err : calm.

Section env.
Variable E : Env.

(** *** exports *)
Lemma sign_calm k rq : rq_hash rq = hash_sha256 -> calm (sign E k rq).
Proof. intros Q. unfold sign. rewrite Q. change (hash_new E hash_sha256) with (Some (sha256 E)). discriminate. Qed.
Lemma bind_subkey_calm m k fl x : (Z.land fl flag_sign = 0 \/ ec_signing k <> None) -> calm (bind_subkey E m k fl x).
Proof.
  intros S. unfold bind_subkey. apply calm_bind; [|intros; apply sign_calm; reflexivity].
  destruct (negb (Z.land fl flag_sign =? 0)) eqn:Q; [|discriminate]. destruct S as [S|S]; [rewrite S in Q; discriminate|].
  destruct (ec_signing k); [|congruence]. apply calm_bind; [apply sign_calm; reflexivity|auto with calm].
Qed.
Lemma read_full_calm tape n : calm (read_full tape n). Proof. unfold read_full. destruct (Nat.ltb _ _); discriminate. Qed.
Lemma read_full_length tape n a rest : read_full tape n = Ok (a, rest) -> length a = n.
Proof. unfold read_full. destruct (Nat.ltb (length tape) n) eqn:L; [discriminate|]. intros [= <- <-]. apply firstn_length_le. lia. Qed.
Lemma encode_private_calm k pw tape : calm (encode_private E k pw tape).
Proof.
  unfold encode_private. destruct (zlen pw >? 0); [|discriminate]. apply calm_bind; [|intros []; auto with calm].
  unfold encrypt_s2k. apply calm_bind; [apply read_full_calm|]. intros [salt r1] Q1. apply calm_bind; [apply read_full_calm|]. intros [iv r2] _.
  apply calm_bind.
  - unfold string_to_key. change (hash_new E default_s2k_hash) with (Some (sha256 E)). apply read_full_length in Q1.
    replace (zlen (salt ++ pw) =? 0) with false; [discriminate|]. symmetry. unfold zlen. rewrite app_length, Q1. lia.
  - intros key _. destruct (negb _); [discriminate|]. apply calm_bind; [|auto with calm]. repeat destruct (_ =? _); discriminate.
Qed.
Lemma subkey_packets_calm m k fl x pw tape : (Z.land fl flag_sign = 0 \/ ec_signing k <> None) -> calm (subkey_packets E m k fl x pw tape).
Proof.
  intros S. unfold subkey_packets, private_packet. apply calm_bind; [apply calm_bind; [apply encode_private_calm|intros []; auto with calm]|].
  intros [p r] _. apply calm_bind; [apply bind_subkey_calm; exact S|auto with calm].
Qed.
Lemma self_certification_calm ks : calm (self_certification E ks).
Proof. unfold self_certification, self_certify. apply calm_bind; [apply sign_calm; reflexivity|auto with calm]. Qed.
Hypothesis RN : rand_ok E.
Lemma swap_calm {T} (l : list T) i j : (i < length l)%nat -> (j < length l)%nat -> exists l', swap l i j = Ok l' /\ length l' = length l.
Proof.
  intros I J. unfold swap. destruct (nth_error l i) eqn:A; [|apply nth_error_None in A; lia]. destruct (nth_error l j) eqn:B; [|apply nth_error_None in B; lia].
  eexists. split; [reflexivity|]. rewrite map_length, combine_length, seq_length. lia.
Qed.
Lemma shuffle_from_calm {T} sd : forall i k (l : list T), (i < length l)%nat -> calm (shuffle_from E sd i k l).
Proof.
  induction i as [|i IH]; intros k l L; cbn [shuffle_from]; [discriminate|].
  pose proof (RN sd k (Z.of_nat (S i) + 1) ltac:(lia)) as R. set (j := rand_int31n E sd k (Z.of_nat (S i) + 1)) in *. clearbody j.
  destruct (swap_calm l (S i) (Z.to_nat j)) as (l' & -> & L'); [lia|lia|]. cbn [bind]. apply IH. lia.
Qed.
Definition signs (ks : key_set) : Prop := forall k, ks_sign ks = Some k -> ec_signing (ed_base k) <> None.
Lemma all_subkeys_calm ks pw tape : signs ks -> calm (all_subkey_packets E ks pw tape).
Proof.
  intros S. unfold all_subkey_packets. apply calm_bind; [destruct (ks_enc ks); [apply subkey_packets_calm; left; reflexivity|discriminate]|].
  intros [g0 r0] _. apply calm_bind; [destruct (ks_auth ks); [apply subkey_packets_calm; left; reflexivity|discriminate]|].
  intros [g1 r1] _. apply calm_bind; [destruct (ks_sign ks) eqn:Q; [apply subkey_packets_calm; right; apply S; exact Q|discriminate]|].
  intros [g2 r2] _. apply calm_bind; [apply shuffle_from_calm; cbn; lia|auto with calm].
Qed.
Lemma armor_calm (master : bool) m pw c tape : signs (mnk_keys m) ->
  calm (if master then mnk_encode_pgp_armor E m pw tape else mnk_encode_subkeys_pgp_armor E m pw c tape).
Proof.
  intros S. destruct master; unfold mnk_encode_pgp_armor, mnk_encode_subkeys_pgp_armor; (apply calm_bind; [|intros []; auto with calm]).
  - unfold mnk_encode_pgp, encode_packets. apply calm_bind; [unfold private_packet; apply calm_bind; [apply encode_private_calm|intros []; auto with calm]|].
    intros [p r] _. apply calm_bind; [apply self_certification_calm|]. intros ct _. apply calm_bind; [apply all_subkeys_calm, S|intros []; auto with calm].
  - unfold mnk_encode_subkeys_pgp, encode_subkey_packets. apply calm_bind; [destruct c; [apply self_certification_calm|discriminate]|].
    intros ct _. apply calm_bind; [apply all_subkeys_calm, S|intros []; auto with calm].
Qed.
Lemma new_ed_signs s c x k : new_ed_key E s c x = Ok k -> ec_signing (ed_base k) <> None.
Proof. unfold new_ed_key. destruct (negb _); [discriminate|]. intros [= <-]. discriminate. Qed.
Lemma new_signs s t opts m : mnk_new E s t opts = Ok m -> signs (mnk_keys m).
Proof.
  unfold mnk_new, derive_key_set. intros Q. destruct (era_check (seed_era s)); cbn [bind] in Q; try discriminate.
  repeat match type of Q with context [if ?b then Err _ else _] => destruct b; [discriminate|] end.
  destruct (root_key E s _) as [root|e|]; cbn [bind] in Q; try discriminate.
  destruct (new_ed_key E (hkdf_expand E root 32 expand_info_master) _ _); cbn [bind] in Q; try discriminate.
  match type of Q with context [bind (if ?b then ?x else Ok None) _] => destruct (if b then x else Ok None) as [enc|e|] end; cbn [bind] in Q; try discriminate.
  match type of Q with context [bind (if ?b then ?x else Ok None) _] => destruct (if b then x else Ok None) as [auth|e|] end; cbn [bind] in Q; try discriminate.
  destruct (subkey_enabled _ type_signing).
  - match type of Q with context [new_ed_key E ?a ?b ?c] => destruct (new_ed_key E a b c) as [k|e|] eqn:N end; cbn [bind] in Q; try discriminate.
    apply ok_inj in Q. subst m. intros k' K. cbn [mnk_keys ks_sign] in K. apply some_inj in K. subst k'. eapply new_ed_signs. exact N.
  - apply ok_inj in Q. subst m. intros k' K. cbn [mnk_keys ks_sign] in K. discriminate.
Qed.

(** *** actions *)
(** [sane R a w]: running [a] in [w] ends with an error, or with a value for which [R] holds *)
Definition sane {A} (R : A -> world -> Prop) (a : action A) (w : world) : Prop :=
  match a w with (Ret x, w') => R x w' | (Fail _, _) => True | _ => False end.
Lemma sane_then {A B} (Q : A -> world -> Prop) (R : B -> world -> Prop) m f w :
  sane Q m w -> (forall a w', Q a w' -> sane R (f a) w') -> sane R (andthen m f) w.
Proof. unfold sane, andthen. intros M F. destruct (m w) as [[a|e| | |c] w']; auto. apply F, M. Qed.
Lemma sane_ret {A} (R : A -> world -> Prop) a w : R a w -> sane R (ret a) w. Proof. auto. Qed.
Lemma sane_lift {A} (R : A -> world -> Prop) r w : calm r -> (forall a, r = Ok a -> R a w) -> sane R (lift r) w.
Proof. unfold sane, lift. intros C F. destruct r; cbn [of_res]; auto. Qed.
Lemma prompt_loop_calm confirm : forall fuel r stdin, calm (fst (prompt_loop fuel confirm r stdin)).
Proof.
  induction fuel as [|f IH]; intros r stdin; destruct r; cbn [prompt_loop]; try discriminate.
  - destruct (reader_step confirm At_prompt stdin) as [[]|]; [apply IH|discriminate].
  - destruct (reader_step confirm (At_confirm pass1) stdin) as [[]|]; [apply IH|discriminate].
Qed.
Lemma sane_pwd confirm w : sane (fun p w' => kept w w' /\ p <> [] /\ (length (w_stdin w') < length (w_stdin w))%nat) (ask_password confirm) w.
Proof.
  destruct (speaks_password (CliTrace.mk_host (fun x => x) (fun _ => []) (fun x => x) (fun x => x) (fun x => x) [] [] [] [] (fun _ => [])) [] confirm w) as [_ S].
  revert S. unfold CliTrace.t_password. cbn [fst snd]. unfold sane.
  destruct (ask_password confirm w) as [[p|e| | |c] w'] eqn:Q; cbn [fst snd]; auto.
  - intros (K & T & N & _ & _ & _ & L). auto.
  - exfalso. revert Q. unfold ask_password. destruct (user_input_password _ _ _) as [[| |] r] eqn:U; try discriminate. intros _.
    revert U. unfold user_input_password. destruct (w_tty w); [|discriminate]. intros U. apply (f_equal fst) in U. revert U. apply prompt_loop_calm.
  - revert Q. unfold ask_password. destruct (user_input_password _ _ _) as [[| |] r]; discriminate.
  - revert Q. unfold ask_password. destruct (user_input_password _ _ _) as [[| |] r]; discriminate.
Qed.

Hypothesis W : wordlist_ok E.
Hypothesis SO : search_ok E.
Hypothesis A : argon_ok E.
Hypothesis X : aes_ok E.
Hypothesis HK : hkdf_ok E.
Hypothesis HH : hash_ok E.

Lemma sane_ttl text w : sane (fun _ w' => w' = w) (ttl_option E text) w.
Proof. unfold sane, ttl_option, ret, fail. destruct text; auto. destruct (parse_ttl E _); auto. Qed.
Lemma only_calm text : calm (decode_only_key_types text).
Proof.
  unfold decode_only_key_types. destruct text; [discriminate|]. apply calm_bind; [|intros []; auto with calm].
  generalize (split_on 44 (z :: text)), false, (@nil bytes). induction l as [|a l IH]; intros m ts; cbn [only_loop]; [discriminate|].
  repeat match goal with |- context [if ?b then _ else _] => destruct b end; auto with calm.
Qed.
Lemma generate_seed_calm src : Forall byte src -> match generate_seed src with Ok (s, rest) => seed_ok s /\ rest = skipn 16 src | Err _ => True | Panic => False end.
Proof.
  intros B. destruct (generate_seed_exact src B) as [G1 G2]. destruct (Nat.le_gt_cases 16 (length src)) as [L|L]; [rewrite G1 by auto|rewrite G2 by auto; exact I].
  split; [|reflexivity]. split; [reflexivity|]. cbn [seed_value]. assert (Hf : Forall byte (firstn 16 src)) by (apply firstn_byte; auto).
  pose proof (be_uint_bound _ Hf) as U. unfold zlen in U. rewrite firstn_length_le in U by lia. exact U.
Qed.
Lemma sane_seed option w : world_ok w -> sane (fun s w' => seed_ok s /\ kept w w') (seed_from_source option) w.
Proof.
  intros (B1 & B2 & B3). unfold sane, seed_from_source, with_random, andthen, open_file, lift. destruct option as [|c r].
  - pose proof (generate_seed_calm _ B1) as G. destruct (generate_seed (w_random w)) as [[s rest]|e|]; [|exact I|exact G]. destruct G as [G ->]. split; [exact G|].
    constructor; auto. apply skipn_bytes.
  - destruct (bytes_eqb (c :: r) (bs "-")).
    + pose proof (generate_seed_calm _ B2) as G. destruct (generate_seed (w_stdin w)) as [[s rest]|e|]; [|exact I|exact G]. destruct G as [G ->]. split; [exact G|apply kept_stdin].
    + destruct (w_files w (c :: r)) as [room| |content| |] eqn:F; auto. pose proof (generate_seed_calm _ (B3 _ _ F)) as G.
      destruct (generate_seed content) as [[s rest]|e|]; cbn [bind of_res]; [|exact I|exact G]. split; [apply G|apply kept_refl].
Qed.
Lemma sane_phrase o w : sane (fun _ w' => kept w w') (read_phrase E o) w.
Proof.
  unfold sane, read_phrase. destruct (io_in_file o) as [|c r].
  - destruct (io_simple o || negb (w_tty w)); unfold from_stdin.
    + unfold user_input_mnemonic_simple. pose proof (simple_loop_facts E SO (S (length (w_stdin w))) 0 1 [] (w_stdin w)) as S.
      destruct (simple_loop E _ 0 1 [] (w_stdin w)) as [[ws|e|] rest]; cbn [of_res fst] in *; [apply kept_stdin|exact I|]. apply S; try lia. constructor.
    + unfold user_input_mnemonic. pose proof (enter_never_panics E (w_stdin w) entry_start) as S.
      destruct (enter E entry_start (w_stdin w)) as [[ws|e|] rest]; cbn [of_res]; [apply kept_stdin|exact I|]. exact (S rest eq_refl).
  - unfold read_word_file, andthen, open_file, lift. destruct (w_files w (c :: r)) as [room| |content| |]; auto.
    unfold parse_word_file. pose proof (loop_no_panic E (scan_words content 0 []) 0) as L.
    destruct (word_file_loop E 0 (scan_words content 0 [])) as [ws|e|]; cbn [bind of_res]; [|exact I|congruence].
    destruct ws as [|w0 ws]; [exact I|]. destruct (parse_version_raw E w0). destruct (negb _); [exact I|apply kept_refl].
Qed.
Lemma sane_decrypt ws dm : decode_mnemonic E ws = Ok dm -> forall fuel w,
  sane (fun s w' => seed_ok s /\ kept w w') (decrypt_loop E fuel dm) w.
Proof.
  intros D. destruct (dm_encrypted dm) eqn:En.
  - apply encrypted_version in En as V. induction fuel as [|f IH]; intros w; [exact I|].
    unfold sane. cbn [decrypt_loop]. rewrite En.
    change (sane (fun s w' => seed_ok s /\ kept w w') (andthen (ask_password false) (fun password w =>
      match dm_decrypt_seed E dm password with Ok s => (Ret s, w) | Err ErrMnemonicDecryption => decrypt_loop E f dm w | Err e => (Fail e, w) | Panic => (Crash, w) end)) w).
    eapply sane_then; [apply sane_pwd|]. intros pw w' (K & _). unfold sane.
    destruct (decrypt_seed_exact E ws dm pw W A X D V) as [[_ Q]|[_ Q]]; rewrite Q.
    + specialize (IH w'). unfold sane in IH. destruct (decrypt_loop E f dm w') as [[s|e| | |c] w2]; auto. destruct IH as [I1 I2]. split; [exact I1|]. eapply kept_trans; eauto.
    + split; [|exact K]. split; [reflexivity|]. cbn [seed_value]. apply plain_of_cipher_bound; auto.
  - intros fuel w. destruct fuel as [|f]; [exact I|]. unfold sane. cbn [decrypt_loop]. rewrite En. unfold andthen, ret.
    assert (V : dm_version dm = 0).
    { pose proof (proj1 (decode_exact E ws (Ok dm) W) D) as O. inversion O; subst dm; [reflexivity|discriminate]. }
    destruct (plaintext_seed_exists E ws dm W D V) as (s & Q & S). rewrite decrypt_plaintext_ignores_password by lia. rewrite Q. split; [exact S|apply kept_refl].
Qed.
Lemma sane_decode o w : sane (fun p w' => seed_ok (fst p) /\ 0 <= dm_offset (snd p) < 2 ^ 31 /\ kept w w') (decode_mnemonic_from_input E o) w.
Proof.
  unfold decode_mnemonic_from_input. eapply sane_then; [apply sane_phrase|]. intros ws w1 K1.
  eapply (sane_then (fun dm w2 => w2 = w1 /\ decode_mnemonic E ws = Ok dm)).
  { apply sane_lift; [apply decode_never_panics; exact W|]. auto. }
  intros dm w2 [-> D]. eapply (sane_then (fun s w3 => seed_ok s /\ kept w1 w3)).
  { apply (sane_decrypt ws dm D). }
  intros s w3 [S K3]. apply sane_ret. split; [exact S|]. split; [exact (proj2 (decoded_facts E W ws dm D))|]. exact (kept_trans _ _ _ K1 K3).
Qed.
Lemma sane_new s t opts w : seed_ok s -> opts_ok (opts_of opts) ->
  sane (fun m w' => w' = w /\ signs (mnk_keys m) /\ seed_ok (mnk_seed m) /\ 0 <= mnk_creation_offset m < 2 ^ 31) (lift (mnk_new E s t opts)) w.
Proof.
  intros S O. pose proof (new_cases E HK s t opts S O) as N. apply sane_lift.
  - intros Q. rewrite Q in N. exact N.
  - intros m Q. rewrite Q in N. split; [reflexivity|]. split; [eapply new_signs; eauto|exact N].
Qed.
Lemma sane_key_password (b : bool) w : sane (fun _ w' => kept w w') (if b then ask_password true else ret []) w.
Proof.
  destruct b; [|apply sane_ret, kept_refl]. pose proof (sane_pwd true w) as S. unfold sane in *. destruct (ask_password true w) as [[]]; auto. apply S.
Qed.
Lemma sane_export (master : bool) m pw c w : signs (mnk_keys m) ->
  sane (fun _ w' => kept w w') (with_random (if master then mnk_encode_pgp_armor E m pw else mnk_encode_subkeys_pgp_armor E m pw c)) w.
Proof.
  intros S. pose proof (armor_calm master m pw c (w_random w) S) as C. pose proof (armor_exported E HH master m pw c (w_random w)) as X0.
  unfold sane, with_random.
  replace ((if master then mnk_encode_pgp_armor E m pw else mnk_encode_subkeys_pgp_armor E m pw c) (w_random w))
    with (if master then mnk_encode_pgp_armor E m pw (w_random w) else mnk_encode_subkeys_pgp_armor E m pw c (w_random w)) by (destruct master; reflexivity).
  destruct (if master then _ else _) as [[a rest]|e|]; [|exact I|exact (C eq_refl)]. destruct X0 as [n ->]. constructor; auto. apply skipn_bytes.
Qed.
Lemma sane_encode (enc : bool) s off w : seed_ok s -> 0 <= off < 2 ^ 31 -> Forall byte (w_random w) ->
  sane (fun _ w' => kept w w') (if enc then do pw <- ask_password true; fun w => (of_res (encode_mnemonic_encrypted E s off pw (w_random w)), w)
                                else lift (encode_mnemonic_plaintext E s off)) w.
Proof.
  intros S O B. destruct enc.
  - eapply sane_then; [apply sane_pwd|]. intros pw w' (K & N & _). unfold sane.
    destruct (encode_enc E W A X s off pw (w_random w') S O N (k_random _ _ K B)) as [(ws & EW & _)|EW]; rewrite EW; cbn [of_res]; auto.
  - destruct (encode_plain E W s off S O) as (ws & EW & _). apply sane_lift; rewrite EW; [discriminate|]. intros; apply kept_refl.
Qed.
Lemma sane_save words path w : sane (fun _ w' => w_width w' = w_width w) (save_mnemonic words path) w.
Proof.
  unfold sane, save_mnemonic, save_mnemonic_with, write_file, set_files. cbn [w_files].
  destruct (w_files w path) as [[room|]| |content| |]; cbn [write_node of_res]; auto. destruct (Nat.ltb _ _); cbn [of_res]; auto.
Qed.
Lemma sane_show words w : wide w -> sane (fun _ _ => True) (print_mnemonic words) w.
Proof.
  intros WD. unfold sane. pose proof (reminder_wide_enough words w) as R. destruct (print_mnemonic words w) as [o w']. cbn [fst] in R. rewrite R; [exact I|].
  intros width Q. specialize (WD width Q). lia.
Qed.
Lemma wide_same w w' : w_width w' = w_width w -> wide w -> wide w'. Proof. unfold wide. intros ->. auto. Qed.

(** *** the commands *)
Lemma only_opts name email ttl types : opts_ok (mk_opts name email ttl 0 0 0 types).
Proof. repeat split; cbn; lia. Qed.
Lemma sane_generate o w : world_ok w -> wide w -> sane (fun _ _ => True) (generate_and_print E o) w.
Proof.
  intros B WD. unfold sane, generate_and_print. match goal with |- match ?a w with _ => _ end => change (sane (fun _ _ => True) a w) end.
  eapply sane_then; [apply sane_ttl|]. intros ttl ? ->. eapply (sane_then (fun _ w' => w' = w)); [apply sane_lift; [apply only_calm|auto]|]. intros [master types] ? ->.
  eapply sane_then; [apply sane_seed, B|]. intros s w1 [S K1]. eapply sane_then; [apply sane_new; [exact S|apply only_opts]|]. intros m ? (-> & SG & SM & OM).
  eapply sane_then; [apply sane_key_password|]. intros pw w2 K2. eapply sane_then; [apply sane_export, SG|]. intros armor w3 K3.
  assert (K : kept w w3) by (eapply kept_trans; [|exact K3]; eapply kept_trans; eauto).
  eapply sane_then; [apply sane_encode; [exact SM|exact OM|apply (k_random _ _ K), B]|]. intros words w4 K4.
  assert (K' : kept w w4) by (eapply kept_trans; eauto). eapply (sane_then (fun _ w' => w_width w' = w_width w4)).
  { destruct (go_out_file o); [apply sane_ret; reflexivity|apply sane_save]. }
  intros _ w5 K5. eapply (sane_then (fun _ w' => w_width w' = w_width w5)); [reflexivity|]. intros _ w6 K6.
  destruct (go_out_file o); [|exact I]. apply sane_show. eapply wide_same; [|exact WD]. rewrite K6, K5. apply (k_width _ _ K').
Qed.
Lemma sane_recover o w : sane (fun _ _ => True) (recover_and_print E o) w.
Proof.
  unfold recover_and_print. eapply sane_then; [apply sane_ttl|]. intros ttl ? ->. destruct (_ || _ || _)%bool; [exact I|].
  eapply (sane_then (fun _ w' => w' = w)); [apply sane_lift; [apply only_calm|auto]|]. intros [master types] ? ->.
  eapply sane_then; [apply sane_decode|]. intros [s dm] w1 (S & OF & K1). cbn [fst snd] in *. eapply sane_then.
  { apply sane_new; [exact S|]. repeat split; cbn; unfold u16; lia. }
  intros m ? (-> & SG & _). eapply sane_then; [apply sane_key_password|]. intros pw w2 K2. eapply sane_then; [apply sane_export, SG|]. intros armor w3 K3. exact I.
Qed.
Lemma sane_convert o w : Forall byte (w_random w) -> wide w -> sane (fun _ _ => True) (decode_and_convert E o) w.
Proof.
  intros B WD. unfold decode_and_convert. eapply sane_then; [apply sane_decode|]. intros [s dm] w1 (S & OF & K1). cbn [fst snd] in *.
  eapply sane_then; [apply sane_encode; [exact S|exact OF|apply (k_random _ _ K1), B]|]. intros words w2 K2.
  destruct (io_in_file (co_input o)) as [|z l].
  - apply sane_show. eapply wide_same; [|exact WD]. rewrite (k_width _ _ K2). apply (k_width _ _ K1).
  - pose proof (sane_save words (z :: l) w2) as V. unfold sane in *. destruct (save_mnemonic words (z :: l) w2) as [[]]; auto.
Qed.
End env.

(** ** The bounds on the number of turns do not matter *)
Lemma scan_line_length : forall l cur text rest, scan_line l cur = Some (text, rest) -> (length rest < length l + length cur)%nat.
Proof.
  induction l as [|b l IH]; intros cur text rest; cbn [scan_line]; destruct (zlen cur >=? max_token); try discriminate.
  - destruct cur; [discriminate|]. intros [= _ <-]. cbn. lia.
  - destruct (b =? 10); [intros [= _ <-]; cbn; lia|]. intros Q. apply IH in Q. cbn [length] in *. lia.
Qed.
Lemma simple_loop_turns E : forall f1 f2 i count words stdin, (length stdin < f1)%nat -> (length stdin < f2)%nat ->
  simple_loop E f1 i count words stdin = simple_loop E f2 i count words stdin.
Proof.
  induction f1 as [|f1 IH]; intros f2 i count words stdin L1 L2; [lia|]. destruct f2 as [|f2]; [lia|]. cbn [simple_loop].
  destruct (i <? count); [|reflexivity]. destruct (scan_line stdin []) as [[text rest]|] eqn:S; [|reflexivity].
  apply scan_line_length in S. cbn [length] in S. assert (G : forall i count words, simple_loop E f1 i count words rest = simple_loop E f2 i count words rest) by (intros; apply IH; lia).
  destruct (fst (wl_search E _)); [|apply G]. destruct (i =? 0); [|apply G]. destruct (parse_mnemonic_version E _); apply G.
Qed.
Lemma rand_int_turns k b max : (0 < k)%nat -> forall f1 f2 src, (length src < f1)%nat -> (length src < f2)%nat -> rand_int_loop f1 src k b max = rand_int_loop f2 src k b max.
Proof.
  intros K. induction f1 as [|f1 IH]; intros f2 src L1 L2; [lia|]. destruct f2 as [|f2]; [lia|]. cbn [rand_int_loop].
  unfold read_full. destruct (Nat.ltb (length src) k) eqn:L; [reflexivity|]. cbn [bind]. destruct (_ <? max); [reflexivity|]. apply IH; rewrite skipn_length; lia.
Qed.
Lemma flag_parse_turns : forall f1 f2 fs args, (length args < f1)%nat -> (length args < f2)%nat -> flag_parse f1 fs args = flag_parse f2 fs args.
Proof.
  induction f1 as [|f1 IH]; intros f2 fs args L1 L2; [lia|]. destruct f2 as [|f2]; [lia|]. cbn [flag_parse]. destruct args as [|s rest]; [reflexivity|]. cbn [length] in *.
  destruct s as [|m [|c s']]; try reflexivity. destruct (negb (m =? 45)); [reflexivity|]. destruct (_ && _)%bool; [reflexivity|].
  destruct (if c =? 45 then s' else c :: s') as [|c0 r0]; [reflexivity|]. destruct (_ || _)%bool; [reflexivity|]. destruct (split_flag (c0 :: r0)) as [name value].
  destruct (flag_get fs name) as [old|]; [|reflexivity]. destruct old, value; try (apply IH; lia).
  all: try (destruct rest as [|t rest']; [reflexivity|]; cbn [length] in *). all: destruct (flag_parse_value _ _); try reflexivity; apply IH; cbn [length]; lia.
Qed.
Lemma decrypt_turns E ws dm : wordlist_ok E -> decode_mnemonic E ws = Ok dm -> forall f1 f2 w, (length (w_stdin w) < f1)%nat -> (length (w_stdin w) < f2)%nat ->
  decrypt_loop E f1 dm w = decrypt_loop E f2 dm w.
Proof.
  intros W D. induction f1 as [|f1 IH]; intros f2 w L1 L2; [lia|]. destruct f2 as [|f2]; [lia|]. cbn [decrypt_loop]. destruct (dm_encrypted dm) eqn:En.
  - unfold andthen. pose proof (sane_pwd false w) as P. unfold sane in P. destruct (ask_password false w) as [[pw|e| | |c] w']; try reflexivity. destruct P as (_ & _ & L).
    destruct (dm_decrypt_seed E dm pw) as [s|[]|]; try reflexivity. apply IH; lia.
  - assert (V : dm_version dm = 0).
    { pose proof (proj1 (decode_exact E ws (Ok dm) W) D) as O. inversion O; subst dm; [reflexivity|discriminate]. }
    destruct (plaintext_seed_exists E ws dm W D V) as (s & Q & S). unfold andthen, ret. rewrite decrypt_plaintext_ignores_password by lia. rewrite Q. reflexivity.
Qed.
(** ** The loops end without any bound *)
Lemma simple_loops E : forall f i count words stdin, 0 <= i -> (length stdin < f)%nat ->
  loops (simple_turn E) (i, count, words, stdin) (simple_loop E f i count words stdin).
Proof.
  induction f as [|f IH]; intros i count words stdin I L; [lia|]. cbn [simple_loop]. destruct (i <? count) eqn:C.
  2:{ apply Last_turn. cbn [simple_turn]. destruct (Z.leb_spec count i); [reflexivity|lia]. }
  assert (C' : count <=? i = false) by lia. destruct (scan_line stdin []) as [[text rest]|] eqn:S.
  2:{ apply Last_turn. unfold simple_turn. rewrite C', S. reflexivity. }
  pose proof (scan_line_length _ _ _ _ S) as LL. cbn [length] in LL.
  assert (G : forall s', simple_turn E (i, count, words, stdin) = inl s' -> forall r, loops (simple_turn E) s' r -> loops (simple_turn E) (i, count, words, stdin) r)
    by (intros; eapply One_more; eassumption).
  unfold simple_turn in G at 1. rewrite C', S in G. cbv zeta in G |- *. destruct (fst (wl_search E _)); cbn [negb] in G.
  - destruct (Z.eqb_spec i 0) as [->|N].
    + cbn [Z.ltb] in G. change (0 <? 0) with false in G. cbv iota in G. change (0 + 1) with 1.
      destruct (parse_mnemonic_version E _); (eapply G; [reflexivity|]); apply IH; lia.
    + assert (P : 0 <? i = true) by lia. rewrite P in G. eapply G; [reflexivity|]. apply IH; lia.
  - eapply G; [reflexivity|]. apply IH; lia.
Qed.
Lemma prompt_loops confirm : forall n r stdin f, (length stdin <= n)%nat -> (length stdin + 2 <= f)%nat ->
  loops (prompt_turn confirm) (r, stdin) (prompt_loop f confirm r stdin).
Proof.
  induction n as [|n IH]; intros r stdin f N F; (destruct f as [|f]; [lia|]);
    (assert (D : (r = At_prompt \/ exists p, r = At_confirm p) \/ ~ (r = At_prompt \/ exists p, r = At_confirm p))
       by (destruct r; [left; left; reflexivity|left; right; eexists; reflexivity|right; intros [X|(? & X)]; discriminate..]);
     destruct D as [D|D]; [|destruct r; try (apply Last_turn; reflexivity); destruct D; eauto];
     rewrite !prompt_loop_unfold by auto;
     destruct (reader_step confirm r stdin) as [[r' rest]|] eqn:R;
       [apply One_more with (s' := (r', rest)); [destruct D as [->|(p & ->)]; unfold prompt_turn; cbn [fst snd]; rewrite R; reflexivity|];
        destruct (reader_step_length _ _ _ _ _ R) as [L|[L ->]]; [|destruct f; [lia|]; apply Last_turn; reflexivity]
       |apply Last_turn; destruct D as [->|(p & ->)]; unfold prompt_turn; cbn [fst snd]; rewrite R; reflexivity]).
  - lia.
  - apply IH; lia.
Qed.
Lemma draw_loops : forall f src, (length src < f)%nat -> loops draw_turn src (rand_int_loop f src 16 8 (2 ^ 128)).
Proof.
  induction f as [|f IH]; intros src L; [lia|]. cbn [rand_int_loop]. unfold read_full. destruct (Nat.ltb (length src) 16) eqn:K.
  - apply Last_turn. unfold draw_turn. rewrite K. reflexivity.
  - cbn [bind]. destruct (be_uint (mask_first 8 (firstn 16 src)) <? 2 ^ 128) eqn:B.
    + apply Last_turn. unfold draw_turn. rewrite K. cbv zeta. rewrite B. reflexivity.
    + apply One_more with (s' := skipn 16 src); [unfold draw_turn; rewrite K; cbv zeta; rewrite B; reflexivity|]. apply IH. rewrite skipn_length. lia.
Qed.
Lemma decrypt_loops E ws dm : wordlist_ok E -> decode_mnemonic E ws = Ok dm -> forall f w, (length (w_stdin w) < f)%nat ->
  loops (decrypt_turn E dm) w (decrypt_loop E f dm w).
Proof.
  intros W D. induction f as [|f IH]; intros w L; [lia|]. cbn [decrypt_loop]. destruct (dm_encrypted dm) eqn:En.
  - unfold andthen. pose proof (sane_pwd false w) as P. unfold sane in P. destruct (ask_password false w) as [[pw|e| | |c] w'] eqn:A.
    2-5: apply Last_turn; unfold decrypt_turn; rewrite En, A; reflexivity.
    destruct P as (_ & _ & LL).
    assert (T : decrypt_turn E dm w = match dm_decrypt_seed E dm pw with
      | Ok s => inr (Ret s, w') | Err e => match e with ErrMnemonicDecryption => inl w' | _ => inr (Fail e, w') end | Panic => inr (Crash, w') end)
      by (unfold decrypt_turn; rewrite En, A; reflexivity).
    destruct (dm_decrypt_seed E dm pw) as [s|e|]; [apply Last_turn; exact T| |apply Last_turn; exact T].
    destruct e; try (apply Last_turn; exact T). apply One_more with (s' := w'); [exact T|]. apply IH; lia.
  - assert (V : dm_version dm = 0).
    { pose proof (proj1 (decode_exact E ws (Ok dm) W) D) as O. inversion O; subst dm; [reflexivity|discriminate]. }
    destruct (plaintext_seed_exists E ws dm W D V) as (s & Q & S). unfold andthen, ret.
    assert (Q' : dm_decrypt_seed E dm [] = Ok s) by (rewrite decrypt_plaintext_ignores_password by lia; exact Q).
    apply Last_turn. unfold decrypt_turn. rewrite En, Q'. reflexivity.
Qed.
