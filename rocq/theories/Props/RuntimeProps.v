(** C75-C78: with the packages of the Go runtime as they are.  Only the word list and its search remain
    assumptions. *)
From Coq Require Import Lia ZifyBool ZifyNat Permutation.
From Verif.Model Require Import GoBase Env GoTime Version Seed Encoding Recovery PgpWire PgpKeys Mnemonikey CliText CliInput CliFlags CliMain.
From Verif.Spec Require Import EnvSpec PhraseSpec DecodeSpec KeySpec PgpSpec ExportSpec CliEnvSpec TextSpec InputSpec MainSpec EndSpec ArmorSpec OutputSpec
  SpaceSpec SpellSpec RealEnv EdVerify GoRand GoFloat GoArmor GoText.
From Verif.Proofs Require Import BitsP WordsP RoundtripP ExportP RandP FloatP ArmorP UnicodeP RealP EnvInst CliInst.
From Verif.Props Require Import PhraseProps CodecProps KeyProps ExportProps LifeProps TextProps InputProps FileProps EndProps ArmorProps RealProps.
Ltac Zify.zify_post_hook ::= Z.div_mod_to_equations.

(** ** C75: everything the other properties assume of the environment holds *)
Theorem std_runtime : forall E0, let E := std_env E0 in
  rand_ok E /\ seconds_ok E /\ armor_ok E /\ lone_byte_ok E /\
  argon_ok E /\ aes_ok E /\ hkdf_ok E /\ env_ok E std_ed25519_verify /\
  (wordlist_ok E0 -> wordlist_ok E) /\ (search_ok E0 -> search_ok E) /\ (prefix_free E0 -> prefix_free E).
Proof.
  intros E0 E. destruct (std_primitives E0) as (A & X & _ & H & _).
  split; [intros sd k n; exact (rand_range sd k n)|].
  split. { split; [|exact seconds_u32_ok]. intros q Q. change (std_seconds_u32 (q * 10 ^ 9) = q).
    destruct (seconds_u32_value (q * 10 ^ 9)) as (_ & _ & V); [lia|]. rewrite V; [apply Z.div_mul; lia|apply Z.mod_mul; lia]. }
  split; [intros kind data; exact (std_armor_read kind data)|].
  split; [intros b c; exact (lone_byte b c)|]. split; [exact A|]. split; [exact X|]. split; [exact H|].
  split; [apply std_exports|]. split; [exact (std_wordlist E0)|]. split; intros S; exact S.
Qed.
Print Assumptions std_runtime.

(** C36 for the float arithmetic of Duration.Seconds *)
Theorem std_expiry : forall E0 f s t0 opts m pw tape t, seed_ok s ->
  opts_ok (opts_of opts) -> zlen (ko_name (opts_of opts)) + zlen (ko_email (opts_of opts)) < 2 ^ 31 ->
  mnk_new (std_env E0) s t0 opts = Ok m -> password_ok pw -> Forall byte tape -> exports (std_env E0) f (mnk_keys m) pw tape t ->
  let n := ko_ttl (opts_of opts) / ns in 1 <= n < 2 ^ 32 ->
  mnk_expiry m = mnk_created_at m + n * ns /\
  (forall c, tk_cert t = Some c -> lifetime c = Some n) /\
  subkeys_match (mnk_keys m) t (fun _ _ _ b => lifetime (sb_binding b) = Some n).
Proof.
  intros E0 f s t0 opts m pw tape t. destruct (std_runtime E0) as (_ & SE & _ & _ & _ & _ & H & EV & _).
  exact (expiry_exact (std_env E0) std_ed25519_verify f s t0 opts m pw tape t H EV SE).
Qed.
Print Assumptions std_expiry.

(** C54, C66, C67: the commands, end to end *)
Theorem std_generate_then_recover : forall E0 g o w r w' words v v1,
  wordlist_ok E0 -> world_ok w -> same_request g o ->
  generate_and_print (std_env E0) g w = (r, w') -> go_out_file g = [] -> w_shown w' = w_shown w ++ [words] ->
  read_phrase (std_env E0) (ro_input o) v = (Ret words, v1) ->
  (go_encrypt_phrase g = true -> exists pw,
     fst (user_input_password (w_tty w) true (after_seed g (w_stdin w))) = Ok pw /\ answers (std_env E0) words pw v1) ->
  exists out v2, w_stdout w' = w_stdout w ++ [out ++ [10]] /\
    recover_and_print (std_env E0) o v = (Ret tt, v2) /\ w_stdout v2 = w_stdout v ++ [out ++ [10]].
Proof.
  intros E0 g o w r w' words v v1 W. destruct (std_runtime E0) as (_ & _ & _ & _ & A & X & H & _).
  exact (generate_then_recover (std_env E0) g o w r w' words v v1 (std_wordlist E0 W) A X H).
Qed.
Print Assumptions std_generate_then_recover.
Theorem std_recover_prints_key : forall E0 o v v', let E := std_env E0 in
  wordlist_ok E0 -> Forall byte (w_random v) ->
  user_id_ok (std_trim (ro_name o)) (std_trim (ro_email o)) ->
  0 <= ro_enc_index o -> 0 <= ro_auth_index o -> 0 <= ro_sign_index o ->
  recover_and_print E o v = (Ret tt, v') ->
  exists ttl master types words v1 dm phrase_password s v2 m pw,
    ttl_asked E (ro_ttl o) ttl /\ decode_only_key_types (ro_only o) = Ok (master, types) /\
    read_phrase E (ro_input o) v = (Ret words, v1) /\ decode_mnemonic E words = Ok dm /\ dm_decrypt_seed E dm phrase_password = Ok s /\
    decode_mnemonic_from_input E (ro_input o) v = (Ret (s, dm), v2) /\
    mnk_new E s (dm_creation dm) (Some (mk_opts (std_trim (ro_name o)) (std_trim (ro_email o)) ttl
      (ro_enc_index o) (ro_auth_index o) (ro_sign_index o) types)) = Ok m /\
    key_password (ro_encrypt_keys o) (w_tty v2) (w_stdin v2) pw /\
    (password_ok pw -> exists packets, printed (w_stdout v) (w_stdout v') packets /\
       key_block E (if master then Full else Subkeys_only (ro_self_cert o)) pw m
         (user_id_text (std_trim (ro_name o)) (std_trim (ro_email o))) (selected types) ttl packets).
Proof.
  intros E0 o v v' E W. destruct (std_runtime E0) as (_ & SE & AR & _ & A & X & H & EV & _).
  exact (recover_prints_key (std_env E0) std_ed25519_verify o v v' (std_wordlist E0 W) A X H EV SE AR).
Qed.
Print Assumptions std_recover_prints_key.
Theorem std_generate_prints_key : forall E0 g w w', let E := std_env E0 in
  world_ok w -> user_id_ok (std_trim (go_name g)) (std_trim (go_email g)) ->
  generate_and_print E g w = (Ret tt, w') ->
  exists ttl master types s m pw,
    ttl_asked E (go_ttl g) ttl /\ decode_only_key_types (go_only g) = Ok (master, types) /\ seed_ok s /\
    mnk_new E s (w_now w) (Some (mk_opts (std_trim (go_name g)) (std_trim (go_email g)) ttl 0 0 0 types)) = Ok m /\
    key_password (go_encrypt_keys g) (w_tty w) (after_seed g (w_stdin w)) pw /\
    (password_ok pw -> exists packets, printed (w_stdout w) (w_stdout w') packets /\
       key_block E (if master then Full else Subkeys_only true) pw m
         (user_id_text (std_trim (go_name g)) (std_trim (go_email g))) (selected types) ttl packets).
Proof.
  intros E0 g w w' E. destruct (std_runtime E0) as (_ & SE & AR & _ & _ & _ & H & EV & _).
  exact (generate_prints_key (std_env E0) std_ed25519_verify g w w' H EV SE AR).
Qed.
Print Assumptions std_generate_prints_key.

(** ** C76: the order of the subkeys with the generator of math/rand *)
(** three things after swapping the last with the one at [i], then the middle one with the one at [j] *)
Definition drawn {A} (x y z : A) (i j : Z) : list A :=
  match i, j with
  | 0, 0 => [y; z; x] | 0, _ => [z; y; x]
  | 1, 0 => [z; x; y] | 1, _ => [x; z; y]
  | _, 0 => [y; x; z] | _, _ => [x; y; z]
  end.
Lemma drawn_order E sd : rand_ok E -> order_of E sd = drawn Encryption Authentication Signing (rand_int31n E sd 0 3) (rand_int31n E sd 1 2).
Proof.
  intros R. pose proof (R sd 0%nat 3 ltac:(lia)) as R0. pose proof (R sd 1%nat 2 ltac:(lia)) as R1.
  unfold order_of, shuffle, all_kinds. cbn [length Nat.sub shuffle_from]. change (Z.of_nat 2 + 1) with 3. change (Z.of_nat 1 + 1) with 2.
  assert (C0 : rand_int31n E sd 0 3 = 0 \/ rand_int31n E sd 0 3 = 1 \/ rand_int31n E sd 0 3 = 2) by lia.
  assert (C1 : rand_int31n E sd 1 2 = 0 \/ rand_int31n E sd 1 2 = 1) by lia.
  destruct C0 as [-> | [-> | ->]]; destruct C1 as [-> | ->]; reflexivity.
Qed.
Theorem std_subkey_order : forall E0 f ks pw tape t, let E := std_env E0 in
  built E ks -> password_ok pw -> Forall byte tape -> exports E f ks pw tape t ->
  let seed := order_seed E (ed_private (ks_master ks)) mod (2 ^ 31 - 1) in
  Forall2 (fun q b => is_key (fst (snd q)) (sb_key b))
    (subkeys_along ks (drawn Encryption Authentication Signing (std_rand_int31n seed 0 3) (std_rand_int31n seed 1 2)))
    (tk_subkeys t).
Proof.
  intros E0 f ks pw tape t E B P T X seed. destruct (std_runtime E0) as (R & _ & _ & _ & _ & _ & _ & EV & _).
  assert (SD : forall k n, std_rand_int31n (shuffle_seed E (ed_private (ks_master ks))) k n = std_rand_int31n seed k n).
  { intros k n. unfold std_rand_int31n, seed. rewrite <- order_seed_ok by apply EV. rewrite seed_residue. reflexivity. }
  pose proof (exports_inv E std_ed25519_verify f ks pw tape t EV B T P X) as G.
  pose proof (eg_subkeys _ _ _ _ _ _ _ G) as F.
  assert (O : order E ks = drawn Encryption Authentication Signing (std_rand_int31n seed 0 3) (std_rand_int31n seed 1 2)).
  { rewrite <- !SD. unfold order. rewrite (drawn_order E (shuffle_seed E (ed_private (ks_master ks))) R).
    change (rand_int31n E) with std_rand_int31n. reflexivity. }
  rewrite O in F. eapply forall2_impl; [|exact F]. intros q b Hq. cbn beta. rewrite (bg_key _ _ _ _ _ _ _ _ _ Hq). apply is_key_public.
Qed.
Print Assumptions std_subkey_order.
(** Every order occurs: the draws for six seeds. *)
Theorem std_all_orders :
  map (fun seed => drawn Encryption Authentication Signing (std_rand_int31n seed 0 3) (std_rand_int31n seed 1 2)) [2; 11; 10; 1; 7; 3] =
  [[Authentication; Signing; Encryption]; [Signing; Authentication; Encryption]; [Signing; Encryption; Authentication];
   [Encryption; Signing; Authentication]; [Authentication; Encryption; Signing]; [Encryption; Authentication; Signing]].
Proof. vm_compute. reflexivity. Qed.
Print Assumptions std_all_orders.

(** ** C77: which texts are read as a word of the list *)
Lemma std_to_lower E0 w s : Forall lower_letter w -> (to_lower (std_env E0) s = w <-> spelled w s).
Proof.
  intros L. rewrite <- (lower_exact w L s). unfold to_lower. destruct (is_ascii s) eqn:A; [rewrite (lower_ascii s A)|]; reflexivity.
Qed.
Lemma word_letters E0 w : wordlist_ok E0 -> In w (wl_words E0) -> Forall lower_letter w.
Proof. intros W I. pose proof (wlo_letters _ W) as F. rewrite Forall_forall in F. exact (F w I). Qed.
Theorem std_known_word : forall E0 s, wordlist_ok E0 ->
  (known_word (std_env E0) s <-> exists w, In w (wl_words E0) /\ spelled w s).
Proof.
  intros E0 s W. unfold known_word. change (wl_words (std_env E0)) with (wl_words E0). split.
  - intros I. exists (to_lower (std_env E0) s). split; [exact I|]. apply (std_to_lower E0); [eapply word_letters; eauto|reflexivity].
  - intros (w & I & S). apply (std_to_lower E0) in S; [rewrite S; exact I|eapply word_letters; eauto].
Qed.
Print Assumptions std_known_word.
(** one word per text *)
Theorem spelled_once : forall w w' s, Forall lower_letter w -> Forall lower_letter w' -> spelled w s -> spelled w' s -> w = w'.
Proof. intros w w' s L L' S S'. apply lower_exact in S, S'; auto. congruence. Qed.
Print Assumptions spelled_once.
Lemma decode_words_known E ws dm : wordlist_ok E -> decode_mnemonic E ws = Ok dm -> Forall (known_word E) ws.
Proof.
  intros W D. destruct (decode_words_exact E ws W) as [[F _]|[_ X]]; [exact F|]. exfalso. revert D.
  unfold decode_mnemonic. destruct ws as [|w0 ws0]; [discriminate|]. destruct (parse_mnemonic_version E w0); cbn [bind]; try discriminate.
  destruct (version_check a); cbn [bind]; try discriminate. destruct (negb (zlen (w0 :: ws0) =? mnemonic_size a)); [discriminate|].
  rewrite X. discriminate.
Qed.
(** a phrase decodes iff it spells words of the list that do, and then to the same *)
Theorem std_decode_spellings : forall E0 texts dm, wordlist_ok E0 ->
  (decode_mnemonic (std_env E0) texts = Ok dm <->
   exists words, Forall (fun w => In w (wl_words E0)) words /\ Forall2 spelled words texts /\ decode_mnemonic (std_env E0) words = Ok dm).
Proof.
  intros E0 texts dm W. split.
  - intros D. pose proof (decode_words_known _ _ _ (std_wordlist E0 W) D) as K. exists (map (to_lower (std_env E0)) texts).
    assert (I : Forall (fun w => In w (wl_words E0)) (map (to_lower (std_env E0)) texts)).
    { clear D. induction K; constructor; auto. }
    split; [exact I|]. split.
    + clear D K. induction texts as [|t texts IH]; cbn [map] in *; constructor; inversion I; subst; auto.
      apply (std_to_lower E0); [eapply word_letters; eauto|reflexivity].
    + rewrite <- D. apply decode_mnemonic_lower. rewrite map_map. apply map_ext_in. intros t T. apply to_lower_word; [apply std_wordlist, W|].
      rewrite Forall_forall in K. exact (K t T).
  - intros (words & I & S & D). rewrite <- D. apply decode_mnemonic_lower. clear D.
    induction S as [|w t words texts Sp S IH]; [reflexivity|]. inversion I as [|? ? Iw I']; subst. cbn [map]. f_equal; [|apply IH; exact I'].
    rewrite (to_lower_word (std_env E0) (std_wordlist E0 W) w Iw). apply (std_to_lower E0); [eapply word_letters; eauto|exact Sp].
Qed.
Print Assumptions std_decode_spellings.

(** ** C78: white space around names, addresses and typed words *)
Theorem std_trim_exact : forall s t, std_trim s = t <-> trimmed s t.
Proof. exact trim_exact. Qed.
Print Assumptions std_trim_exact.
Theorem std_line_word : forall E0 l w, wordlist_ok E0 -> In w (wl_words E0) ->
  (line_word (std_env E0) l = w <-> exists t, trimmed l t /\ spelled w t).
Proof.
  intros E0 l w W I. pose proof (word_letters E0 w W I) as L. unfold line_word. change (trim_space (std_env E0) l) with (std_trim l). split.
  - intros H. exists (std_trim l). split; [apply std_trim_exact; reflexivity|]. exact (proj1 (std_to_lower E0 w _ L) H).
  - intros (t & T & S). apply std_trim_exact in T. rewrite T. exact (proj2 (std_to_lower E0 w _ L) S).
Qed.
Print Assumptions std_line_word.

(** ** Cases *)
(** "kid" with a Kelvin sign, a dotted capital I and a capital D, between an em space, a tab and a no-break space *)
Definition odd_kid : bytes := [0xE2; 0x84; 0xAA; 0xC4; 0xB0; 68].
Definition odd_line : bytes := [0xE2; 0x80; 0x83; 9] ++ odd_kid ++ [0xC2; 0xA0].
Example odd_case : spelled (bs "kid") odd_kid /\ trimmed odd_line odd_kid /\ ~ spelled (bs "kid") odd_line.
Proof.
  split; [|split].
  - exists [[0xE2; 0x84; 0xAA]; [0xC4; 0xB0]; [68]]. split; [|reflexivity]. repeat constructor; unfold spelling; cbn; tauto.
  - apply std_trim_exact. vm_compute. reflexivity.
  - intros S. assert (L : Forall lower_letter (bs "kid")) by (vm_compute; repeat constructor; intuition discriminate).
    apply (lower_exact _ L) in S. vm_compute in S. discriminate.
Qed.
(** a phrase in capitals *)
Definition capitals (w : bytes) : bytes := map (fun b => b - 32) w.
Lemma capitals_spelled w : spelled w (capitals w).
Proof.
  exists (map (fun b => [b - 32]) w). split; [induction w; constructor; auto; unfold spelling; auto|]. induction w as [|b w IH]; [reflexivity|]. cbn [capitals map concat app]. f_equal. exact IH.
Qed.
Example capitals_case : exists words dm, length words = 14%nat /\ Forall (fun w => In w (wl_words toy_env)) words /\
  decode_mnemonic (std_env toy_env) words = Ok dm /\ decode_mnemonic (std_env toy_env) (map capitals words) = Ok dm.
Proof.
  destruct (plaintext_roundtrip (std_env toy_env) real_seed 5 (std_wordlist _ toy_wordlist_ok)) as (ws & dm & _ & L & _ & D & _);
    [split; vm_compute; intuition congruence|lia|].
  destruct (std_decode_spellings toy_env ws dm toy_wordlist_ok) as [K _]. destruct (K D) as (words & I & S & D').
  assert (LW : length words = length ws) by (clear - S; induction S; cbn [length]; auto).
  exists words, dm. split; [rewrite LW; exact L|]. split; [exact I|]. split; [exact D'|].
  apply (std_decode_spellings toy_env _ dm toy_wordlist_ok). exists words. split; [exact I|]. split; [|exact D'].
  clear. induction words; constructor; auto. apply capitals_spelled.
Qed.
