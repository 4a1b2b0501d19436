(** What each part of the commands writes to standard error, and the texts of its errors. *)
From Coq Require Import Lia ZifyBool ZifyNat.
From Verif.Model Require Import GoBase Env Version GoTime Seed Encoding Recovery PgpWire PgpS2k PgpKeys Mnemonikey.
From Verif.Model Require Import CliText CliInput CliFlags CliMain CliHelp CliScreen CliTrace.
From Verif.Spec Require Import EnvSpec PhraseSpec DecodeSpec KeySpec ExportSpec CliEnvSpec TextSpec InputSpec FileSpec EndSpec TraceSpec.
From Verif.Proofs Require Import BitsP PgpP WordsP RoundtripP DecodeP S2kP KeysP TextP InputP EntryP FileP MainP ScreenP ShowP TraceP SpeakP.
From Verif.Props Require Import PhraseProps SeedProps KeyProps TextProps EndProps.
Ltac Zify.zify_post_hook ::= Z.div_mod_to_equations.

Lemma number_itoa n : 0 <= n -> number (itoa n) n.
Proof.
  intros N. split; [apply itoa_decimal, N|]. unfold itoa. replace (n <? 0) with false by lia. apply decimal_digits_digits, N.
Qed.

(** *** typing the phrase *)
Local Notation simple_made H := (made_of (simple_piece H)).
Lemma simple_writes_made E H : wordlist_ok E -> search_ok E -> forall fuel i count stdin, 0 <= i -> count <= 16 ->
  simple_made H (simple_writes E fuel i count stdin).
Proof.
  intros W SO.
  assert (N10 : simple_made H [10]) by (apply made_one; left; cbn; auto 8).
  assert (ER : simple_made H erase_forward) by (apply made_one; left; cbn; auto 8).
  assert (PR : simple_made H previous_line) by (apply made_one; left; cbn; auto 8).
  assert (RN : forall t, ScreenSpec.notice t -> simple_made H (red t)) by (intros t T; apply made_one; right; right; exists t; auto).
  induction fuel as [|f IH]; intros i count stdin I C; cbn [simple_writes].
  - destruct (i <? count) eqn:L; [|apply made_nil]. apply made_app; [|change [10; 10] with ([10] ++ [10]); apply made_app; auto].
    apply made_one. right. left. exists (i + 1). split; [lia|]. exists (itoa (i + 1)). split; [apply number_itoa; lia|]. reflexivity.
  - destruct (i <? count) eqn:L; [|apply made_nil]. apply made_app.
    { apply made_one. right. left. exists (i + 1). split; [lia|]. exists (itoa (i + 1)). split; [apply number_itoa; lia|]. reflexivity. }
    destruct (scan_line stdin []) as [[text rest]|]; [|change [10; 10] with ([10] ++ [10]); apply made_app; auto].
    set (input := to_lower E (trim_space E text)). destruct (fst (wl_search E input)) eqn:K.
    + apply made_app; auto. destruct (i =? 0).
      * destruct (parse_mnemonic_version E input) as [v|e|] eqn:V.
        -- apply made_app; auto. apply made_app; auto. apply IH; [lia|]. unfold mnemonic_size, payload_bit_count. repeat match goal with |- context [if ?b then _ else _] => destruct b end; vm_compute; discriminate.
        -- apply made_app; [apply RN; apply (version_error_notice E input W); [apply SO; exact K|rewrite V; discriminate]|]. repeat (apply made_app; auto).
        -- apply made_app; [apply RN; apply (version_error_notice E input W); [apply SO; exact K|rewrite V; discriminate]|]. repeat (apply made_app; auto).
      * repeat (apply made_app; auto). apply IH; lia.
    + apply made_app; [apply RN, bad_word_notice|]. repeat (apply made_app; auto).
Qed.
Lemma entry_error_abort E : forall stdin s rest e, enter E s stdin = (Err e, rest) ->
  e = ErrAborted /\ (In 3 stdin \/ In 4 stdin) \/ e = ErrInputEOF.
Proof.
  induction stdin as [|b stdin IH]; intros s rest e Q; cbn [enter] in Q; [right; congruence|]. destruct (key E s b) as [s'|ws|] eqn:K.
  - destruct (IH _ _ _ Q) as [[? [A|A]]|]; [left|left|right]; cbn; auto.
  - discriminate.
  - left. split; [congruence|]. unfold key in K. unfold key_ctrl_c, key_ctrl_d in K. destruct (b =? 3) eqn:B3; [left; left; lia|]. destruct (b =? 4) eqn:B4; [right; left; lia|].
    cbn [orb] in K. exfalso. revert K. clear. unfold next_word.
    repeat match goal with |- context [if ?c then _ else _] => destruct c | |- context [match ?x with _ => _ end] => destruct x end; discriminate.
Qed.
Lemma enter_never_panics E : forall stdin s rest, enter E s stdin <> (Panic, rest).
Proof. induction stdin as [|b stdin IH]; intros s rest; cbn [enter]; [discriminate|]. destruct (key E s b); [apply IH|discriminate|discriminate]. Qed.
Lemma simple_loop_facts E : search_ok E -> forall fuel i count words stdin, 0 <= i -> (i > 0 -> words <> []) -> (i = 0 -> 0 < count) -> Forall (fun w => In w (wl_words E)) words ->
  match fst (simple_loop E fuel i count words stdin) with
  | Ok ws => Forall (fun w => In w (wl_words E)) ws /\ ws <> []
  | Err e => e = ErrInputEOF
  | Panic => False
  end.
Proof.
  intros SO. induction fuel as [|f IH]; intros i count words stdin I N C F; cbn [simple_loop].
  - destruct (i <? count) eqn:L; cbn [fst]; [reflexivity|]. split; [exact F|]. apply N. lia.
  - destruct (i <? count) eqn:L; cbn [fst]; [|split; [exact F|apply N; lia]]. destruct (scan_line stdin []) as [[text rest]|]; [|reflexivity].
    set (input := to_lower E (trim_space E text)). assert (X : words ++ [input] <> []) by (destruct words; discriminate).
    destruct (fst (wl_search E input)) eqn:K; [|apply IH; auto]. assert (F' : Forall (fun w => In w (wl_words E)) (words ++ [input])).
    { apply Forall_app. split; [exact F|]. constructor; [|constructor]. apply SO. exact K. }
    destruct (i =? 0) eqn:I0; [|apply IH; auto; lia]. destruct (parse_mnemonic_version E input) as [v|e|]; apply IH; auto; lia.
Qed.
Lemma enter_nonempty E : search_ok E -> forall stdin ws rest, user_input_mnemonic E stdin = (Ok ws, rest) ->
  Forall (fun w => In w (wl_words E)) ws /\ ws <> [].
Proof.
  intros SO stdin ws rest Q. destruct (enter_inv E SO stdin 0 entry_start ws rest (inv_start E) Q) as (c & _ & F & (v & w & I & _) & _).
  split; [exact F|]. intros ->. destruct I.
Qed.
Lemma kept_stdin w x : kept w (set_stdin w x). Proof. constructor; auto. Qed.

Section env.
Variable E : Env.
Variable H : host.
Hypothesis W : wordlist_ok E.
Hypothesis SO : search_ok E.

Lemma first_index_of w0 ws : In w0 (wl_words E) -> exists i, first_index E (w0 :: ws) i /\ word_map E w0 = Some i.
Proof.
  intros I. destruct (word_map E w0) as [i|] eqn:M; [|apply word_map_none in M; contradiction]. exists i. split; [|reflexivity].
  apply (word_map_spec E W) in M as [B M]. split; [lia|]. exists w0, ws. split; [reflexivity|]. rewrite (to_lower_word E W w0 I). exact M.
Qed.

(** *** word files *)
Lemma loop_errors ts : forall n e, 0 <= n -> word_file_loop E n ts = Err e ->
  e = ErrWordFileWord /\ (exists t, In t ts /\ ~ known_word E t) \/ e = ErrWordFileFormat /\ 100 < n + zlen ts.
Proof.
  induction ts as [|t ts IH]; intros n e N; cbn [word_file_loop]; [discriminate|]. rewrite zlen_cons. pose proof (zlen_nonneg ts).
  destruct (word_map E (to_lower E t)) as [i|] eqn:M.
  - destruct (n + 1 >? 100) eqn:C; [intros [= <-]; right; split; [reflexivity|lia]|]. destruct (word_file_loop E (n + 1) ts) as [r|e'|] eqn:Q; cbn [bind]; try discriminate.
    intros [= ->]. destruct (IH (n + 1) e ltac:(lia) Q) as [[-> (u & U & K)]|[-> L]]; [left; split; [reflexivity|]; exists u; cbn; auto|right; split; [reflexivity|lia]].
  - intros [= <-]. left. split; [reflexivity|]. exists t. split; [left; reflexivity|]. apply word_map_none in M. exact M.
Qed.
Lemma loop_no_panic ts : forall n, word_file_loop E n ts <> Panic.
Proof.
  induction ts as [|t ts IH]; intros n; cbn [word_file_loop]; [discriminate|]. destruct (word_map E _); [|discriminate]. destruct (_ >? _); [discriminate|].
  specialize (IH (n + 1)). destruct (word_file_loop E (n + 1) ts); cbn [bind]; congruence.
Qed.
Lemma zlen_map {A B} (f : A -> B) l : zlen (map f l) = zlen l. Proof. unfold zlen. rewrite map_length. reflexivity. Qed.
Lemma raw_version w0 i : In w0 (wl_words E) -> word_map E w0 = Some i -> fst (parse_version_raw E w0) = i / 256.
Proof.
  intros I WM. unfold parse_version_raw. rewrite (to_lower_word E W w0 I), WM. cbn [fst]. unfold bits_per_word, version_bits. rewrite Z.shiftr_div_pow2 by lia. reflexivity.
Qed.
Lemma size_of_version v : mnemonic_size v = if v =? 0 then 14 else if v =? 1 then 16 else 0.
Proof. unfold mnemonic_size, payload_bit_count. destruct (v =? 0); [reflexivity|]. destruct (v =? 1); reflexivity. Qed.
Lemma word_file_errors path c e : parse_word_file E c = Err e -> file_complaint E H path (File c) e (word_file_text E H path c e).
Proof.
  unfold parse_word_file, word_file_text. remember (scan_words c 0 []) as ts eqn:TS. destruct (word_file_loop E 0 ts) as [ws|e'|] eqn:L; cbn [bind]; [| |discriminate].
  - apply (loop_ok E W) in L as (-> & F & L). destruct ts as [|t0 ts]; cbn [map] in *.
    + intros [= <-]. eapply File_empty; [reflexivity|]. symmetry. exact TS.
    + specialize (L ltac:(discriminate)). rewrite !zlen_cons in L. set (w0 := to_lower E t0) in *. inversion F as [|? ? F0 F1]; subst.
      destruct (first_index_of w0 (map (to_lower E) ts) F0) as (i & FI & WM). pose proof WM as WM'. apply (word_map_spec E W) in WM' as [WB NT].
      pose proof (raw_version w0 i F0 WM) as PV. unfold count_text. cbn [hd]. destruct (parse_version_raw E w0) as [v r]. cbn [fst] in PV. subst v.
      rewrite zlen_cons, zlen_map, size_of_version. destruct (negb (zlen ts + 1 =? _)) eqn:Q; [|discriminate]. intros [= <-]. pose proof (zlen_nonneg ts).
      assert (ZL : zlen (scan_words c 0 []) = zlen ts + 1) by (rewrite <- TS; apply zlen_cons).
      eapply File_count with (i := i); [reflexivity| | | | | | |].
      * unfold zlen in *. lia.
      * rewrite <- TS. constructor; [exact F0|]. apply Forall_forall. intros t T. rewrite Forall_forall in F1. apply F1, in_map, T.
      * rewrite <- TS. split; [lia|]. exists t0, ts. split; [reflexivity|exact NT].
      * rewrite ZL. lia.
      * rewrite ZL. apply number_itoa. lia.
      * apply number_itoa. destruct (i / 256 =? 0); [lia|]. destruct (i / 256 =? 1); lia.
      * apply number_itoa. lia.
  - intros [= ->]. destruct (loop_errors ts 0 e ltac:(lia) L) as [[-> (t & T & K)]|[-> K]]; subst ts.
    + eapply File_word; eauto.
    + eapply File_long; [reflexivity|]. unfold zlen in K. lia.
Qed.
Lemma speaks_word_file path w :
  speaks (fun x => x = []) (file_complaint E H path (w_files w path))
    (fun words w' x => read_word_file E path w = (Ret words, w') /\ w' = w /\ phrase_ok E words) (t_read_word_file E H path) w.
Proof.
  unfold speaks, t_read_word_file, t_then, quiet, read_word_file, andthen, open_file. destruct (w_files w path) as [room| |c| |] eqn:F;
    cbn [fst snd]; try (split; [reflexivity|]; apply File_closed; congruence).
  unfold lift. destruct (parse_word_file E c) as [ws|e|] eqn:P; cbn [of_res fst snd app]; split; try reflexivity.
  - split; [reflexivity|]. split; [reflexivity|]. apply (parse_tokens E W) in P. apply P.
  - apply word_file_errors, P.
Qed.
Lemma supported_words ws : phrase_ok E ws -> Forall (fun w => In w (wl_words E)) ws /\ ws <> [].
Proof. intros (F & w & t & -> & _). split; [exact F|discriminate]. Qed.
Lemma speaks_phrase o w :
  speaks (entry_text E H o w) (phrase_complaint E H o w)
    (fun words w' x => read_phrase E o w = (Ret words, w') /\ kept w w' /\ Forall (fun w => In w (wl_words E)) words /\ words <> [] /\
       (io_in_file o <> [] -> phrase_ok E words)) (t_read_phrase E H o) w.
Proof.
  unfold t_read_phrase, read_phrase, entry_text. destruct (io_in_file o) as [|b path] eqn:Q.
  - destruct (io_simple o || negb (w_tty w)) eqn:M.
    + unfold speaks, t_then, say, quiet, from_stdin. rewrite M. unfold user_input_mnemonic_simple.
      pose proof (simple_loop_facts E SO (S (length (w_stdin w))) 0 1 [] (w_stdin w) ltac:(lia) ltac:(lia) ltac:(lia) ltac:(constructor)) as L.
      destruct (simple_loop E _ 0 1 [] (w_stdin w)) as [r rest]. cbn [fst snd] in *. split.
      * rewrite app_nil_r. apply made_app.
        -- destruct (io_simple o); [apply made_nil|]. unfold fallback_warning. apply made_app; apply made_one; left; cbn [In]; auto 8.
        -- unfold simple_entry, simple_header. apply made_app; [|apply simple_writes_made; auto; lia].
           apply made_app; [apply made_one; left; right; right; left; reflexivity|]. apply made_app; apply made_one; left; cbn [In]; auto 8.
      * destruct r as [ws|e|]; cbn [of_res fst snd]; [|subst e|exact I].
        -- split; [reflexivity|]. split; [apply kept_stdin|]. split; [apply L|]. split; [apply L|congruence].
        -- apply Entry_simple_end; [exact Q|]. apply orb_true_iff in M as [M|M]; [auto|]. apply negb_true_iff in M. auto.
    + unfold speaks, t_then, say, quiet, from_stdin. rewrite M. apply orb_false_iff in M as [M1 M2]. apply negb_false_iff in M2.
      destruct (user_input_mnemonic E (w_stdin w)) as [r rest] eqn:U. cbn [fst snd]. rewrite app_nil_r. split; [reflexivity|]. destruct r as [ws|e|]; cbn [of_res fst snd]; [| |exact I].
      * destruct (enter_nonempty E SO _ _ _ U) as [F N]. split; [reflexivity|]. split; [apply kept_stdin|]. split; [exact F|]. split; [exact N|congruence].
      * destruct (entry_error_abort E _ _ _ _ U) as [[-> A]| ->]; [apply Entry_aborted; auto|apply Entry_end; auto].
  - eapply speaks_weaken; [apply (speaks_word_file (b :: path))| | |].
    + auto.
    + intros e x C. apply Entry_file; rewrite Q; [discriminate|exact C].
    + intros ws w' x (R & -> & P) _. split; [exact R|]. split; [apply kept_refl|]. destruct (supported_words ws P). auto.
Qed.

(** *** decoding *)
Lemma decode_complaint o w words w1 e : read_phrase E o w = (Ret words, w1) -> Forall (fun w => In w (wl_words E)) words -> words <> [] ->
  (io_in_file o <> [] -> phrase_ok E words) -> decode_mnemonic E words = Err e -> phrase_complaint E H o w e (decode_text E H words e).
Proof.
  intros R F N P D. pose proof D as D0. pose proof (proj1 (decode_exact E words (Err e) W) D) as O.
  assert (K : Forall (known_word E) words).
  { eapply Forall_impl; [|exact F]. intros x X. unfold known_word. rewrite (to_lower_word E W x X). exact X. }
  assert (PF : io_in_file o = [] \/ phrase_ok E words) by (destruct (io_in_file o); [left; reflexivity|right; apply P; discriminate]).
  inversion O as [Q|w0 r Q U|i FI V Q|i FI V L Q|i FI V L U Q|i n FI V L S C Q| |]; subst; try contradiction.
  - exfalso. apply U. inversion K; auto.
  - cbn [decode_text]. destruct words as [|w0 ws]; [congruence|]. pose proof F as F'. inversion F' as [|? ? F0 F1]; subst.
    destruct (first_index_of w0 ws F0) as (j & FJ & WM).
    assert (j = i).
    { destruct FI as (I0 & a & b & X & I1). injection X as <- <-. destruct FJ as (J0 & a & b & X & J1). injection X as <- <-.
      assert (Z.to_nat j = Z.to_nat i); [|lia]. eapply (proj1 (NoDup_nth_error (wl_words E))); [apply (wlo_nodup E W)| |congruence]. apply nth_error_Some. congruence. }
    subst j. destruct PF as [PF|PF].
    + unfold version_error. pose proof (raw_version w0 i F0 WM) as PV.
      destruct (parse_version_raw E w0) as [v r] eqn:PR. cbn [fst] in PV. subst v.
      replace (match r with Err ErrInvalidWord => _ | _ => _ end) with (bs "invalid version number in recovery phrase: " ++ itoa (i / 256)).
      * eapply Phrase_version; eauto. apply number_itoa. lia.
      * unfold parse_version_raw in PR. rewrite (to_lower_word E W w0 F0), WM in PR. injection PR as _ <-.
        unfold version_check. destruct (_ || _) || destruct (_ >? _); reflexivity.
    + exfalso. destruct PF as (_ & a & b & X & S & _). injection X as <- <-. unfold supported_first in S. unfold decode_mnemonic in D0.
      destruct (parse_mnemonic_version E w0) as [v|x|] eqn:V0; try discriminate.
      apply (parse_version_exact E w0 v W) in V0 as (j & J & NJ & ->). destruct FJ as (J0 & a & b & X & J1). injection X as <- <-.
      assert (Z.to_nat i = j); [|lia]. eapply (proj1 (NoDup_nth_error (wl_words E))); [apply (wlo_nodup E W)| |congruence]. apply nth_error_Some. congruence.
  - destruct PF as [PF|PF].
    + eapply Phrase_count; eauto.
    + exfalso. destruct PF as (_ & w0 & ws & -> & S & Z). unfold phrase_size in Z. unfold supported_first in S. 
      destruct (parse_mnemonic_version E w0) as [v|x|] eqn:V0; try discriminate.
      apply (parse_version_exact E w0 v W) in V0 as (j & J & NJ & ->). destruct FI as (I0 & a & b & X & I1). injection X as <- <-.
      assert (Z.to_nat i = j). { eapply (proj1 (NoDup_nth_error (wl_words E))); [apply (wlo_nodup E W)| |congruence]. apply nth_error_Some. congruence. }
      subst j. replace (Z.of_nat (Z.to_nat i / 256)) with (i / 256) in Z by (rewrite Nat2Z.inj_div; lia).
      rewrite size_of_version in Z. apply L. unfold phrase_words. unfold zlen in Z. destruct (i / 256 =? 0) eqn:V0; [lia|]. replace (i / 256 =? 1) with true in Z by lia. lia.
  - eapply Phrase_checksum; eauto.
Qed.

(** *** the password of a phrase *)
Hypothesis A : argon_ok E.
Hypothesis X : aes_ok E.
Lemma unlock_used_talk right : forall texts, match chosen false texts with
  | None => True
  | Some t => unlock_used right texts = (texts_used false texts + if right t then 0 else unlock_used right (skipn (texts_used false texts) texts))%nat
  end.
Proof.
  induction texts as [|t ts IH]; [exact I|]. destruct t as [|c t].
  - cbn [unlock_used chosen texts_used skipn]. destruct (chosen false ts); [|exact I]. rewrite IH. lia.
  - cbn [unlock_used chosen texts_used skipn]. lia.
Qed.
Lemma skipn_plus {T} a b (l : list T) : skipn a (skipn b l) = skipn (b + a) l.
Proof. revert b l. induction b as [|b IH]; intros l; [reflexivity|]. destruct l; [destruct a; reflexivity|]. cbn [skipn Nat.add]. apply IH. Qed.
Lemma encrypted_version dm : dm_encrypted dm = true <-> dm_version dm = 1.
Proof. unfold dm_encrypted, version_encrypted. lia. Qed.
Definition unlocked (dm : decoded) (w : world) (s : seed) (w' : world) (x : bytes) : Prop :=
  seed_ok s /\ kept w w' /\ x = when (dm_encrypted dm) (unlocking (opens E dm) (typed_texts (w_stdin w))) /\
  typed_texts (w_stdin w') = texts_after E dm w.
Lemma speaks_decrypt v ws dm : decode_mnemonic E ws = Ok dm -> forall fuel w, (length (w_stdin w) < fuel)%nat ->
  speaks (made_of (decode_piece v)) (fun e t => dm_encrypted dm = true /\ prompt_complaint H (w_tty w) false e t) (unlocked dm w) (t_decrypt_loop E H fuel dm) w.
Proof.
  intros D. destruct (dm_encrypted dm) eqn:En.
  - apply encrypted_version in En as V.
    induction fuel as [|f IH]; intros w L; [lia|]. unfold speaks. cbn [t_decrypt_loop]. rewrite En. fold (speaks (A:=seed)).
    change (speaks (made_of (decode_piece v)) (fun e t => true = true /\ prompt_complaint H (w_tty w) false e t) (unlocked dm w)
      (tell password <- t_password H decrypt_prompt false;
         fun w => match dm_decrypt_seed E dm password with
                  | Ok s => t_ret s w
                  | Err ErrMnemonicDecryption =>
                      (tell _ <- say (line (red (lib_text H ErrMnemonicDecryption))); t_decrypt_loop E H f dm) w
                  | Err e => t_fail e (lib_text H e) w
                  | Panic => ((Crash, w), ([], []))
                  end) w).
    eapply (speaks_step (decode_piece v)); [auto| | |].
    + eapply speaks_weaken; [apply (speaks_password H unlock_question false w)|..].
      * intros x. apply made_weaken. intros p P. left. exact P.
      * intros e x C. exact C.
      * intros a w' x Q _. exact Q.
    + auto.
    + intros pw w' x (K & T & N & CH & -> & U & LT) MX. pose proof (unlocking_talk (opens E dm) (typed_texts (w_stdin w))) as TK.
      pose proof (unlock_used_talk (opens E dm) (typed_texts (w_stdin w))) as UK. rewrite CH in TK, UK.
      assert (O : opens E dm pw = match dm_decrypt_seed E dm pw with Ok _ => true | _ => false end) by reflexivity.
      destruct (decrypt_seed_exact E ws dm pw W A X D V) as [[_ Q]|[_ Q]]; unfold speaks; rewrite Q; rewrite Q in O; rewrite O in TK, UK.
      * change (speaks (fun y => made_of (decode_piece v) (dialogue false unlock_question (typed_texts (w_stdin w)) ++ y))
          (fun e t => true = true /\ prompt_complaint H (w_tty w) false e t)
          (fun s w2 y => unlocked dm w s w2 (dialogue false unlock_question (typed_texts (w_stdin w)) ++ y))
          (tell _ <- say (line (red (lib_text H ErrMnemonicDecryption))); t_decrypt_loop E H f dm) w').
        eapply (speaks_step (decode_piece v)); [intros y; apply made_app; exact MX| | |].
        -- apply (speaks_say _ (fun _ _ => False) (fun _ w2 y => w2 = w' /\ y = wrong_notice)); [|auto]. apply made_one. right. left. reflexivity.
        -- intros ? ? [].
        -- intros [] w2 y [-> ->] MY. eapply speaks_weaken; [apply (IH w'); lia| | |].
           ++ intros z Z. apply made_app; [exact MX|]. apply made_app; auto.
           ++ intros e t [_ C]. rewrite (k_tty _ _ K) in C. auto.
           ++ intros s w3 z (S1 & S2 & S3 & S4) _. split; [exact S1|]. split; [eapply kept_trans; eauto|].
              rewrite En. cbn [when]. split.
              ** rewrite TK, S3, En, U. cbn [when]. reflexivity.
              ** rewrite S4. unfold texts_after. rewrite En, U, UK, skipn_plus. reflexivity.
      * unfold t_ret. cbn [fst snd]. rewrite app_nil_r. split; [exact MX|]. split; [|split; [exact K|]].
        -- split; [reflexivity|]. cbn [seed_value]. apply plain_of_cipher_bound; auto.
        -- rewrite app_nil_r in TK. rewrite En. cbn [when]. split; [symmetry; exact TK|]. rewrite U. unfold texts_after. rewrite En, UK, Nat.add_0_r. reflexivity.
  - intros fuel w L. destruct fuel as [|f]; [lia|]. unfold speaks. cbn [t_decrypt_loop]. rewrite En. unfold t_then, t_ret.
    assert (V : dm_version dm = 0).
    { pose proof (proj1 (decode_exact E ws (Ok dm) W) D) as O. inversion O; subst dm; [reflexivity|discriminate]. }
    destruct (plaintext_seed_exists E ws dm W D V) as (s & Q & S). rewrite decrypt_plaintext_ignores_password by lia. rewrite Q. cbn [fst snd app].
    split; [apply made_nil|]. split; [exact S|]. split; [apply kept_refl|]. rewrite En. split; [reflexivity|]. unfold texts_after. rewrite En. reflexivity.
Qed.

(** *** the phrase of a command *)
Lemma decoded_facts ws dm : decode_mnemonic E ws = Ok dm -> (dm_version dm = 0 \/ dm_version dm = 1) /\ 0 <= dm_offset dm < 2 ^ 31.
Proof. intros D. pose proof (proj1 (decode_exact E ws (Ok dm) W) D) as O. inversion O; subst dm; cbn [dm_version dm_offset]; auto. Qed.
Lemma phrase_table_ok dm : dm_version dm = 0 \/ dm_version dm = 1 ->
  exists text, print_debug_info (phrase_info dm) = Ok text /\ text ++ [10] = phrase_table (dm_encrypted dm).
Proof. intros [V|V]; unfold phrase_info, dm_encrypted; rewrite V; (eexists; split; [reflexivity|reflexivity]). Qed.
Lemma speaks_table v title rows text (S : bytes -> Prop) (C : err -> bytes -> Prop) (R : unit -> world -> bytes -> Prop) w : rows = Ok text -> S (when v ((title ++ [10]) ++ text ++ [10])) -> R tt w (when v ((title ++ [10]) ++ text ++ [10])) ->
  speaks S C R (if v then table title rows else t_ret tt) w.
Proof. intros -> S1 R1. destruct v; split; cbn; auto. Qed.
Definition phrase_read (v : bool) (o : input_options) (w : world) (p : seed * decoded) (w' : world) (x : bytes) : Prop :=
  exists words w1 entry, read_phrase E o w = (Ret words, w1) /\ decode_mnemonic E words = Ok (snd p) /\ entry_text E H o w entry /\
    seed_ok (fst p) /\ kept w w' /\ x = entry ++ decode_transcript E v (snd p) w1 /\ made_of (decode_piece v) (decode_transcript E v (snd p) w1) /\
    typed_texts (w_stdin w') = texts_after E (snd p) w1.
Lemma speaks_decode v o w :
  speaks (spoken (entry_text E H o w) (decode_piece v)) (phrase_complaint E H o w) (phrase_read v o w) (t_decode_mnemonic_from_input E H v o) w.
Proof.
  unfold t_decode_mnemonic_from_input.
  eapply speaks_then with (Q := fun words w1 x => (read_phrase E o w = (Ret words, w1) /\ kept w w1 /\ Forall (fun w => In w (wl_words E)) words /\ words <> [] /\
       (io_in_file o <> [] -> phrase_ok E words)) /\ entry_text E H o w x).
  { eapply speaks_weaken; [apply speaks_phrase| | |]; auto. intros x S. exists x, []. rewrite app_nil_r. split; [reflexivity|]. split; [exact S|apply made_nil]. }
  intros words w1 entry [(R & K & F & N & P) En]. assert (G : forall y, made_of (decode_piece v) y -> spoken (entry_text E H o w) (decode_piece v) (entry ++ y)).
  { intros y Y. exists entry, y. auto. }
  eapply (speaks_step (decode_piece v)) with (C0 := phrase_complaint E H o w) (Q := fun dm w2 x => w2 = w1 /\ x = [] /\ decode_mnemonic E words = Ok dm); [exact G| |auto|].
  { apply speaks_quiet; [apply made_nil| |].
    - intros dm w2 Q. unfold lift in Q. destruct (decode_mnemonic E words); try discriminate. injection Q as <- <-. auto.
    - intros e w2 Q. unfold lift in Q. destruct (decode_mnemonic E words) eqn:D; try discriminate. injection Q as <- <-. eapply decode_complaint; eauto. }
  intros dm w2 x (-> & -> & D) _. destruct (decoded_facts words dm D) as [V OF]. destruct (phrase_table_ok dm V) as (text & T1 & T2).
  set (tab := when v (phrase_title ++ phrase_table (dm_encrypted dm))).
  eapply (speaks_step (decode_piece v)) with (C0 := fun _ _ => False) (Q := fun _ w2 x => w2 = w1 /\ x = tab); [exact G| |contradiction|].
  { assert (TT : tab = when v ((bs "Decoded mnemonic recovery phrase:" ++ [10]) ++ text ++ [10])) by (unfold tab; rewrite T2; reflexivity).
    eapply speaks_table; [exact T1| |rewrite <- TT; auto]. rewrite <- TT. unfold tab. destruct v; [|apply made_nil]. cbn [when].
    apply made_app; apply made_one; right; right; (split; [reflexivity|]); [left; reflexivity|]. destruct (dm_encrypted dm); cbn [In]; auto. }
  intros [] w2 x [-> ->] MT.
  eapply (speaks_step (decode_piece v)) with (C0 := fun e t => dm_encrypted dm = true /\ prompt_complaint H (w_tty w1) false e t) (Q := unlocked dm w1).
  { intros y Y. apply G. apply made_app; [apply made_nil|]. apply made_app; auto. }
  { apply (speaks_decrypt v words dm D). lia. }
  { intros e t [EN C]. rewrite (k_tty _ _ K) in C. eapply Phrase_password; eauto. }
  intros s w2 x (S1 & S2 & S3 & S4) MX. apply speaks_ret.
  { apply G. rewrite app_nil_r. cbn [app]. apply made_app; auto. }
  exists words, w1, entry. cbn [fst snd]. rewrite app_nil_r. cbn [app]. subst x. split; [exact R|]. split; [exact D|]. split; [exact En|]. split; [exact S1|].
  split; [eapply kept_trans; eauto|]. split; [reflexivity|]. split; [unfold decode_transcript; apply made_app; auto|exact S4].
Qed.

(** *** options *)
Definition ttl_is (text : bytes) (ttl : Z) : Prop := text = [] /\ ttl = 0 \/ text <> [] /\ parse_ttl E text = Ok ttl.
Lemma speaks_ttl (S : bytes -> Prop) only text w : S [] ->
  speaks S (fun e t => e = ErrPrintUsage /\ option_complaint E H text only e t) (fun ttl w' x => x = [] /\ w' = w /\ ttl_is text ttl) (t_ttl_option E H text) w.
Proof.
  intros S0. apply speaks_quiet; [exact S0| |]; unfold ttl_option; destruct text as [|c text].
  - intros ttl w' [= <- <-]. split; [reflexivity|]. split; [reflexivity|]. left. auto.
  - intros ttl w' Q. destruct (parse_ttl E (c :: text)) as [d|e|] eqn:P; try discriminate. injection Q as <- <-. split; [reflexivity|]. split; [reflexivity|]. right. split; [discriminate|exact P].
  - intros e w' Q. discriminate.
  - intros e w' Q. destruct (parse_ttl E (c :: text)) as [d|e'|] eqn:P; try discriminate; injection Q as <- <-; (split; [reflexivity|apply Bad_ttl; [discriminate|intros d Q; congruence]]).
Qed.
Lemma first_bad (f : bytes -> bool) : forall l, filter f l = [] \/ exists before x after, l = before ++ x :: after /\ Forall (fun y => f y = false) before /\ f x = true /\ exists r, filter f l = x :: r.
Proof.
  induction l as [|a l IH]; [left; reflexivity|]. cbn [filter]. destruct (f a) eqn:Q.
  - right. exists [], a, l. split; [reflexivity|]. split; [constructor|]. split; [exact Q|]. eexists. reflexivity.
  - destruct IH as [IH|(b & x & r & -> & B & Fx & rr & Fr)]; [left; exact IH|]. right. exists (a :: b), x, r. split; [reflexivity|]. split; [constructor; auto|]. split; [exact Fx|]. exists rr. exact Fr.
Qed.
Lemma speaks_only (S : bytes -> Prop) ttl text w : S [] ->
  speaks S (fun e t => e = ErrPrintUsage /\ option_complaint E H ttl text e t) (fun _ w' x => x = [] /\ w' = w) (t_only H text) w.
Proof.
  intros S0. apply speaks_quiet; [exact S0| |]; unfold lift.
  - intros p w' Q. injection Q as _ <-. auto.
  - intros e w' Q. destruct (decode_only_key_types text) as [p|e'|] eqn:D; try discriminate. injection Q as <- <-. destruct (split_parts text) as [F J].
    unfold only_text. set (f := fun x => negb (bytes_eqb x (bs "master") || bytes_eqb x type_encryption || bytes_eqb x type_authentication || bytes_eqb x type_signing)).
    assert (NE : text <> []) by (intros ->; discriminate).
    assert (FX : forall y, f y = false <-> In y [bs "master"; bs "encryption"; bs "authentication"; bs "signing"]).
    { intros y. unfold f. rewrite negb_false_iff, !orb_true_iff, !bytes_eqb_eq. cbn [In]. unfold type_encryption, type_authentication, type_signing. intuition congruence. }
    destruct (first_bad f (split_on 44 text)) as [N|(b & x & r & L & B & Fx & rr & Fr)].
    + exfalso. assert (AA : Forall (fun p => p = bs "master" \/ key_type_name p) (split_on 44 text)).
      { apply Forall_forall. intros y Y. assert (f y = false).
        { destruct (f y) eqn:Q; [|reflexivity]. assert (In y (filter f (split_on 44 text))) by (apply filter_In; auto). rewrite N in *. contradiction. }
        apply FX in H0. unfold key_type_name. cbn [In] in *. intuition congruence. }
      destruct (only_accepted text (split_on 44 text) NE (split_on_nonempty 44 text) F J AA) as (m & ts & Q & _). congruence.
    + rewrite Fr. assert (e' = ErrPrintUsage).
      { rewrite (only_refused text (split_on 44 text) x NE F J) in D; [congruence|rewrite L; apply in_or_app; right; left; reflexivity| |].
        - intros ->. discriminate.
        - intros KT. assert (f x = false); [|congruence]. apply FX. unfold key_type_name in KT. cbn [In] in *. intuition. }
      subst e'. split; [reflexivity|]. eapply Bad_only; [exact NE|rewrite <- L; symmetry; exact J|rewrite <- L; exact F| |].
      * eapply Forall_impl; [|exact B]. intros y. apply FX.
      * intros I0. apply FX in I0. congruence.
Qed.

(** *** the seed *)
Lemma seed_errors src e : Forall byte src -> generate_seed src = Err e -> e = ErrRandomSource.
Proof. intros B G. destruct (generate_seed_exact src B) as [G1 G2]. destruct (Nat.le_gt_cases 16 (length src)); [rewrite G1 in G by auto; discriminate|rewrite G2 in G by auto; congruence]. Qed.
Lemma speaks_seed v o w : world_ok w ->
  speaks (made_of (generate_piece E H v o)) (generate_complaint E H o w)
    (fun s w' x => seed_ok s /\ kept w w' /\ w_stdin w' = after_seed o (w_stdin w) /\ x = when (nonempty (go_entropy o)) entropy_notice)
    (t_seed_from_source H (go_entropy o)) w.
Proof.
  intros (B1 & B2 & B3). pose proof (seed_source_ok o w) as SK.
  assert (KW : forall s w', seed_from_source (go_entropy o) w = (Ret s, w') -> w_width w' = w_width w).
  { intros s w'. unfold seed_from_source, with_random, andthen, open_file, lift. destruct (go_entropy o) as [|c r].
    - destruct (generate_seed (w_random w)) as [[a b]|e|]; intros [=]; subst; reflexivity.
    - destruct (bytes_eqb _ _).
      + destruct (generate_seed (w_stdin w)) as [[a b]|e|]; intros [=]; subst; reflexivity.
      + destruct (w_files w (c :: r)); intros [=]; subst; reflexivity. }
  assert (OK : forall s w', seed_from_source (go_entropy o) w = (Ret s, w') -> seed_ok s /\ kept w w' /\ w_stdin w' = after_seed o (w_stdin w)).
  { intros s w' Q. destruct (SK s w' (conj B1 (conj B2 B3)) Q) as (S1 & S2 & S3 & S4 & S5 & S6 & S7). specialize (KW s w' Q). split; [exact S1|]. split; [|exact S3]. constructor; auto. }
  assert (BAD : forall e w', seed_from_source (go_entropy o) w = (Fail e, w') -> e = ErrRandomSource \/
    e = ErrFileNotFound /\ go_entropy o <> [] /\ go_entropy o <> bs "-" /\ (forall c, w_files w (go_entropy o) <> File c)).
  { intros e w'. unfold seed_from_source, with_random, andthen, open_file, lift. destruct (go_entropy o) as [|c r].
    - destruct (generate_seed (w_random w)) as [[a b]|x|] eqn:G; intros [=]; subst. left. eapply seed_errors; eauto.
    - destruct (bytes_eqb (c :: r) (bs "-")) eqn:D.
      + destruct (generate_seed (w_stdin w)) as [[a b]|x|] eqn:G; intros [=]; subst. left. eapply seed_errors; eauto.
      + apply bytes_eqb_neq in D. destruct (w_files w (c :: r)) as [room| |content| |] eqn:F; intros Q.
        3:{ destruct (generate_seed content) as [[a b]|x|] eqn:G; cbn [bind of_res] in Q; try discriminate. injection Q as <- <-. left. eapply seed_errors; [|exact G]. eapply B3; eauto. }
        all: injection Q as <- <-; right; split; [reflexivity|]; split; [discriminate|]; split; [exact D|intros; congruence]. }
  unfold t_seed_from_source. destruct (go_entropy o) as [|c r] eqn:Q.
  - apply speaks_quiet; [apply made_nil| |].
    + intros s w' SS. destruct (OK s w' SS) as (S1 & S2 & S3). auto.
    + intros e w' SS. destruct (BAD e w' SS) as [->|(-> & N & _)]; [apply Gen_entropy|congruence].
  - apply speaks_then with (Q := fun _ w' x => w' = w /\ x = entropy_notice).
    + apply speaks_say; [|auto]. apply made_one. left. split; [rewrite Q; discriminate|reflexivity].
    + intros [] w' x [-> ->]. apply speaks_quiet.
      * rewrite app_nil_r. apply made_one. left. split; [rewrite Q; discriminate|reflexivity].
      * intros s w' SS. destruct (OK s w' SS) as (S1 & S2 & S3). rewrite app_nil_r. auto.
      * intros e w' SS. destruct (BAD e w' SS) as [->|(-> & N & N2 & N3)]; [apply Gen_entropy|]. rewrite <- Q in *. apply Gen_entropy_file; auto.
Qed.

(** *** the key *)
Hypothesis HK : hkdf_ok E.
Hypothesis HH : hash_ok E.
Lemma new_cases s t opts : seed_ok s -> opts_ok (opts_of opts) ->
  match mnk_new E s t opts with
  | Ok m => seed_ok (mnk_seed m) /\ 0 <= mnk_creation_offset m < 2 ^ 31
  | Err e => e = ErrTTLInvalid /\ ko_ttl (opts_of opts) < 0 \/
             e = ErrCreationTooLate /\ last_second * ns < t \/ e = ErrCreationTooEarly /\ t < first_second * ns
  | Panic => False
  end.
Proof.
  intros SD OP. destruct (new_error_order E s t opts SD) as (N1 & N2 & N3). cbn zeta in *.
  destruct (Z.lt_ge_cases (ko_ttl (opts_of opts)) 0) as [L|L]; [rewrite N1 by auto; auto|].
  destruct (Z.lt_ge_cases (last_second * ns) t) as [L2|L2]; [rewrite N2 by auto; auto|].
  destruct (Z.lt_ge_cases t (first_second * ns)) as [L3|L3]; [rewrite N3 by auto; auto|].
  change ns with second in *. rewrite (mnk_new_window E s t opts HK SD OP L) by lia. rewrite creation_offset_ok by lia. split; [exact SD|].
  apply window_second. lia.
Qed.

(** *** the export *)
Definition exported (pw tape : bytes) (r : res (bytes * bytes)) : Prop :=
  match r with Ok (_, rest) => exists n, rest = skipn n tape | Err e => e = ErrRandomSource /\ pw <> [] | Panic => True end.
Definition safe {T} (r : res T) : Prop := forall e, r <> Err e.
Lemma exported_bind pw tape r f : exported pw tape r -> (forall a n, exported pw (skipn n tape) (f a (skipn n tape))) -> exported pw tape (let* (a, rest) := r in f a rest).
Proof.
  intros R F. destruct r as [[a rest]|e|]; cbn [bind]; auto. destruct R as [n ->]. specialize (F a n).
  destruct (f a (skipn n tape)) as [[b rest]|e|]; auto. destruct F as [k ->]. exists (n + k)%nat. apply skipn_plus.
Qed.
Lemma exported_safe {T} pw tape (r : res T) f : safe r -> (forall a, exported pw tape (f a)) -> exported pw tape (let* a := r in f a).
Proof. intros R F. destruct r as [a|e|]; cbn [bind]; auto; [|exact I]. destruct (R e eq_refl). Qed.
Lemma exported_ok pw tape x : exported pw tape (Ok (x, tape)). Proof. exists 0%nat. reflexivity. Qed.
Lemma sign_safe k rq : safe (sign E k rq). Proof. intros e. unfold sign. destruct (hash_new E (rq_hash rq)); discriminate. Qed.
Lemma bind_safe {T U} (r : res T) (f : T -> res U) : safe r -> (forall a, safe (f a)) -> safe (let* a := r in f a).
Proof. intros R F e. destruct r as [a|x|]; cbn [bind]; [apply F|destruct (R x eq_refl)|discriminate]. Qed.
Lemma bind_subkey_safe m k fl x : safe (bind_subkey E m k fl x).
Proof.
  unfold bind_subkey. apply bind_safe; [|intros; apply sign_safe]. destruct (negb _); [|intros e; discriminate].
  destruct (ec_signing k); [|intros e; discriminate]. apply bind_safe; [apply sign_safe|intros a e; discriminate].
Qed.
Lemma read_full_exported pw tape n : pw <> [] -> exported pw tape (read_full tape n).
Proof. intros N. unfold read_full. destruct (Nat.ltb _ _); [split; auto|]. exists n. reflexivity. Qed.
Lemma s2k_key pw salt c : match string_to_key E default_s2k_hash pw salt c with Ok k => aes_key_ok k = true | Err _ => False | Panic => True end.
Proof.
  unfold string_to_key. change (hash_new E default_s2k_hash) with (Some (sha256 E)). destruct (_ =? 0); [exact I|].
  unfold aes_key_ok, zlen. rewrite (proj1 (proj2 (HH _))). reflexivity.
Qed.
Lemma encode_private_exported k pw tape : exported pw tape (encode_private E k pw tape).
Proof.
  unfold encode_private. destruct (zlen pw >? 0) eqn:Z; [|apply exported_ok].
  assert (N : pw <> []) by (intros ->; discriminate). apply exported_bind; [|intros; apply exported_ok].
  unfold encrypt_s2k. apply exported_bind; [apply read_full_exported, N|]. intros salt n. apply exported_bind; [apply read_full_exported, N|]. intros iv n'.
  pose proof (s2k_key pw salt (s2k_count_decode s2k_count_maximum)) as KEY. destruct (string_to_key E _ pw salt _) as [key|e|]; cbn [bind]; [|contradiction|exact I].
  rewrite KEY. cbn [negb]. change (hash_size default_s2k_hash) with 32. cbn [Z.eqb bind]. apply exported_ok.
Qed.
Lemma subkey_exported m k fl x pw tape : exported pw tape (subkey_packets E m k fl x pw tape).
Proof.
  unfold subkey_packets, private_packet. apply exported_bind; [apply exported_bind; [apply encode_private_exported|intros; apply exported_ok]|].
  intros p n. apply exported_safe; [apply bind_subkey_safe|intros; apply exported_ok].
Qed.
Lemma swap_safe {T} (l : list T) i j : safe (swap l i j). Proof. intros e. unfold swap. destruct (nth_error l i), (nth_error l j); discriminate. Qed.
Lemma shuffle_safe {T} sd : forall i k (l : list T), safe (shuffle_from E sd i k l).
Proof. induction i as [|i IH]; intros k l; cbn [shuffle_from]; [intros e; discriminate|]. apply bind_safe; [apply swap_safe|intros; apply IH]. Qed.
Lemma subkeys_exported ks pw tape : exported pw tape (all_subkey_packets E ks pw tape).
Proof.
  unfold all_subkey_packets. apply exported_bind; [destruct (ks_enc ks); [apply subkey_exported|apply exported_ok]|]. intros g0 n0.
  apply exported_bind; [destruct (ks_auth ks); [apply subkey_exported|apply exported_ok]|]. intros g1 n1.
  apply exported_bind; [destruct (ks_sign ks); [apply subkey_exported|apply exported_ok]|]. intros g2 n2.
  apply exported_safe; [apply shuffle_safe|intros; apply exported_ok].
Qed.
Lemma cert_safe ks : safe (self_certification E ks).
Proof. unfold self_certification, self_certify. apply bind_safe; [apply sign_safe|intros a e; discriminate]. Qed.
Lemma armor_exported master m pw c tape : exported pw tape (if master : bool then mnk_encode_pgp_armor E m pw tape else mnk_encode_subkeys_pgp_armor E m pw c tape).
Proof.
  destruct master; unfold mnk_encode_pgp_armor, mnk_encode_subkeys_pgp_armor; (apply exported_bind; [|intros; apply exported_ok]).
  - unfold mnk_encode_pgp, encode_packets. apply exported_bind; [unfold private_packet; apply exported_bind; [apply encode_private_exported|intros; apply exported_ok]|].
    intros p n. apply exported_safe; [apply cert_safe|]. intros ct. apply exported_bind; [apply subkeys_exported|intros; apply exported_ok].
  - unfold mnk_encode_subkeys_pgp, encode_subkey_packets. apply exported_safe; [destruct c; [apply cert_safe|intros e; discriminate]|].
    intros ct. apply exported_bind; [apply subkeys_exported|intros; apply exported_ok].
Qed.
Lemma skipn_bytes n l : Forall byte l -> Forall byte (skipn n l). Proof. intros F. apply skipn_byte. exact F. Qed.
Lemma speaks_export (S : bytes -> Prop) master m pw c w : S [] ->
  speaks S (fun e t => pw <> [] /\ e = ErrRandomSource /\ t = h_export H)
    (fun armor w' x => x = [] /\ kept w w' /\ w_stdin w' = w_stdin w /\
       exists tape rest, mnk_encode_pgp_armor E m pw tape = Ok (armor, rest) \/ exists c, mnk_encode_subkeys_pgp_armor E m pw c tape = Ok (armor, rest))
    (quiet (with_random (if master : bool then mnk_encode_pgp_armor E m pw else mnk_encode_subkeys_pgp_armor E m pw c)) (export_text H)) w.
Proof.
  intros S0. pose proof (armor_exported master m pw c (w_random w)) as X0.
  assert (Q0 : (if master then mnk_encode_pgp_armor E m pw else mnk_encode_subkeys_pgp_armor E m pw c) (w_random w) =
               (if master then mnk_encode_pgp_armor E m pw (w_random w) else mnk_encode_subkeys_pgp_armor E m pw c (w_random w))) by (destruct master; reflexivity).
  apply speaks_quiet; [exact S0| |]; unfold with_random; rewrite Q0.
  - intros armor w' Q. destruct master.
    + destruct (mnk_encode_pgp_armor E m pw (w_random w)) as [[a rest]|e|] eqn:M; try discriminate. injection Q as <- <-. destruct X0 as [n ->].
      split; [reflexivity|]. split; [constructor; cbn; auto; apply skipn_bytes|]. split; [reflexivity|]. eexists _, _. left. exact M.
    + destruct (mnk_encode_subkeys_pgp_armor E m pw c (w_random w)) as [[a rest]|e|] eqn:M; try discriminate. injection Q as <- <-. destruct X0 as [n ->].
      split; [reflexivity|]. split; [constructor; cbn; auto; apply skipn_bytes|]. split; [reflexivity|]. eexists _, _. right. exists c. exact M.
  - intros e w' Q. destruct (if master then _ else _) as [[a rest]|x|]; try discriminate. injection Q as <- <-. destruct X0 as [-> N]. auto.
Qed.

(** *** encoding and saving the phrase *)
Lemma encode_plain s off : seed_ok s -> 0 <= off < 2 ^ 31 -> exists ws, encode_mnemonic_plaintext E s off = Ok ws /\ (length ws <= 16)%nat.
Proof. intros SD OF. rewrite plaintext_layout by auto. eexists. split; [reflexivity|]. rewrite words_of_int_length. lia. Qed.
Lemma encode_enc s off pw src : seed_ok s -> 0 <= off < 2 ^ 31 -> pw <> [] -> Forall byte src ->
  (exists ws, encode_mnemonic_encrypted E s off pw src = Ok ws /\ (length ws <= 16)%nat) \/ encode_mnemonic_encrypted E s off pw src = Err ErrRandomSource.
Proof.
  intros SD OF N B. destruct (Nat.le_gt_cases 3 (length src)) as [L|L].
  - left. rewrite encrypted_layout by auto. eexists. split; [reflexivity|]. rewrite words_of_int_length. lia.
  - right. apply (encrypted_phrase_salt E s off pw src [] (mk_decoded 0 0 0 0 0)); auto.
Qed.
(** encoding, behind a password prompt or without one *)
Lemma speaks_encode (enc : bool) s off w : seed_ok s -> 0 <= off < 2 ^ 31 -> Forall byte (w_random w) ->
  speaks (made_of (fun p => enc = true /\ prompt_piece phrase_question p))
    (fun e t => enc = true /\ (prompt_complaint H (w_tty w) true e t \/ e = ErrRandomSource /\ t = h_source H))
    (fun ws w' x => kept w w' /\ (length ws <= 16)%nat /\ x = when enc (dialogue true phrase_question (typed_texts (w_stdin w))))
    (if enc then tell pw <- t_password H phrase_prompt true;
                 quiet (fun w => (of_res (encode_mnemonic_encrypted E s off pw (w_random w)), w)) (lib_text H)
     else quiet (lift (encode_mnemonic_plaintext E s off)) (lib_text H)) w.
Proof.
  intros SD OF B. destruct enc.
  - eapply (speaks_step (prompt_piece phrase_question)); [|apply speaks_password| |].
    + intros y Y. eapply made_weaken; [|exact Y]. auto.
    + auto.
    + intros pw w' x (K & T & N & _ & X0 & _) MX. destruct (encode_enc s off pw (w_random w') SD OF N (k_random _ _ K B)) as [(ws & EW & LW)|EW].
      * apply speaks_quiet; [rewrite app_nil_r; eapply made_weaken; [|exact MX]; auto| |]; rewrite EW; intros ? ? [=]; subst. rewrite app_nil_r. auto.
      * apply speaks_quiet; [rewrite app_nil_r; eapply made_weaken; [|exact MX]; auto| |]; rewrite EW; intros ? ? [=]; subst. auto.
  - destruct (encode_plain s off SD OF) as (ws & EW & LW). apply speaks_quiet; [apply made_nil| |]; unfold lift; rewrite EW; intros ? ? [=]; subst.
    split; [apply kept_refl|]. auto.
Qed.
Lemma speaks_save (S : bytes -> Prop) words path w : S [] ->
  speaks S (save_complaint H path (w_files w path))
    (fun _ w' x => x = [] /\ w_width w' = w_width w /\ w_stdout w' = w_stdout w /\ w_shown w' = w_shown w) (t_save_mnemonic H words path) w.
Proof.
  intros S0. apply (speaks_quiet S _ _ (save_mnemonic words path) (fun _ => save_text H path (w_files w path)) w); [exact S0| |]; unfold save_mnemonic, save_mnemonic_with, write_file, set_files; cbn [w_files].
  - intros [] w' Q. destruct (w_files w path) as [[room|]| |content| |] eqn:F; cbn [write_node] in Q; try discriminate.
    all: repeat match type of Q with context [if ?b then _ else _] => destruct b end; cbn [of_res] in Q; try discriminate; injection Q as <-; auto.
  - intros e w' Q. unfold save_text. destruct (w_files w path) as [[room|]| |content| |] eqn:F; cbn [write_node] in Q; try discriminate.
    all: repeat match type of Q with context [if ?b then _ else _] => destruct b end; cbn [of_res] in Q; try discriminate; injection Q as <- _.
    all: first [apply Save_exists; eauto; fail | apply Save_blocked; reflexivity | apply Save_fails; eauto].
Qed.
(** *** the printed phrase *)
Lemma number_digits n : 0 <= n < 100 -> (length (itoa n) <= 2)%nat.
Proof.
  intros N. assert (Q : forallb (fun k => Nat.leb (length (itoa (Z.of_nat k))) 2) (seq 0 100) = true) by (vm_compute; reflexivity).
  rewrite forallb_forall in Q. specialize (Q (Z.to_nat n)). rewrite Z2Nat.id in Q by lia. apply Nat.leb_le, Q, in_seq. lia.
Qed.
Lemma lines_rows : forall words i, 0 <= i -> i + zlen words < 99 -> exists rows, CliScreen.phrase_lines i words = Ok rows /\ TraceSpec.phrase_rows (i + 1) words rows.
Proof.
  induction words as [|a words IH]; intros i I0 L; cbn [CliScreen.phrase_lines]; [exists []; split; [reflexivity|constructor]|].
  rewrite zlen_cons in L. assert (LL := zlen_nonneg words). pose proof (number_digits (i + 1) ltac:(lia)) as D. unfold phrase_line, zlen.
  replace (4 - Z.of_nat (length (itoa (i + 1))) <? 0) with false by lia. cbn [bind]. destruct (IH (i + 1) ltac:(lia) ltac:(lia)) as (rows & Q & R). rewrite Q. cbn [bind].
  eexists. split; [reflexivity|]. replace (Z.to_nat (4 - Z.of_nat (length (itoa (i + 1))))) with (4 - length (itoa (i + 1)))%nat by lia.
  rewrite <- !app_assoc. exact (Rows_more (i + 1) a words (itoa (i + 1)) rows (number_itoa (i + 1) ltac:(lia)) ltac:(lia) R).
Qed.
Lemma speaks_block (S : bytes -> Prop) C words w : (length words <= 16)%nat -> (forall y, phrase_block (w_width w) words y -> S y) ->
  speaks S C (fun _ w' x => w_shown w' = w_shown w ++ [words] /\ w_stdout w' = w_stdout w /\ phrase_block (w_width w) words x) (t_print_mnemonic words) w.
Proof.
  intros L SB. destruct (lines_rows words 0 ltac:(lia) ltac:(unfold zlen; lia)) as (rows & Q & R). unfold speaks, t_print_mnemonic, print_mnemonic. rewrite Q. cbn [fst snd].
  match goal with |- S ?t /\ _ => assert (PB : phrase_block (w_width w) words t) end.
  { exists rows, (match justify_terminal_width (w_width w) 0 save_reminder with Text t => t ++ never_again | _ => [] end).
    split; [|split; [exact R|destruct (justify_terminal_width (w_width w) 0 save_reminder); reflexivity]].
    destruct (justify_terminal_width (w_width w) 0 save_reminder); [|reflexivity..]. unfold underline, never_again, sgr. cbn [app]. rewrite <- ?app_assoc. reflexivity. }
  split; [apply SB; exact PB|]. destruct (justify_terminal_width (w_width w) 0 save_reminder) eqn:J; cbn [of_justified]; auto.
Qed.
Lemma speaks_print_key (P : bytes -> Prop) C armor w : P magenta_on -> P colour_off ->
  speaks (made_of P) C
    (fun _ w' x => x = magenta_on ++ colour_off /\ w_stdout w' = w_stdout w ++ [armor ++ [10]] /\ w_shown w' = w_shown w /\ w_width w' = w_width w)
    (t_print_key armor) w.
Proof.
  intros P1 P2. unfold speaks, t_print_key, t_then, say, quiet, print_out. cbn [fst snd]. split.
  - apply made_app; [apply made_one; exact P1|]. apply made_app; [apply made_nil|apply made_one; exact P2].
  - auto.
Qed.
Ltac gather := repeat first [assumption | apply made_nil | apply made_app].
Ltac silent := match goal with |- forall y, made_of _ y -> _ => intros ? ? | _ => idtac end; rewrite ?app_nil_r; eexists _, []; split; [symmetry; apply app_nil_r|split; [|left; reflexivity]]; gather.

Lemma speaks_generate v o w : world_ok w ->
  speaks (generate_says E H v o w) (generate_complaint E H o w) (fun _ w' x => generate_transcript E H v o w w' x) (t_generate E H v o) w.
Proof.
  intros WO. set (P := generate_piece E H v o). unfold generate_says. fold P.
  assert (RW : Forall byte (w_random w)) by apply WO.
  unfold t_generate. change (fun w0 => ?f w0) with f.
  eapply (speaks_step P); [silent|apply (speaks_ttl (made_of P) (go_only o)), made_nil|intros e t [_ C]; apply Gen_option; exact C|].
  intros ttl w1 x1 (-> & -> & TT) _.
  eapply (speaks_step P); [silent|apply (speaks_only (made_of P) (go_ttl o)), made_nil|intros e t [_ C]; apply Gen_option; exact C|].
  intros [master types] w1 x1 (-> & ->) _.
  eapply (speaks_step P); [silent|apply (speaks_seed v o w WO)|auto|].
  intros s w1 x1 (SD & K1 & I1 & X1) M1.
  set (opts := Some (mk_opts (trim_space E (go_name o)) (trim_space E (go_email o)) ttl 0 0 0 types)).
  pose proof (new_cases s (w_now w) opts SD) as NC. assert (OP : opts_ok (opts_of opts)) by (unfold opts_ok, opts, opts_of; cbn; lia). specialize (NC OP).
  eapply (speaks_step P) with (C0 := generate_complaint E H o w) (Q := fun m w' x => w' = w1 /\ x = [] /\ seed_ok (mnk_seed m) /\ 0 <= mnk_creation_offset m < 2 ^ 31); [silent| |auto|].
  { apply speaks_quiet; [apply made_nil| |]; unfold lift.
    - intros m w' Q. destruct (mnk_new E s (w_now w) opts); try discriminate. injection Q as <- <-. tauto.
    - intros e w' Q. destruct (mnk_new E s (w_now w) opts) as [m|e'|]; try discriminate. injection Q as <- <-.
      destruct NC as [[-> L]|[[-> L]|[-> L]]]; [|apply Gen_late; exact L|apply Gen_early; exact L].
      apply Gen_option. unfold opts, opts_of in L. cbn [ko_ttl] in L. destruct TT as [[_ ->]|[_ TT]]; [lia|]. eapply Negative_ttl; eauto. }
  clear NC OP. clearbody opts.
  intros m w' x (-> & -> & SM & OM) _.
  set (q1 := when (go_encrypt_keys o) (dialogue true key_question (typed_texts (w_stdin w1)))).
  eapply (speaks_step P) with (C0 := generate_complaint E H o w)
    (Q := fun pw w2 x => kept w1 w2 /\ (pw <> [] -> go_encrypt_keys o = true) /\ x = q1 /\
            typed_texts (w_stdin w2) = skipn (if go_encrypt_keys o then texts_used true (typed_texts (w_stdin w1)) else 0) (typed_texts (w_stdin w1))); [silent| |auto|].
  { unfold q1. destruct (go_encrypt_keys o) eqn:EK.
    - eapply speaks_weaken; [apply speaks_password| | |].
      + intros x MX. eapply made_weaken; [|exact MX]. intros p Pp. right. left. auto.
      + intros e t C. apply Gen_password; [auto|]. rewrite (k_tty _ _ K1) in C. exact C.
      + intros pw w2 x (K & T & N & _ & X0 & TX & _) _. auto.
    - apply speaks_ret; [apply made_nil|]. split; [apply kept_refl|]. auto. }
  intros pw w2 x2 (K2 & PW & X2 & T2) M2.
  eapply (speaks_step P); [silent|apply speaks_export; apply made_nil|intros e t (N & -> & ->); apply Gen_random; auto|].
  intros armor w3 x (-> & K3 & I3 & PR) _.
  assert (KK : kept w w3) by (eapply kept_trans; [exact K1|]; eapply kept_trans; eauto).
  eapply (speaks_step P); [silent| | |].
  { eapply speaks_weaken with (R' := fun ws w' x => kept w3 w' /\ (length ws <= 16)%nat /\ x = when (go_encrypt_phrase o) (dialogue true phrase_question (typed_texts (w_stdin w3)))); [exact (speaks_encode (go_encrypt_phrase o) (mnk_seed m) (mnk_creation_offset m) w3 SM OM (k_random _ _ KK RW))| | |].
    - intros x MX. eapply made_weaken; [|exact MX]. intros p [EP Pp]. right. right. left. auto.
    - intros e t C. exact C.
    - auto. }
  { intros e t [EP [C|[-> ->]]]; [|apply Gen_phrase_random; exact EP]. rewrite (k_tty _ _ KK) in C. apply Gen_password; auto. }
  intros ws w4 x4 (K4 & LW & X4) M4. assert (KK4 : kept w w4) by (eapply kept_trans; eauto).
  eapply (speaks_step P) with (C0 := fun e t => go_out_file o <> [] /\ save_complaint H (go_out_file o) (w_files w4 (go_out_file o)) e t)
    (Q := fun _ w' x => x = [] /\ w_width w' = w_width w4 /\ w_stdout w' = w_stdout w4 /\ w_shown w' = w_shown w4); [silent| | |].
  { destruct (go_out_file o) as [|c r]; [apply speaks_ret; [apply made_nil|auto]|]. eapply speaks_weaken; [apply (speaks_save (made_of P)), made_nil|auto| |auto]. intros e t C. split; [discriminate|exact C]. }
  { intros e t [N C]. apply Gen_save; [exact N|]. rewrite <- (k_files _ _ KK4). exact C. }
  intros [] w5 x (-> & W5 & O5 & S5) _. destruct (key_info_ok E (h_quote H) (h_time H) m) as [text TX].
  set (rows := when v (generate_title ++ text ++ [10])).
  eapply (speaks_step P) with (C0 := fun _ _ => False) (Q := fun _ w' x => w' = w5 /\ x = rows); [silent| |contradiction|].
  { eapply speaks_table; [exact TX| |unfold rows, generate_title; auto]. change (made_of P rows). unfold rows. destruct v eqn:V; [|apply made_nil]. cbn [when].
    apply made_app; apply made_one; right; right; right; right; right; (split; [reflexivity|]); [left; reflexivity|]. right. exists m, text. auto. }
  intros [] w' x6 [-> X6] M6.
  eapply (speaks_step P); [silent|apply (speaks_print_key P (fun _ _ => False)); right; right; right; [left|right; left]; reflexivity|contradiction|].
  intros [] w7 x7 (X7 & O7 & S7 & W7) M7.
  assert (TS : table_shown E H v generate_title w w7 rows).
  { unfold table_shown, rows. destruct v; [|reflexivity]. exists m, (text ++ [10]). split; [reflexivity|]. split; [exists text; auto|].
    destruct PR as (tape & rest & PR). exists armor, pw, tape, rest. rewrite O7, O5, (k_stdout _ _ KK4). split; [reflexivity|exact PR]. }
  assert (ST : typed_texts (w_stdin w1) = typed_texts (if bytes_eqb (go_entropy o) (bs "-") then skipn 16 (w_stdin w) else w_stdin w)) by (rewrite I1; reflexivity).
  assert (Q4 : x4 = when (go_encrypt_phrase o) (dialogue true phrase_question (skipn (if go_encrypt_keys o then texts_used true (typed_texts (w_stdin w1)) else 0) (typed_texts (w_stdin w1))))).
  { rewrite X4, I3, T2. reflexivity. }
  destruct (go_out_file o) as [|c r] eqn:OF.
  - eapply speaks_weaken; [apply (speaks_block _ (fun _ _ => False) ws w7 LW (fun y Y => Y))| |contradiction|].
    + intros y PB. rewrite W7, W5, (k_width _ _ KK4) in PB. eexists _, y. rewrite !app_assoc. split; [reflexivity|]. split; [gather|]. right. eauto.
    + intros [] w8 y (S8 & O8 & PB) _. rewrite W7, W5, (k_width _ _ KK4) in PB. exists rows, y.
      split; [unfold table_shown in *; destruct v; [|exact TS]; destruct TS as (m' & r' & T1 & T3 & a' & pw' & t' & rest' & T4 & T5); exists m', r'; split; [exact T1|]; split; [exact T3|]; exists a', pw', t', rest'; rewrite O8; auto|].
      rewrite OF. split; [exists ws; rewrite S8, S7, S5, (k_shown _ _ KK4); auto|]. cbn zeta. rewrite <- ST. subst x1 x2 x6 x7. rewrite Q4. unfold q1. cbn [app]. rewrite <- ?app_assoc. reflexivity.
  - apply speaks_ret; [silent|]. exists rows, []. split; [exact TS|]. rewrite OF. split; [reflexivity|]. cbn zeta. rewrite <- ST. subst x1 x2 x6 x7. rewrite Q4. unfold q1. cbn [app]. rewrite <- ?app_assoc, ?app_nil_r. reflexivity.
Qed.

Ltac entered e :=
  match goal with |- forall y, made_of _ y -> _ => intros ? ? | _ => idtac end; cbn [app]; rewrite ?app_nil_r, <- ?app_assoc;
  right; exists e; eexists; split; [reflexivity|split; [assumption|]]; gather.
Lemma speaks_recover v o w : Forall byte (w_random w) ->
  speaks (recover_says E H v o w) (recover_complaint E H o w) (fun _ w' x => recover_transcript E H v o w w' x) (t_recover E H v o) w.
Proof.
  intros RW. set (P := recover_piece E H v o). unfold recover_says. fold P. unfold t_recover.
  assert (CO : forall e t, e = ErrPrintUsage /\ option_complaint E H (ro_ttl o) (ro_only o) e t -> recover_complaint E H o w e t).
  { intros e t [-> C]. apply Rec_option; [exact C|discriminate]. }
  eapply speaks_then with (Q := fun ttl w' x => x = [] /\ w' = w /\ ttl_is (ro_ttl o) ttl).
  { eapply speaks_weaken; [apply (speaks_ttl (fun y => y = []) (ro_only o)); reflexivity|auto|exact CO|auto]. }
  intros ttl w1 x1 (-> & -> & TT). cbn [app].
  destruct ((ro_enc_index o >? max_subkey_index) || (ro_auth_index o >? max_subkey_index) || (ro_sign_index o >? max_subkey_index)) eqn:IX.
  { apply speaks_fail; [left; reflexivity|]. apply Rec_index. unfold max_subkey_index in IX. lia. }
  eapply speaks_then with (Q := fun _ w' x => x = [] /\ w' = w).
  { eapply speaks_weaken; [apply (speaks_only (fun y => y = []) (ro_ttl o)); reflexivity|auto|exact CO|auto]. }
  intros [master types] w1 x1 (-> & ->). cbn [app].
  eapply speaks_then with (Q := phrase_read v (ro_input o) w).
  { eapply speaks_weaken; [apply speaks_decode| |intros e t C; apply Rec_phrase; exact C|auto].
    intros x (a & b & -> & Ea & Mb). right. exists a, b. split; [reflexivity|]. split; [exact Ea|]. eapply made_weaken; [|exact Mb]. intros p Pp. left. exact Pp. }
  intros [s dm] w1 x1 (words & wr & entry & RP & DM & EN & SD & K1 & X1 & MD & T1). cbn [fst snd] in *. subst x1. set (tr := decode_transcript E v dm wr) in *.
  assert (MT : made_of P tr) by (eapply made_weaken; [|exact MD]; intros p Pp; left; exact Pp).
  set (opts := Some (mk_opts (trim_space E (ro_name o)) (trim_space E (ro_email o)) ttl (u16 (ro_enc_index o)) (u16 (ro_auth_index o)) (u16 (ro_sign_index o)) types)).
  destruct (decoded_facts words dm DM) as [V OF].
  assert (CR : first_second * ns <= dm_creation dm <= last_second * ns).
  { destruct dm as [dv de ds dve dof]. rewrite dm_creation_ok by exact OF. cbn [dm_offset] in OF. change ns with second. rewrite last_val. pose proof second_val. nia. }
  pose proof (new_cases s (dm_creation dm) opts SD) as NC. assert (OP : opts_ok (opts_of opts)) by (unfold opts_ok, opts, opts_of, u16; cbn; lia). specialize (NC OP).
  eapply (speaks_step P) with (C0 := recover_complaint E H o w) (Q := fun m w' x => w' = w1 /\ x = []); [entered entry| |auto|].
  { apply speaks_quiet; [apply made_nil| |]; unfold lift.
    - intros m w' Q. destruct (mnk_new E s (dm_creation dm) opts); try discriminate. injection Q as <- <-. auto.
    - intros e w' Q. destruct (mnk_new E s (dm_creation dm) opts) as [m|e'|]; try discriminate. injection Q as <- <-.
      destruct NC as [[-> L]|[[-> L]|[-> L]]]; [|lia|lia].
      apply Rec_ttl; [|reflexivity]. unfold opts, opts_of in L. cbn [ko_ttl] in L. destruct TT as [[_ ->]|[_ TT]]; [lia|]. eapply Negative_ttl; eauto. }
  clear NC OP CR. clearbody opts.
  intros m w' x (-> & ->) _.
  set (q1 := when (ro_encrypt_keys o) (dialogue true key_question (texts_after E dm wr))).
  eapply (speaks_step P) with (C0 := recover_complaint E H o w)
    (Q := fun pw w2 x => kept w1 w2 /\ (pw <> [] -> ro_encrypt_keys o = true) /\ x = q1); [entered entry| |auto|].
  { unfold q1. rewrite <- T1. destruct (ro_encrypt_keys o) eqn:EK.
    - eapply speaks_weaken; [apply speaks_password| | |].
      + intros x MX. eapply made_weaken; [|exact MX]. intros p Pp. right. left. auto.
      + intros e t C. apply Rec_password; [auto|]. rewrite (k_tty _ _ K1) in C. exact C.
      + intros pw w2 x (K & T & N & _ & X0 & TX & _) _. auto.
    - apply speaks_ret; [apply made_nil|]. split; [apply kept_refl|]. auto. }
  intros pw w2 x2 (K2 & PW & X2) M2.
  eapply (speaks_step P); [entered entry|apply speaks_export; apply made_nil|intros e t (N & -> & ->); apply Rec_random; auto|].
  intros armor w3 x (-> & K3 & I3 & PR) _.
  assert (KK : kept w w3) by (eapply kept_trans; [exact K1|]; eapply kept_trans; eauto).
  destruct (key_info_ok E (h_quote H) (h_time H) m) as [text TX].
  set (rows := when v (recover_title ++ text ++ [10])).
  eapply (speaks_step P) with (C0 := fun _ _ => False) (Q := fun _ w' x => w' = w3 /\ x = rows); [entered entry| |contradiction|].
  { eapply speaks_table; [exact TX| |unfold rows, recover_title; auto]. change (made_of P rows). unfold rows. destruct v eqn:V'; [|apply made_nil]. cbn [when].
    apply made_app; apply made_one; right; right; right; right; (split; [reflexivity|]); [left; reflexivity|]. right. exists m, text. auto. }
  intros [] w' x6 [-> X6] M6.
  eapply speaks_weaken; [apply (speaks_print_key P (fun _ _ => False)); right; right; [left|right; left]; reflexivity|entered entry|contradiction|].
  intros [] w7 x7 (X7 & O7 & S7 & W7) M7.
  exists words, wr, dm, entry, rows. split; [exact RP|]. split; [exact DM|]. split; [exact EN|]. split.
  - unfold table_shown, rows. destruct v; [|reflexivity]. exists m, (text ++ [10]). split; [reflexivity|]. split; [exists text; auto|].
    destruct PR as (tape & rest & PR). exists armor, pw, tape, rest. rewrite O7, (k_stdout _ _ KK). split; [reflexivity|exact PR].
  - fold tr. subst x2 x6 x7. unfold q1. cbn [app]. rewrite <- ?app_assoc. reflexivity.
Qed.

Ltac converted e :=
  match goal with |- forall y, made_of _ y -> _ => intros ? ? | _ => idtac end; cbn [app]; rewrite ?app_nil_r, <- ?app_assoc;
  exists e; eexists _, []; rewrite app_nil_r; split; [reflexivity|split; [assumption|split; [|left; reflexivity]]]; gather.
Lemma speaks_convert v o w : Forall byte (w_random w) ->
  speaks (convert_says E H v o w) (convert_complaint E H o w) (fun _ w' x => convert_transcript E H v o w w' x) (t_convert E H v o) w.
Proof.
  intros RW. set (P := convert_piece v o). unfold convert_says. fold P. unfold t_convert.
  eapply speaks_then with (Q := phrase_read v (co_input o) w).
  { eapply speaks_weaken; [apply speaks_decode| |intros e t C; apply Con_phrase; exact C|auto].
    intros x (a & b & -> & Ea & Mb). exists a, b, []. rewrite app_nil_r. split; [reflexivity|]. split; [exact Ea|]. split; [|left; reflexivity]. eapply made_weaken; [|exact Mb]. intros p Pp. left. exact Pp. }
  intros [s dm] w1 x1 (words & wr & entry & RP & DM & EN & SD & K1 & X1 & MD & T1). cbn [fst snd] in *. subst x1. set (tr := decode_transcript E v dm wr) in *.
  assert (MT : made_of P tr) by (eapply made_weaken; [|exact MD]; intros p Pp; left; exact Pp).
  destruct (decoded_facts words dm DM) as [V OF].
  eapply (speaks_step P); [converted entry| | |].
  { eapply speaks_weaken with (R' := fun ws w' x => kept w1 w' /\ (length ws <= 16)%nat /\ x = when (co_encrypt o) (dialogue true phrase_question (typed_texts (w_stdin w1)))); [exact (speaks_encode (co_encrypt o) s (dm_offset dm) w1 SD OF (k_random _ _ K1 RW))| | |].
    - intros x MX. eapply made_weaken; [|exact MX]. intros p [EP Pp]. right. auto.
    - intros e t C. exact C.
    - auto. }
  { intros e t [EP [C|[-> ->]]]; [|apply Con_random; exact EP]. rewrite (k_tty _ _ K1) in C. apply Con_password; auto. }
  intros ws w4 x4 (K4 & LW & X4) M4. assert (KK4 : kept w w4) by (eapply kept_trans; eauto).
  destruct (io_in_file (co_input o)) as [|c r] eqn:IF.
  - eapply speaks_weaken; [apply (speaks_block _ (fun _ _ => False) ws w4 LW (fun y Y => Y))| |contradiction|].
    + intros y PB. rewrite (k_width _ _ KK4) in PB. exists entry, (tr ++ x4), y. rewrite <- ?app_assoc. split; [reflexivity|]. split; [exact EN|]. split; [gather|]. right. eauto.
    + intros [] w8 y (S8 & O8 & PB) _. rewrite (k_width _ _ KK4) in PB. exists words, wr, dm, entry, y. split; [exact RP|]. split; [exact DM|]. split; [exact EN|].
      rewrite IF. split; [exists ws; rewrite S8, (k_shown _ _ KK4); auto|]. fold tr. subst x4. rewrite T1. rewrite <- ?app_assoc. reflexivity.
  - eapply speaks_weaken; [apply (speaks_save (fun y => y = []) ws (c :: r) w4 eq_refl)| | |].
    + intros y ->. converted entry.
    + intros e t C. rewrite (k_files _ _ KK4) in C. apply Con_save; rewrite IF; [discriminate|exact C].
    + intros [] w8 y (-> & _) _. exists words, wr, dm, entry, []. split; [exact RP|]. split; [exact DM|]. split; [exact EN|]. rewrite IF. split; [reflexivity|].
      fold tr. subst x4. rewrite T1. rewrite <- ?app_assoc. reflexivity.
Qed.
End env.
