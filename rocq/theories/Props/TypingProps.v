(** What the terminal shows while a phrase is typed in raw mode (C100). *)
From Coq Require Import Lia ZifyBool ZifyNat.
From Verif.Model Require Import GoBase Env Version Recovery Mnemonikey CliText CliInput CliScreen.
From Verif.Spec Require Import EnvSpec CliEnvSpec InputSpec ScreenSpec TypingSpec.
From Verif.Proofs Require Import BitsP WordsP PgpP EnvInst CliInst ScreenP ShowP TypingP.
From Verif.Props Require Import ScreenProps.
Ltac Zify.zify_post_hook ::= Z.div_mod_to_equations.

(** a number in decimal, with a sign if it is negative *)
Definition writes (number : bytes) (n : Z) : Prop :=
  if 0 <=? n then decimal number = Some n else exists d, number = 45 :: d /\ decimal d = Some (- n).
Lemma itoa_writes n : writes (itoa n) n.
Proof.
  unfold writes. destruct (0 <=? n) eqn:S; [apply itoa_decimal; lia|]. exists (itoa (- n)).
  split; [|apply itoa_decimal; lia]. unfold itoa. replace (n <? 0) with true by lia. replace (- n <? 0) with false by lia. reflexivity.
Qed.
(** the notice that refuses a first word names the version its place in the list stands for *)
Definition refuses (E : Env) (refusal : bytes -> bytes) : Prop :=
  forall v, In v (wl_words E) -> supported_first E v = false ->
    exists d i, refusal v = bs "invalid version number in recovery phrase: " ++ d /\ decimal d = Some (Z.of_nat i / 256) /\
      nth_error (wl_words E) i = Some v.
Lemma version_error_refuses E : wordlist_ok E -> refuses E (version_error E).
Proof.
  intros W v I _. unfold version_error, parse_version_raw. rewrite to_lower_word by auto.
  destruct (word_map E v) as [i|] eqn:M; [|apply word_map_none in M; tauto].
  apply (word_map_spec E W) in M as [M N]. exists (itoa (i / 256)), (Z.to_nat i).
  rewrite Z.shiftr_div_pow2 by discriminate. change (2 ^ (bits_per_word - version_bits)) with 256.
  split; [|split].
  - unfold version_check. destruct (_ >? _); [reflexivity|]. repeat (match goal with |- context [if ?c then _ else _] => destruct c end); reflexivity.
  - rewrite itoa_decimal by lia. repeat f_equal. lia.
  - exact N.
Qed.

(** The line of the word shows the prompt, the text typed so far and its completion, the line below the
    notices, nothing else on the screen differs from the screen [t1] before, and the cursor is after the text
    typed. *)
Definition typing_shown (w : Z) (s : line_state) (t1 t2 : screen) : Prop :=
  exists number, writes number (ln_number s + 1) /\
  let prompt := bs "Word " ++ number ++ bs " >> " in
  (forall r c, r <> s_row t1 -> r <> s_row t1 + 1 -> s_cell t2 r c = s_cell t1 r c) /\
  (forall c, 0 <= c < w -> s_cell t2 (s_row t1) c = overlay (fun _ => blank) [prompt ++ ln_text s ++ ln_hint s] c) /\
  (forall c, 0 <= c < w -> s_cell t2 (s_row t1 + 1) c =
     overlay (if ln_wiped s then fun _ => blank else s_cell t1 (s_row t1 + 1)) (ln_notes s) c) /\
  s_row t2 = s_row t1 /\ s_col t2 = zlen (prompt ++ ln_text s) /\ s_col t2 < w.

Lemma typing_from {k : kind} E w h t1 keys s : wordlist_ok E -> search_ok E -> 0 < w -> positioned w h t1 ->
  s_row t1 + 1 < s_top t1 + h -> line_keys E (version_error E) line_start keys = Some s ->
  let out := raw_word_prompt 0 ++ raw_keys_output E entry_start keys in
  s_crowded (play w h (unflag t1) out) = false -> typing_shown w s t1 (play w h t1 out).
Proof.
  intros W SO Hw P1 Room K out Rm. set (t2 := play w h t1 out).
  assert (A1 : s_top t1 <= s_row t1) by (destruct P1; lia).
  assert (F : unflag t2 = unflag (play w h (unflag t1) out)) by (unfold t2; symmetry; exact (play_unflag w h out t1)).
  assert (D : drawn w (s_top t1) (s_row t1) (s_cell t1) E s (play w h (unflag t1) out)).
  { revert Rm. clear F. assert (St : exists cell col sv, Is w (s_top t1) cell (s_row t1) col sv (unflag t1) /\
      shown w (s_row t1) (s_cell t1) (cell (s_row t1)) (overlay (below_base (s_row t1) (s_cell t1) (ln_wiped line_start)) (ln_notes line_start)) cell).
    { exists (s_cell t1), (s_col t1), (s_saved t1). destruct P1 as (B1 & B2 & B3 & _). split; [split; [unfold unflag; rewrite B3; reflexivity|lia]|].
      split; [reflexivity|]. split; intros c Hc; reflexivity. }
    revert St. generalize (unflag t1). intros x St X. unfold out in *.
    refine (ok_app w h _ _ _ _ _ (is_start w h (s_top t1) (s_row t1) (s_cell t1) Hw E line_start) _ x St X).
    apply draw_keys; auto. repeat split. }
  clearbody t2. clear Rm. destruct D as (_ & cell & sv & (Q & L) & (S1 & S2 & S3)).
  revert F Q. generalize (play w h (unflag t1) out). intros x F ->.
  exists (itoa (ln_number s + 1)). split; [apply itoa_writes|]. cbv zeta. fold (prompt_text (ln_number s)).
  assert (Fc : s_cell t2 = cell) by (apply (f_equal s_cell) in F; exact F).
  assert (Fr : s_row t2 = s_row t1) by (apply (f_equal s_row) in F; exact F).
  assert (Fk : s_col t2 = zlen (prompt_text (ln_number s) ++ ln_text s)) by (apply (f_equal s_col) in F; exact F).
  rewrite Fc, Fr, Fk. repeat split; auto.
Qed.

Theorem raw_typing_shown : forall (k : kind) E w h t, wordlist_ok E -> search_ok E -> 2 <= h -> in_window w h t ->
  exists refusal, refuses E refusal /\
  forall keys s, line_keys E refusal line_start keys = Some s ->
  let t1 := play w h t raw_header in
  exists out, raw_body E keys = out ++ raw_footer /\ (forall rest, exists later, raw_body E (keys ++ rest) = out ++ later) /\
  (roomy w h t1 out -> typing_shown w s t1 (play w h t1 out)).
Proof.
  intros k E w h t W SO Hh P. exists (version_error E). split; [apply version_error_refuses, W|].
  intros keys s K.
  assert (Hw : 0 < w) by (destruct P as (_ & ? & _); lia).
  pose proof (raw_header_room w h t Hh Hw P) as H. revert H. generalize (play w h t raw_header). intros t1 (P1 & Room & _).
  exists (raw_word_prompt 0 ++ raw_keys_output E entry_start keys). split; [|split].
  - unfold raw_body. rewrite <- !app_assoc. reflexivity.
  - intros rest. exists (match keys_state E entry_start keys with Some e => raw_keys_output E e rest | None => [] end ++ raw_footer).
    unfold raw_body. rewrite raw_keys_split, <- !app_assoc. reflexivity.
  - intros Rm. exact (typing_from E w h t1 keys s W SO Hw P1 Room K Rm).
Qed.
Print Assumptions raw_typing_shown.

(** The lines end where phrase entry ends: then the words are complete or entry was aborted. *)
Theorem raw_typing_ends : forall E refusal keys, wordlist_ok E -> search_ok E ->
  (line_keys E refusal line_start keys = None <-> fst (user_input_mnemonic E keys) <> Err ErrInputEOF).
Proof.
  intros E refusal keys W SO. unfold user_input_mnemonic.
  assert (A : agrees entry_start line_start) by (repeat split). revert A. generalize entry_start line_start.
  induction keys as [|b keys IH]; intros e s A; cbn [line_keys enter].
  - split; [discriminate|]. intros H. exfalso. apply H. reflexivity.
  - pose proof (key_line E refusal e s b W SO A) as K. destruct (line_key E refusal s b) as [s'|].
    + destruct K as (e' & -> & A'). apply IH, A'.
    + rename K into N. destruct (key E e b); [contradiction (N s0 eq_refl)| |]; cbn [fst]; split; auto; discriminate.
Qed.
Print Assumptions raw_typing_ends.

(** ** The hypotheses are met *)
(** a, then z which no word goes on with, backspace, tab and Enter; then b as the start of the second word *)
Definition case_keys : bytes := [97; 122; 127; 9; 13; 98].
Example typing_case : forall k : kind, in_window 80 24 empty_screen /\
  line_keys toy_env (fun _ => []) line_start [97; 122] = Some (mk_line 0 1 (bs "az") [] true [no_match]) /\
  line_keys toy_env (fun _ => []) line_start case_keys = Some (mk_line 1 (mnemonic_size 0) (bs "b") (bs "aa") true []) /\
  let t1 := play 80 24 empty_screen raw_header in
  let out := raw_word_prompt 0 ++ raw_keys_output toy_env entry_start case_keys in
  raw_body toy_env case_keys = out ++ raw_footer /\ roomy 80 24 t1 out /\
  map (s_cell (play 80 24 t1 out) (s_row t1)) [0; 1; 2; 3; 4; 5; 6; 7; 8; 9; 10; 11; 12; 13; 14] = bs "Word 2 >> baa  " /\
  s_col (play 80 24 t1 out) = 11.
Proof.
  intros k. split; [repeat split; cbn; lia|]. split; [vm_compute; reflexivity|]. split; [vm_compute; reflexivity|]. cbv zeta.
  split; [unfold raw_body; rewrite <- !app_assoc; reflexivity|].
  assert (Q : raw_word_prompt 0 ++ raw_keys_output toy_env entry_start case_keys =
    ltac:(let x := eval vm_compute in (raw_word_prompt 0 ++ raw_keys_output toy_env entry_start case_keys) in exact x)) by (vm_compute; reflexivity).
  rewrite Q. clear Q. destruct k; (split; [vm_compute; reflexivity|]; split; [vm_compute; reflexivity|]; vm_compute; reflexivity).
Qed.
