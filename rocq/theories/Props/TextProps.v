(** Expiry periods, the -only list and text wrapping (C42, C43, C54). *)
From Coq Require Import Lia ZifyBool ZifyNat.
From Verif.Model Require Import GoBase Env Mnemonikey PgpKeys CliText CliFlags CliInput CliMain.
From Verif.Spec Require Import EnvSpec CliEnvSpec TextSpec.
From Verif.Proofs Require Import BitsP PgpP EnvInst TextP.

(** ** C42 *)
Theorem ttl_accepted : forall E s, lone_byte_ok E -> Forall byte s ->
  (exists n secs, period s n secs /\ n < 2 ^ 64) <-> (exists d, parse_ttl E s = Ok d).
Proof.
  intros E s L B. split.
  - intros (n & secs & P & H). eexists. apply parse_ttl_spec; auto. exists n, secs. eauto.
  - intros (d & H). apply parse_ttl_spec in H as (n & secs & P & H & _); eauto.
Qed.
Print Assumptions ttl_accepted.

Theorem ttl_refused : forall E s, lone_byte_ok E -> Forall byte s ->
  ~ (exists n secs, period s n secs /\ n < 2 ^ 64) -> parse_ttl E s = Err ErrInvalidDuration.
Proof.
  intros E s L B N. destruct (parse_ttl E s) as [d|e|] eqn:P.
  - destruct N. apply (ttl_accepted E s L B). eauto.
  - revert P. unfold parse_ttl. destruct s; [congruence|]. destruct (duration_unit _); [|congruence].
    destruct (parse_uint10 _); congruence.
  - revert P. unfold parse_ttl. destruct s; [congruence|]. destruct (duration_unit _); [|congruence].
    destruct (parse_uint10 _); congruence.
Qed.
Print Assumptions ttl_refused.

Lemma i64_id x : 0 <= x < 2 ^ 63 -> i64 x = x.
Proof. intros H. unfold i64. rewrite Z.mod_small; lia. Qed.

Theorem ttl_exact : forall E s n secs, lone_byte_ok E -> Forall byte s ->
  period s n secs -> n * secs * 10 ^ 9 < 2 ^ 63 -> parse_ttl E s = Ok (n * secs * 10 ^ 9).
Proof.
  intros E s n secs L B P H. apply parse_ttl_spec; auto.
  assert (N : 0 <= n) by (destruct P as (q & c & _ & _ & D & -> & _); apply decimal_nonneg; auto).
  assert (S1 : 0 < secs <= 31536000) by (destruct P as (q & c & _ & _ & _ & _ & U); eapply unit_seconds_pos; eauto).
  change (2 ^ 63) with 9223372036854775808 in H. change (10 ^ 9) with 1000000000 in *.
  exists n, secs. split; auto. split; [change (2 ^ 64) with 18446744073709551616; nia|].
  rewrite (i64_id n) by (change (2 ^ 63) with 9223372036854775808; nia).
  rewrite i64_id by (change (2 ^ 63) with 9223372036854775808; nia). nia.
Qed.
Print Assumptions ttl_exact.

Lemma digits_check q : forallb (fun c => (48 <=? c) && (c <=? 57)) q = true -> Forall is_digit q.
Proof. intros H. rewrite forallb_forall in H. apply Forall_forall. intros c Hc. specialize (H c Hc). unfold is_digit. lia. Qed.

(** Two years, in upper case *)
Example two_years : period (bs "2Y") 2 31536000 /\ 2 * 31536000 * 10 ^ 9 < 2 ^ 63 /\
  parse_ttl toy_env (bs "2Y") = Ok (2 * 31536000 * 10 ^ 9).
Proof.
  split; [|split; vm_compute; reflexivity]. exists [50], 89. split; [reflexivity|]. split; [discriminate|].
  split; [apply digits_check; reflexivity|]. split; [reflexivity|]. constructor. auto.
Qed.
Example toy_lone_byte_ok : lone_byte_ok toy_env.
Proof. intros b c Hb Hc. cbn [unicode_lower toy_env]. intros H. injection H as H. lia. Qed.
Example no_period : ~ (exists n secs, period (bs "12h") n secs /\ n < 2 ^ 64) /\ parse_ttl toy_env (bs "12h") = Err ErrInvalidDuration.
Proof.
  split; [|reflexivity]. intros (n & secs & (q & c & E1 & _ & _ & _ & U) & _).
  change (bs "12h") with ([49; 50] ++ [104]) in E1. apply app_inj_tail in E1 as [_ <-]. inversion U; lia.
Qed.

(** Longer periods wrap around: 2^48 days is taken for no expiry, 106752 days (292 years) for a
    negative time, and 213504 days for less than a day. *)
Theorem ttl_overflow_refuted : exists s n secs, period s n secs /\ n < 2 ^ 64 /\
  forall E, parse_ttl E s = Ok 0.
Proof.
  exists (bs "281474976710656d"), 281474976710656, 86400. split.
  - exists (bs "281474976710656"), 100. split; [reflexivity|]. split; [discriminate|].
    split; [apply digits_check; reflexivity|]. split; [vm_compute; reflexivity|]. constructor. auto.
  - split; [reflexivity|]. intros E. vm_compute. reflexivity.
Qed.
Print Assumptions ttl_overflow_refuted.
Theorem ttl_shorter_refuted : exists s n secs d, period s n secs /\ n < 2 ^ 64 /\
  (forall E, parse_ttl E s = Ok d) /\ 0 < d < 86400 * 10 ^ 9 /\ n * secs > 100 * 31536000.
Proof.
  exists (bs "213504d"), 213504, 86400, 1526290448384. split.
  - exists (bs "213504"), 100. split; [reflexivity|]. split; [discriminate|].
    split; [apply digits_check; reflexivity|]. split; [vm_compute; reflexivity|]. constructor. auto.
  - split; [reflexivity|]. split; [intros E; vm_compute; reflexivity|]. lia.
Qed.
Print Assumptions ttl_shorter_refuted.

(** ** C43 *)
Definition key_type_name (t : bytes) : Prop := In t [bs "encryption"; bs "authentication"; bs "signing"].

Theorem only_empty : decode_only_key_types [] = Ok (true, None).
Proof. reflexivity. Qed.
Print Assumptions only_empty.

(** Every option value is a comma list of parts without commas, in one way. *)
Theorem only_parts : forall s, exists parts, parts <> [] /\ Forall no_comma parts /\ comma_list parts = s /\
  forall parts', parts' <> [] -> Forall no_comma parts' -> comma_list parts' = s -> parts' = parts.
Proof.
  intros s. destruct (split_parts s) as [F J]. exists (split_on 44 s).
  split; [apply split_on_nonempty|]. split; auto. split; auto.
  intros ps N Fp Jp. rewrite <- Jp. symmetry. apply split_comma_list; auto.
Qed.
Print Assumptions only_parts.

Lemma known_type_spec t : known_type t = true <-> key_type_name t.
Proof.
  unfold known_type, key_type_name. rewrite !orb_true_iff, !bytes_eqb_eq. cbn [In].
  unfold type_encryption, type_authentication, type_signing. intuition congruence.
Qed.
Lemma master_not_type : ~ key_type_name (bs "master").
Proof. intros [H|[H|[H|[]]]]; discriminate. Qed.

Theorem only_accepted : forall s parts, s <> [] -> parts <> [] -> Forall no_comma parts -> comma_list parts = s ->
  Forall (fun p => p = bs "master" \/ key_type_name p) parts ->
  exists master types, decode_only_key_types s = Ok (master, Some types) /\
    (master = true <-> In (bs "master") parts) /\
    (forall t, In t types <-> In t parts /\ key_type_name t) /\
    forall o t, ko_subkeys o = Some types -> key_type_name t -> (subkey_enabled o t = true <-> In t parts).
Proof.
  intros s parts S N F J K. unfold decode_only_key_types. destruct s as [|c s']; [congruence|].
  rewrite <- J. rewrite split_comma_list by auto. rewrite only_loop_spec.
  assert (A : forallb (fun t => bytes_eqb t (bs "master") || known_type t) parts = true).
  { apply forallb_forall. intros x Hx. rewrite Forall_forall in K. rewrite orb_true_iff, bytes_eqb_eq, known_type_spec. auto. }
  rewrite A. cbn [bind orb app]. eexists _, _. split; [reflexivity|].
  assert (T : forall t, In t (filter (fun t => negb (bytes_eqb t (bs "master"))) parts) <-> In t parts /\ key_type_name t).
  { intros t. rewrite filter_In, negb_true_iff, bytes_eqb_neq. split.
    - intros [H1 H2]. split; auto. rewrite Forall_forall in K. destruct (K t H1); [congruence|auto].
    - intros [H1 H2]. split; auto. intros ->. apply master_not_type; auto. }
  split; [|split; [exact T|]].
  - rewrite existsb_exists. split; [intros (x & H & M); apply bytes_eqb_eq in M; subst; auto|].
    intros H. exists (bs "master"). split; auto.
  - intros o t O Ht. unfold subkey_enabled. rewrite O, existsb_exists. split.
    + intros (x & H & M). apply bytes_eqb_eq in M. subst. apply T in H. tauto.
    + intros H. exists t. split; [apply T; auto|apply bytes_eqb_refl].
Qed.
Print Assumptions only_accepted.

Theorem only_refused : forall s parts p, s <> [] -> Forall no_comma parts -> comma_list parts = s ->
  In p parts -> p <> bs "master" -> ~ key_type_name p -> decode_only_key_types s = Err ErrPrintUsage.
Proof.
  intros s parts p S F J I M K. unfold decode_only_key_types. destruct s as [|c s']; [congruence|].
  rewrite <- J. rewrite split_comma_list by (auto; intros ->; destruct I). rewrite only_loop_spec.
  replace (forallb _ parts) with false; [reflexivity|]. symmetry. apply not_true_is_false. intros A.
  rewrite forallb_forall in A. specialize (A p I). rewrite orb_true_iff, bytes_eqb_eq, known_type_spec in A. intuition.
Qed.
Print Assumptions only_refused.

Example only_case : decode_only_key_types (bs "signing,master,signing") = Ok (true, Some [bs "signing"; bs "signing"]) /\
  decode_only_key_types (bs "master") = Ok (true, Some []) /\
  decode_only_key_types (bs "signing,") = Err ErrPrintUsage /\
  comma_list [bs "signing"; bs "master"; bs "signing"] = bs "signing,master,signing".
Proof. repeat split. Qed.

(** ** C54 *)
(** The call is a loop over a state; [justify_forever] says it never gets to an end. *)
Definition justify_state (indent width : Z) (text : bytes) (turns : nat) : list bytes * list bytes :=
  Nat.iter turns (justify_step (spaces indent) (indent + width)) (split_on 32 text, []).
Definition justify_forever (indent width : Z) (text : bytes) : Prop :=
  forall turns, fst (justify_state indent width text turns) <> [].

Lemma zlen_spaces i : 0 <= i -> zlen (spaces i) = i.
Proof. intros. unfold zlen, spaces. rewrite repeat_length. lia. Qed.

Theorem wrap_terminates : forall indent width text,
  0 <= indent -> 0 < indent + width ->
  Forall (fun w => zlen w + 1 <= width) (blank_words text) -> 1 <= width ->
  exists lines turns, justify_width indent width text = Text (with_newlines lines) /\
    justify_state indent width text turns = ([], lines) /\
    Forall (fun l => zlen l <= indent + width /\ exists rest, l = repeat 32 (Z.to_nat indent) ++ rest) lines /\
    flat_map blank_words lines = blank_words text.
Proof.
  intros indent width text Hi Hn F W1. unfold justify_width.
  replace (indent <? 0) with false by lia. replace (indent + width =? 0) with false by lia.
  pose proof (zlen_nonneg text). pose proof (Z.quot_pos (zlen text) (indent + width)).
  replace (Z.quot (zlen text) (indent + width) + 1 <? 0) with false by lia.
  destruct (justify_loop_fits (Z.to_nat indent) (indent + width) (length (split_on 32 text)) (split_on 32 text) [])
    as (new & J & N1 & N2 & turns & N3).
  - apply Forall_forall. intros w Hw. unfold fits. change (repeat 32 (Z.to_nat indent)) with (spaces indent). rewrite (zlen_spaces indent Hi).
    destruct w as [|x w]; [change (zlen (@nil Z)) with 0; lia|].
    rewrite blank_words_split, Forall_forall in F. specialize (F (x :: w)). rewrite filter_In in F.
    specialize (F (conj Hw eq_refl)). lia.
  - apply split_on_no_sep.
  - lia.
  - exists new, turns. split; [exact J|]. split; [exact N3|]. split; [exact N1|].
    rewrite N2. symmetry. apply blank_words_split.
Qed.
Print Assumptions wrap_terminates.

(** Otherwise the call panics or never returns. *)
Theorem wrap_refuted : forall indent width text,
  0 <= indent -> 0 < indent + width ->
  ~ Forall (fun w => zlen w + 1 <= width) (blank_words text) ->
  justify_width indent width text = Loops /\ justify_forever indent width text.
Proof.
  intros indent width text Hi Hn F. unfold justify_width.
  replace (indent <? 0) with false by lia. replace (indent + width =? 0) with false by lia.
  pose proof (zlen_nonneg text). pose proof (Z.quot_pos (zlen text) (indent + width)).
  replace (Z.quot (zlen text) (indent + width) + 1 <? 0) with false by lia.
  apply (justify_loop_stuck (Z.to_nat indent) (indent + width) (length (split_on 32 text)) (split_on 32 text) []);
    [|apply split_on_no_sep|lia].
  intros X. apply F. rewrite blank_words_split. apply Forall_forall. intros w Hw. apply filter_In in Hw as [Hw _].
  rewrite Forall_forall in X. specialize (X w Hw). unfold fits in X. change (repeat 32 (Z.to_nat indent)) with (spaces indent) in X. rewrite (zlen_spaces indent Hi) in X. lia.
Qed.
Print Assumptions wrap_refuted.
Theorem wrap_no_columns_refuted : forall indent width text, indent + width = 0 -> justify_width indent width text = Crashes.
Proof.
  intros indent width text H. unfold justify_width. destruct (indent <? 0); auto. rewrite H. reflexivity.
Qed.
Print Assumptions wrap_no_columns_refuted.

Example wrap_case : justify_width 2 11 (bs "one two three  four") = Text (bs "  one two" ++ 10 :: bs "  three  four") /\
  Forall (fun w => zlen w + 1 <= 11) (blank_words (bs "one two three  four")).
Proof. split; [vm_compute; reflexivity|]. repeat constructor; vm_compute; congruence. Qed.
Example wrap_loop_case : ~ Forall (fun w => zlen w + 1 <= 5) (blank_words (bs "a terminal")).
Proof. rewrite Forall_forall. intros F. specialize (F (bs "terminal")). revert F. vm_compute. intuition congruence. Qed.

(** *** What this means for the program: a terminal of 42 columns or more is always enough for every
    help text, and the recover help never finishes on 41.  After generating a key the reminder to
    save the phrase needs 17 columns; on a terminal that reports no columns the program panics. *)
Definition usage_ends (t : command_text) (size : option Z) : Prop :=
  forall w, w_width w = size -> fst (usage t w) = Ret tt.

Lemma justified_fits indent width text : 0 <= indent -> 1 <= width ->
  forallb (fun w => zlen w + 1 <=? width) (blank_words text) = true ->
  of_justified (justify_width indent width text) = Ret tt.
Proof.
  intros Hi Hw F. destruct (wrap_terminates indent width text) as (lines & turns & J & _); try lia.
  - apply Forall_forall. intros w H. rewrite forallb_forall in F. specialize (F w H). lia.
  - rewrite J. reflexivity.
Qed.
Definition longest (l : list bytes) : Z := fold_right Z.max 0 (map zlen l).
Lemma longest_fits l n : longest l + 1 <= n -> forallb (fun w => zlen w + 1 <=? n) l = true.
Proof.
  intros H. apply forallb_forall. intros w Hw. unfold longest in H.
  assert (G : zlen w <= fold_right Z.max 0 (map zlen l)).
  { clear H. induction l as [|x l IH]; [destruct Hw|]. cbn [map fold_right]. destruct Hw as [->|Hw]; [lia|].
    specialize (IH Hw). lia. }
  lia.
Qed.
Lemma all_justified_map {A} (f : A -> justified) l :
  (forall x, In x l -> of_justified (f x) = Ret tt) -> all_justified (map f l) = Ret tt.
Proof.
  induction l as [|x l IH]; intros H; cbn [map all_justified]; auto. rewrite H by (left; auto). apply IH.
  intros y Hy. apply H. right. auto.
Qed.
Theorem help_wide_enough : forall t size, In t [root_text; generate_text; recover_text; convert_text] ->
  (forall width, size = Some width -> 42 <= width) -> usage_ends t size.
Proof.
  intros t size T Hs w <-. unfold usage. cbn [fst].
  assert (Hw : 42 <= terminal_width (w_width w)).
  { destruct (w_width w) eqn:E1; cbn [terminal_width]; [apply Hs; auto|lia]. }
  assert (D : longest (blank_words (ct_description t)) <= 27).
  { destruct T as [<-|[<-|[<-|[<-|[]]]]]; vm_compute; congruence. }
  assert (O : forall d, In d (ct_options t) -> longest (blank_words (faint d)) <= 26).
  { assert (G : forallb (fun t => forallb (fun d => longest (blank_words (faint d)) <=? 26) (ct_options t))
                 [root_text; generate_text; recover_text; convert_text] = true) by (vm_compute; reflexivity).
    rewrite forallb_forall in G. specialize (G t T). rewrite forallb_forall in G.
    intros d Hd. specialize (G d Hd). lia. }
  cbn [all_justified]. unfold justify_terminal_width.
  assert (Q1 : 28 <= Z.quot (terminal_width (w_width w) * 4) 5) by (rewrite Z.quot_div_nonneg; lia).
  assert (Q2 : 27 <= Z.quot ((terminal_width (w_width w) - 8) * 4) 5) by (rewrite Z.quot_div_nonneg; lia).
  rewrite justified_fits; [|lia|lia|apply longest_fits; lia].
  apply all_justified_map. intros d Hd. unfold justify_option_description.
  apply justified_fits; [lia|lia|]. apply longest_fits. specialize (O d Hd). lia.
Qed.
Print Assumptions help_wide_enough.
Theorem help_narrow_refuted : forall w, w_width w = Some 41 -> fst (usage recover_text w) = Hang.
Proof. intros w H. unfold usage. rewrite H. vm_compute. reflexivity. Qed.
Print Assumptions help_narrow_refuted.

Theorem reminder_wide_enough : forall words w, (forall width, w_width w = Some width -> 17 <= width) ->
  fst (print_mnemonic words w) = Ret tt.
Proof.
  intros words w H. unfold print_mnemonic. cbn [fst]. unfold justify_terminal_width.
  assert (Hw : 17 <= terminal_width (w_width w)).
  { destruct (w_width w) eqn:E1; cbn [terminal_width]; [apply H; auto|lia]. }
  assert (Q1 : 13 <= Z.quot (terminal_width (w_width w) * 4) 5) by (rewrite Z.quot_div_nonneg; lia).
  assert (D : longest (blank_words save_reminder) = 12) by (vm_compute; reflexivity).
  apply justified_fits; [lia|lia|]. apply longest_fits. lia.
Qed.
Print Assumptions reminder_wide_enough.
Theorem reminder_narrow_refuted : forall words w,
  (w_width w = Some 16 -> fst (print_mnemonic words w) = Hang) /\
  (w_width w = Some 0 -> fst (print_mnemonic words w) = Crash).
Proof. intros words w. split; intros H; unfold print_mnemonic; cbn [fst]; rewrite H; vm_compute; reflexivity. Qed.
Print Assumptions reminder_narrow_refuted.
