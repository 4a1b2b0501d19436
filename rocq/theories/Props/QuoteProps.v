(** Quoted texts (C89) and the table of -verbose with them (C89, C90). *)
From Coq Require Import Lia ZifyBool ZifyNat.
From Verif.Model Require Import GoBase Env Version Seed GoTime Recovery PgpWire PgpKeys Mnemonikey CliText CliInput CliScreen.
From Verif.Spec Require Import EnvSpec DecodeSpec KeySpec PgpSpec ExportSpec CliEnvSpec ScreenSpec SpaceSpec GoText GoQuote QuoteSpec CalendarSpec GoCalendar.
From Verif.Proofs Require Import BitsP PgpP EnvInst CliInst KeysP ExportP ScreenP ShowP UnicodeP CalendarP QuoteP.
From Verif.Props Require Import ExportProps LifeProps IdentityProps ScreenProps ClockProps.
Ltac Zify.zify_post_hook ::= Z.div_mod_to_equations.

(** ** C89 *)
(** What %q prints is a string literal for its argument: any bytes, valid UTF-8 or not. *)
Theorem quote_literal : forall above s, Forall byte s -> literal (go_quote above s) s.
Proof. intros above s B. exists (quoted_runes above (length s) s). split; [reflexivity|]. apply quoted_stands; [apply Nat.le_refl|exact B]. Qed.
Print Assumptions quote_literal.
(** A literal stands for one text, so different texts print differently. *)
Theorem literal_exact : forall text s s', literal text s -> literal text s' -> s = s'.
Proof.
  intros text s s' (t & -> & H) (t' & Q & H'). apply app_inv_head in Q. apply app_inv_tail in Q. subst t'. eapply stands_exact; eauto.
Qed.
Print Assumptions literal_exact.
Theorem quote_injective : forall above s s', Forall byte s -> Forall byte s' -> go_quote above s = go_quote above s' -> s = s'.
Proof. intros above s s' B B' Q. eapply literal_exact; [apply (quote_literal above), B|]. rewrite Q. apply quote_literal, B'. Qed.
Print Assumptions quote_injective.
(** Only characters that show are printed: nothing a terminal would act on. *)
Theorem quote_shows : forall above s, Forall byte s -> exists cs, go_quote above s = utf8_text cs /\ Forall (shows above) cs.
Proof.
  intros above s B. unfold go_quote. change (shown_text above ([34] ++ quoted_runes above (length s) s ++ [34])).
  assert (Q : shown_text above [34]) by (apply shown_ascii; repeat constructor; lia).
  apply shown_app; [exact Q|]. apply shown_app; [|exact Q]. apply quoted_shows; [apply Nat.le_refl|exact B].
Qed.
Print Assumptions quote_shows.

(** ** The table *)
Lemma shown_no_esc above cs : Forall (shows above) cs -> ~ In 27 (utf8_text cs).
Proof.
  intros F H. unfold utf8_text in H. apply in_flat_map in H as (c & C & H). rewrite Forall_forall in F. specialize (F c C). unfold utf8 in H.
  unfold shows, code_point in F. destruct (c <? 128) eqn:Q1; [cbn [In] in H; lia|]. destruct (c <? 2048) eqn:Q2; [cbn [In] in H; lia|]. destruct (c <? 65536) eqn:Q3; cbn [In] in H; lia.
Qed.
Lemma fixed_digits_no_esc w : forall n, ~ In 27 (fixed_digits w n).
Proof. induction w as [|w IH]; intros n H; [exact H|]. cbn [fixed_digits] in H. apply in_app_or in H as [H|[H|[]]]; [exact (IH _ H)|lia]. Qed.
Lemma rfc3339_no_esc t : ~ In 27 (go_rfc3339 t).
Proof.
  unfold go_rfc3339. cbv zeta. destruct (abs_date _) as [[y m] d]. destruct (abs_clock _) as [[h i] s]. unfold append_int. intros H.
  repeat (apply in_app_or in H as [H|H]; [first [exact (fixed_digits_no_esc _ _ H)|cbn [In] in H; lia]|]). cbn [In] in H. lia.
Qed.
Lemma uid_is E s t0 opts m : hkdf_ok E -> seed_ok s -> opts_ok (opts_of opts) -> mnk_new E s t0 opts = Ok m ->
  mnk_user_id m = uid_encode (mk_uid (ko_name (opts_of opts)) (ko_email (opts_of opts))).
Proof. intros H S O N. destruct (mnk_new_window_only _ _ _ _ _ N) as (_ & T & R). rewrite mnk_new_window in N by auto. injection N as <-. reflexivity. Qed.
Lemma uid_bytes E s t0 opts m : hkdf_ok E -> seed_ok s -> opts_ok (opts_of opts) -> Forall byte (ko_name (opts_of opts)) -> Forall byte (ko_email (opts_of opts)) ->
  mnk_new E s t0 opts = Ok m -> Forall byte (mnk_user_id m).
Proof.
  intros H S O BN BE N. rewrite (uid_is _ _ _ _ _ H S O N). unfold uid_encode. cbn [uid_email uid_name].
  assert (B : forall t, forallb (fun b => (0 <=? b) && (b <? 256)) t = true -> Forall byte t) by (intros t F; apply Forall_forall; intros b I; apply (proj1 (forallb_forall _ _)) with (x := b) in F; [unfold byte; lia|exact I]).
  destruct (ko_email (opts_of opts)) as [|e em]; [exact BN|]. destruct (ko_name (opts_of opts)) as [|c na]; [exact BE|].
  apply Forall_app; split; [exact BN|]. apply Forall_app; split; [apply B; reflexivity|]. apply Forall_app; split; [exact BE|apply B; reflexivity].
Qed.
(** The table of -verbose: the user ID is a literal for the one in the exported key; the times read as the
    creation time in the exported key and as that many seconds later. *)
Theorem verbose_reads : forall E edv f s t0 opts m pw tape t above, hkdf_ok E -> env_ok E edv -> seed_ok s -> opts_ok (opts_of opts) ->
  Forall byte (ko_name (opts_of opts)) -> Forall byte (ko_email (opts_of opts)) -> ko_ttl (opts_of opts) < 2 ^ 63 ->
  zlen (ko_name (opts_of opts)) + zlen (ko_email (opts_of opts)) < 2 ^ 31 -> mnk_new E s t0 opts = Ok m ->
  password_ok pw -> Forall byte tape -> exports E f (mnk_keys m) pw tape t ->
  let created := pk_time (tk_key t) in
  let ttl := ko_ttl (opts_of opts) in
  exists out col lines fp uid start finish subs,
    print_key_debug_info E (go_quote above) go_rfc3339 m = Ok out /\ visible Ground out = as_lines lines /\
    Forall2 (fun p line => table_row col (fst p) (snd p) line)
      ([(bs "Master key Fingerprint", fp); (bs "User ID", uid); (bs "Created at", start)] ++
       (if ttl =? 0 then [] else [(bs "Expires at", finish)]) ++ subs) lines /\
    unhex fp = Some (fingerprint E (tk_key t)) /\ literal uid (tk_uid t) /\ reads_time start created /\
    reads_time finish (created + ttl / 10 ^ 9) /\ length subs = length (tk_subkeys t) /\
    subkeys_match (mnk_keys m) t (fun k _ _ b =>
      exists v, In (shown_name k ++ bs " subkey fingerprint", v) subs /\ unhex v = Some (fingerprint E (sb_key b))).
Proof.
  intros E edv f s t0 opts m pw tape t above HK HE S O BN BE TT L N Hp Ht X created ttl.
  pose proof (uid_bytes E s t0 opts m HK S O BN BE N) as BU. destruct (reported_identity E edv f s t0 opts m pw tape t HK HE S O L N Hp Ht X) as (_ & I2 & I3 & _).
  destruct (mnk_times E s t0 opts m HK S O N) as (_ & T2 & T3 & T4 & _).
  assert (NE : ~ In 27 (go_quote above (mnk_user_id m))) by (destruct (quote_shows above _ BU) as (cs & -> & C); apply (shown_no_esc above cs C)).
  destruct (verbose_identity E edv f s t0 opts m pw tape t (fun _ => go_quote above (mnk_user_id m)) go_rfc3339 HK HE S O L N Hp Ht X (fun _ => NE) rfc3339_no_esc)
    as (out & col & lines & fp & subs & P & V & R & F & LS & M).
  fold created in R. fold ttl in R. change (pk_time (tk_key t) * 1000000000) with (created * 1000000000) in I3.
  exists out, col, lines, fp, (go_quote above (mnk_user_id m)), (go_rfc3339 (created * ns)), (go_rfc3339 (created * ns + ttl / ns * ns)), subs.
  assert (C : first_second <= created <= last_second) by (change ns with 1000000000 in *; lia). clear I3 T2 T3.
  unfold first_second, last_second in C. fold ttl in TT, T4.
  assert (TS : 0 <= ttl / ns <= 9223372036) by (change ns with 1000000000; lia). clear TT T4. change ns with (10 ^ 9) in *.
  split; [exact P|]. split; [exact V|]. split; [exact R|]. split; [exact F|]. split; [rewrite <- I2; apply quote_literal, BU|].
  split; [|split; [|split; [exact LS|exact M]]].
  - rewrite <- (Z.div_mul created (10 ^ 9)) at 2 by discriminate. apply rfc3339_reads. lia.
  - rewrite <- Z.mul_add_distr_r. rewrite <- (Z.div_mul (created + _) (10 ^ 9)) at 2 by discriminate. apply rfc3339_reads. lia.
Qed.
Print Assumptions verbose_reads.

(** ** The hypotheses are met *)
(** a quote, an escape sequence, a byte that is not UTF-8, the no-break space, an e with an acute accent, the
    line separator and a tag character outside the first plane *)
Example quote_case : Forall byte ([97; 34; 92; 27; 91; 50; 74; 10; 255; 194; 160; 195; 169; 226; 128; 168; 243; 160; 129; 129]) /\
  go_quote (fun _ => false) [97; 34; 92; 27; 91; 50; 74; 10; 255; 194; 160; 195; 169; 226; 128; 168; 243; 160; 129; 129] =
  bs """a\""\\\x1b[2J\n\xff\u00a0" ++ [195; 169] ++ bs "\u2028\U000e0041""".
Proof. split; [repeat constructor; discriminate|vm_compute; reflexivity]. Qed.
Example verbose_reads_case : exists m t,
  mnk_new toy_env (mk_seed 0 77) (1700000000 * ns + 5) (Some (case_opts (31536000 * ns))) = Ok m /\
  exports toy_env Full (mnk_keys m) (bs "hunter2") case_tape t /\
  exists out, print_key_debug_info toy_env (go_quote (fun _ => false)) go_rfc3339 m = Ok out /\
    literal (bs """username <username@email.com>""") (tk_uid t) /\ reads_time (bs "2023-11-14T22:13:20Z") (pk_time (tk_key t)) /\
    reads_time (bs "2024-11-13T22:13:20Z") (pk_time (tk_key t) + 31536000).
Proof.
  destruct verbose_case as (m & t & N & X & _). exists m, t. split; [exact N|]. split; [exact X|].
  assert (P : password_ok (bs "hunter2")) by (vm_compute; congruence).
  assert (T : Forall byte case_tape).
  { apply Forall_forall. intros x Hx. apply repeat_spec in Hx. subst. split; reflexivity || discriminate. }
  assert (Q1 : seed_ok (mk_seed 0 77)) by (split; vm_compute; intuition congruence).
  assert (Q2 : opts_ok (opts_of (Some (case_opts (31536000 * ns))))) by (repeat split; vm_compute; congruence).
  destruct (verbose_reads toy_env toy_verify Full (mk_seed 0 77) (1700000000 * ns + 5) (Some (case_opts (31536000 * ns))) m
    (bs "hunter2") case_tape t (fun _ => false)) as (out & _ & _ & _ & _ & _ & _ & _ & O & _);
    [exact toy_hkdf_ok|exact toy_env_ok|exact Q1|exact Q2|repeat constructor; discriminate|repeat constructor; discriminate|vm_compute; reflexivity|vm_compute; reflexivity|exact N|exact P|exact T|exact X|].
  exists out. split; [exact O|].
  destruct (reported_identity toy_env toy_verify Full (mk_seed 0 77) (1700000000 * ns + 5) (Some (case_opts (31536000 * ns))) m
    (bs "hunter2") case_tape t) as (_ & I2 & I3 & _);
    [exact toy_hkdf_ok|exact toy_env_ok|exact Q1|exact Q2|vm_compute; reflexivity|exact N|exact P|exact T|exact X|].
  destruct (mnk_times toy_env _ _ _ m toy_hkdf_ok Q1 Q2 N) as (_ & T2 & _).
  assert (C : pk_time (tk_key t) = 1700000000).
  { rewrite T2 in I3. change ((1700000000 * ns + 5) / ns * ns) with 1700000000000000000 in I3. lia. }
  assert (U : tk_uid t = bs "username <username@email.com>").
  { rewrite <- I2, (uid_is _ _ _ _ _ toy_hkdf_ok Q1 Q2 N). reflexivity. }
  rewrite U, C. split; [|split].
  - change (bs """username <username@email.com>""") with (go_quote (fun _ => false) (bs "username <username@email.com>")). apply quote_literal. repeat constructor; discriminate.
  - change (bs "2023-11-14T22:13:20Z") with (go_rfc3339 (1700000000 * 10 ^ 9)). apply (rfc3339_reads (1700000000 * 10 ^ 9)). vm_compute. intuition congruence.
  - change (bs "2024-11-13T22:13:20Z") with (go_rfc3339 (1731536000 * 10 ^ 9)). apply (rfc3339_reads (1731536000 * 10 ^ 9)). vm_compute. intuition congruence.
Qed.
