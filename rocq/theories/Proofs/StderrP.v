(** The program as a whole: standard error of a run from that of its command. *)
From Coq Require Import Lia ZifyBool ZifyNat.
From Verif.Model Require Import GoBase Env CliText CliInput CliFlags CliMain CliHelp CliTrace.
From Verif.Spec Require Import EnvSpec TextSpec MainSpec FlagSpec TraceSpec.
From Verif.Proofs Require Import BitsP FlagP TraceP.
From Verif.Props Require Import MainProps FlagProps HelpProps.
Ltac Zify.zify_post_hook ::= Z.div_mod_to_equations.

(** *** the reason a command line is refused *)
Definition message_turn (H : host) (f : nat) (fs : flag_set) (name : bytes) (value : option bytes) (rest : list bytes) : bytes :=
  match flag_get fs name with
  | None => bs "flag provided but not defined: -" ++ name
  | Some old =>
      match old, value, rest with
      | Bool _, None, _ => flag_error H f (flag_put fs name (Bool true)) rest
      | _, Some text, _ =>
          match flag_parse_value old text with
          | Some v => flag_error H f (flag_put fs name v) rest
          | None => value_error H old name text
          end
      | _, None, text :: rest' =>
          match flag_parse_value old text with
          | Some v => flag_error H f (flag_put fs name v) rest'
          | None => value_error H old name text
          end
      | _, None, [] => bs "flag needs an argument: -" ++ name
      end
  end.
Lemma message_body H f fs body a rest c r : body = c :: r -> c <> 45 -> c <> 61 -> dashed body a ->
  flag_error H (S f) fs (a :: rest) = let (n, v) := cut_equals body in message_turn H f fs n v rest.
Proof.
  intros -> C E D. assert (X : split_flag (c :: r) = cut_equals (c :: r)).
  { unfold split_flag. cbn [cut_equals]. replace (c =? 61) with false by lia. reflexivity. }
  inversion D; subst.
  - cbn [flag_error]. change (negb (45 =? 45)) with false. cbv iota. replace (c =? 45) with false by lia. cbn [andb orb]. cbv beta iota zeta.
    replace (c =? 45) with false by lia. replace (c =? 61) with false by lia. cbn [orb]. rewrite X. destruct (cut_equals (c :: r)). reflexivity.
  - cbn [flag_error]. change (negb (45 =? 45)) with false. cbv iota. change (45 =? 45) with true. cbn [andb orb]. cbv beta iota zeta.
    replace (c =? 45) with false by lia. replace (c =? 61) with false by lia. cbn [orb]. rewrite X. destruct (cut_equals (c :: r)). reflexivity.
Qed.
Lemma message_bare H f fs n a rest : option_name n -> dashed n a -> flag_error H (S f) fs (a :: rest) = message_turn H f fs n None rest.
Proof.
  intros (c & r & E & C & N) D. rewrite (message_body H f fs n a rest c r); auto; [|intros ->; subst n; apply N; left; reflexivity].
  rewrite cut_none by auto. reflexivity.
Qed.
Lemma message_equals H f fs n t a rest : option_name n -> dashed (n ++ 61 :: t) a -> flag_error H (S f) fs (a :: rest) = message_turn H f fs n (Some t) rest.
Proof.
  intros (c & r & E & C & N) D. rewrite (message_body H f fs (n ++ 61 :: t) a rest c (r ++ 61 :: t)); auto; [|subst n; reflexivity|intros ->; subst n; apply N; left; reflexivity].
  rewrite cut_some by auto. reflexivity.
Qed.
Lemma message_settings H tab s args more : settings_then tab s args more -> forall fs f, table_of fs tab -> names_ok tab -> (length args < f)%nat ->
  exists f', (length more < f')%nat /\ flag_error H f fs args = flag_error H f' (put_all fs s) more /\ table_of (put_all fs s) tab.
Proof.
  induction 1 as [rest|n k v opt s args rest I S R IH]; intros fs f T O L; [exists f; auto|].
  destruct (proj1 (T n k) I) as (old & G & K). pose proof (O n k I) as ON.
  assert (P : forall m, (length args < m)%nat -> kind_of (value_of v) = k ->
    exists f', (length rest < f')%nat /\ flag_error H m (flag_put fs n (value_of v)) args = flag_error H f' (put_all fs ((n, v) :: s)) rest /\ table_of (put_all fs ((n, v) :: s)) tab).
  { intros m Lm Km. cbn [put_all]. apply IH; auto. apply (table_put fs tab n _ old); auto. congruence. }
  destruct f as [|f]; [lia|]. inversion S; subst; cbn [app length] in *.
  - rewrite (message_bare H f fs n a args) by auto. unfold message_turn. rewrite G. destruct old; try discriminate. apply P; [lia|reflexivity].
  - rewrite (message_equals H f fs n t a args) by auto. unfold message_turn. rewrite G.
    assert (X : flag_parse_value old t = Some (value_of v)) by (apply parse_value_iff; eauto).
    assert (Q : kind_of (value_of v) = kind_of old) by (eapply means_kind; eauto).
    destruct old; rewrite X; apply P; auto; lia.
  - rewrite (message_bare H f fs n a (t :: args)) by auto. unfold message_turn. rewrite G.
    assert (X : flag_parse_value old t = Some (value_of v)) by (apply parse_value_iff; eauto).
    assert (Q : kind_of (value_of v) = kind_of old) by (eapply means_kind; eauto).
    destruct old; [exfalso; auto| |]; rewrite X; apply P; auto; lia.
Qed.
Lemma overflow_plain base : 2 <= base -> forall s n v, 0 <= n <= max_uint64 -> plain_digits base n s = Some v -> max_uint64 < v -> digits_overflow base n s = true.
Proof.
  intros B. induction s as [|c s IH]; intros n v N P L; cbn [plain_digits digits_overflow] in *; [injection P as <-; lia|].
  destruct (c =? 95); [eapply IH; eauto|]. fold (seen_digit c). destruct (seen_digit c) as [d|] eqn:D; [|discriminate].
  apply seen_digit_spec in D. apply digit_pos in D. destruct (d >=? base); [discriminate|].
  destruct (n >=? max_uint64 / base + 1); [reflexivity|]. cbv zeta. destruct (n * base + d >? max_uint64) eqn:O; [reflexivity|]. apply (IH _ v); auto. nia.
Qed.
Lemma integer_overflow t v : integer t v -> 2 ^ 64 <= v -> uint_overflow t = true.
Proof.
  intros I L. assert (M : max_uint64 < v) by (unfold max_uint64; lia). assert (Z0 : 0 <= 0 <= max_uint64) by (unfold max_uint64; lia). inversion I; subst; [lia| | |].
  - match goal with R : digit_run _ _ _ |- _ => apply run_iff in R as (_ & _ & P) end. unfold uint_overflow. replace (c =? 48) with false by lia. apply (overflow_plain 10 ltac:(lia) _ _ v); auto.
  - match goal with R : prefixed_run _ _ _ |- _ => apply prefixed_iff in R as (N & _ & P) end. unfold uint_overflow. change (48 =? 48) with true. cbv iota.
    assert (G : digits_overflow 8 0 s = true) by (apply (overflow_plain 8 ltac:(lia) _ _ v); auto).
    destruct s as [|p [|q r]]; [congruence|exact G|].
    destruct (lower_bit p =? 98) eqn:E1; [destruct (not_octal p (q :: r) 0 v ltac:(lia) P)|].
    destruct (lower_bit p =? 111) eqn:E2; [destruct (not_octal p (q :: r) 0 v ltac:(lia) P)|].
    destruct (lower_bit p =? 120) eqn:E3; [destruct (not_octal p (q :: r) 0 v ltac:(lia) P)|]. exact G.
  - match goal with R : prefixed_run _ _ _ |- _ => apply prefixed_iff in R as (N & _ & P) end. apply base_letter_lower in H. unfold uint_overflow. change (48 =? 48) with true. cbv iota.
    destruct s as [|q r]; [congruence|]. destruct H as [[Lp ->]|[[Lp ->]|[Lp ->]]]; rewrite Lp; cbn [Z.eqb Pos.eqb]; (eapply overflow_plain; eauto; lia).
Qed.
Lemma message_wrong H tab more fs f : wrong tab more -> table_of fs tab -> names_ok tab -> (length more < f)%nat -> wrong_text H tab more (flag_error H f fs more).
Proof.
  intros W T O L. destruct f as [|f]; [lia|].
  assert (G0 : forall n, (forall k, ~ In (n, k) tab) -> flag_get fs n = None).
  { intros n N. destruct (flag_get fs n) as [v|] eqn:G; [|reflexivity]. destruct (N (kind_of v)). apply T. eauto. }
  assert (NUM : forall n t args rest, In (n, Number) tab -> (exists a, args = [a] /\ dashed (n ++ 61 :: t) a \/ args = [a; t] /\ dashed n a) -> (forall v, ~ means Number t v) ->
    wrong_text H tab (args ++ rest) (bs "invalid value " ++ h_quote H t ++ bs " for flag -" ++ n ++ bs ": " ++ (if uint_overflow t then bs "value out of range" else bs "parse error"))).
  { intros n t args rest I A M. apply Text_number; auto; [destruct (uint_overflow t); cbn [In]; auto|]. intros v V.
    destruct (Z.lt_ge_cases v (2 ^ 64)) as [Lv|Lv]; [destruct (M (Num v)); constructor; auto|]. rewrite (integer_overflow t v V Lv). reflexivity. }
  destruct W as [r rest|a r rest D|a n rest N K1 K|n k t a rest I D M|n k t a rest I K D M|n k a I K D].
  - exact (Text_dashes H tab r rest).
  - replace (flag_error H (S f) fs (a :: rest)) with (bs "bad flag syntax: " ++ a); [exact (Text_equals H tab a r rest D)|inversion D; subst; reflexivity].
  - destruct N as [On D|t On D]; [rewrite (message_bare H f fs n a rest On D)|rewrite (message_equals H f fs n t a rest On D)]; unfold message_turn; rewrite G0 by auto; apply Text_name; auto; [apply Names_bare; auto|eapply Names_equals; eauto].
  - destruct (proj1 (T n k) I) as (old & G & <-). rewrite (message_equals H f fs n t a rest (O n _ I) D). unfold message_turn. rewrite G.
    pose proof (proj2 (parse_value_none old t) M) as M'. destruct old; rewrite M'; unfold value_error.
    + apply Text_switch; auto.
    + apply (NUM n t [a] rest); eauto.
    + discriminate.
  - destruct (proj1 (T n k) I) as (old & G & <-). rewrite (message_bare H f fs n a _ (O n _ I) D). unfold message_turn. rewrite G.
    pose proof (proj2 (parse_value_none old t) M) as M'. destruct old; [destruct K; reflexivity| |]; rewrite M'; unfold value_error.
    + apply (NUM n t [a; t] rest); eauto.
    + discriminate.
  - destruct (proj1 (T n k) I) as (old & G & <-). rewrite (message_bare H f fs n a _ (O n _ I) D). unfold message_turn. rewrite G.
    destruct old; [destruct K; reflexivity| |]; apply (Text_missing H tab n _ a I K D).
Qed.
Lemma message_line H fs tab args : table_of fs tab -> names_ok tab -> wrong_line tab args -> parse_flags fs args = Bad_flags /\ wrong_reason H tab args (flag_error H (S (length args)) fs args).
Proof.
  intros T O (s & more & S & X). split.
  - unfold parse_flags. destruct (parse_settings tab s args _ S fs _ T O (Nat.lt_succ_diag_r _)) as (f & L & -> & T'). apply (parse_wrong tab); auto.
  - destruct (message_settings H tab s args _ S fs _ T O (Nat.lt_succ_diag_r _)) as (f & L & -> & T'). exists s, more. split; [exact S|]. apply message_wrong; auto.
Qed.

(** *** commands *)
Definition docs : list (command_doc * command_text) := [(root_doc, root_text); (generate_doc, generate_text); (recover_doc, recover_text); (convert_doc, convert_text)].
Lemma doc_help d t w : In (d, t) docs -> wide w -> exists help, help_output d (w_width w) = Text help /\ t_usage d t w = ((Ret tt, set_usage w (S (w_usage w))), (help, [])).
Proof.
  intros I W. assert (J : exists rows, In (d, (t, rows)) helps) by (destruct I as [Q|[Q|[Q|[Q|[]]]]]; injection Q as <- <-; eexists; cbv [helps In]; eauto).
  destruct J as [rows J]. destruct (help_shows d t rows (w_width w) J W) as (out & Q & _). exists out. split; [exact Q|]. unfold t_usage. rewrite Q, usage_wide; auto.
  destruct I as [X|[X|[X|[X|[]]]]]; injection X as <- <-; cbn [In]; auto.
Qed.
Definition docs_of (name : bytes) (d : command_doc) (t : command_text) : Prop :=
  In (name, (d, t)) [(bs "generate", (generate_doc, generate_text)); (bs "recover", (recover_doc, recover_text)); (bs "convert", (convert_doc, convert_text))].
Lemma docs_in name d t : docs_of name d t -> In (d, t) docs /\ command_name name.
Proof.
  intros [Q|[Q|[Q|[]]]]; injection Q as <- <- <-; (split; [cbv [docs In]; auto|]); (split; [vm_compute; discriminate|intros r; vm_compute; discriminate]).
Qed.
(** what the program makes of the outcome of a command *)
Definition concluded (r : (outcome unit * world) * (bytes * bytes)) : (option Z * world) * bytes :=
  match r with
  | ((o, w'), (out, text)) => ((exit_status o, w'), out ++ match o with Fail ErrPrintUsageGraceful => [] | Fail _ => line (bs "ERROR: " ++ text) | _ => [] end)
  end.
Lemma main_named E H name run rest w : command_name name -> t_subcommand E H name = Some run ->
  (forall w' x, run rest w <> ((Fail ErrPrintUsage, w'), x)) -> t_main E H (name :: rest) w = concluded (run rest w).
Proof.
  intros C S N. unfold t_main, t_run_command. rewrite parse_positional by apply C. unfold t_root_execute. rewrite (name_not_help _ C), S.
  assert (Q : (fun w0 => match run rest w0 with
    | ((Fail ErrPrintUsage, w'), (out, text)) => (tell _ <- say out; tell _ <- t_usage root_doc root_text; t_fail ErrOther text) w'
    | r => r end) w = run rest w).
  { cbv beta. destruct (run rest w) as [[[u|e| | |c] w'] [out text]] eqn:R; try reflexivity. destruct e; try reflexivity. destruct (N w' (out, text)). reflexivity. }
  destruct rest as [|b rest]; cbv beta in *; rewrite Q; unfold concluded; destruct (run _ w) as [[o w'] [out text]]; reflexivity.
Qed.
Lemma run_parsed H d t flags x args fs rest w o w1 out text : parse_flags flags args = Parsed fs rest -> args <> [bs "help"] -> x fs rest w = ((o, w1), (out, text)) ->
  (o <> Fail ErrPrintUsage -> t_run_command H d t flags x args w = ((o, w1), (out, text))) /\
  (o = Fail ErrPrintUsage -> In (d, t) docs -> wide w1 -> exists help, help_output d (w_width w1) = Text help /\
     t_run_command H d t flags x args w = ((Fail ErrOther, set_usage w1 (S (w_usage w1))), (out ++ help, text))).
Proof.
  intros P N X. assert (Q : t_run_command H d t flags x args w = match x fs rest w with
    | ((Fail ErrPrintUsage, w), (out, text)) => (tell _ <- say out; tell _ <- t_usage d t; t_fail ErrOther text) w
    | r => r end).
  { unfold t_run_command. rewrite P. destruct args as [|a [|b l]]; [reflexivity| |reflexivity]. destruct (bytes_eqb a (bs "help")) eqn:A; [apply bytes_eqb_eq in A; subst; congruence|reflexivity]. }
  rewrite Q, X. split.
  - intros O. destruct o as [u|e| | |c]; try reflexivity. destruct e; try reflexivity. congruence.
  - intros -> I W. destruct (doc_help d t w1 I W) as (help & H1 & H2). exists help. split; [exact H1|]. unfold t_then, say. rewrite H2. unfold t_fail. rewrite app_nil_r. reflexivity.
Qed.
Lemma sub_named E H : t_subcommand E H (bs "generate") = Some (t_generate_command E H) /\ t_subcommand E H (bs "recover") = Some (t_recover_command E H) /\
  t_subcommand E H (bs "convert") = Some (t_convert_command E H).
Proof. split; [reflexivity|]. split; reflexivity. Qed.
(** the whole run, from what the command itself does *)
Lemma main_command E H name d t flags x args fs rest w o w1 out text : docs_of name d t ->
  t_subcommand E H name = Some (t_run_command H d t flags x) -> parse_flags flags args = Parsed fs rest -> args <> [bs "help"] -> x fs rest w = ((o, w1), (out, text)) ->
  (o <> Fail ErrPrintUsage -> t_main E H (name :: args) w = concluded ((o, w1), (out, text))) /\
  (o = Fail ErrPrintUsage -> wide w1 -> exists help, help_output d (w_width w1) = Text help /\
     t_main E H (name :: args) w = ((Some 1, set_usage w1 (S (w_usage w1))), out ++ help ++ bs "ERROR: " ++ text ++ [10])).
Proof.
  intros D SB P N X. destruct (docs_in name d t D) as [I C]. destruct (run_parsed H d t flags x args fs rest w o w1 out text P N X) as [R1 R2]. split.
  - intros O. rewrite (main_named E H name _ args w C SB).
    + rewrite R1 by exact O. reflexivity.
    + intros w0 y Q. rewrite R1 in Q by exact O. congruence.
  - intros O W. destruct (R2 O I W) as (help & H1 & H2). exists help. split; [exact H1|]. rewrite (main_named E H name _ args w C SB).
    + rewrite H2. unfold concluded, line. cbn [exit_status]. rewrite <- !app_assoc. reflexivity.
    + intros w' y Q. rewrite H2 in Q. discriminate.
Qed.
