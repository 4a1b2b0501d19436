(** Options of the commands (C70), the numbers given to them (C44) and white space in word files (C45). *)
From Coq Require Import Lia ZifyBool ZifyNat.
From Verif.Model Require Import GoBase Env CliText CliInput CliFlags CliMain.
From Verif.Spec Require Import EnvSpec TextSpec InputSpec FileSpec MainSpec FlagSpec SpaceSpec.
From Verif.Proofs Require Import BitsP FileP EnvInst FlagP SpaceP.
From Verif.Props Require Import MainProps.
Ltac Zify.zify_post_hook ::= Z.div_mod_to_equations.

(** ** C44: numbers *)
(** The text of an index option is an integer literal of Go below 2^64, and nothing else. *)
Theorem index_option_integer : forall name q, In name index_names ->
  (forall n, integer q n -> n < 2 ^ 64 ->
     exists fs, parse_flags recover_flags [45 :: name; q] = Parsed fs [] /\ index_field name (recover_options_of fs) = n) /\
  ((forall n, integer q n -> 2 ^ 64 <= n) -> parse_flags recover_flags [45 :: name; q] = Bad_flags).
Proof.
  intros name q I. pose proof (index_flags name q I) as F. split.
  - intros n H L. assert (P : parse_uint0 q = Some n) by (apply integer_iff; auto). rewrite P in F.
    destruct F as (fs & F & V & _). eauto.
  - intros H. destruct (parse_uint0 q) as [n|] eqn:P; [|exact F]. apply integer_iff in P as [P L]. specialize (H n P). lia.
Qed.
Print Assumptions index_option_integer.
Lemma integer_fun s n m : integer s n -> integer s m -> n < 2 ^ 64 -> m < 2 ^ 64 -> n = m.
Proof.
  intros A B L M. assert (P : parse_uint0 s = Some n) by (apply integer_iff; auto). assert (Q : parse_uint0 s = Some m) by (apply integer_iff; auto). congruence.
Qed.

(** ** C70: options *)
Definition tables : list (bytes * (flag_set * table)) :=
  [(bs "generate", (generate_flags, generate_table)); (bs "recover", (recover_flags, recover_table)); (bs "convert", (convert_flags, convert_table))].
Lemma get_in fs n v : flag_get fs n = Some v -> In (n, v) fs.
Proof.
  induction fs as [|[m w] fs IH]; cbn [flag_get]; [discriminate|]. destruct (bytes_eqb m n) eqn:E; [|right; auto].
  apply bytes_eqb_eq in E. intros H. injection H as <-. subst. left. reflexivity.
Qed.
Lemma tables_ok name flags tab : In (name, (flags, tab)) tables -> table_of flags tab /\ names_ok tab /\
  (forall n, (exists k, In (n, k) tab) \/ forall k, ~ In (n, k) tab).
Proof.
  intros I. split; [|split].
  - destruct I as [H|[H|[H|[]]]]; injection H as <- <- <-; intros n k; (split;
    [intros T; cbv [generate_table recover_table convert_table In] in T;
     repeat (destruct T as [T|T]; [injection T as <- <-; eexists; (split; [reflexivity|reflexivity])|]); destruct T
    |intros (v & G & <-); apply get_in in G; cbv [generate_flags recover_flags convert_flags common_flags generate_recover_flags recover_convert_flags generate_convert_flags app In] in G;
     repeat (destruct G as [G|G]; [injection G as <- <-; cbv [generate_table recover_table convert_table In kind_of]; tauto|]); destruct G]).
  - destruct I as [H|[H|[H|[]]]]; injection H as <- <- <-; intros n k T; cbv [generate_table recover_table convert_table In] in T;
    repeat (destruct T as [T|T]; [injection T as <- <-; cbv [bs]; do 2 eexists; (split; [reflexivity|]); (split; [discriminate|]); vm_compute; intuition discriminate|]); destruct T.
  - intros n. destruct (in_dec (list_eq_dec Z.eq_dec) n (map fst tab)) as [H|H].
    + left. apply in_map_iff in H as ([m k] & <- & H). eauto.
    + right. intros k X. apply H. apply in_map_iff. exists (n, k). auto.
Qed.
Lemma parse_line name flags tab s args rest : In (name, (flags, tab)) tables -> command_line tab s args rest ->
  parse_flags flags args = Parsed (put_all flags s) rest /\
  forall n k d, In (bs n, k) tab -> flag_get flags (bs n) = Some d -> forall v, flag_get (put_all flags s) (bs n) = v ->
    v = match last_setting s (bs n) with Some x => Some (value_of x) | None => Some d end /\
    forall x, last_setting s (bs n) = Some x -> kind_of (value_of x) = k.
Proof.
  intros I (more & S & E). destruct (tables_ok name flags tab I) as (T & O & _). split.
  - unfold parse_flags. destruct (parse_settings tab s args more S flags _ T O (Nat.lt_succ_diag_r _)) as (f & L & -> & _). apply parse_end; auto.
  - intros n k d K G v <-. rewrite get_all.
    + rewrite G. split; [reflexivity|]. intros x X. apply last_in in X. destruct (settings_known tab s args more S _ _ X) as (k' & K' & Q).
      apply T in K as (v & V & <-). apply T in K' as (v' & V' & <-). congruence.
    + intros m v X. destruct (settings_known tab s args more S _ _ X) as (k' & K' & _). apply T in K' as (v' & V' & _). congruence.
Qed.
Lemma line_switch name flags tab s args rest : In (name, (flags, tab)) tables -> command_line tab s args rest ->
  forall n d, In (bs n, Switch) tab -> flag_get flags (bs n) = Some (Bool d) -> flag_bool (put_all flags s) (bs n) = switch_of s n d.
Proof.
  intros I C n d K G. destruct (parse_line name flags tab s args rest I C) as [_ P]. destruct (P n Switch _ K G _ eq_refl) as [Q R].
  unfold flag_bool, switch_of. rewrite Q. destruct (last_setting s (bs n)) as [x|]; [|reflexivity]. specialize (R x eq_refl). destruct x; try discriminate. reflexivity.
Qed.
Lemma line_number name flags tab s args rest : In (name, (flags, tab)) tables -> command_line tab s args rest ->
  forall n d, In (bs n, Number) tab -> flag_get flags (bs n) = Some (Uint d) -> flag_uint (put_all flags s) (bs n) = number_of s n d.
Proof.
  intros I C n d K G. destruct (parse_line name flags tab s args rest I C) as [_ P]. destruct (P n Number _ K G _ eq_refl) as [Q R].
  unfold flag_uint, number_of. rewrite Q. destruct (last_setting s (bs n)) as [x|]; [|reflexivity]. specialize (R x eq_refl). destruct x; try discriminate. reflexivity.
Qed.
Lemma line_text name flags tab s args rest : In (name, (flags, tab)) tables -> command_line tab s args rest ->
  forall n d, In (bs n, Words) tab -> flag_get flags (bs n) = Some (Str d) -> flag_str (put_all flags s) (bs n) = text_of s n d.
Proof.
  intros I C n d K G. destruct (parse_line name flags tab s args rest I C) as [_ P]. destruct (P n Words _ K G _ eq_refl) as [Q R].
  unfold flag_str, text_of. rewrite Q. destruct (last_setting s (bs n)) as [x|]; [|reflexivity]. specialize (R x eq_refl). destruct x; try discriminate. reflexivity.
Qed.

(** [runs E name args body w]: the program called with the command and these arguments does what
    [body] does; the arguments after the options play no part. *)
Definition runs (E : Env) (name : bytes) (args : list bytes) (body : action unit) (w : world) : Prop :=
  forall o w', body w = (o, w') ->
  (o <> Fail ErrPrintUsage -> mnemonikey_main E (name :: args) w = (exit_status o, w') /\ (exit_status o = Some 0 <-> o = Ret tt)) /\
  (o = Fail ErrPrintUsage ->
     exists c, mnemonikey_main E (name :: args) w = (c, set_usage w' (S (w_usage w'))) /\ c <> Some 0 /\ (wide w -> c = Some 1)).
Lemma runs_body E name flags body args fs rest w : In (name, (flags, body)) (bodies E) -> parse_flags flags args = Parsed fs rest -> args <> [bs "help"] ->
  runs E name args (body fs) w.
Proof.
  intros I P N o w' B. destruct (status_exact E name flags body args fs rest w o w' I P N B) as [H1 H2]. split; [exact H1|].
  intros ->. destruct (status_usage E name flags body args fs rest w w' I P N B) as (c & M & C). exists c. split; [exact M|]. split; [exact C|].
  intros W. rewrite (H2 eq_refl W) in M. injection M as <-. reflexivity.
Qed.

(** Settings in any spelling and order reach the command; the others have their defaults. *)
Theorem generate_line : forall E s args rest w, command_line generate_table s args rest -> args <> [bs "help"] ->
  runs E (bs "generate") args
    (generate_and_print E (mk_gen (text_of s "name" (bs "anonymous")) (text_of s "email" []) (text_of s "ttl" [])
       (switch_of s "encrypt-keys" false) (text_of s "only" []) (text_of s "out-word-file" [])
       (switch_of s "encrypt-phrase" false) (text_of s "unsafe-entropy" []))) w.
Proof.
  intros E s args rest w C N. assert (I : In (bs "generate", (generate_flags, generate_table)) tables) by (left; reflexivity).
  destruct (parse_line _ _ _ s args rest I C) as [P _].
  assert (B : In (bs "generate", (generate_flags, fun fs => generate_and_print E (generate_options_of fs))) (bodies E)) by (left; reflexivity).
  pose proof (runs_body E _ _ _ args _ rest w B P N) as R. cbv beta in R. unfold generate_options_of in R.
  rewrite (line_text _ _ _ _ _ _ I C "name" (bs "anonymous")) in R by (try reflexivity; cbv [generate_table In]; tauto).
  rewrite (line_text _ _ _ _ _ _ I C "email" []) in R by (try reflexivity; cbv [generate_table In]; tauto).
  rewrite (line_text _ _ _ _ _ _ I C "ttl" []) in R by (try reflexivity; cbv [generate_table In]; tauto).
  rewrite (line_text _ _ _ _ _ _ I C "only" []) in R by (try reflexivity; cbv [generate_table In]; tauto).
  rewrite (line_text _ _ _ _ _ _ I C "out-word-file" []) in R by (try reflexivity; cbv [generate_table In]; tauto).
  rewrite (line_text _ _ _ _ _ _ I C "unsafe-entropy" []) in R by (try reflexivity; cbv [generate_table In]; tauto).
  rewrite (line_switch _ _ _ _ _ _ I C "encrypt-keys" false) in R by (try reflexivity; cbv [generate_table In]; tauto).
  rewrite (line_switch _ _ _ _ _ _ I C "encrypt-phrase" false) in R by (try reflexivity; cbv [generate_table In]; tauto).
  exact R.
Qed.
Print Assumptions generate_line.
Theorem recover_line : forall E s args rest w, command_line recover_table s args rest -> args <> [bs "help"] ->
  runs E (bs "recover") args
    (recover_and_print E (mk_rec (text_of s "name" (bs "anonymous")) (text_of s "email" []) (text_of s "ttl" [])
       (switch_of s "encrypt-keys" false) (text_of s "only" []) (mk_in (switch_of s "simple" false) (text_of s "in-word-file" []))
       (switch_of s "self-cert" true) (number_of s "enc-index" 0) (number_of s "auth-index" 0) (number_of s "sig-index" 0))) w.
Proof.
  intros E s args rest w C N. assert (I : In (bs "recover", (recover_flags, recover_table)) tables) by (right; left; reflexivity).
  destruct (parse_line _ _ _ s args rest I C) as [P _].
  assert (B : In (bs "recover", (recover_flags, fun fs => recover_and_print E (recover_options_of fs))) (bodies E)) by (right; left; reflexivity).
  pose proof (runs_body E _ _ _ args _ rest w B P N) as R. cbv beta in R. unfold recover_options_of, input_options_of in R.
  rewrite (line_text _ _ _ _ _ _ I C "name" (bs "anonymous")) in R by (try reflexivity; cbv [recover_table In]; tauto).
  rewrite (line_text _ _ _ _ _ _ I C "email" []) in R by (try reflexivity; cbv [recover_table In]; tauto).
  rewrite (line_text _ _ _ _ _ _ I C "ttl" []) in R by (try reflexivity; cbv [recover_table In]; tauto).
  rewrite (line_text _ _ _ _ _ _ I C "only" []) in R by (try reflexivity; cbv [recover_table In]; tauto).
  rewrite (line_text _ _ _ _ _ _ I C "in-word-file" []) in R by (try reflexivity; cbv [recover_table In]; tauto).
  rewrite (line_switch _ _ _ _ _ _ I C "encrypt-keys" false) in R by (try reflexivity; cbv [recover_table In]; tauto).
  rewrite (line_switch _ _ _ _ _ _ I C "simple" false) in R by (try reflexivity; cbv [recover_table In]; tauto).
  rewrite (line_switch _ _ _ _ _ _ I C "self-cert" true) in R by (try reflexivity; cbv [recover_table In]; tauto).
  rewrite (line_number _ _ _ _ _ _ I C "enc-index" 0) in R by (try reflexivity; cbv [recover_table In]; tauto).
  rewrite (line_number _ _ _ _ _ _ I C "auth-index" 0) in R by (try reflexivity; cbv [recover_table In]; tauto).
  rewrite (line_number _ _ _ _ _ _ I C "sig-index" 0) in R by (try reflexivity; cbv [recover_table In]; tauto).
  exact R.
Qed.
Print Assumptions recover_line.
Theorem convert_line : forall E s args rest w, command_line convert_table s args rest -> args <> [bs "help"] ->
  runs E (bs "convert") args
    (decode_and_convert E (mk_conv (mk_in (switch_of s "simple" false) (text_of s "in-word-file" []))
       (switch_of s "encrypt-phrase" false) (text_of s "out-word-file" []))) w.
Proof.
  intros E s args rest w C N. assert (I : In (bs "convert", (convert_flags, convert_table)) tables) by (right; right; left; reflexivity).
  destruct (parse_line _ _ _ s args rest I C) as [P _].
  assert (B : In (bs "convert", (convert_flags, fun fs => decode_and_convert E (convert_options_of fs))) (bodies E)) by (right; right; left; reflexivity).
  pose proof (runs_body E _ _ _ args _ rest w B P N) as R. cbv beta in R. unfold convert_options_of, input_options_of in R.
  rewrite (line_text _ _ _ _ _ _ I C "in-word-file" []) in R by (try reflexivity; cbv [convert_table In]; tauto).
  rewrite (line_text _ _ _ _ _ _ I C "out-word-file" []) in R by (try reflexivity; cbv [convert_table In]; tauto).
  rewrite (line_switch _ _ _ _ _ _ I C "simple" false) in R by (try reflexivity; cbv [convert_table In]; tauto).
  rewrite (line_switch _ _ _ _ _ _ I C "encrypt-phrase" false) in R by (try reflexivity; cbv [convert_table In]; tauto).
  exact R.
Qed.
Print Assumptions convert_line.
(** -verbose, which decides only about the extra output *)
Theorem verbose_line : forall name flags tab s args rest, In (name, (flags, tab)) tables -> command_line tab s args rest ->
  exists fs, parse_flags flags args = Parsed fs rest /\ flag_bool fs (bs "verbose") = switch_of s "verbose" false.
Proof.
  intros name flags tab s args rest I C. destruct (parse_line _ _ _ s args rest I C) as [P _]. eexists. split; [exact P|].
  apply (line_switch _ _ _ _ _ _ I C); destruct I as [H|[H|[H|[]]]]; injection H as <- <- <-; try reflexivity; cbv [generate_table recover_table convert_table In]; tauto.
Qed.
Print Assumptions verbose_line.

(** Every list of arguments is settings followed by other arguments, by a request for help or by
    something wrong; the last two do nothing but show the help text, with status 0 and 2. *)
Theorem line_sorts : forall name flags tab args, In (name, (flags, tab)) tables ->
  (exists s rest, command_line tab s args rest) \/ help_line tab args \/ wrong_line tab args.
Proof.
  intros name flags tab args I. destruct (tables_ok name flags tab I) as (_ & O & D). apply (sorts tab O D (length args)). lia.
Qed.
Print Assumptions line_sorts.
Lemma tables_bodies E name flags tab : In (name, (flags, tab)) tables -> exists body, In (name, (flags, body)) (bodies E).
Proof. intros [H|[H|[H|[]]]]; injection H as <- <- <-; eexists; cbv [bodies In]; eauto. Qed.
Theorem help_line_shown : forall E name flags tab args w, In (name, (flags, tab)) tables -> help_line tab args -> wide w ->
  mnemonikey_main E (name :: args) w = (Some 0, set_usage w (S (w_usage w))).
Proof.
  intros E name flags tab args w I (s & a & n & rest & S & N & H & K) W. destruct (tables_ok name flags tab I) as (T & O & _).
  assert (P : parse_flags flags args = Help).
  { unfold parse_flags. destruct (parse_settings tab s args _ S flags _ T O (Nat.lt_succ_diag_r _)) as (f & L & -> & T').
    destruct f as [|f]; [lia|]. apply (parse_help a n); auto. destruct (flag_get (put_all flags s) n) as [v|] eqn:G; [|reflexivity].
    destruct (K (kind_of v)). apply T'. eauto. }
  destruct (tables_bodies E name flags tab I) as (body & B). destruct (body_command E name flags body B) as (t & T1 & C & S1 & _).
  assert (U : run_command t flags (fun fs _ => body fs) args w = (Exit 0, set_usage w (Datatypes.S (w_usage w)))).
  { unfold run_command. rewrite P. destruct args as [|a' [|b l]]; try (unfold andthen; rewrite usage_wide by auto; reflexivity).
    destruct (bytes_eqb a' (bs "help")) eqn:X; [apply bytes_eqb_eq in X; subst a'|unfold andthen; rewrite usage_wide by auto; reflexivity].
    rewrite parse_positional in P by discriminate. discriminate. }
  unfold mnemonikey_main. rewrite (dispatch_named (subcommand E) name _ args w _ _ C S1 U) by discriminate. reflexivity.
Qed.
Print Assumptions help_line_shown.
Theorem wrong_line_refused : forall E name flags tab args w, In (name, (flags, tab)) tables -> wrong_line tab args -> wide w ->
  mnemonikey_main E (name :: args) w = (Some 2, set_usage w (S (w_usage w))).
Proof.
  intros E name flags tab args w I (s & more & S & X) W. destruct (tables_ok name flags tab I) as (T & O & _).
  destruct (tables_bodies E name flags tab I) as (body & B). apply (status_bad_flags E name flags body); auto.
  unfold parse_flags. destruct (parse_settings tab s args _ S flags _ T O (Nat.lt_succ_diag_r _)) as (f & L & -> & T').
  apply (parse_wrong tab); auto.
Qed.
Print Assumptions wrong_line_refused.
(** "mnemonikey generate help" and the like *)
Theorem help_word_shown : forall E name flags tab w, In (name, (flags, tab)) tables -> wide w ->
  mnemonikey_main E [name; bs "help"] w = (Some 0, set_usage w (S (w_usage w))).
Proof.
  intros E name flags tab w I W. destruct (tables_bodies E name flags tab I) as (body & B). destruct (body_command E name flags body B) as (t & T1 & C & S1 & _).
  assert (U : run_command t flags (fun fs _ => body fs) [bs "help"] w = (Ret tt, set_usage w (Datatypes.S (w_usage w)))).
  { unfold run_command. change (bytes_eqb (bs "help") (bs "help")) with true. cbv iota. apply usage_wide; auto. }
  unfold mnemonikey_main. rewrite (dispatch_named (subcommand E) name _ [bs "help"] w _ _ C S1 U) by discriminate. reflexivity.
Qed.
Print Assumptions help_word_shown.

(** ** C45: white space *)
Theorem word_file_unicode : forall E points tokens ws, wordlist_ok E -> worded points tokens ->
  (parse_word_file E (utf8_text points) = Ok ws <-> ws = map (fun t => to_lower E (utf8_text t)) tokens /\ phrase_ok E ws).
Proof.
  intros E c ts ws W S. rewrite (parse_tokens E W). rewrite (scan_worded c ts S). rewrite map_map. reflexivity.
Qed.
Print Assumptions word_file_unicode.

(** ** Cases *)
Example integer_case : integer (bs "0x_fF") 255 /\ integer (bs "1_000") 1000 /\ integer (bs "017") 15 /\ (forall n, ~ integer (bs "1__0") n) /\ (forall n, ~ integer (bs "08") n).
Proof.
  assert (Y : forall s n, parse_uint0 s = Some n -> integer s n) by (intros s n H; apply integer_iff in H; tauto).
  split; [apply Y; vm_compute; reflexivity|]. split; [apply Y; vm_compute; reflexivity|]. split; [apply Y; vm_compute; reflexivity|].
  split; intros n H; inversion H; subst; try congruence.
  - match goal with R : digit_run _ _ _ |- _ => apply run_iff in R as (_ & X & _); discriminate end.
  - match goal with R : prefixed_run _ _ _ |- _ => apply prefixed_iff in R as (_ & _ & X); discriminate end.
  - match goal with R : base_letter _ _ |- _ => apply base_letter_lower in R; vm_compute in R; lia end.
Qed.
Definition case_args : list bytes := [bs "-name=Al=B"; bs "--sig-index"; bs "0x10"; bs "-encrypt-keys"; bs "-self-cert=F"; bs "-name"; bs "-x"; bs "--"; bs "-ttl"].
Definition case_settings : list (bytes * setting) :=
  [(bs "name", Txt (bs "Al=B")); (bs "sig-index", Num 16); (bs "encrypt-keys", On true); (bs "self-cert", On false); (bs "name", Txt (bs "-x"))].
Example line_case : command_line recover_table case_settings case_args [bs "-ttl"] /\ text_of case_settings "name" [] = bs "-x" /\
  switch_of case_settings "self-cert" true = false /\ number_of case_settings "sig-index" 0 = 16 /\ number_of case_settings "enc-index" 0 = 0.
Proof.
  split; [|vm_compute; auto]. exists [bs "--"; bs "-ttl"]. split; [|constructor].
  apply (Set_one recover_table (bs "name") Words _ [bs "-name=Al=B"]); [cbv [recover_table In]; tauto|apply Spell_equals with (t := bs "Al=B"); constructor|].
  apply (Set_one recover_table (bs "sig-index") Number _ [bs "--sig-index"; bs "0x10"]); [cbv [recover_table In]; tauto|apply Spell_next; [discriminate|constructor|]|].
  { constructor; [|lia]. assert (P : parse_uint0 (bs "0x10") = Some 16) by (vm_compute; reflexivity). apply integer_iff in P. tauto. }
  apply (Set_one recover_table (bs "encrypt-keys") Switch _ [bs "-encrypt-keys"]); [cbv [recover_table In]; tauto|apply Spell_bare; constructor|].
  apply (Set_one recover_table (bs "self-cert") Switch _ [bs "-self-cert=F"]); [cbv [recover_table In]; tauto|apply Spell_equals with (t := bs "F"); constructor; cbv [false_texts In]; tauto|].
  apply (Set_one recover_table (bs "name") Words _ [bs "-name"; bs "-x"]); [cbv [recover_table In]; tauto|apply Spell_next; [discriminate|constructor|constructor]|].
  constructor.
Qed.
Example other_lines_case : help_line generate_table [bs "-ttl"; bs "1y"; bs "--help"] /\ wrong_line generate_table [bs "-ttl=1y"; bs "-sig-index=1"] /\
  wrong_line recover_table [bs "-sig-index=x"] /\ wrong_line convert_table [bs "-in-word-file"].
Proof.
  split; [|split; [|split]].
  - exists [(bs "ttl", Txt (bs "1y"))], (bs "--help"), (bs "help"), []. split.
    + apply (Set_one generate_table (bs "ttl") Words _ [bs "-ttl"; bs "1y"]); [cbv [generate_table In]; tauto|apply Spell_next; [discriminate|constructor|constructor]|constructor].
    + split; [apply Names_bare; [do 2 eexists; (split; [reflexivity|]); (split; [discriminate|]); vm_compute; intuition discriminate|constructor]|].
      split; [left; reflexivity|]. intros k H. cbv [generate_table In] in H. intuition discriminate.
  - exists [(bs "ttl", Txt (bs "1y"))], [bs "-sig-index=1"]. split.
    + apply (Set_one generate_table (bs "ttl") Words _ [bs "-ttl=1y"]); [cbv [generate_table In]; tauto|apply Spell_equals with (t := bs "1y"); constructor|constructor].
    + apply (Wrong_name _ _ (bs "sig-index")).
      * apply (Names_equals _ _ (bs "1")); [do 2 eexists; (split; [reflexivity|]); (split; [discriminate|]); vm_compute; intuition discriminate|constructor].
      * intros k H. cbv [generate_table In] in H. intuition discriminate.
      * vm_compute. intuition discriminate.
  - exists [], [bs "-sig-index=x"]. split; [constructor|]. apply (Wrong_value _ (bs "sig-index") Number (bs "x")); [cbv [recover_table In]; tauto|constructor|].
    intros v M. inversion M as [| |t n H L|]; subst. assert (P : parse_uint0 (bs "x") = Some n) by (apply integer_iff; auto). vm_compute in P. discriminate.
  - exists [], [bs "-in-word-file"]. split; [constructor|]. apply (Wrong_missing _ (bs "in-word-file") Words); [cbv [convert_table In]; tauto|discriminate|constructor].
Qed.
Example unicode_case : worded ([0x3000] ++ bs "ab" ++ 0x2003 :: ([0xA0] ++ [0x212A; 233] ++ 10 :: [])) [bs "ab"; [0x212A; 233]].
Proof.
  assert (T : word_of (bs "ab")).
  { split; [discriminate|]. split; [|vm_compute; discriminate]. repeat constructor; unfold code_point; try (vm_compute; intuition discriminate); cbn; lia. }
  assert (T' : word_of [0x212A; 233]).
  { split; [discriminate|]. split; [|vm_compute; discriminate]. repeat constructor; unfold code_point; try lia; rewrite white_iff; lia. }
  apply (Worded_more [0x3000] (bs "ab") 0x2003); [repeat constructor; rewrite white_iff; lia|exact T|rewrite white_iff; lia|].
  apply (Worded_more [0xA0] [0x212A; 233] 10 [] []); [repeat constructor; rewrite white_iff; lia|exact T'|rewrite white_iff; lia|constructor; constructor].
Qed.
