(** Help texts (C71) and the examples in them (C72). *)
From Coq Require Import Lia ZifyBool ZifyNat.
From Verif.Model Require Import GoBase Env CliText CliInput CliFlags CliMain CliHelp.
From Verif.Spec Require Import EnvSpec TextSpec InputSpec MainSpec FlagSpec HelpSpec.
From Verif.Proofs Require Import BitsP PgpP TextP FlagP EnvInst.
From Verif.Props Require Import TextProps MainProps FlagProps.
Ltac Zify.zify_post_hook ::= Z.div_mod_to_equations.

(** ** Escape sequences and words *)
Fixpoint inside_after (inside : bool) (l : bytes) : bool :=
  match l with
  | [] => inside
  | c :: l' => if inside then inside_after (negb (c =? 109)) l' else inside_after (c =? 27) l'
  end.
Definition closed (l : bytes) : bool := negb (inside_after false l).
Lemma visible_app a : forall i b, visible_from i (a ++ b) = visible_from i a ++ visible_from (inside_after i a) b.
Proof.
  induction a as [|c a IH]; intros i b; cbn [app visible_from inside_after]; [reflexivity|].
  destruct i; [apply IH|]. destruct (c =? 27); [apply IH|]. cbn [app]. f_equal. apply IH.
Qed.
Lemma visible_closed a b : closed a = true -> visible (a ++ b) = visible a ++ visible b.
Proof. intros C. unfold visible, closed in *. rewrite visible_app. destruct (inside_after false a); [discriminate|reflexivity]. Qed.
Lemma inside_app a : forall i b, inside_after i (a ++ b) = inside_after (inside_after i a) b.
Proof. induction a as [|c a IH]; intros i b; cbn [app inside_after]; [reflexivity|]. destruct i; apply IH. Qed.
Lemma closed_app a b : closed a = true -> closed (a ++ b) = closed b.
Proof. unfold closed. rewrite inside_app. destruct (inside_after false a); [discriminate|reflexivity]. Qed.

Lemma text_words_sep a b c : c = 10 \/ c = 32 -> text_words (a ++ c :: b) = text_words a ++ text_words b.
Proof.
  intros C. unfold text_words. rewrite map_app. cbn [map]. replace (if c =? 10 then 32 else c) with 32 by (destruct C as [-> | ->]; reflexivity).
  apply blank_words_space.
Qed.
Lemma text_words_blank l : ~ In 10 l -> text_words l = blank_words l.
Proof.
  intros N. unfold text_words. f_equal. rewrite <- (map_id l) at 2. apply map_ext_in. intros c H.
  destruct (c =? 10) eqn:E; [assert (c = 10) by lia; subst; contradiction|reflexivity].
Qed.
Definition nonempty (w : bytes) : bool := negb (bytes_eqb w []).
(** the words that are seen *)
Lemma seen_words l : Forall (fun w => closed w = true) (split_on 32 l) -> ~ In 10 l ->
  closed l = true /\ text_words (visible l) = filter nonempty (map visible (split_on 32 l)).
Proof.
  assert (G : forall ws, ws <> [] -> Forall (fun w => closed w = true) ws -> Forall (fun w => ~ In 32 w /\ ~ In 10 w) ws ->
    closed (join [32] ws) = true /\ text_words (visible (join [32] ws)) = filter nonempty (map visible ws)).
  { assert (V : forall w, ~ In 32 w /\ ~ In 10 w -> text_words (visible w) = filter nonempty [visible w]).
    { intros w [N1 N2]. assert (S : forall i x, In x (visible_from i w) -> In x w).
      { clear. induction w as [|c w IH]; intros i x H; cbn [visible_from] in H; [destruct H|]. destruct i; [right; eapply IH; eauto|].
        destruct (c =? 27); [right; eapply IH; eauto|]. destruct H as [->|H]; [left; auto|right; eapply IH; eauto]. }
      rewrite text_words_blank by (intros X; apply N2; eapply S; eauto).
      apply blank_words_one. intros X. apply N1. eapply S; eauto. }
    induction ws as [|w ws IH]; [congruence|]. intros _ C N. inversion C as [|? ? C1 C2]; subst. inversion N as [|? ? N1 N2]; subst.
    destruct ws as [|w' ws].
    - cbn [join map]. split; [auto|]. apply V; auto.
    - change (join [32] (w :: w' :: ws)) with (w ++ [32] ++ join [32] (w' :: ws)).
      destruct (IH ltac:(discriminate) C2 N2) as [IH1 IH2]. split.
      + rewrite closed_app by auto. exact IH1.
      + rewrite visible_closed by auto. change (visible ([32] ++ join [32] (w' :: ws))) with (32 :: visible (join [32] (w' :: ws))).
        rewrite text_words_sep by auto. rewrite V, IH2 by auto. cbn [map filter]. destruct (nonempty (visible w)); reflexivity. }
  intros C N. assert (J : join [32] (split_on 32 l) = l).
  { clear. induction l as [|c l IH]; [reflexivity|]. cbn [split_on]. destruct (c =? 32) eqn:E.
    - assert (c = 32) by lia. subst c. destruct (split_on 32 l) as [|w ws] eqn:S; [destruct (split_on_nonempty 32 l S)|].
      change (join [32] ([] :: w :: ws)) with ([32] ++ join [32] (w :: ws)). rewrite IH. reflexivity.
    - destruct (split_on 32 l) as [|w ws] eqn:S; [destruct (split_on_nonempty 32 l S)|]. destruct ws; cbn [join] in *; [congruence|].
      rewrite <- IH. reflexivity. }
  specialize (G (split_on 32 l) (split_on_nonempty 32 l) C). rewrite J in G. apply G.
  apply Forall_forall. intros w H. pose proof (split_on_no_sep 32 l) as S. rewrite Forall_forall in S. split; [auto|].
  intros X. apply N. rewrite <- J. clear - H X. revert H. induction (split_on 32 l) as [|v ws IH]; intros H; [destruct H|].
  destruct ws as [|v' ws]; [destruct H as [->|[]]; auto|]. change (join [32] (v :: v' :: ws)) with (v ++ [32] ++ join [32] (v' :: ws)).
  destruct H as [->|H]; [apply in_or_app; left; auto|]. apply in_or_app. right. apply in_or_app. right. apply IH. auto.
Qed.
Lemma visible_nil_filter ws : filter nonempty (map visible ws) = filter nonempty (map visible (filter nonempty ws)).
Proof.
  induction ws as [|w ws IH]; [reflexivity|]. cbn [map filter]. destruct (nonempty w) eqn:N.
  - cbn [map filter]. rewrite IH. reflexivity.
  - destruct w; [|discriminate]. cbn [visible visible_from nonempty bytes_eqb negb]. exact IH.
Qed.
Lemma split_in x l : In x l -> x <> 32 -> exists w, In w (split_on 32 l) /\ In x w.
Proof.
  intros H N. induction l as [|c l IH]; [destruct H|]. cbn [split_on]. destruct (c =? 32) eqn:E.
  - destruct H as [->|H]; [lia|]. destruct (IH H) as (w & W & X). exists w. split; [right; auto|auto].
  - destruct (split_on 32 l) as [|w ws] eqn:S; [destruct (split_on_nonempty 32 l S)|].
    destruct H as [->|H]; [exists (x :: w); split; left; auto|]. destruct (IH H) as (v & [<-|V] & X); [exists (c :: w); split; [left; auto|right; auto]|exists v; split; [right; auto|auto]].
Qed.
Lemma line_words l : Forall (fun w => closed w = true /\ ~ In 10 w) (blank_words l) ->
  closed l = true /\ text_words (visible l) = filter nonempty (map visible (blank_words l)).
Proof.
  intros F. rewrite blank_words_split in *. fold nonempty in *.
  assert (A : Forall (fun w => closed w = true /\ ~ In 10 w) (split_on 32 l)).
  { rewrite Forall_forall in *. intros w H. destruct w as [|c w]; [split; [reflexivity|intros []]|]. apply F. apply filter_In. split; auto. }
  destruct (seen_words l) as [C T].
  - eapply Forall_impl; [|exact A]. intros w [H _]. exact H.
  - intros X. destruct (split_in 10 l X ltac:(lia)) as (w & W & Y). rewrite Forall_forall in A. apply A in W as [_ W]. auto.
  - split; [auto|]. rewrite T. apply visible_nil_filter.
Qed.
Lemma lines_words lines : Forall (fun w => closed w = true /\ ~ In 10 w) (flat_map blank_words lines) ->
  closed (with_newlines lines) = true /\ text_words (visible (with_newlines lines)) = filter nonempty (map visible (flat_map blank_words lines)).
Proof.
  induction lines as [|l lines IH]; [split; reflexivity|]. cbn [flat_map]. intros F. apply Forall_app in F as [F1 F2].
  destruct (line_words l F1) as [C1 T1]. destruct (IH F2) as [C2 T2]. rewrite map_app, filter_app, <- T1, <- T2.
  destruct lines as [|l' lines]; [cbn [with_newlines]; rewrite app_nil_r; auto|].
  change (with_newlines (l :: l' :: lines)) with (l ++ 10 :: with_newlines (l' :: lines)). split.
  - rewrite closed_app by auto. exact C2.
  - rewrite visible_closed by auto. change (visible (10 :: with_newlines (l' :: lines))) with (10 :: visible (with_newlines (l' :: lines))).
    apply text_words_sep. auto.
Qed.
(** text that can be wrapped to [width] columns without breaking an escape sequence *)
Definition wrappable (width : Z) (text : bytes) : bool :=
  forallb (fun w => (zlen w + 1 <=? width) && closed w && negb (existsb (Z.eqb 10) w)) (blank_words text).
Lemma wrapped_words indent width text : 0 <= indent -> 1 <= width -> wrappable width text = true ->
  exists out, justify_width indent width text = Text out /\ closed out = true /\ text_words (visible out) = text_words (visible text).
Proof.
  intros I W F. unfold wrappable in F. rewrite forallb_forall in F.
  assert (A : Forall (fun w => closed w = true /\ ~ In 10 w) (blank_words text)).
  { apply Forall_forall. intros w H. specialize (F w H). rewrite !andb_true_iff in F. destruct F as [[_ F1] F2]. split; [auto|].
    intros X. apply negb_true_iff in F2. assert (Y : existsb (Z.eqb 10) w = true) by (apply existsb_exists; exists 10; split; [auto|reflexivity]). congruence. }
  destruct (wrap_terminates indent width text) as (lines & _ & J & _ & _ & B); try lia.
  { apply Forall_forall. intros w H. specialize (F w H). lia. }
  exists (with_newlines lines). split; [exact J|]. rewrite <- B in A. destruct (lines_words lines A) as [C T]. split; [auto|].
  rewrite B in A, T. rewrite T. symmetry. apply line_words. exact A.
Qed.
Lemma wrappable_wider a b text : a <= b -> wrappable a text = true -> wrappable b text = true.
Proof.
  unfold wrappable. rewrite !forallb_forall. intros L F w H. specialize (F w H). rewrite !andb_true_iff in *. destruct F as [[F1 F2] F3]. repeat split; auto; lia.
Qed.

(** ** The sections of the options *)
Definition plain (x : bytes) : bool := negb (existsb (fun c => c =? 27) x).
Lemma plain_visible x : plain x = true -> visible x = x /\ closed x = true.
Proof.
  unfold plain, closed, visible. induction x as [|c x IH]; intros H; [split; reflexivity|]. cbn [existsb visible_from inside_after] in *.
  apply negb_true_iff in H. apply orb_false_iff in H as [H1 H2]. rewrite H1. destruct (IH ltac:(rewrite H2; reflexivity)) as [IH1 IH2]. split; [rewrite IH1; reflexivity|exact IH2].
Qed.
Definition note_text (v : flag_value) : bytes := match v with Bool true => bs "true" | Bool false => bs "false" | Uint n => if n =? 0 then bs "0" else [] | Str [] => [] | Str s => quote_plain s end.
Definition doc_words (d : option_doc) : list bytes :=
  let '(name, (v, usage)) := d in
  text_words (45 :: name) ++ text_words (fst (unquote_usage v usage)) ++ text_words (visible (snd (unquote_usage v usage))) ++
  (match note_text v with [] => [] | t => text_words (bs "(default " ++ t ++ bs ")") end).
Definition doc_ok (d : option_doc) : bool :=
  let '(name, (v, usage)) := d in
  plain name && plain (fst (unquote_usage v usage)) && plain (note_text v) && closed (snd (unquote_usage v usage)) && wrappable 27 (faint (snd (unquote_usage v usage))).
Lemma visible_note v : plain (note_text v) = true -> closed (default_note v) = true /\
  forall x rest, text_words (x ++ visible (default_note v) ++ 10 :: rest) =
    text_words x ++ (match note_text v with [] => [] | t => text_words (bs "(default " ++ t ++ bs ")") end) ++ text_words rest.
Proof.
  intros P. assert (E : default_note v = match note_text v with [] => [] | t => cyan (bs " (default " ++ bold t ++ bs ")") end).
  { unfold default_note, note_text, def_value. destruct v as [[]|n|[|c s]]; try reflexivity. destruct (n =? 0); reflexivity. }
  rewrite E. clear E. destruct (note_text v) as [|c t] eqn:N; [split; [reflexivity|]; intros x rest; apply (text_words_sep x rest 10); auto|].
  remember (c :: t) as y eqn:X. clear X N c t v. destruct (plain_visible y P) as [V C].
  assert (Vb : visible (cyan (bs " (default " ++ bold y ++ bs ")")) = 32 :: bs "(default " ++ y ++ bs ")").
  { unfold cyan, bold. rewrite <- !app_assoc.
    match goal with |- visible ?z = _ => change (visible z) with (32 :: bs "(default " ++ visible (y ++ escape ++ bs "[22m" ++ bs ")" ++ escape ++ bs "[39m")) end.
    rewrite visible_closed by auto. rewrite V. reflexivity. }
  split.
  - unfold cyan, bold. rewrite <- !app_assoc.
    match goal with |- closed ?z = _ => change (closed z) with (closed (y ++ escape ++ bs "[22m" ++ bs ")" ++ escape ++ bs "[39m")) end.
    rewrite closed_app by auto. reflexivity.
  - intros x rest. rewrite Vb. rewrite <- app_comm_cons. rewrite (text_words_sep x _ 32) by auto. f_equal. rewrite (text_words_sep _ rest 10) by auto. reflexivity.
Qed.
Lemma show_words size l : (forall width, size = Some width -> 42 <= width) -> forallb doc_ok l = true ->
  exists out, show_options size l = Text out /\ text_words (visible out) = flat_map doc_words l.
Proof.
  intros S. assert (Q2 : 27 <= Z.quot ((terminal_width size - 8) * 4) 5).
  { assert (Hw : 42 <= terminal_width size) by (destruct size; cbn [terminal_width]; [apply S; auto|lia]). rewrite Z.quot_div_nonneg; lia. }
  induction l as [|[name [v usage]] l IH]; intros F; [exists []; split; reflexivity|].
  cbn [forallb] in F. apply andb_true_iff in F as [D F]. destruct (IH F) as (rest & R & T). clear IH F.
  cbn [show_options flat_map doc_words]. unfold doc_ok in D. destruct (unquote_usage v usage) as [arg text]. cbn [fst snd] in *.
  rewrite !andb_true_iff in D. destruct D as [[[[D1 D2] D3] D4] D5].
  unfold justify_option_description. destruct (wrapped_words 8 (Z.quot ((terminal_width size - 8) * 4) 5) (faint text)) as (out & J & C & W); [lia|lia|apply (wrappable_wider 27); auto|].
  rewrite J, R. eexists. split; [reflexivity|].
  destruct (plain_visible name D1) as [V1 C1]. destruct (plain_visible arg D2) as [V2 C2]. destruct (visible_note v D3) as [C3 V3].
  assert (A : visible (bs "  " ++ bold (magenta (45 :: name)) ++ [32] ++ green arg ++ [10] ++ out ++ default_note v ++ [10; 10] ++ rest) =
              [32; 32] ++ (45 :: name) ++ 32 :: arg ++ 10 :: visible out ++ visible (default_note v) ++ 10 :: 10 :: visible rest).
  { unfold bold, magenta, green. rewrite <- !app_assoc.
    change (visible (bs "  " ++ escape ++ bs "[1m" ++ escape ++ bs "[35m" ++ (45 :: name) ++ ?x)) with (32 :: 32 :: 45 :: visible (name ++ x)).
    rewrite (visible_closed name) by auto. rewrite V1. cbn [app]. do 3 f_equal. f_equal.
    match goal with |- visible ?x = _ => change (visible x) with (32 :: visible (arg ++ escape ++ bs "[39m" ++ 10 :: out ++ default_note v ++ 10 :: 10 :: rest)) end.
    rewrite (visible_closed arg) by auto. rewrite V2. f_equal. f_equal.
    match goal with |- visible ?x = _ => change (visible x) with (10 :: visible (out ++ default_note v ++ 10 :: 10 :: rest)) end.
    rewrite (visible_closed out), (visible_closed (default_note v)) by auto. reflexivity. }
  rewrite A. clear A. cbn [app].
  change (32 :: 32 :: 45 :: name ++ ?x) with ([32] ++ 32 :: ((45 :: name) ++ x)). rewrite (text_words_sep [32]) by auto. change (text_words [32]) with (@nil bytes).
  cbn [app]. rewrite (app_comm_cons name). rewrite (text_words_sep (45 :: name)) by auto. rewrite (text_words_sep arg) by auto.
  rewrite <- !app_assoc. f_equal. f_equal.
  assert (B : visible (faint text) = visible text).
  { unfold faint. change (visible (escape ++ bs "[2m" ++ text ++ ?x)) with (visible (text ++ x)).
    rewrite visible_closed by auto. change (visible (escape ++ bs "[22m")) with (@nil Z). apply app_nil_r. }
  rewrite B in W. rewrite <- W. rewrite V3. f_equal. f_equal. rewrite <- T. apply (text_words_sep [] _ 10). auto.
Qed.

(** ** C71: help *)
Definition helps : list (command_doc * (command_text * list help_row)) :=
  [(root_doc, (root_text, [])); (generate_doc, (generate_text, generate_rows)); (recover_doc, (recover_text, recover_rows)); (convert_doc, (convert_text, convert_rows))].
(** the description given to an option in the source *)
Definition describe (d : command_doc) (name : bytes) : bytes :=
  match find (fun o => bytes_eqb (fst o) name) (cd_options d) with Some (_, (_, u)) => u | None => [] end.
Definition doc_checks (d : command_doc) (rows : list help_row) : bool :=
  forallb doc_ok (visit_all (cd_options d)) && wrappable 33 (cd_description d) && plain (cd_description d) && plain (cd_name d) && forallb plain (cd_examples d) &&
  (if list_eq_dec (list_eq_dec Z.eq_dec) (flat_map doc_words (visit_all (cd_options d))) (flat_map (row_words (describe d)) rows) then true else false) &&
  (match cd_options d, rows with [], [] => true | _ :: _, _ :: _ => true | _, _ => false end).
Lemma docs_ok : forallb (fun h => doc_checks (fst h) (snd (snd h))) helps = true.
Proof. vm_compute. reflexivity. Qed.

(** Whatever the width of the terminal (at least 42 columns, or unknown): the help text shows, in
    this order and nothing else, the name and the description of the command, the examples, and
    every option with the name of its value, its description and its default. *)
Theorem help_shows : forall d t rows size, In (d, (t, rows)) helps -> (forall width, size = Some width -> 42 <= width) ->
  exists out, help_output d size = Text out /\
    text_words (visible out) =
      text_words (cd_name d) ++ text_words (cd_description d) ++ [bs "Usage:"] ++ flat_map text_words (cd_examples d) ++
      (match rows with [] => [] | _ => bs "Options:" :: flat_map (row_words (describe d)) rows end).
Proof.
  intros d t rows size I S. pose proof docs_ok as K. rewrite forallb_forall in K. specialize (K _ I). cbn [fst snd] in K.
  unfold doc_checks in K. rewrite !andb_true_iff in K. destruct K as [[[[[[K1 K2] K3] K4] K5] K6] K7].
  assert (Q1 : 33 <= Z.quot (terminal_width size * 4) 5).
  { assert (Hw : 42 <= terminal_width size) by (destruct size; cbn [terminal_width]; [apply S; auto|lia]). rewrite Z.quot_div_nonneg; lia. }
  unfold help_output, justify_terminal_width.
  destruct (wrapped_words 2 (Z.quot (terminal_width size * 4) 5) (cd_description d)) as (out & J & C & W); [lia|lia|apply (wrappable_wider 33); auto|].
  destruct (show_words size (visit_all (cd_options d)) S K1) as (o & R & T). rewrite J, R. eexists. split; [reflexivity|].
  destruct (plain_visible _ K3) as [V3 C3]. destruct (plain_visible _ K4) as [V4 C4]. rewrite V3 in W.
  destruct (list_eq_dec _ _ _) as [X|]; [|discriminate]. rewrite X in T. clear X K1 K2 K3 K4 K6 J R.
  set (head := match cd_options d with [] => [] | _ => bold (bs "Options:") ++ [10] end).
  assert (H : visible (head ++ o) = (match rows with [] => [] | _ => bs "Options:" ++ [10] end) ++ visible o).
  { unfold head. destruct (cd_options d), rows; try discriminate; reflexivity. }
  assert (X : closed (flat_map (fun line => bs "  " ++ line ++ [10]) (cd_examples d)) = true /\
              forall y, text_words (visible (flat_map (fun line => bs "  " ++ line ++ [10]) (cd_examples d)) ++ y) = flat_map text_words (cd_examples d) ++ text_words y).
  { revert K5. generalize (cd_examples d) as l. induction l as [|e l IH]; intros K5; [split; reflexivity|]. cbn [forallb] in K5. apply andb_true_iff in K5 as [E F].
    destruct (plain_visible e E) as [Ve Ce]. destruct (IH F) as [IH1 IH2]. cbn [flat_map].
    assert (Y : forall z, closed ((bs "  " ++ e ++ [10]) ++ z) = closed z /\ visible ((bs "  " ++ e ++ [10]) ++ z) = 32 :: 32 :: e ++ 10 :: visible z).
    { intros z. rewrite <- !app_assoc. change (bs "  " ++ ?q) with (32 :: 32 :: q). change (closed (32 :: 32 :: ?q)) with (closed q).
      change (visible (32 :: 32 :: ?q)) with (32 :: 32 :: visible q). rewrite closed_app, visible_closed by auto. rewrite Ve. split; reflexivity. }
    destruct (Y (flat_map (fun line => bs "  " ++ line ++ [10]) l)) as [Y1 Y2]. split; [rewrite Y1; exact IH1|]. intros y. rewrite Y2.
    cbn [app]. rewrite <- (app_assoc e). change (32 :: 32 :: ?q) with ([32] ++ 32 :: q). rewrite (text_words_sep [32]) by auto. change (text_words [32]) with (@nil bytes). cbn [app].
    rewrite (text_words_sep e) by auto. rewrite IH2. rewrite app_assoc. reflexivity. }
  destruct X as [X1 X2].
  assert (A : visible (bold (cd_name d) ++ [10; 10] ++ out ++ [10; 10] ++ bold (bs "Usage:") ++ [10] ++ flat_map (fun line => bs "  " ++ line ++ [10]) (cd_examples d) ++ [10] ++ head ++ o)
    = cd_name d ++ 10 :: 10 :: visible out ++ 10 :: 10 :: bs "Usage:" ++ 10 :: visible (flat_map (fun line => bs "  " ++ line ++ [10]) (cd_examples d)) ++ 10 :: visible (head ++ o)).
  { unfold bold at 1. rewrite <- !app_assoc. change (visible (escape ++ bs "[1m" ++ ?q)) with (visible q). rewrite (visible_closed (cd_name d)) by auto. rewrite V4. f_equal.
    match goal with |- visible ?z = _ => change (visible z) with (10 :: 10 :: visible (out ++ [10; 10] ++ bold (bs "Usage:") ++ [10] ++ flat_map (fun line => bs "  " ++ line ++ [10]) (cd_examples d) ++ [10] ++ head ++ o)) end.
    do 2 f_equal. rewrite (visible_closed out) by auto. f_equal.
    match goal with |- visible ?z = _ => change (visible z) with (10 :: 10 :: bs "Usage:" ++ 10 :: visible (flat_map (fun line => bs "  " ++ line ++ [10]) (cd_examples d) ++ 10 :: head ++ o)) end.
    rewrite (visible_closed (flat_map _ _)) by auto. reflexivity. }
  rewrite A. clear A. rewrite (text_words_sep (cd_name d)) by auto.
  change (text_words (10 :: ?q)) with (text_words ([] ++ 10 :: q)). rewrite (text_words_sep []) by auto. change (text_words []) with (@nil bytes). cbn [app].
  rewrite (text_words_sep (visible out)), W by auto.
  change (text_words (10 :: bs "Usage:" ++ ?q)) with (text_words ((10 :: bs "Usage:") ++ q)). rewrite (text_words_sep (10 :: bs "Usage:")) by auto.
  change (text_words (10 :: bs "Usage:")) with [bs "Usage:"]. rewrite X2. cbn [app]. do 4 f_equal.
  change (text_words (10 :: ?q)) with (text_words ([] ++ 10 :: q)). rewrite (text_words_sep []) by auto. change (text_words []) with (@nil bytes). cbn [app].
  rewrite H. destruct rows as [|r rows]; [exact T|].
  rewrite <- app_assoc. cbn [app]. rewrite (text_words_sep (bs "Options:")), T by auto. reflexivity.
Qed.
Print Assumptions help_shows.
(** This is the text whose wrapping decides in Model/CliMain.v whether the help ends. *)
Theorem help_is_usage : forall d t rows w, In (d, (t, rows)) helps -> fst (usage t w) = of_justified (help_output d (w_width w)).
Proof.
  assert (G : forall size desc l, of_justified (match justify_terminal_width size 2 desc with Text _ => show_options size l | j => j end) =
    all_justified (justify_terminal_width size 2 desc :: map (fun d => justify_option_description size (faint d)) (map (fun o => snd (unquote_usage (fst (snd o)) (snd (snd o)))) l))).
  { intros size desc l. cbn [all_justified]. destruct (justify_terminal_width size 2 desc); try reflexivity. cbn [of_justified].
    induction l as [|[n [v u]] l IH]; [reflexivity|]. cbn [show_options map all_justified fst snd]. destruct (unquote_usage v u) as [arg x]. cbn [snd].
    destruct (justify_option_description size (faint x)); try reflexivity. cbn [of_justified]. destruct (show_options size l); exact IH. }
  intros d t rows w I.
  assert (P : cd_description d = ct_description t /\ ct_options t = map (fun o => snd (unquote_usage (fst (snd o)) (snd (snd o)))) (visit_all (cd_options d))).
  { destruct I as [H|[H|[H|[H|[]]]]]; injection H as <- <- <-; split; vm_compute; reflexivity. }
  destruct P as [P1 P2]. unfold usage. cbn [fst]. rewrite P2, <- P1, <- G. unfold help_output.
  destruct (justify_terminal_width (w_width w) 2 (cd_description d)); try reflexivity. destruct (show_options (w_width w) (visit_all (cd_options d))); reflexivity.
Qed.
Print Assumptions help_is_usage.

(** The options shown are the options there are, each once; a default shown is the one used; an
    option without a value is a switch. *)
Definition shown_default (v : flag_value) (default : bytes) : Prop :=
  match v with
  | Bool b => default = if b then bs "true" else bs "false"
  | Uint n => n = 0 /\ default = bs "0"
  | Str s => s = [] /\ default = [] \/ s <> [] /\ default = [34] ++ s ++ [34]
  end.
Definition help_tables : list (bytes * list help_row) := [(bs "generate", generate_rows); (bs "recover", recover_rows); (bs "convert", convert_rows)].
Theorem help_options : forall name flags tab rows, In (name, (flags, tab)) tables -> In (name, rows) help_tables ->
  NoDup (map fst rows) /\ (forall n, In n (map fst rows) <-> exists k, In (n, k) tab) /\
  forall n value default, In (n, (value, default)) rows -> exists v, flag_get flags n = Some v /\ shown_default v default /\ (value = [] <-> In (n, Switch) tab).
Proof.
  intros name flags tab rows I H. destruct (tables_ok name flags tab I) as (T & _ & _).
  assert (D : NoDup (map fst rows) /\ map fst rows = map fst rows /\ (forall n, In n (map fst rows) <-> In n (map fst tab)) /\
    Forall (fun r => match flag_get flags (fst r) with Some v => shown_default v (snd (snd r)) /\ (fst (snd r) = [] <-> kind_of v = Switch) | None => False end) rows).
  { assert (DN : forall l : list bytes, (if list_eq_dec (list_eq_dec Z.eq_dec) (nodup (list_eq_dec Z.eq_dec) l) l then true else false) = true -> NoDup l).
    { intros l. destruct (list_eq_dec _ _ _) as [E|]; [|discriminate]. intros _. rewrite <- E. apply NoDup_nodup. }
    assert (SB : forall a b : list bytes, forallb (fun x => if in_dec (list_eq_dec Z.eq_dec) x b then true else false) a = true -> forall x, In x a -> In x b).
    { intros a b F x X. rewrite forallb_forall in F. specialize (F x X). destruct (in_dec (list_eq_dec Z.eq_dec) x b); [auto|discriminate]. }
    destruct I as [I|[I|[I|[]]]]; injection I as <- <- <-; destruct H as [H|[H|[H|[]]]]; try discriminate; injection H as <-;
    (split; [apply DN; vm_compute; reflexivity|]); (split; [reflexivity|]);
    (split; [intros n; split; apply SB; vm_compute; reflexivity|]);
    repeat apply Forall_cons; try apply Forall_nil; cbn; (split; [first [reflexivity | split; reflexivity | left; split; reflexivity | right; split; [discriminate|reflexivity]]|split; intros X; first [reflexivity | discriminate X]]). }
  destruct D as (D1 & _ & D2 & D3). split; [exact D1|]. split.
  - intros n. rewrite D2, in_map_iff. split; [intros ([m k] & <- & X); eauto|]. intros [k X]. exists (n, k). auto.
  - intros n value default X. rewrite Forall_forall in D3. specialize (D3 _ X). cbn [fst snd] in D3. destruct (flag_get flags n) as [v|] eqn:G; [|destruct D3].
    exists v. split; [reflexivity|]. destruct D3 as [D3 D4]. split; [auto|]. rewrite D4, (T n Switch). split; [eauto|]. intros (v' & V & <-). congruence.
Qed.
Print Assumptions help_options.

(** ** C72: the examples in the help texts *)
Lemma parsed_line name flags tab args fs rest : In (name, (flags, tab)) tables -> parse_flags flags args = Parsed fs rest ->
  exists s, command_line tab s args rest /\ put_all flags s = fs.
Proof.
  intros I P. destruct (tables_ok name flags tab I) as (T & O & _). destruct (line_sorts name flags tab args I) as [(s & r & C)|[(s & a & n & r & S & N & H & K)|(s & more & S & W)]].
  - destruct (parse_line name flags tab s args r I C) as [Q _]. rewrite P in Q. injection Q as -> ->. eauto.
  - exfalso. unfold parse_flags in P. destruct (parse_settings tab s args _ S flags _ T O (Nat.lt_succ_diag_r _)) as (f & L & E & T'). rewrite E in P.
    destruct f as [|f]; [lia|]. rewrite (parse_help a n) in P; [discriminate|auto|auto|]. destruct (flag_get (put_all flags s) n) as [v|] eqn:G; [|reflexivity].
    destruct (K (kind_of v)). apply T'. eauto.
  - exfalso. unfold parse_flags in P. destruct (parse_settings tab s args _ S flags _ T O (Nat.lt_succ_diag_r _)) as (f & L & E & T'). rewrite E in P.
    rewrite (parse_wrong tab) in P; [discriminate|auto|auto|auto|auto].
Qed.
(** the values of the options are acceptable, too *)
Definition values_ok (s : list (bytes * setting)) : Prop :=
  (exists r, decode_only_key_types (text_of s "only" []) = Ok r) /\
  (text_of s "ttl" [] = [] \/ exists n secs, period (text_of s "ttl" []) n secs /\ n * secs < 2 ^ 32) /\
  0 <= number_of s "enc-index" 0 <= 65535 /\ 0 <= number_of s "auth-index" 0 <= 65535 /\ 0 <= number_of s "sig-index" 0 <= 65535.
Definition example_docs : list (bytes * command_doc) := [(bs "generate", generate_doc); (bs "recover", recover_doc); (bs "convert", convert_doc)].
Definition example_args (e : bytes) : list bytes := skipn 2 (text_words e).
Definition example_check (flags : flag_set) (e : bytes) : bool :=
  match parse_flags flags (example_args e) with
  | Parsed fs [] =>
      (match decode_only_key_types (flag_str fs (bs "only")) with Ok _ => true | _ => false end) &&
      existsb (bytes_eqb (flag_str fs (bs "ttl"))) [[]; bs "2y"; bs "17w"] &&
      forallb (fun n => (0 <=? flag_uint fs (bs n)) && (flag_uint fs (bs n) <=? 65535)) ["enc-index"; "auth-index"; "sig-index"]%string
  | _ => false
  end.
Lemma line_absent name flags tab s args rest : In (name, (flags, tab)) tables -> command_line tab s args rest ->
  forall n, (forall k, ~ In (bs n, k) tab) -> last_setting s (bs n) = None.
Proof.
  intros I (more & S & _) n N. destruct (last_setting s (bs n)) as [v|] eqn:L; [|reflexivity]. apply last_in in L.
  destruct (settings_known tab s args more S _ _ L) as (k & K & _). destruct (N k K).
Qed.
Lemma put_all_get name flags tab s args rest : In (name, (flags, tab)) tables -> command_line tab s args rest ->
  forall n, flag_get (put_all flags s) n = match last_setting s n with Some v => Some (value_of v) | None => flag_get flags n end.
Proof.
  intros I (more & S & _) n. destruct (tables_ok name flags tab I) as (T & _). apply get_all. intros m v X.
  destruct (settings_known tab s args more S _ _ X) as (k' & K' & _). apply T in K' as (v' & V' & _). congruence.
Qed.
Lemma some_text name flags tab s args rest n : In (name, (flags, tab)) tables -> command_line tab s args rest -> In n ["only"; "ttl"]%string ->
  flag_str (put_all flags s) (bs n) = text_of s n [].
Proof.
  intros I C N. destruct (tables_ok name flags tab I) as (T & _ & D). destruct (D (bs n)) as [[k K]|A].
  - assert (X : k = Words /\ flag_get flags (bs n) = Some (Str [])).
    { destruct I as [I|[I|[I|[]]]]; injection I as <- <- <-; destruct N as [<-|[<-|[]]]; cbv [generate_table recover_table convert_table In] in K;
      repeat (destruct K as [K|K]; [try discriminate K; injection K as <-; split; reflexivity|]); destruct K. }
    destruct X as [-> X]. apply (line_text name flags tab s args rest I C n []); auto.
  - unfold text_of. rewrite (line_absent name flags tab s args rest I C n A). unfold flag_str.
    rewrite (put_all_get name flags tab s args rest I C), (line_absent name flags tab s args rest I C n A).
    destruct (flag_get flags (bs n)) as [v|] eqn:G; [|reflexivity]. destruct (A (kind_of v)). apply T. eauto.
Qed.
Lemma some_number name flags tab s args rest n : In (name, (flags, tab)) tables -> command_line tab s args rest -> In n ["enc-index"; "auth-index"; "sig-index"]%string ->
  flag_uint (put_all flags s) (bs n) = number_of s n 0.
Proof.
  intros I C N. destruct (tables_ok name flags tab I) as (T & _ & D). destruct (D (bs n)) as [[k K]|A].
  - assert (X : k = Number /\ flag_get flags (bs n) = Some (Uint 0)).
    { destruct I as [I|[I|[I|[]]]]; injection I as <- <- <-; destruct N as [<-|[<-|[<-|[]]]]; cbv [generate_table recover_table convert_table In] in K;
      repeat (destruct K as [K|K]; [try discriminate K; injection K as <-; split; reflexivity|]); destruct K. }
    destruct X as [-> X]. apply (line_number name flags tab s args rest I C n 0); auto.
  - unfold number_of. rewrite (line_absent name flags tab s args rest I C n A). unfold flag_uint.
    rewrite (put_all_get name flags tab s args rest I C), (line_absent name flags tab s args rest I C n A).
    destruct (flag_get flags (bs n)) as [v|] eqn:G; [|reflexivity]. destruct (A (kind_of v)). apply T. eauto.
Qed.
(** Every example but one is a command line the command accepts. *)
Theorem examples_accepted : forall name flags tab d e, In (name, (flags, tab)) tables -> In (name, d) example_docs -> In e (cd_examples d) ->
  e <> bs "mnemonikey convert -encrypt" ->
  exists s args, text_words e = [bs "mnemonikey"; name] ++ args /\ command_line tab s args [] /\ values_ok s.
Proof.
  intros name flags tab d e I D H N.
  assert (K : example_check flags e = true /\ text_words e = [bs "mnemonikey"; name] ++ example_args e).
  { destruct I as [I|[I|[I|[]]]]; injection I as <- <- <-; destruct D as [D|[D|[D|[]]]]; try discriminate; injection D as <-;
    cbv [generate_doc recover_doc convert_doc cd_examples In] in H;
    repeat (destruct H as [<-|H]; [try (destruct N; reflexivity); split; vm_compute; reflexivity|]); destruct H. }
  destruct K as [K W]. unfold example_check in K. destruct (parse_flags flags (example_args e)) as [fs [|]| |] eqn:P; try discriminate.
  destruct (parsed_line name flags tab _ fs [] I P) as (s & C & <-). exists s, (example_args e). split; [auto|]. split; [auto|].
  rewrite !andb_true_iff in K. destruct K as [[K1 K2] K3]. rewrite (some_text name flags tab s _ [] "only" I C) in K1 by (cbn; auto).
  rewrite (some_text name flags tab s _ [] "ttl" I C) in K2 by (cbn; auto). cbn [forallb] in K3.
  rewrite (some_number name flags tab s _ [] "enc-index" I C), (some_number name flags tab s _ [] "auth-index" I C), (some_number name flags tab s _ [] "sig-index" I C) in K3 by (cbn; auto).
  split; [destruct (decode_only_key_types (text_of s "only" [])); [eauto|discriminate|discriminate]|]. split; [|lia].
  apply existsb_exists in K2 as (x & X & E). apply bytes_eqb_eq in E. rewrite E. clear - X.
  destruct X as [<-|[<-|[<-|[]]]]; [left; reflexivity| |]; right.
  - exists 2, 31536000. split; [|lia]. exists (bs "2"), 121. split; [reflexivity|]. split; [discriminate|]. split; [repeat constructor; unfold is_digit; cbn; lia|]. split; [reflexivity|constructor; auto].
  - exists 17, 604800. split; [|lia]. exists (bs "17"), 119. split; [reflexivity|]. split; [discriminate|]. split; [repeat constructor; unfold is_digit; cbn; lia|]. split; [reflexivity|constructor; auto].
Qed.
Print Assumptions examples_accepted.
(** "mnemonikey convert -encrypt", the second example in the help of convert, is refused: the
    option is called -encrypt-phrase. *)
Theorem example_refuted : In (bs "mnemonikey convert -encrypt") (cd_examples convert_doc) /\
  text_words (bs "mnemonikey convert -encrypt") = [bs "mnemonikey"; bs "convert"; bs "-encrypt"] /\
  forall E w, wide w -> mnemonikey_main E [bs "convert"; bs "-encrypt"] w = (Some 2, set_usage w (S (w_usage w))).
Proof.
  split; [right; left; reflexivity|]. split; [vm_compute; reflexivity|]. intros E w W.
  apply (wrong_line_refused E (bs "convert") convert_flags convert_table); [right; right; left; reflexivity| |auto].
  exists [], [bs "-encrypt"]. split; [constructor|]. apply (Wrong_name _ _ (bs "encrypt")).
  - apply Names_bare; [do 2 eexists; (split; [reflexivity|]); (split; [discriminate|]); vm_compute; intuition discriminate|constructor].
  - intros k H. cbv [convert_table In] in H. intuition discriminate.
  - vm_compute. intuition discriminate.
Qed.
Print Assumptions example_refuted.

(** Without a known size the terminal is taken to have 75 columns. *)
Theorem help_unknown_size : forall d, help_output d None = help_output d (Some 75).
Proof.
  intros d. unfold help_output. change (justify_terminal_width None) with (justify_terminal_width (Some 75)).
  assert (H : forall l, show_options None l = show_options (Some 75) l).
  { induction l as [|[n [v u]] l IH]; [reflexivity|]. cbn [show_options]. rewrite IH. reflexivity. }
  rewrite H. reflexivity.
Qed.
Print Assumptions help_unknown_size.

(** ** Cases *)
Example help_case : exists out, help_output convert_doc None = Text out /\
  In (bs "-encrypt-phrase") (text_words (visible out)) /\ In (bs "-encrypt") (text_words (visible out)).
Proof.
  destruct (help_shows convert_doc convert_text convert_rows None) as (out & O & W); [cbn; auto 6|discriminate|].
  exists out. split; [exact O|]. rewrite W. split.
  - apply in_or_app. right. apply in_or_app. right. apply in_or_app. right. apply in_or_app. right. vm_compute. auto.
  - apply in_or_app. right. apply in_or_app. right. apply in_or_app. right. apply in_or_app. left. vm_compute. auto 10.
Qed.
