(** Simple phrase entry with lines typed ahead (C107). *)
From Coq Require Import Lia ZifyBool ZifyNat.
From Verif.Model Require Import GoBase Env Version Recovery CliText CliInput CliScreen CliAhead.
From Verif.Spec Require Import EnvSpec CliEnvSpec InputSpec ScreenSpec.
From Verif.Proofs Require Import BitsP PgpP EnvInst InputP CliInst EntryP.
From Verif.Model Require Import Scanner.
From Verif.Spec Require Import ScanSpec.
From Verif.Proofs Require Import ScanP.
From Verif.Props Require Import InputProps ScreenProps ScanProps.

(** the lines typed, in their order, and the events of someone who waits for each prompt *)
Definition lines_of (l : list event) : list bytes := flat_map (fun e => match e with Typed x => [x] | Turn => [] end) l.
Definition patient (lines : list bytes) : list event := flat_map (fun l => [Turn; Typed l; Turn]) lines.

(** the loop on lines, with what it leaves unread *)
Fixpoint on_lines (E : Env) (i count : Z) (words : list bytes) (lines : list bytes) : Z * Z * list bytes * list bytes :=
  if i <? count then
    match lines with
    | [] => (i, count, words, [])
    | line :: rest => let '(_, (i, count, words)) := answer E i count words line in on_lines E i count words rest
    end
  else (i, count, words, lines).
Definition ahead_of (E : Env) (a : ahead) (lines : list bytes) := on_lines E (ah_i a) (ah_count a) (ah_words a) (ah_queue a ++ lines).
Lemma events_on E l : forall a lines, ahead_of E (snd (events E a l)) lines = ahead_of E a (lines_of l ++ lines).
Proof.
  induction l as [|e l IH]; intros a lines; [reflexivity|]. cbn [events].
  destruct (happen E a e) as [o a1] eqn:H1. specialize (IH a1 lines). destruct (events E a1 l) as [o2 a2]. cbn [snd] in *. rewrite IH. clear IH.
  destruct e as [x|]; cbn [happen] in H1; unfold lines_of; cbn [flat_map]; fold (lines_of l).
  - injection H1 as <- <-. unfold ahead_of. cbn [ah_i ah_count ah_words ah_queue]. rewrite <- !app_assoc. reflexivity.
  - cbn [app]. destruct (ah_i a <? ah_count a) eqn:C; [|injection H1 as <- <-; reflexivity].
    destruct (ah_prompted a); [|injection H1 as <- <-; reflexivity].
    destruct (ah_queue a) as [|line rest] eqn:Q; [injection H1 as <- <-; reflexivity|].
    destruct (answer E (ah_i a) (ah_count a) (ah_words a) line) as [out [[i c] ws]] eqn:AN. injection H1 as <- <-.
    unfold ahead_of. cbn [ah_i ah_count ah_words ah_queue]. rewrite Q. cbn [app on_lines]. rewrite C, AN. reflexivity.
Qed.

(** Whenever the lines are typed, the words taken are the same: two runs over the same lines that have both entered all their
    words, or both read all lines, have the same words, and leave the same lines to the next prompt. *)
Theorem typing_time_keeps_words : forall E count l1 l2,
  lines_of l1 = lines_of l2 ->
  let a1 := snd (events E (ahead_start count) l1) in
  let a2 := snd (events E (ahead_start count) l2) in
  (ah_i a1 >= ah_count a1 \/ ah_queue a1 = []) -> (ah_i a2 >= ah_count a2 \/ ah_queue a2 = []) ->
  ah_words a1 = ah_words a2 /\ ah_i a1 = ah_i a2 /\ ah_count a1 = ah_count a2 /\ ah_queue a1 = ah_queue a2.
Proof.
  intros E count l1 l2 H a1 a2 D1 D2.
  pose proof (events_on E l1 (ahead_start count) []) as X1. pose proof (events_on E l2 (ahead_start count) []) as X2.
  fold a1 in X1. fold a2 in X2. rewrite H, <- X2 in X1. clearbody a1 a2. clear X2 H.
  assert (S : forall a, ah_i a >= ah_count a \/ ah_queue a = [] -> ahead_of E a [] = (ah_i a, ah_count a, ah_words a, ah_queue a)).
  { intros a D. unfold ahead_of. rewrite app_nil_r. destruct (ah_queue a) as [|x q] eqn:Q; cbn [on_lines].
    - destruct (ah_i a <? ah_count a); reflexivity.
    - destruct D as [D|D]; [|discriminate]. replace (ah_i a <? ah_count a) with false by lia. reflexivity. }
  rewrite (S a1 D1), (S a2 D2) in X1. injection X1 as <- <- <- <-. auto.
Qed.
Print Assumptions typing_time_keeps_words.

(** And they are those of CliInput.v for the lines, whose remaining lines are the ones not yet read. *)
Definition entered (lines : list bytes) : bytes := text_of_lines (map (fun l => (l, false)) lines).
Lemma loop_on E lines : forall fuel i count words, Forall line_ok lines -> (length lines < fuel)%nat ->
  match on_lines E i count words lines with
  | (i', count', words', rest) => count' <= i' -> simple_loop E fuel i count words (entered lines) = (Ok words', entered rest)
  end.
Proof.
  induction lines as [|line lines IH]; intros fuel i count words F L; (destruct fuel as [|fuel]; [cbn in L; lia|]); cbn [on_lines simple_loop].
  - destruct (i <? count) eqn:C; intros Q; [lia|reflexivity].
  - destruct (i <? count) eqn:C; [|intros _; reflexivity]. inversion F as [|? ? F1 F2]; subst.
    assert (SL : scan_line (entered (line :: lines)) [] = Some (line, entered lines)).
    { unfold entered, text_of_lines. cbn [map flat_map fst snd]. rewrite <- app_assoc. apply scan_line_text. exact F1. }
    rewrite SL. assert (L2 : (length lines < fuel)%nat) by (cbn [length] in L; lia).
    unfold answer. cbv zeta.
    destruct (fst (wl_search E (to_lower E (trim_space E line)))); [destruct (i =? 0); [destruct (parse_mnemonic_version E _)|]|]; apply IH; auto.
Qed.
Theorem typing_ahead_words : forall E l, Forall line_ok (lines_of l) ->
  let a := snd (events E (ahead_start 1) l) in
  ah_i a >= ah_count a ->
  user_input_mnemonic_simple E (entered (lines_of l)) = (Ok (ah_words a), entered (ah_queue a)).
Proof.
  intros E l F a D. pose proof (events_on E l (ahead_start 1) []) as X. fold a in X. clearbody a. rewrite app_nil_r in X.
  unfold ahead_of, ahead_start in X. cbn [ah_i ah_count ah_words ah_queue app] in X. rewrite app_nil_r in X.
  assert (S : on_lines E (ah_i a) (ah_count a) (ah_words a) (ah_queue a) = (ah_i a, ah_count a, ah_words a, ah_queue a)).
  { destruct (ah_queue a); cbn [on_lines]; replace (ah_i a <? ah_count a) with false by lia; reflexivity. }
  rewrite S in X. unfold user_input_mnemonic_simple.
  pose proof (loop_on E (lines_of l) (Datatypes.S (length (entered (lines_of l)))) 0 1 [] F) as Y.
  rewrite <- X in Y. apply Y; [|lia]. clear. unfold entered, text_of_lines.
  induction (lines_of l) as [|x q IH]; [cbn; lia|]. cbn [map flat_map fst snd length]. rewrite !app_length. unfold end_of_line at 1. cbn [length] in *. lia.
Qed.
Print Assumptions typing_ahead_words.

(** The same with the reads of bufio.Scanner (C106), where each read gives one of the lines: nothing typed ahead is lost. *)
Theorem typing_ahead_read : forall E l, Forall line_ok (lines_of l) ->
  let a := snd (events E (ahead_start 1) l) in
  ah_i a >= ah_count a ->
  exists s src', scanned_mnemonic E (map (fun x => x ++ [10]) (lines_of l)) = (Ok (ah_words a), s, src') /\
    sc_data s = [] /\ concat src' = entered (ah_queue a).
Proof.
  intros E l F a D. pose proof (typing_ahead_words E l F D) as W. fold a in W. clearbody a.
  set (src := map (fun x => x ++ [10]) (lines_of l)).
  assert (N : Forall (fun p => p <> []) src).
  { unfold src. apply Forall_forall. intros p P. apply in_map_iff in P as (x & <- & _). destruct x; discriminate. }
  assert (EN : Forall entered_line src).
  { unfold src. apply Forall_forall. intros p P. apply in_map_iff in P as (x & <- & P). rewrite Forall_forall in F. destruct (F x P) as (NX & _).
    apply entered_after; [exact NX|]. intros [|c u] v Q; [injection Q as <-; reflexivity|]. injection Q as _ Q. destruct u; discriminate. }
  assert (C : concat src = entered (lines_of l)).
  { unfold src, entered, text_of_lines. clear. induction (lines_of l) as [|x q IH]; [reflexivity|]. cbn [map concat flat_map fst snd]. rewrite IH. reflexivity. }
  destruct (scanned_mnemonic E src) as [[r s] src'] eqn:Q. pose proof (simple_in_pieces _ _ _ _ _ Q) as (R & _).
  rewrite (text_all src N), C, W in R. cbn [fst] in R. subst r.
  destruct (typed_ahead_kept _ _ _ _ _ EN N Q) as (Z1 & Z2). rewrite C, W in Z2. exists s, src'. split; [reflexivity|]. split; [exact Z1|].
  apply (f_equal snd) in Z2. cbn [snd] in Z2. symmetry. exact Z2.
Qed.
Print Assumptions typing_ahead_read.

(** Waiting for each prompt gives what CliScreen.v shows, up to the end of the input there. *)
Lemma events_app E l1 : forall l2 a, events E a (l1 ++ l2) =
  (fst (events E a l1) ++ fst (events E (snd (events E a l1)) l2), snd (events E (snd (events E a l1)) l2)).
Proof.
  induction l1 as [|e l1 IH]; intros l2 a; cbn [app events]; [cbn [fst snd app]; destruct (events E a l2); reflexivity|].
  destruct (happen E a e) as [o a1]. rewrite IH. destruct (events E a1 l1) as [o1 a2]. cbn [fst snd]. rewrite app_assoc. reflexivity.
Qed.
Lemma answer_shows E i count words line rest : i <? count = true ->
  simple_output E i count ((line, true) :: rest) =
  simple_word_prompt i ++ line ++ [10] ++ fst (answer E i count words line) ++
  (let '(i, count, _) := snd (answer E i count words line) in simple_output E i count rest).
Proof.
  intros C. cbn [simple_output]. rewrite C. unfold answer. cbv zeta.
  destruct (fst (wl_search E (to_lower E (trim_space E line)))); [destruct (i =? 0); [destruct (parse_mnemonic_version E _)|]|];
    cbn [fst snd]; rewrite <- ?app_assoc; reflexivity.
Qed.
Theorem patient_shows : forall E lines i count words,
  i < count ->
  exists out a, events E (mk_ahead i count words false []) (patient lines) = (out, a) /\
    (ah_i a < ah_count a -> simple_output E i count (map (fun l => (l, true)) lines) = out ++ simple_word_prompt (ah_i a) ++ [10; 10]) /\
    (ah_i a >= ah_count a -> exists used unused, lines = used ++ unused /\
       simple_output E i count (map (fun l => (l, true)) lines) = fst (events E (mk_ahead i count words false []) (patient used))).
Proof.
  intros E lines. induction lines as [|line lines IH]; intros i count words L.
  - exists [], (mk_ahead i count words false []). split; [reflexivity|]. cbn [ah_i ah_count map]. split; [|lia].
    intros _. cbn [simple_output]. replace (i <? count) with true by lia. reflexivity.
  - assert (C : i <? count = true) by lia.
    destruct (answer E i count words line) as [o [[i2 c2] ws2]] eqn:AN.
    assert (ST : events E (mk_ahead i count words false []) [Turn; Typed line; Turn] =
                 (simple_word_prompt i ++ line ++ [10] ++ o, mk_ahead i2 c2 ws2 false [])).
    { cbn [events happen ah_i ah_count ah_words ah_prompted ah_queue app]. rewrite C.
      cbn [events happen ah_i ah_count ah_words ah_prompted ah_queue app]. rewrite C, AN. rewrite app_nil_r, <- !app_assoc. reflexivity. }
    pose proof (answer_shows E i count words line (map (fun l => (l, true)) lines) C) as SH. rewrite AN in SH. cbn [fst snd] in SH.
    change (patient (line :: lines)) with ([Turn; Typed line; Turn] ++ patient lines). rewrite events_app, ST. cbn [fst snd map]. rewrite SH.
    destruct (Z_lt_ge_dec i2 c2) as [G|G].
    + destruct (IH i2 c2 ws2 G) as (out & a & EV & A & B). rewrite EV. cbn [fst snd]. eexists _, a. split; [reflexivity|]. split.
      * intros Q. rewrite (A Q). rewrite <- !app_assoc. reflexivity.
      * intros Q. destruct (B Q) as (used & unused & -> & S). exists (line :: used), unused. split; [reflexivity|].
        change (patient (line :: used)) with ([Turn; Typed line; Turn] ++ patient used). rewrite events_app, ST. cbn [fst snd].
        rewrite S. rewrite <- !app_assoc. reflexivity.
    + destruct (events E (mk_ahead i2 c2 ws2 false []) (patient lines)) as [out a] eqn:EV. cbn [fst snd]. eexists _, a. split; [reflexivity|].
      assert (K : forall l a0, ah_i a0 >= ah_count a0 -> ah_i (snd (events E a0 l)) >= ah_count (snd (events E a0 l))).
      { induction l as [|e l IHl]; intros a0 G0; [exact G0|]. cbn [events]. destruct (happen E a0 e) as [o1 a1] eqn:HP.
        assert (G1 : ah_i a1 >= ah_count a1).
        { destruct e; cbn [happen] in HP; [injection HP as <- <-; exact G0|].
          replace (ah_i a0 <? ah_count a0) with false in HP by lia. injection HP as <- <-. exact G0. }
        specialize (IHl a1 G1). destruct (events E a1 l). exact IHl. }
      specialize (K (patient lines) (mk_ahead i2 c2 ws2 false []) G). rewrite EV in K. cbn [snd] in K. split; [lia|]. intros _.
      exists [line], lines. split; [reflexivity|]. change (patient [line]) with [Turn; Typed line; Turn]. rewrite ST. cbn [fst].
      assert (SO : simple_output E i2 c2 (map (fun l => (l, true)) lines) = []).
      { destruct lines; cbn [map simple_output]; replace (i2 <? c2) with false by lia; reflexivity. }
      rewrite SO, app_nil_r. reflexivity.
Qed.
Print Assumptions patient_shows.

(** ** Pasting a phrase *)
Definition row_text (t : screen) (r : Z) (n : nat) : bytes := map (fun c => s_cell t r (Z.of_nat c)) (seq 0 n).
Definition screen_after {k : kind} (E : Env) (w h : Z) (t : screen) (l : list event) : screen :=
  play w h (play w h t (cooked simple_header)) (cooked (fst (events E (ahead_start 1) l))).
Definition pasted (lines : list bytes) : list event := [Turn] ++ map Typed lines ++ repeat Turn (2 * length case_words).

(** A phrase pasted at the first prompt into a window with room for it is cleared: only prompts are left. *)
Example paste_case : forall k : kind, ah_words (snd (events toy_env (ahead_start 1) (pasted case_words))) = case_words /\
  map (fun r => row_text (screen_after toy_env 80 24 empty_screen (pasted case_words)) r 16) [2; 3; 15; 16]
  = [repeat 32 16; bs "Word 14 >>      "; bs "Word 2 >>       "; repeat 32 16].
Proof. destruct k; vm_compute; split; reflexivity. Qed.

(** Pasted with one line more, such as a password for the next prompt, the first word stays on the screen when all have been taken: the
    lines are cleared from the last one upwards. *)
Theorem pasted_phrase_wiped_refuted : forall k : kind, exists E w h t lines, wordlist_ok E /\ search_ok E /\ 2 <= h /\ in_window w h t /\
  Forall (Forall (fun b => 32 <= b <= 126)) lines /\
  let a := snd (events E (ahead_start 1) (pasted lines)) in
  ah_i a = ah_count a /\ ah_queue a = [bs "secret"] /\
  s_crowded (screen_after E w h t (pasted lines)) = false /\
  row_text (screen_after E w h t (pasted lines)) 2 13 = bs "Word 1 >> aab" /\ hd [] (ah_words a) = bs "aab".
Proof.
  intros k. exists toy_env, 80, 24, empty_screen, (case_words ++ [bs "secret"]). split; [apply toy_wordlist_ok|]. split; [apply toy_search_ok|].
  split; [lia|]. split; [repeat split; cbn; lia|]. split.
  - assert (B : forallb (forallb (fun b => (32 <=? b) && (b <=? 126))) (case_words ++ [bs "secret"]) = true) by (vm_compute; reflexivity).
    rewrite forallb_forall in B. apply Forall_forall. intros l Hl. specialize (B l Hl). rewrite forallb_forall in B.
    apply Forall_forall. intros b Hb. specialize (B b Hb). lia.
  - cbv zeta. destruct k; vm_compute; repeat split; reflexivity.
Qed.
Print Assumptions pasted_phrase_wiped_refuted.

(** Pasted into a window of ten rows the first words scroll out of it, beyond the reach of the program, and stay in the scrollback. *)
Theorem pasted_small_window_refuted : forall k : kind, exists E w h t lines, wordlist_ok E /\ search_ok E /\ 2 <= h /\ in_window w h t /\
  let a := snd (events E (ahead_start 1) (pasted lines)) in
  ah_i a = ah_count a /\ ah_words a = lines /\
  s_crowded (screen_after E w h t (pasted lines)) = false /\
  row_text (screen_after E w h t (pasted lines)) 2 13 = bs "Word 1 >> aab" /\
  row_text (screen_after E w h t (pasted lines)) 3 3 = nth 1 lines [] /\
  row_text (screen_after E w h t (pasted lines)) 4 3 = nth 2 lines [].
Proof.
  intros k. exists toy_env, 80, 10, empty_screen, case_words. split; [apply toy_wordlist_ok|]. split; [apply toy_search_ok|].
  split; [lia|]. split; [repeat split; cbn; lia|]. cbv zeta. destruct k; vm_compute; repeat split; reflexivity.
Qed.
Print Assumptions pasted_small_window_refuted.

(** two ways to type the same lines that end with the same words: [typing_time_keeps_words] *)
Example typing_case : lines_of (pasted case_words) = lines_of (patient case_words) /\
  map (fun l => let a := snd (events toy_env (ahead_start 1) l) in ah_i a >=? ah_count a) [pasted case_words; patient case_words] = [true; true].
Proof. vm_compute. split; reflexivity. Qed.
Example ahead_case : Forall line_ok (lines_of (pasted (case_words ++ [bs "secret"]))).
Proof.
  assert (B : forallb (fun l => forallb (fun b => negb (b =? 10) && negb (b =? 13)) l && (zlen l <? 65535)) (lines_of (pasted (case_words ++ [bs "secret"]))) = true)
    by (vm_compute; reflexivity).
  rewrite forallb_forall in B. apply Forall_forall. intros p P. specialize (B p P).
  apply andb_true_iff in B as [B1 B2]. rewrite forallb_forall in B1. split; [|split; [|apply Z.ltb_lt; exact B2]].
  - intros X. specialize (B1 _ X). discriminate.
  - intros a X. assert (Y : In 13 p) by (rewrite X; apply in_or_app; right; left; auto). specialize (B1 13 Y). discriminate.
Qed.
