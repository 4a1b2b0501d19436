(** Lemmas for Props/TypingProps.v: the two lines of phrase entry after each key. *)
From Coq Require Import Lia ZifyBool ZifyNat.
From Verif.Model Require Import GoBase Env Version Recovery Mnemonikey CliText CliInput CliScreen.
From Verif.Spec Require Import EnvSpec CliEnvSpec InputSpec ScreenSpec TypingSpec.
From Verif.Proofs Require Import BitsP WordsP PgpP ScreenP.
Ltac Zify.zify_post_hook ::= Z.div_mod_to_equations.

Definition prompt_text (n : Z) : bytes := bs "Word " ++ itoa (n + 1) ++ bs " >> ".
Lemma prompt_text_printable n : Forall printable (prompt_text n).
Proof.
  unfold prompt_text. apply Forall_app. split; [apply printableb_ok; reflexivity|]. apply Forall_app.
  split; [apply itoa_printable|apply printableb_ok; reflexivity].
Qed.

Section Typing.
Context {k : kind} (w h T R : Z) (cells : Z -> Z -> Z) (H1 : T <= R) (H2 : R + 1 < T + h) (H3 : 0 < w).
Context (E : Env) (W : wordlist_ok E) (SO : search_ok E).

Definition Is (cell : Z -> Z -> Z) (row col : Z) (sv : Z * Z) (s : screen) : Prop :=
  s = mk_screen cell T row col sv Ground false /\ col < w.
Lemma is_text l : Forall printable l -> forall cell row col sv, ok w h (Is cell row col sv) l (Is (write cell row col l) row (col + zlen l) sv).
Proof. intros P cell row col sv s (-> & C) X. destruct (play_text w h l P _ _ _ _ _ _ X) as [-> L]. split; auto. Qed.
Lemma is_silent l : silent l -> forall cell row col sv, ok w h (Is cell row col sv) l (Is cell row col sv).
Proof. intros S cell row col sv s (-> & C) _. rewrite S. split; auto. Qed.
Lemma is_return cell row col sv : ok w h (Is cell row col sv) [13] (Is cell row 0 sv).
Proof. intros s (-> & C) _. split; [reflexivity|exact H3]. Qed.
Lemma is_erase cell row col sv : ok w h (Is cell row col sv) erase_forward (Is (erase_from cell row col) row col sv).
Proof. intros s (-> & C) _. split; [reflexivity|exact C]. Qed.
Lemma is_back cell row col sv : 0 < col -> ok w h (Is cell row col sv) backspace_code (Is cell row (col - 1) sv).
Proof.
  intros L s (-> & C) _. split; [|lia].
  change (play w h (mk_screen cell T row col sv Ground false) backspace_code) with (mk_screen cell T row (Z.max 0 (col - 1)) sv Ground false).
  f_equal. lia.
Qed.
Lemma is_save cell col sv : ok w h (Is cell R col sv) save_cursor (Is cell R col (R - T, col)).
Proof. intros s (-> & C) _. split; [destruct k; reflexivity|exact C]. Qed.
Lemma is_load cell row col c : c < w -> ok w h (Is cell row col (R - T, c)) load_cursor (Is cell R c (R - T, c)).
Proof.
  intros L s (-> & C) _. split; [|exact L].
  assert (Y : play w h (mk_screen cell T row col (R - T, c) Ground false) load_cursor = mk_screen cell T (T + (R - T)) c (R - T, c) Ground false)
    by (destruct k; reflexivity).
  rewrite Y, Zplus_minus. reflexivity.
Qed.
Lemma is_down cell col sv : ok w h (Is cell R col sv) [13; 10] (Is cell (R + 1) 0 sv).
Proof.
  intros s (-> & C) _. split; [|exact H3]. cbn. unfold line_feed. cbn [move s_row s_top s_cell s_col s_saved s_crowded].
  replace (R + 1 <? T + h) with true by lia. reflexivity.
Qed.
Lemma is_color a l b cell row col sv : silent a -> Forall printable l -> silent b ->
  ok w h (Is cell row col sv) (a ++ l ++ b) (Is (write cell row col l) row (col + zlen l) sv).
Proof.
  intros A L B. eapply ok_app; [apply is_silent, A|]. eapply ok_app; [apply is_text, L|]. apply is_silent, B.
Qed.
Lemma is_prompt n cell col sv : ok w h (Is cell R col sv) (raw_word_prompt n)
  (Is (write (erase_from cell R 0) R 0 (prompt_text n)) R (zlen (prompt_text n)) sv).
Proof.
  unfold raw_word_prompt. eapply ok_app; [apply is_return|]. eapply ok_app; [apply is_erase|]. unfold bold, cyan.
  eapply ok_app; [apply is_silent, silent_bold|]. eapply ok_app; [|apply is_silent, silent_plain].
  pose proof (is_color (esc :: bs "[36m") (prompt_text n) color_end (erase_from cell R 0) R 0 sv silent_cyan (prompt_text_printable n) silent_end) as K.
  rewrite Z.add_0_l in K. exact K.
Qed.

(** the two lines *)
Definition shown (f g : Z -> Z) (cell : Z -> Z -> Z) : Prop :=
  (forall r c, r <> R -> r <> R + 1 -> cell r c = cells r c) /\
  (forall c, 0 <= c < w -> cell R c = f c) /\ (forall c, 0 <= c < w -> cell (R + 1) c = g c).
Definition below_base (wiped : bool) : Z -> Z := if wiped then fun _ => blank else cells (R + 1).
Definition hint_ok (s : line_state) : Prop := ln_hint s = [] \/ completion E (ln_text s) = Some (ln_text s ++ ln_hint s).
Definition line_of (s : line_state) : bytes := prompt_text (ln_number s) ++ ln_text s ++ ln_hint s.
Definition drawn (s : line_state) (x : screen) : Prop :=
  hint_ok s /\ exists cell sv, Is cell R (zlen (prompt_text (ln_number s) ++ ln_text s)) sv x /\
    shown (overlay (fun _ => blank) [line_of s]) (overlay (below_base (ln_wiped s)) (ln_notes s)) cell.

Lemma shown_ext f g f' g' cell : shown f g cell -> (forall c, 0 <= c < w -> f c = f' c) -> (forall c, 0 <= c < w -> g c = g' c) -> shown f' g' cell.
Proof. intros (A & B & C) F G. split; [exact A|]. split; intros c Hc; [rewrite B by auto; auto|rewrite C by auto; auto]. Qed.
(** writing or erasing on the upper and on the lower line *)
Lemma shown_text f g cell col l : shown f g cell ->
  shown (fun c => if (col <=? c) && (c <? col + zlen l) then nth (Z.to_nat (c - col)) l 0 else f c) g (write cell R col l).
Proof.
  intros (A & B & C). split; [|split].
  - intros r c N1 N2. rewrite write_other by exact N1. auto.
  - intros c Hc. rewrite write_row. cbn beta. destruct (_ && _); auto.
  - intros c Hc. rewrite write_other by lia. auto.
Qed.
Lemma shown_note f base notes cell l : shown f (overlay base notes) cell -> shown f (overlay base (l :: notes)) (write cell (R + 1) 0 l).
Proof.
  intros (A & B & C). split; [|split].
  - intros r c N1 N2. rewrite write_other by exact N2. auto.
  - intros c Hc. rewrite write_other by lia. auto.
  - intros c Hc. rewrite write_row. cbn [overlay]. rewrite Z.add_0_l, Z.sub_0_r. destruct (_ && _); auto.
Qed.
Lemma shown_erase f g cell col : shown f g cell -> shown (fun c => if col <=? c then blank else f c) g (erase_from cell R col).
Proof.
  intros (A & B & C). unfold erase_from, shown. cbn beta. split; [|split].
  - intros r c N1 N2. replace (r =? R) with false by lia. cbn [andb]. auto.
  - intros c Hc. rewrite Z.eqb_refl. cbn [andb]. destruct (col <=? c); auto.
  - intros c Hc. replace (R + 1 =? R) with false by lia. cbn [andb]. auto.
Qed.
Lemma shown_wipe f g cell : shown f g cell -> shown f (overlay (fun _ => blank) []) (erase_from cell (R + 1) 0).
Proof.
  intros (A & B & C). unfold erase_from, shown. cbn beta. split; [|split].
  - intros r c N1 N2. replace (r =? R + 1) with false by lia. cbn [andb]. auto.
  - intros c Hc. replace (R =? R + 1) with false by lia. cbn [andb]. auto.
  - intros c Hc. rewrite Z.eqb_refl. replace (0 <=? c) with true by lia. reflexivity.
Qed.

Lemma overlay1 base t c : overlay base [t] c = if (0 <=? c) && (c <? zlen t) then nth (Z.to_nat c) t 0 else base c.
Proof. reflexivity. Qed.
(** a text after [a], over what was shown before *)
Lemma after_text a l f c : 0 <= c -> (forall c, 0 <= c < zlen a -> f c = nth (Z.to_nat c) a 0) ->
  (if (zlen a <=? c) && (c <? zlen a + zlen l) then nth (Z.to_nat (c - zlen a)) l 0 else f c) =
  (if (0 <=? c) && (c <? zlen (a ++ l)) then nth (Z.to_nat c) (a ++ l) 0 else f c).
Proof.
  intros Hc F. rewrite zlen_app. unfold zlen in *. replace (0 <=? c) with true by lia. cbn [andb].
  destruct (Z.of_nat (length a) <=? c) eqn:A.
  - cbn [andb]. destruct (c <? _); [|reflexivity]. rewrite app_nth2 by lia. f_equal. lia.
  - cbn [andb]. replace (c <? _) with true by lia. rewrite F by lia. rewrite app_nth1 by lia. reflexivity.
Qed.

(** after an edit: save, erase, the completion or a notice, restore *)
Lemma draw_edit s f g cell sv text : shown f g cell ->
  (forall c, 0 <= c < zlen (prompt_text (ln_number s) ++ text) -> f c = nth (Z.to_nat c) (prompt_text (ln_number s) ++ text) 0) ->
  (forall c, 0 <= c < w -> g c = overlay (below_base (ln_wiped s)) (ln_notes s) c) ->
  ok w h (Is cell R (zlen (prompt_text (ln_number s) ++ text)) sv)
    (save_cursor ++ erase_forward ++
     match snd (wl_search E text) with
     | suffix :: _ => faint suffix ++ [13; 10] ++ erase_forward
     | [] => if bytes_eqb text [] then [13; 10] ++ erase_forward else [13; 10] ++ red bad_word
     end ++ load_cursor) (drawn (text_line E s text)).
Proof.
  intros Sh F G x Ix X. assert (L : zlen (prompt_text (ln_number s) ++ text) < w) by apply Ix.
  set (a := prompt_text (ln_number s) ++ text) in *.
  pose proof (shown_erase _ _ _ (zlen a) Sh) as Se. revert x Ix X.
  unfold text_line, completion. destruct (snd (wl_search E text)) as [|suffix rest] eqn:Q.
  - destruct (bytes_eqb text []) eqn:B.
    + apply bytes_eqb_eq in B. subst text. eapply ok_weak; [| |].
      * eapply ok_app; [apply is_save|]. eapply ok_app; [apply is_erase|]. eapply ok_app; [|apply is_load; exact L].
        eapply ok_app; [apply is_down|]. apply is_erase.
      * intros x Hx. exact Hx.
      * intros x Hx. split; [left; reflexivity|]. eexists _, _. split; [exact Hx|].
        eapply shown_ext; [eapply shown_wipe; exact Se| |reflexivity].
        intros c Hc. cbn beta. unfold line_of. cbn [ln_number ln_text ln_hint ln_wiped ln_notes].
        rewrite overlay1. change (prompt_text (ln_number s) ++ [] ++ []) with a.
        destruct (zlen a <=? c) eqn:A; [replace (c <? zlen a) with false by lia; rewrite andb_false_r; reflexivity|].
        replace ((0 <=? c) && (c <? zlen a)) with true by lia. apply F. lia.
    + assert (N : text <> []) by (intros ->; discriminate B).
      assert (Q2 : match text with [] => mk_line (ln_number s) (ln_count s) text [] true []
         | _ => noted (mk_line (ln_number s) (ln_count s) text [] (ln_wiped s) (ln_notes s)) no_match end =
         noted (mk_line (ln_number s) (ln_count s) text [] (ln_wiped s) (ln_notes s)) no_match) by (destruct text; [contradiction|reflexivity]).
      eapply ok_weak; [| |].
      * eapply ok_app; [apply is_save|]. eapply ok_app; [apply is_erase|]. eapply ok_app; [|apply is_load; exact L].
        eapply ok_app; [apply is_down|]. unfold red. apply is_color; [apply silent_red|apply bad_word_printable|apply silent_end].
      * intros x Hx. exact Hx.
      * intros x Hx. unfold noted in Q2. cbn [ln_number ln_count ln_text ln_hint ln_wiped ln_notes] in Q2.
        match goal with |- drawn ?y _ => replace y with (noted (mk_line (ln_number s) (ln_count s) text [] (ln_wiped s) (ln_notes s)) no_match)
          by (destruct text; [contradiction|reflexivity]) end.
        split; [left; reflexivity|]. eexists _, _. split; [exact Hx|].
        eapply shown_ext; [|intros c Hc; reflexivity|reflexivity].
        unfold noted. cbn [ln_number ln_text ln_hint ln_wiped ln_notes].
        apply shown_note. eapply shown_ext; [exact Se| |exact G].
        intros c Hc. cbn beta. unfold line_of. cbn [ln_number ln_text ln_hint ln_wiped ln_notes].
        rewrite overlay1, app_nil_r. fold a.
        destruct (zlen a <=? c) eqn:A; [replace (c <? zlen a) with false by lia; rewrite andb_false_r; reflexivity|].
        replace ((0 <=? c) && (c <? zlen a)) with true by lia. apply F. lia.
  - assert (Ps : Forall printable suffix) by (apply (suffix_printable E text); auto; rewrite Q; left; reflexivity).
    eapply ok_weak; [| |].
    + eapply ok_app; [apply is_save|]. eapply ok_app; [apply is_erase|]. eapply ok_app; [|apply is_load; exact L].
      eapply ok_app; [unfold faint; apply is_color; [apply silent_faint|exact Ps|apply silent_plain]|].
      eapply ok_app; [apply is_down|]. apply is_erase.
    + intros x Hx. exact Hx.
    + intros x Hx. split.
      { right. cbn [ln_text ln_hint]. unfold completion. rewrite Q. do 2 f_equal. rewrite skipn_app, skipn_all, Nat.sub_diag. reflexivity. }
      eexists _, _. split; [exact Hx|]. apply shown_wipe with (g := g). eapply shown_ext; [apply shown_text; exact Se| |reflexivity].
      intros c Hc. cbn beta. unfold line_of. cbn [ln_number ln_text ln_hint ln_wiped ln_notes].
      replace (skipn (length text) (text ++ suffix)) with suffix by (rewrite skipn_app, skipn_all, Nat.sub_diag; reflexivity).
      rewrite overlay1, app_assoc. fold a.
      rewrite (after_text a suffix (fun c => if zlen a <=? c then blank else f c)); [|lia|].
      * destruct ((0 <=? c) && (c <? zlen (a ++ suffix))) eqn:A; [reflexivity|]. rewrite zlen_app in A. pose proof (zlen_nonneg suffix).
        replace (zlen a <=? c) with true by lia. reflexivity.
      * intros c' Hc'. replace (zlen a <=? c') with false by lia. apply F. exact Hc'.
Qed.

(** a notice: save, write below, restore *)
Lemma draw_note s t : Forall printable t -> ok w h (drawn s) (save_cursor ++ raw_notice t) (drawn (noted s t)).
Proof.
  intros P x (Hi & cell & sv & Ix & Sh) X. split; [exact Hi|]. assert (L : zlen (prompt_text (ln_number s) ++ ln_text s) < w) by apply Ix.
  set (a := prompt_text (ln_number s) ++ ln_text s) in *.
  assert (O : ok w h (Is cell R (zlen a) sv) (save_cursor ++ raw_notice t) (Is (write cell (R + 1) 0 t) R (zlen a) (R - T, zlen a))).
  { unfold raw_notice. eapply ok_app; [apply is_save|]. eapply ok_app; [apply is_down|].
    eapply ok_app; [unfold red; apply is_color; [apply silent_red|exact P|apply silent_end]|]. apply is_load. exact L. }
  eexists _, _. split; [exact (O x Ix X)|]. apply shown_note. exact Sh.
Qed.
(** the next line *)
Lemma draw_prompt s n count : ok w h (drawn s) (raw_word_prompt n) (drawn (mk_line n count [] [] (ln_wiped s) (ln_notes s))).
Proof.
  intros x (_ & cell & sv & Ix & Sh) X. split; [left; reflexivity|]. eexists _, _. split.
  - cbn [ln_number ln_text]. rewrite app_nil_r. exact (is_prompt n cell _ sv x Ix X).
  - eapply shown_ext; [apply shown_text, shown_erase, Sh| |reflexivity]. intros c Hc. cbn beta.
    unfold line_of. cbn [ln_number ln_text ln_hint app]. rewrite app_nil_r, !overlay1, Z.add_0_l, Z.sub_0_r.
    replace (0 <=? c) with true by lia. reflexivity.
Qed.
Lemma is_start s : ok w h (fun x => exists cell col sv, Is cell R col sv x /\ shown (cell R) (overlay (below_base (ln_wiped s)) (ln_notes s)) cell)
  (raw_word_prompt (ln_number s)) (drawn (mk_line (ln_number s) (ln_count s) [] [] (ln_wiped s) (ln_notes s))).
Proof.
  intros x (cell & col & sv & Ix & Sh) X. split; [left; reflexivity|]. eexists _, _. split.
  - cbn [ln_number ln_text]. rewrite app_nil_r. exact (is_prompt _ cell _ sv x Ix X).
  - eapply shown_ext; [apply shown_text, shown_erase, Sh| |reflexivity]. intros c Hc. cbn beta.
    unfold line_of. cbn [ln_number ln_text ln_hint app]. rewrite app_nil_r, !overlay1, Z.add_0_l, Z.sub_0_r.
    replace (0 <=? c) with true by lia. reflexivity.
Qed.
(** what is shown up to the cursor *)
Lemma shown_prefix s c : 0 <= c < zlen (prompt_text (ln_number s) ++ ln_text s) ->
  overlay (fun _ => blank) [line_of s] c = nth (Z.to_nat c) (prompt_text (ln_number s) ++ ln_text s) 0.
Proof.
  intros Hc. rewrite overlay1. unfold line_of. rewrite app_assoc, zlen_app. pose proof (zlen_nonneg (ln_hint s)).
  replace ((0 <=? c) && _) with true by lia. apply app_nth1. unfold zlen in Hc. lia.
Qed.

Definition agrees (e : entry) (s : line_state) : Prop := en_i e = ln_number s /\ en_count e = ln_count s /\ en_input e = ln_text s.
Lemma completion_word text v : completion E text = Some v -> exists suffix rest, snd (wl_search E text) = suffix :: rest /\ v = text ++ suffix /\
  Forall printable suffix /\ In v (wl_words E).
Proof.
  unfold completion. destruct (snd (wl_search E text)) as [|suffix rest] eqn:Q; [discriminate|]. intros H. injection H as <-.
  exists suffix, rest. destruct (suffix_printable E text suffix W SO) as [P I]; [rewrite Q; left; reflexivity|]. auto.
Qed.
Lemma draw_key e s b s' : agrees e s -> line_key E (version_error E) s b = Some s' ->
  exists e', key E e b = More e' /\ agrees e' s' /\
    ok w h (drawn s) (key_output E e b ++ (if en_i e' =? en_i e then [] else raw_word_prompt (en_i e'))) (drawn s').
Proof.
  intros (A1 & A2 & A3) K. unfold line_key in K. unfold key, key_output. change key_ctrl_c with 3. change key_ctrl_d with 4.
  change key_left with 68. change key_delete with 127.
  destruct ((b =? 3) || (b =? 4)) eqn:Bc; [discriminate|].
  destruct (b =? 68) eqn:B68.
  { assert (b = 68) by lia. subst b. cbn [Z.leb Z.eqb Z.compare Pos.compare Pos.compare_cont Pos.eqb andb app].
    unfold word_line in K. unfold next_word. rewrite A1, A2. destruct (ln_number s - 1 <? ln_count s); [|discriminate]. injection K as <-.
    eexists. split; [reflexivity|]. split; [repeat split|]. cbn [en_i]. replace (ln_number s - 1 =? ln_number s) with false by lia.
    apply draw_prompt. }
  destruct ((b =? 13) || (b =? 32)) eqn:Be.
  { replace ((97 <=? b) && (b <=? 122)) with false by lia. replace (b =? 127) with false by lia. replace (b =? 9) with false by lia.
    cbn [andb app]. rewrite A3. destruct (completion E (ln_text s)) as [v|] eqn:C.
    - destruct (completion_word _ _ C) as (suffix & rest & Q & -> & Ps & I). rewrite Q. rewrite A1.
      destruct (ln_number s =? 0) eqn:Z0.
      + unfold supported_first, phrase_size in K.
        assert (IL : in_list E (ln_text s ++ suffix) = true).
        { unfold in_list. apply existsb_exists. exists (ln_text s ++ suffix). split; [exact I|]. apply bytes_eqb_eq. reflexivity. }
        rewrite IL in K. destruct (parse_mnemonic_version E (ln_text s ++ suffix)) as [v| |] eqn:V.
        * unfold word_line in K. unfold next_word. replace (ln_number s + 1) with 1 by lia. destruct (1 <? mnemonic_size v); [|discriminate].
          injection K as <-. eexists. split; [reflexivity|]. split; [repeat split|]. cbn [en_i]. replace (1 =? ln_number s) with false by lia.
          rewrite app_nil_r. eapply ok_app; [|apply draw_prompt].
          intros x (Hi & cell & sv & Ix & Sh) X. split; [exact Hi|]. exists cell, (R - T, zlen (prompt_text (ln_number s) ++ ln_text s)).
          split; [|exact Sh]. exact (is_save _ _ _ x Ix X).
        * injection K as <-. eexists. split; [reflexivity|]. split; [repeat split; assumption|]. cbn [en_i]. rewrite Z.eqb_refl, app_nil_r.
          apply draw_note. apply version_error_notice; auto. intros v' H. rewrite V in H. discriminate.
        * injection K as <-. eexists. split; [reflexivity|]. split; [repeat split; assumption|]. cbn [en_i]. rewrite Z.eqb_refl, app_nil_r.
          apply draw_note. apply version_error_notice; auto. intros v' H. rewrite V in H. discriminate.
      + unfold word_line in K. unfold next_word. rewrite A2. destruct (ln_number s + 1 <? ln_count s); [|discriminate].
        injection K as <-. eexists. split; [reflexivity|]. split; [repeat split|]. cbn [en_i]. replace (ln_number s + 1 =? ln_number s) with false by lia.
        rewrite app_nil_r. eapply ok_app; [|apply draw_prompt].
        intros x (Hi & cell & sv & Ix & Sh) X. split; [exact Hi|]. exists cell, (R - T, zlen (prompt_text (ln_number s) ++ ln_text s)).
        split; [|exact Sh]. exact (is_save _ _ _ x Ix X).
    - unfold completion in C. destruct (snd (wl_search E (ln_text s))) eqn:Q; [|discriminate].
      injection K as <-. eexists. split; [reflexivity|]. split; [repeat split; assumption|]. cbn [en_i]. rewrite Z.eqb_refl, app_nil_r.
      apply draw_note, bad_word_printable. }
  replace (b =? 13) with false by lia. replace (b =? 32) with false by lia. cbn [orb].
  set (text' := if b =? 127 then removelast (if (97 <=? b) && (b <=? 122) then en_input e ++ [b] else en_input e)
                else if (97 <=? b) && (b <=? 122) then en_input e ++ [b] else en_input e).
  destruct ((b =? 9) && match completion E (ln_text s) with Some _ => true | None => false end) eqn:Bt.
  { assert (b = 9) by lia. subst b. cbn [Z.eqb Pos.eqb] in *. destruct (completion E (ln_text s)) as [v|] eqn:C; [|discriminate].
    injection K as <-. destruct (completion_word _ _ C) as (suffix & rest & Q & -> & Ps & I).
    assert (Tx : text' = ln_text s) by exact A3. change (((97 <=? 9) && (9 <=? 122))) with false. cbn [andb app]. rewrite Tx, Q.
    eexists. split; [reflexivity|]. split; [repeat split; cbn [en_input]; auto|]. cbn [en_i]. rewrite Z.eqb_refl, app_nil_r.
    intros x (Hi & cell & sv & Ix & Sh) X. split; [left; reflexivity|]. cbn [ln_number ln_text ln_hint ln_wiped ln_notes].
    set (a := prompt_text (ln_number s) ++ ln_text s) in *.
    exists (write cell R (zlen a) suffix), sv. split.
    - rewrite app_assoc. fold a. rewrite zlen_app. exact (is_text suffix Ps _ _ _ _ x Ix X).
    - eapply shown_ext; [apply shown_text; exact Sh| |reflexivity]. intros c Hc. cbn beta.
      rewrite (after_text a suffix); [|lia|intros c' Hc'; apply shown_prefix; exact Hc'].
      rewrite !overlay1. unfold line_of. cbn [ln_number ln_text ln_hint]. rewrite app_nil_r, !app_assoc. fold a.
      destruct ((0 <=? c) && (c <? zlen (a ++ suffix))) eqn:L; [reflexivity|].
      assert (Z1 : zlen (a ++ ln_hint s) <= zlen (a ++ suffix)).
      { rewrite !zlen_app. destruct Hi as [-> | Hi]; [rewrite zlen_nil; pose proof (zlen_nonneg suffix); lia|].
        rewrite C in Hi. injection Hi as Hi. apply app_inv_head in Hi. rewrite Hi. lia. }
      replace (c <? zlen (a ++ ln_hint s)) with false by lia. rewrite andb_false_r. reflexivity. }
  assert (Ed : text' = edited (completion E) (ln_text s) b).
  { unfold text', edited. rewrite A3. destruct (b =? 127) eqn:Bd.
    - replace ((97 <=? b) && (b <=? 122)) with false by lia. rewrite removelast_firstn_len. f_equal. lia.
    - destruct ((97 <=? b) && (b <=? 122)); [reflexivity|]. destruct (b =? 9); [|reflexivity].
      destruct (completion E (ln_text s)); [discriminate Bt|reflexivity]. }
  assert (K' : s' = text_line E s text').
  { rewrite Ed. destruct (b =? 9); [destruct (completion E (ln_text s)); [discriminate Bt|]|]; injection K as <-; reflexivity. }
  clear K.
  assert (Nt : b = 9 -> snd (wl_search E text') = []).
  { intros ->. change text' with (en_input e). rewrite A3. cbn [andb Z.eqb Pos.eqb] in Bt. unfold completion in Bt.
    destruct (snd (wl_search E (ln_text s))); [reflexivity|discriminate]. }
  exists (mk_entry (en_i e) (en_count e) (en_words e) text'). split; [|split].
  - fold text'. destruct (snd (wl_search E text')) as [|x l] eqn:Q; [reflexivity|]. destruct (b =? 9) eqn:B9; [|reflexivity].
    exfalso. assert (X : b = 9) by lia. specialize (Nt X). discriminate.
  - subst s'. unfold text_line. repeat split; cbn [en_i en_count en_input];
      destruct (completion E text') as [v|]; [| destruct text' | | destruct text' | | destruct text']; auto.
  - cbn [en_i]. rewrite Z.eqb_refl, app_nil_r. cbv zeta. fold text'.
    assert (Mt : forall (p : bytes -> bytes) (q : bytes), match b =? 9, snd (wl_search E text') with true, suffix :: _ => p suffix | _, _ => q end = q).
    { intros p q. destruct (b =? 9) eqn:B9; [|reflexivity]. rewrite Nt by lia. reflexivity. }
    rewrite Mt. clear Mt Nt. subst s'. unfold text' in *. rewrite A3 in *.
    destruct ((97 <=? b) && (b <=? 122)) eqn:Bl.
    + replace (b =? 127) with false by lia. cbn [andb]. rewrite app_nil_r.
      intros x (Hi & cell & sv & Ix & Sh) X.
      set (a := prompt_text (ln_number s) ++ ln_text s) in *.
      assert (Za : zlen (prompt_text (ln_number s) ++ ln_text s ++ [b]) = zlen a + zlen [b]) by (rewrite app_assoc; fold a; apply zlen_app).
      revert x Ix X. eapply ok_app; [apply is_text; constructor; [unfold printable; lia|constructor]|].
      rewrite <- Za. eapply draw_edit; [apply shown_text; exact Sh| |reflexivity].
      intros c Hc. cbn beta. rewrite Za in Hc. rewrite (after_text a [b]); [|lia|intros c' Hc'; apply shown_prefix; exact Hc'].
      replace ((0 <=? c) && (c <? zlen (a ++ [b]))) with true by (rewrite zlen_app; lia). rewrite app_assoc. reflexivity.
    + cbn [app]. destruct (b =? 127) eqn:Bd.
      * destruct (bytes_eqb (ln_text s) []) eqn:Bn.
        -- apply bytes_eqb_eq in Bn. rewrite Bn. cbn [andb negb app removelast].
           intros x (Hi & cell & sv & Ix & Sh). rewrite Bn in Ix. revert x Ix. eapply draw_edit; [exact Sh| |reflexivity].
           intros c Hc. rewrite <- Bn in *. apply shown_prefix. exact Hc.
        -- cbn [andb negb]. assert (Nn : ln_text s <> []) by (intros Q; rewrite Q in Bn; discriminate).
           destruct (exists_last Nn) as (init & z & Q). rewrite Q, removelast_last.
           intros x (Hi & cell & sv & Ix & Sh) X.
           assert (Za : zlen (prompt_text (ln_number s) ++ ln_text s) = zlen (prompt_text (ln_number s) ++ init) + 1)
             by (rewrite Q, app_assoc, zlen_app; reflexivity).
           rewrite Za in Ix. revert x Ix X. eapply ok_app; [apply is_back; pose proof (zlen_nonneg (prompt_text (ln_number s) ++ init)); lia|].
           rewrite Z.add_simpl_r. eapply draw_edit; [exact Sh| |reflexivity].
           intros c Hc. rewrite shown_prefix by lia. rewrite Q, app_assoc. apply app_nth1. unfold zlen in Hc. lia.
      * cbn [andb app]. intros x (Hi & cell & sv & Ix & Sh). revert x Ix. eapply draw_edit; [exact Sh| |reflexivity].
        intros c Hc. apply shown_prefix. exact Hc.
Qed.
Lemma draw_keys keys : forall e s s', agrees e s -> line_keys E (version_error E) s keys = Some s' ->
  ok w h (drawn s) (raw_keys_output E e keys) (drawn s').
Proof.
  induction keys as [|b keys IH]; intros e s s' A K.
  - injection K as <-. apply ok_nil.
  - cbn [line_keys] in K. destruct (line_key E (version_error E) s b) as [s1|] eqn:K1; [|discriminate].
    destruct (draw_key e s b s1 A K1) as (e' & Ke & A' & O). cbn [raw_keys_output]. rewrite Ke, app_assoc.
    eapply ok_app; [exact O|]. apply IH; auto.
Qed.
End Typing.

(** ** Where phrase entry goes on and ends *)
Fixpoint keys_state (E : Env) (e : entry) (keys : bytes) : option entry :=
  match keys with
  | [] => Some e
  | b :: keys' => match key E e b with More e' => keys_state E e' keys' | _ => None end
  end.
Lemma raw_keys_split E keys rest : forall e, raw_keys_output E e (keys ++ rest) =
  raw_keys_output E e keys ++ match keys_state E e keys with Some e' => raw_keys_output E e' rest | None => [] end.
Proof.
  induction keys as [|b keys IH]; intros e; [reflexivity|]. cbn [app raw_keys_output keys_state].
  destruct (key E e b); [rewrite IH, <- !app_assoc; reflexivity| |]; rewrite !app_nil_r; reflexivity.
Qed.
Lemma key_line E refusal e s b : wordlist_ok E -> search_ok E -> agrees e s ->
  match line_key E refusal s b with
  | Some s' => exists e', key E e b = More e' /\ agrees e' s'
  | None => forall e', key E e b <> More e'
  end.
Proof.
  intros W SO (A1 & A2 & A3). unfold line_key, key. change key_ctrl_c with 3. change key_ctrl_d with 4.
  change key_left with 68. change key_delete with 127. rewrite A1, A2, A3.
  destruct ((b =? 3) || (b =? 4)) eqn:Bc; [discriminate|].
  destruct (b =? 68) eqn:B68.
  { unfold word_line, next_word. destruct (_ <? _); [|discriminate]. eexists. split; [reflexivity|]. repeat split. }
  destruct ((b =? 13) || (b =? 32)) eqn:Be.
  { replace ((97 <=? b) && (b <=? 122)) with false by lia. replace (b =? 127) with false by lia. replace (b =? 9) with false by lia.
    unfold completion. destruct (snd (wl_search E (ln_text s))) as [|suffix rest] eqn:Q.
    - eexists. split; [reflexivity|]. repeat split; assumption.
    - destruct (ln_number s =? 0) eqn:Z0.
      + assert (I : In (ln_text s ++ suffix) (wl_words E)) by (apply (suffix_printable E (ln_text s)); auto; rewrite Q; left; reflexivity).
        assert (IL : in_list E (ln_text s ++ suffix) = true)
          by (unfold in_list; apply existsb_exists; exists (ln_text s ++ suffix); split; [exact I|apply bytes_eqb_eq; reflexivity]).
        unfold supported_first, phrase_size. rewrite IL. replace (ln_number s + 1) with 1 by lia.
        destruct (parse_mnemonic_version E (ln_text s ++ suffix)); try (eexists; split; [reflexivity|repeat split; assumption]).
        unfold word_line, next_word. destruct (_ <? _); [|discriminate]. eexists. split; [reflexivity|]. repeat split.
      + unfold word_line, next_word. destruct (_ <? _); [|discriminate]. eexists. split; [reflexivity|]. repeat split. }
  assert (Tl : forall text, agrees (mk_entry (ln_number s) (ln_count s) (en_words e) text) (text_line E s text)).
  { intros text. unfold text_line. destruct (completion E text) as [v|]; [|destruct text]; repeat split. }
  destruct (b =? 9) eqn:B9.
  - replace ((97 <=? b) && (b <=? 122)) with false by lia. replace (b =? 127) with false by lia.
    assert (Ed : completion E (ln_text s) = None -> edited (completion E) (ln_text s) b = ln_text s).
    { intros C. unfold edited. rewrite C. replace ((97 <=? b) && (b <=? 122)) with false by lia. replace (b =? 127) with false by lia. rewrite B9. reflexivity. }
    unfold completion in *. destruct (snd (wl_search E (ln_text s))) as [|suffix rest] eqn:Q.
    + rewrite Ed by reflexivity. eexists. split; [reflexivity|]. apply Tl.
    + eexists. split; [reflexivity|]. repeat split.
  - assert (Ed : edited (completion E) (ln_text s) b = if b =? 127 then removelast (if (97 <=? b) && (b <=? 122) then ln_text s ++ [b] else ln_text s)
        else if (97 <=? b) && (b <=? 122) then ln_text s ++ [b] else ln_text s).
    { unfold edited. rewrite B9. destruct (b =? 127) eqn:Bd; [|reflexivity].
      replace ((97 <=? b) && (b <=? 122)) with false by lia. rewrite removelast_firstn_len. f_equal. lia. }
    rewrite Ed. set (text := if b =? 127 then _ else _). exists (mk_entry (ln_number s) (ln_count s) (en_words e) text).
    split; [|apply Tl]. destruct (snd (wl_search E text)); reflexivity.
Qed.
