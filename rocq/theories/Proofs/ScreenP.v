(** Lemmas for Props/ScreenProps.v: what phrase entry leaves on a terminal. *)
From Coq Require Import Lia ZifyBool ZifyNat.
From Verif.Model Require Import GoBase Env Version Recovery Mnemonikey CliText CliInput CliScreen.
From Verif.Spec Require Import EnvSpec CliEnvSpec InputSpec ScreenSpec.
From Verif.Proofs Require Import BitsP WordsP PgpP.
Ltac Zify.zify_post_hook ::= Z.div_mod_to_equations.

Section Kinds.
Context {k : kind}.

Lemma play_app w h s a b : play w h s (a ++ b) = play w h (play w h s a) b.
Proof. apply fold_left_app. Qed.
Lemma play_cons w h s b l : play w h s (b :: l) = play w h (receive w h s b) l.
Proof. reflexivity. Qed.

(** nothing makes a crowded screen roomy again *)
Lemma line_feed_crowded h s : s_crowded (line_feed h s) = s_crowded s.
Proof. unfold line_feed. destruct (_ <? _); reflexivity. Qed.
Lemma receive_crowded w h s b : s_crowded s = true -> s_crowded (receive w h s b) = true.
Proof.
  intros H. unfold receive. destruct (s_mode s).
  - repeat (match goal with |- context [if ?c then _ else _] => destruct c end; cbn [set_mode move s_crowded]; auto);
      try (rewrite line_feed_crowded; auto).
    unfold print. destruct (_ <? _); cbn [s_crowded]; auto. rewrite line_feed_crowded. reflexivity.
  - repeat (match goal with |- context [if ?c then _ else _] => destruct c end; cbn; auto).
  - destruct (_ && _); [exact H|]. unfold control.
    repeat (match goal with |- context [if ?c then _ else _] => destruct c end; cbn; auto).
Qed.
Lemma play_crowded w h l s : s_crowded s = true -> s_crowded (play w h s l) = true.
Proof. revert s. induction l as [|b l IH]; intros s H; [exact H|]. rewrite play_cons. apply IH, receive_crowded, H. Qed.
Lemma uncrowded w h l s : s_crowded (play w h s l) = false -> s_crowded s = false.
Proof. intros H. destruct (s_crowded s) eqn:C; auto. rewrite play_crowded in H by auto. discriminate. Qed.

(** ** Printing *)
Definition printable (b : Z) : Prop := 32 <= b <= 126.
Fixpoint write (cell : Z -> Z -> Z) (r c : Z) (l : bytes) : Z -> Z -> Z :=
  match l with
  | [] => cell
  | b :: l' => write (set_cell cell r c b) r (c + 1) l'
  end.
Lemma write_other l cell r c r' c' : r' <> r -> write cell r c l r' c' = cell r' c'.
Proof.
  revert cell c. induction l as [|b l IH]; intros cell c H; [reflexivity|]. cbn [write]. rewrite IH by auto.
  unfold set_cell. replace (r' =? r) with false by lia. reflexivity.
Qed.
Lemma write_row l cell r c c' : write cell r c l r c' =
  if (c <=? c') && (c' <? c + zlen l) then nth (Z.to_nat (c' - c)) l 0 else cell r c'.
Proof.
  revert cell c. induction l as [|b l IH]; intros cell c.
  - cbn [write zlen length]. destruct (_ && _) eqn:A; [unfold zlen in A; cbn in A; lia|reflexivity].
  - cbn [write]. rewrite IH. unfold set_cell. rewrite Z.eqb_refl. cbn [andb]. rewrite zlen_cons.
    pose proof (zlen_nonneg l).
    destruct (c' =? c) eqn:A.
    + assert (c' = c) by lia. subst. replace (c + 1 <=? c) with false by lia. replace (c <=? c) with true by lia.
      replace (c <? c + _) with true by lia. cbn [andb]. rewrite Z.sub_diag. reflexivity.
    + destruct ((c + 1 <=? c') && (c' <? c + 1 + zlen l)) eqn:B.
      * replace ((c <=? c') && _) with true by lia. replace (Z.to_nat (c' - c)) with (S (Z.to_nat (c' - (c + 1)))) by lia. reflexivity.
      * replace ((c <=? c') && _) with false by lia. reflexivity.
Qed.

Lemma play_text w h l : Forall printable l -> forall cell t r c sv cr,
  s_crowded (play w h (mk_screen cell t r c sv Ground cr) l) = false ->
  play w h (mk_screen cell t r c sv Ground cr) l = mk_screen (write cell r c l) t r (c + zlen l) sv Ground cr /\
  (c < w -> c + zlen l < w).
Proof.
  induction 1 as [|b l P F IH]; intros cell t r c sv cr H.
  - cbn [play fold_left write]. rewrite zlen_nil, Z.add_0_r. auto.
  - rewrite play_cons in *. unfold printable in P.
    assert (X : receive w h (mk_screen cell t r c sv Ground cr) b = print w h (mk_screen cell t r c sv Ground cr) b).
    { unfold receive. cbn [s_mode]. replace (b =? 27) with false by lia. replace (b =? 13) with false by lia.
      replace (b =? 10) with false by lia. replace (b =? 8) with false by lia.
      replace ((b <? 32) || (b =? 127)) with false by lia. reflexivity. }
    rewrite X in *. unfold print in *. cbn [s_cell s_row s_col s_top s_saved s_crowded] in *.
    destruct (c + 1 <? w) eqn:L.
    + destruct (IH _ _ _ _ _ _ H) as [-> Y]. cbn [write]. rewrite zlen_cons. split; [f_equal; lia|lia].
    + exfalso. apply uncrowded in H. rewrite line_feed_crowded in H. discriminate.
Qed.

(** ** Fragments of output *)
Definition ok (w h : Z) (P : screen -> Prop) (l : bytes) (Q : screen -> Prop) : Prop :=
  forall s, P s -> s_crowded (play w h s l) = false -> Q (play w h s l).
Lemma ok_app w h P Q R a b : ok w h P a Q -> ok w h Q b R -> ok w h P (a ++ b) R.
Proof.
  intros A B s H C. rewrite play_app in *. apply B; auto. apply A; auto. eapply uncrowded, C.
Qed.
Lemma ok_nil w h P : ok w h P [] P.
Proof. intros s H _. exact H. Qed.
Lemma ok_weak w h (P P' Q Q' : screen -> Prop) l : ok w h P l Q -> (forall s, P' s -> P s) -> (forall s, Q s -> Q' s) -> ok w h P' l Q'.
Proof. intros A B C s H D. auto. Qed.

(** a sequence that moves and prints nothing *)
Definition silent (l : bytes) : Prop :=
  forall w h cell t r c sv cr, play w h (mk_screen cell t r c sv Ground cr) l = mk_screen cell t r c sv Ground cr.
Lemma silent_bold : silent (esc :: bs "[1m"). Proof. intros ? ? ? ? ? ? ? ?. reflexivity. Qed.
Lemma silent_faint : silent (esc :: bs "[2m"). Proof. intros ? ? ? ? ? ? ? ?. reflexivity. Qed.
Lemma silent_plain : silent (esc :: bs "[22m"). Proof. intros ? ? ? ? ? ? ? ?. reflexivity. Qed.
Lemma silent_red : silent (esc :: bs "[31m"). Proof. intros ? ? ? ? ? ? ? ?. reflexivity. Qed.
Lemma silent_cyan : silent (esc :: bs "[36m"). Proof. intros ? ? ? ? ? ? ? ?. reflexivity. Qed.
Lemma silent_end : silent color_end. Proof. intros ? ? ? ? ? ? ? ?. reflexivity. Qed.

(** On the line of the word, respectively on the line below it.  [cells] is the screen before. *)
Record entering (w T R : Z) (cells : Z -> Z -> Z) (row : Z) (sv : Z * Z) (s : screen) : Prop := {
  et_ground : s = mk_screen (s_cell s) T row (s_col s) sv Ground false;
  et_col : 0 <= s_col s < w;
  et_others : forall r c, r <> R -> r <> R + 1 -> s_cell s r c = cells r c;
  et_below : exists base ms, ((forall c, base c = blank) \/ (forall c, base c = cells (R + 1) c)) /\ Forall notice ms /\
               forall c, 0 <= c < w -> s_cell s (R + 1) c = overlay base ms c
}.
Definition below (w R : Z) (cells cell : Z -> Z -> Z) : Prop :=
  exists base ms, ((forall c, base c = blank) \/ (forall c, base c = cells (R + 1) c)) /\ Forall notice ms /\
    forall c, 0 <= c < w -> cell (R + 1) c = overlay base ms c.

Lemma entering_open w T R cells row sv s : entering w T R cells row sv s ->
  exists cell c, s = mk_screen cell T row c sv Ground false /\ 0 <= c < w /\
    (forall r c, r <> R -> r <> R + 1 -> cell r c = cells r c) /\ below w R cells cell.
Proof. intros [G C O B]. exists (s_cell s), (s_col s). auto. Qed.
Lemma entering_intro w T R cells row sv cell c : 0 <= c < w ->
  (forall r c, r <> R -> r <> R + 1 -> cell r c = cells r c) -> below w R cells cell ->
  entering w T R cells row sv (mk_screen cell T row c sv Ground false).
Proof. intros. constructor; auto. Qed.

Ltac open_screen := let cell := fresh "cell" in let c := fresh "c" in let C := fresh "C" in let O := fresh "O" in let B := fresh "B" in
  intros ? H X; destruct (entering_open _ _ _ _ _ _ _ H) as (cell & c & -> & C & O & B); clear H.

Lemma below_same w R cells cell cell' : below w R cells cell -> (forall c, 0 <= c < w -> cell' (R + 1) c = cell (R + 1) c) -> below w R cells cell'.
Proof. intros (base & ms & H1 & H2 & H3) E. exists base, ms. split; auto. split; auto. intros c Hc. rewrite E by auto. auto. Qed.

Section Fragments.
Context (w h T R : Z) (cells : Z -> Z -> Z) (H1 : T <= R) (H2 : R + 1 < T + h) (H3 : 0 < w).
Notation At := (entering w T R cells).

Lemma ok_silent l row sv : silent l -> ok w h (At row sv) l (At row sv).
Proof. intros S. open_screen. rewrite S in *. apply entering_intro; auto. Qed.
Lemma ok_text l sv : Forall printable l -> ok w h (At R sv) l (At R sv).
Proof.
  intros P. open_screen. destruct (play_text w h l P _ _ _ _ _ _ X) as [-> L]. apply entering_intro.
  - pose proof (zlen_nonneg l). lia.
  - intros r c' Hr Hr'. rewrite write_other; auto.
  - eapply below_same; [exact B|]. intros c' Hc'. apply write_other. lia.
Qed.
Lemma ok_erase sv : ok w h (At R sv) erase_forward (At R sv).
Proof.
  open_screen. cbn. apply entering_intro; auto.
  - intros r c' Hr Hr'. unfold erase_from. replace (r =? R) with false by lia. cbn [andb]. auto.
  - eapply below_same; [exact B|]. intros c' Hc'. unfold erase_from. replace (R + 1 =? R) with false by lia. reflexivity.
Qed.
Lemma ok_return row sv : ok w h (At row sv) [13] (At row sv).
Proof. open_screen. cbn. apply entering_intro; auto. lia. Qed.
Lemma ok_backspace sv : ok w h (At R sv) backspace_code (At R sv).
Proof. open_screen. cbn. apply entering_intro; auto. lia. Qed.
(** save keeps the position, for a later load *)
Definition Saved (row : Z) (s : screen) : Prop := exists c, 0 <= c < w /\ At row (R - T, c) s.
Lemma ok_save sv : ok w h (At R sv) save_cursor (Saved R).
Proof. open_screen. destruct k; cbn; exists c; (split; [auto|]); apply entering_intro; auto. Qed.
Lemma ok_saved row row' l : (forall sv, ok w h (At row sv) l (At row' sv)) -> ok w h (Saved row) l (Saved row').
Proof. intros K s (c & Hc & H) X. exists c. split; auto. apply K; auto. Qed.
Lemma ok_down sv : ok w h (At R sv) [13; 10] (fun s => At (R + 1) sv s /\ s_col s = 0).
Proof.
  open_screen. cbn. unfold line_feed. cbn [move s_row s_top s_cell s_col s_saved s_crowded].
  replace (R + 1 <? T + h) with true by lia. split; [|reflexivity]. apply entering_intro; auto. lia.
Qed.
Lemma ok_down_erase sv : ok w h (At R sv) ([13; 10] ++ erase_forward) (At (R + 1) sv).
Proof.
  eapply ok_app; [apply ok_down|]. intros s [H Z0] X. destruct (entering_open _ _ _ _ _ _ _ H) as (cell & c & -> & C & O & B).
  cbn [s_col] in Z0. subst c. cbn. apply entering_intro; auto.
  - intros r c' Hr Hr'. unfold erase_from. replace (r =? R + 1) with false by lia. cbn [andb]. auto.
  - exists (fun _ => blank), []. split; [left; reflexivity|]. split; [constructor|]. intros c Hc. unfold erase_from.
    rewrite Z.eqb_refl. replace (0 <=? c) with true by lia. reflexivity.
Qed.
Lemma ok_notice_text m sv : notice m -> Forall printable m ->
  ok w h (fun s => At (R + 1) sv s /\ s_col s = 0) m (At (R + 1) sv).
Proof.
  intros N P s [H Z0] X. destruct (entering_open _ _ _ _ _ _ _ H) as (cell & c & -> & C & O & B). cbn [s_col] in Z0. subst c.
  destruct (play_text w h m P _ _ _ _ _ _ X) as [-> L]. apply entering_intro.
  - pose proof (zlen_nonneg m). lia.
  - intros r c' Hr Hr'. rewrite write_other by auto. auto.
  - destruct B as (base & ms & B1 & B2 & B3). exists base, (m :: ms). split; auto. split; [constructor; auto|].
    intros c' Hc'. rewrite write_row. cbn [overlay]. rewrite Z.add_0_l, Z.sub_0_r.
    destruct (_ && _); [reflexivity|]. apply B3. exact Hc'.
Qed.
Lemma ok_red_notice m sv : notice m -> Forall printable m -> ok w h (At R sv) ([13; 10] ++ red m) (At (R + 1) sv).
Proof.
  intros N P. unfold red. eapply ok_app; [apply ok_down|].
  apply ok_app with (Q := fun s => At (R + 1) sv s /\ s_col s = 0).
  - intros s [H Z0] X. destruct (entering_open _ _ _ _ _ _ _ H) as (cell & c & -> & C & O & B). rewrite silent_red in *. auto.
  - eapply ok_app; [apply ok_notice_text; auto|]. apply ok_silent, silent_end.
Qed.
Lemma ok_load row : ok w h (Saved row) load_cursor (fun s => exists sv, At R sv s).
Proof.
  intros s (c0 & C0 & H) X. destruct (entering_open _ _ _ _ _ _ _ H) as (cell & c & -> & C & O & B).
  assert (Y : play w h (mk_screen cell T row c (R - T, c0) Ground false) load_cursor = mk_screen cell T (T + (R - T)) c0 (R - T, c0) Ground false)
    by (destruct k; reflexivity).
  exists (R - T, c0). rewrite Y, Zplus_minus. apply entering_intro; auto.
Qed.
End Fragments.

(** ** Texts *)
Lemma decimal_digits_digits fuel n : 0 <= n -> digit_text (decimal_digits fuel n).
Proof.
  revert n. induction fuel as [|f IH]; intros n H; cbn [decimal_digits]; [constructor|]. apply Forall_app. split.
  - destruct (n <? 10); [constructor|]. apply IH. lia.
  - constructor; [lia|constructor].
Qed.
Lemma digits_printable t : digit_text t -> Forall printable t.
Proof. intros H. eapply Forall_impl; [|exact H]. unfold printable. intros. cbn beta in *. lia. Qed.
Lemma itoa_printable n : Forall printable (itoa n).
Proof.
  unfold itoa. destruct (n <? 0) eqn:S.
  - constructor; [unfold printable; lia|]. apply digits_printable, decimal_digits_digits. lia.
  - apply digits_printable, decimal_digits_digits. lia.
Qed.
Definition printableb (l : bytes) : bool := forallb (fun b => (32 <=? b) && (b <=? 126)) l.
Lemma printableb_ok l : printableb l = true -> Forall printable l.
Proof.
  intros H. apply Forall_forall. intros x Hx. unfold printableb in H. rewrite forallb_forall in H. specialize (H x Hx).
  unfold printable. lia.
Qed.
Lemma bad_word_printable : Forall printable bad_word.
Proof. apply printableb_ok. reflexivity. Qed.
Lemma bad_word_notice : notice bad_word.
Proof. left. reflexivity. Qed.

(** the error of ParseMnemonicVersion for a word of the list *)
Lemma version_error_notice E word : wordlist_ok E -> In word (wl_words E) ->
  (forall v, parse_mnemonic_version E word <> Ok v) -> notice (version_error E word) /\ Forall printable (version_error E word).
Proof.
  intros W I V. unfold version_error, parse_mnemonic_version in *. destruct (parse_version_raw E word) as [v r] eqn:P.
  unfold parse_version_raw in P. rewrite to_lower_word in P by auto.
  destruct (word_map E word) as [i|] eqn:M; [|apply word_map_none in M; tauto].
  apply (word_map_spec E W) in M as [M _]. injection P as <- <-. rewrite Z.shiftr_div_pow2 in * by discriminate.
  change (bits_per_word - version_bits) with 8 in *. unfold version_check in *.
  assert (B : 0 <= i / 2 ^ 8 < 16) by (change (2 ^ 8) with 256; lia). set (v := i / 2 ^ 8) in *. clearbody v.
  assert (N : notice (bs "invalid version number in recovery phrase: " ++ itoa v) /\ Forall printable (bs "invalid version number in recovery phrase: " ++ itoa v)).
  { assert (D : digit_text (itoa v) /\ zlen (itoa v) <= 2).
    { assert (C : forallb (fun n => forallb (fun d => (48 <=? d) && (d <=? 57)) (itoa n) && (zlen (itoa n) <=? 2)) (map Z.of_nat (seq 0 16)) = true) by reflexivity.
      rewrite forallb_forall in C. specialize (C v). rewrite in_map_iff in C.
      specialize (C (ex_intro _ (Z.to_nat v) (conj (Z2Nat.id v ltac:(lia)) (proj2 (in_seq 16 0 (Z.to_nat v)) ltac:(lia))))).
      apply andb_true_iff in C as [C1 C2]. split; [|lia]. apply Forall_forall. intros d Hd. rewrite forallb_forall in C1. specialize (C1 d Hd). lia. }
    split; [right; exists (itoa v); tauto|]. apply Forall_app. split; [apply printableb_ok; reflexivity|apply itoa_printable]. }
  destruct (v >? version_latest); exact N.
Qed.
Lemma suffix_printable E q s : wordlist_ok E -> search_ok E -> In s (snd (wl_search E q)) -> Forall printable s /\ In (q ++ s) (wl_words E).
Proof.
  intros W S I. destruct (S q) as [_ F]. rewrite Forall_forall in F. specialize (F s I). split; [|exact F].
  pose proof (wlo_letters E W) as L. rewrite Forall_forall in L. specialize (L _ F). apply Forall_app in L as [_ L].
  eapply Forall_impl; [|exact L]. unfold lower_letter, printable. intros. cbn beta in *. lia.
Qed.

(** ** Raw mode *)
Section Raw.
Context (w h T R : Z) (cells : Z -> Z -> Z) (H1 : T <= R) (H2 : R + 1 < T + h) (H3 : 0 < w).
Context (E : Env) (W : wordlist_ok E) (SO : search_ok E).
Definition On (s : screen) : Prop := exists sv, entering w T R cells R sv s.
Lemma ok_on l : (forall sv, ok w h (entering w T R cells R sv) l (entering w T R cells R sv)) -> ok w h On l On.
Proof. intros K s (sv & H) X. exists sv. apply K; auto. Qed.
Lemma ok_on_save : ok w h On save_cursor (Saved w T R cells R).
Proof. intros s (sv & H) X. eapply ok_save; eauto. Qed.

Lemma ok_word_prompt i : ok w h On (raw_word_prompt i) On.
Proof.
  apply ok_on. intros sv. unfold raw_word_prompt, bold, cyan.
  apply ok_app with (entering w T R cells R sv); [apply ok_return; auto|].
  apply ok_app with (entering w T R cells R sv); [apply ok_erase; auto|].
  apply ok_app with (entering w T R cells R sv); [apply ok_silent, silent_bold|].
  apply ok_app with (entering w T R cells R sv); [|apply ok_silent, silent_plain].
  apply ok_app with (entering w T R cells R sv); [apply ok_silent, silent_cyan|].
  apply ok_app with (entering w T R cells R sv); [|apply ok_silent, silent_end].
  apply ok_text; auto. apply Forall_app. split; [apply printableb_ok; reflexivity|]. apply Forall_app. split; [apply itoa_printable|].
  apply printableb_ok. reflexivity.
Qed.

Lemma ok_raw_notice m : notice m -> Forall printable m -> ok w h (Saved w T R cells R) (raw_notice m) On.
Proof.
  intros N P. unfold raw_notice. rewrite app_assoc. apply ok_app with (Saved w T R cells (R + 1)).
  - apply ok_saved. intros sv. apply ok_red_notice; auto.
  - apply ok_load; auto.
Qed.

Lemma ok_key s b : ok w h On (key_output E s b) On.
Proof.
  unfold key_output. destruct ((b =? key_ctrl_c) || (b =? key_ctrl_d)); [apply ok_nil|]. cbv zeta.
  assert (EO : forall e : bool, ok w h On ((if (97 <=? b) && (b <=? 122) then [b] else []) ++ (if e then backspace_code else [])) On).
  { intros e. apply ok_app with On.
    - destruct ((97 <=? b) && (b <=? 122)) eqn:L; [|apply ok_nil]. apply ok_on. intros sv. apply ok_text; auto. constructor; [unfold printable; lia|constructor].
    - destruct e; [|apply ok_nil]. apply ok_on. intros sv. apply ok_backspace; auto. }
  set (input := if (97 <=? b) && (b <=? 122) then en_input s ++ [b] else en_input s).
  specialize (EO ((b =? key_delete) && negb (bytes_eqb input []))).
  set (echo := (if (97 <=? b) && (b <=? 122) then [b] else []) ++ _) in *.
  clearbody input echo.
  set (text := if b =? key_delete then removelast input else input).
  destruct (b =? key_left); [exact EO|].
  assert (Rest : ok w h On (echo ++ save_cursor ++
          (if (b =? 13) || (b =? 32) then
             match snd (wl_search E text) with
             | [] => raw_notice bad_word
             | suffix :: _ =>
                 if en_i s =? 0 then
                   match parse_mnemonic_version E (text ++ suffix) with
                   | Ok _ => []
                   | _ => raw_notice (version_error E (text ++ suffix))
                   end
                 else []
             end
           else
             erase_forward ++
             match snd (wl_search E text) with
             | suffix :: _ => faint suffix ++ [13; 10] ++ erase_forward
             | [] => if bytes_eqb text [] then [13; 10] ++ erase_forward else [13; 10] ++ red bad_word
             end ++ load_cursor)) On).
  { apply ok_app with On; [exact EO|]. apply ok_app with (Saved w T R cells R); [apply ok_on_save|].
    assert (Stay : ok w h (Saved w T R cells R) [] On).
    { intros s' (c & Hc & H) _. exists (R - T, c). exact H. }
    destruct ((b =? 13) || (b =? 32)).
    - destruct (snd (wl_search E text)) as [|suffix rest] eqn:Sx; [apply ok_raw_notice; [apply bad_word_notice|apply bad_word_printable]|].
      destruct (en_i s =? 0); [|exact Stay].
      destruct (suffix_printable E text suffix W SO) as [_ I]; [rewrite Sx; left; reflexivity|].
      destruct (parse_mnemonic_version E (text ++ suffix)) as [v|e|] eqn:V; [exact Stay| |];
        (destruct (version_error_notice E (text ++ suffix) W I) as [N P]; [rewrite V; discriminate|]; apply ok_raw_notice; auto).
    - apply ok_app with (Saved w T R cells R); [apply ok_saved; intros; apply ok_erase; auto|].
      apply ok_app with (Saved w T R cells (R + 1)); [|apply ok_load; auto].
      apply ok_saved. intros sv.
      destruct (snd (wl_search E text)) as [|suffix rest] eqn:Sx.
      + destruct (bytes_eqb text []); [apply ok_down_erase; auto|apply ok_red_notice; auto; [apply bad_word_notice|apply bad_word_printable]].
      + apply ok_app with (entering w T R cells R sv); [|apply ok_down_erase; auto]. unfold faint.
        apply ok_app with (entering w T R cells R sv); [apply ok_silent, silent_faint|].
        apply ok_app with (entering w T R cells R sv); [|apply ok_silent, silent_plain].
        apply ok_text; auto. apply (suffix_printable E text suffix W SO). rewrite Sx. left. reflexivity. }
  destruct (b =? 9); [|exact Rest]. destruct (snd (wl_search E text)) as [|suffix rest] eqn:Sx; [exact Rest|].
  apply ok_app with On; [exact EO|]. apply ok_on. intros sv. apply ok_text; auto.
  apply (suffix_printable E text suffix W SO). rewrite Sx. left. reflexivity.
Qed.

Lemma ok_keys stdin s : ok w h On (raw_keys_output E s stdin) On.
Proof.
  revert s. induction stdin as [|b rest IH]; intros s; cbn [raw_keys_output]; [apply ok_nil|].
  apply ok_app with On; [apply ok_key|]. destruct (key E s b) as [s'|ws|]; [|apply ok_nil|apply ok_nil].
  apply ok_app with On; [|apply IH]. destruct (_ =? _); [apply ok_nil|apply ok_word_prompt].
Qed.

(** the deferred function: the line of the word is blank *)
Definition Cleared (s : screen) : Prop :=
  On s /\ s_col s = 0 /\ forall c, 0 <= c < w -> s_cell s R c = blank.
Lemma ok_clear : ok w h On ([13] ++ erase_forward) Cleared.
Proof.
  intros s (sv & H) X. destruct (entering_open _ _ _ _ _ _ _ H) as (cell & c & -> & C & O & B).
  assert (Y : On (play w h (mk_screen cell T R c sv Ground false) ([13] ++ erase_forward))).
  { refine (ok_app w h On On On _ _ _ _ _ _ X); [apply ok_on; intros; apply ok_return; auto|apply ok_on; intros; apply ok_erase; auto|].
    exists sv. exact H. }
  split; [exact Y|]. cbn. split; [reflexivity|]. intros c' Hc'. unfold erase_from. rewrite Z.eqb_refl. replace (0 <=? c') with true by lia. reflexivity.
Qed.
End Raw.

(** ** The header, and the flag *)
Definition positioned (w h : Z) (s : screen) : Prop :=
  s_top s <= s_row s < s_top s + h /\ 0 <= s_col s < w /\ s_mode s = Ground /\
  (forall r c, s_top s + h <= r -> s_cell s r c = blank).
Definition keeps (w h : Z) (l : bytes) : Prop := forall s, positioned w h s -> positioned w h (play w h s l).
Lemma keeps_app w h a b : keeps w h a -> keeps w h b -> keeps w h (a ++ b).
Proof. intros A B s H. rewrite play_app. auto. Qed.
Lemma keeps_nil w h : keeps w h [].
Proof. intros s H. exact H. Qed.
Lemma positioned_open w h s : positioned w h s -> exists cell t r c sv cr, s = mk_screen cell t r c sv Ground cr /\ t <= r < t + h /\ 0 <= c < w /\
  (forall r c, t + h <= r -> cell r c = blank).
Proof. destruct s as [cell t r c sv m cr]. intros (A & B & C & D). cbn in *. subst m. do 6 eexists. eauto. Qed.
Lemma keeps_silent w h l : silent l -> keeps w h l.
Proof. intros S s H. destruct (positioned_open _ _ _ H) as (cell & t & r & c & sv & cr & -> & _). rewrite S. exact H. Qed.
Lemma line_feed_keeps w h s : positioned w h s -> positioned w h (line_feed h s).
Proof.
  intros H. destruct (positioned_open _ _ _ H) as (cell & t & r & c & sv & cr & -> & A & B & D). unfold line_feed.
  cbn [s_row s_top s_cell s_col s_saved s_crowded]. destruct (r + 1 <? t + h) eqn:L; unfold positioned; cbn [s_row s_top s_cell s_col s_mode].
  - repeat split; auto; lia.
  - repeat split; auto; try lia. intros r' c' Hr. unfold erase_from. destruct (_ && _); [reflexivity|]. apply D. lia.
Qed.
Lemma keeps_crlf w h : 0 < w -> keeps w h [13; 10].
Proof.
  intros W s H. destruct (positioned_open _ _ _ H) as (cell & t & r & c & sv & cr & -> & A & B & D).
  change (positioned w h (line_feed h (mk_screen cell t r 0 sv Ground cr))). apply line_feed_keeps.
  unfold positioned; cbn [s_row s_top s_cell s_col s_mode]. repeat split; auto; lia.
Qed.
Lemma keeps_text w h l : Forall printable l -> keeps w h l.
Proof.
  induction 1 as [|b l P F IH]; [apply keeps_nil|]. change (b :: l) with ([b] ++ l). apply keeps_app; [|exact IH].
  intros s H. destruct (positioned_open _ _ _ H) as (cell & t & r & c & sv & cr & -> & A & B & D). unfold printable in P.
  assert (X : play w h (mk_screen cell t r c sv Ground cr) [b] = print w h (mk_screen cell t r c sv Ground cr) b).
  { cbn [play fold_left]. unfold receive. cbn [s_mode]. replace (b =? 27) with false by lia. replace (b =? 13) with false by lia.
    replace (b =? 10) with false by lia. replace (b =? 8) with false by lia.
    replace ((b <? 32) || (b =? 127)) with false by lia. reflexivity. }
  rewrite X. unfold print. cbn [s_row s_top s_cell s_col s_saved s_crowded].
  assert (D' : forall r' c', t + h <= r' -> set_cell cell r c b r' c' = blank).
  { intros r' c' Hr. unfold set_cell. replace (r' =? r) with false by lia. cbn [andb]. auto. }
  destruct (c + 1 <? w) eqn:L.
  - unfold positioned; cbn [s_row s_top s_cell s_col s_mode]. repeat split; auto; lia.
  - apply line_feed_keeps. unfold positioned; cbn [s_row s_top s_cell s_col s_mode]. repeat split; auto; lia.
Qed.
(** the room below *)
Lemma make_room w h s : 2 <= h -> 0 < w -> positioned w h s ->
  let s' := play w h s ([10] ++ previous_line) in
  positioned w h s' /\ s_row s' + 1 < s_top s' + h /\ s_col s' = 0.
Proof.
  intros Hh Hw H s'. pose proof (line_feed_keeps w h s H) as K.
  assert (E : play w h s [10] = line_feed h s).
  { destruct (positioned_open _ _ _ H) as (cell & t & r & c & sv & cr & -> & _). reflexivity. }
  unfold s'. rewrite play_app, E. clear s' E.
  assert (N : s_top (line_feed h s) < s_row (line_feed h s)).
  { destruct H as (A & _). unfold line_feed. destruct (_ <? _) eqn:L; cbn [s_top s_row]; lia. }
  destruct (positioned_open _ _ _ K) as (cell & t & r & c & sv & cr & Q & A & B & D). rewrite Q in *. cbn [s_top s_row] in N.
  assert (Y : play w h (mk_screen cell t r c sv Ground cr) previous_line = mk_screen cell t (Z.max t (r - 1)) 0 sv Ground cr) by reflexivity.
  rewrite Y. unfold positioned. cbn [s_row s_top s_cell s_col s_mode]. repeat split; auto; lia.
Qed.

Lemma raw_header_room w h s : 2 <= h -> 0 < w -> positioned w h s ->
  let s' := play w h s raw_header in positioned w h s' /\ s_row s' + 1 < s_top s' + h /\ s_col s' = 0.
Proof.
  intros Hh Hw H s'. subst s'.
  assert (K : forall l, printableb l = true -> keeps w h (faint (l ++ [13; 10]))).
  { intros l P. unfold faint. apply keeps_app; [apply keeps_silent, silent_faint|]. apply keeps_app; [|apply keeps_silent, silent_plain].
    apply keeps_app; [apply keeps_text, printableb_ok, P|apply keeps_crlf; auto]. }
  assert (Hd : keeps w h (bold (cyan (input_header ++ [13; 10])))).
  { unfold bold, cyan. apply keeps_app; [apply keeps_silent, silent_bold|]. apply keeps_app; [|apply keeps_silent, silent_plain].
    apply keeps_app; [apply keeps_silent, silent_cyan|]. apply keeps_app; [|apply keeps_silent, silent_end].
    apply keeps_app; [apply keeps_text, printableb_ok; reflexivity|apply keeps_crlf; auto]. }
  unfold raw_header. cbv zeta. rewrite !app_assoc. rewrite <- (app_assoc _ [10]). rewrite play_app. apply make_room; auto.
  rewrite <- !app_assoc.
  match goal with |- positioned _ _ (play _ _ _ ?l) => assert (KK : keeps w h l); [|exact (KK s H)] end.
  repeat (apply keeps_app; [first [exact Hd|apply keeps_crlf; exact Hw|apply K; reflexivity]|]). apply keeps_crlf; auto.
Qed.

(** the flag changes nothing else *)
Definition unflag (s : screen) : screen := mk_screen (s_cell s) (s_top s) (s_row s) (s_col s) (s_saved s) (s_mode s) false.
Lemma receive_unflag w h s b : unflag (receive w h (unflag s) b) = unflag (receive w h s b).
Proof.
  destruct s as [cell t r c sv m cr]. unfold receive, unflag at 2. cbn [s_mode]. destruct m.
  - repeat (match goal with |- context [if ?c then _ else _] => destruct c end; try reflexivity).
    + unfold line_feed. cbn. destruct (_ <? _); reflexivity.
    + unfold print. cbn. destruct (_ <? _); [reflexivity|]. unfold line_feed. cbn. destruct (_ <? _); reflexivity.
  - repeat (match goal with |- context [if ?c then _ else _] => destruct c end; try reflexivity).
  - unfold control. repeat (match goal with |- context [if ?c then _ else _] => destruct c end; try reflexivity).
Qed.
Lemma play_unflag w h l s : unflag (play w h (unflag s) l) = unflag (play w h s l).
Proof.
  revert s. induction l as [|b l IH]; intros s; [destruct s; reflexivity|]. rewrite !play_cons.
  rewrite <- (IH (receive w h (unflag s) b)), receive_unflag, IH. reflexivity.
Qed.

Lemma on_start w h s : positioned w h s -> s_row s + 1 < s_top s + h ->
  On w (s_top s) (s_row s) (s_cell s) (unflag s).
Proof.
  intros (A & B & C & D) R. exists (s_saved s). unfold unflag. rewrite C. apply entering_intro; auto.
  exists (fun c => s_cell s (s_row s + 1) c), []. split; [right; reflexivity|]. split; [constructor|]. reflexivity.
Qed.

(** two line feeds change nothing on a screen that is blank below the window *)
Lemma feed_cells h s r c : (forall r c, s_top s + h <= r -> s_cell s r c = blank) -> s_row s < s_top s + h ->
  s_cell (line_feed h s) r c = s_cell s r c.
Proof.
  intros D L. unfold line_feed. destruct (_ <? _) eqn:Q; cbn [s_cell]; [reflexivity|]. unfold erase_from.
  destruct ((r =? s_row s + 1) && (0 <=? c)) eqn:B; [|reflexivity]. symmetry. apply D. lia.
Qed.
Lemma two_feeds w h s r c : positioned w h s ->
  s_cell (play w h s [10; 10]) r c = s_cell s r c /\ s_row (play w h s [10; 10]) = s_row s + 2 /\ s_col (play w h s [10; 10]) = s_col s.
Proof.
  intros P. pose proof (line_feed_keeps w h s P) as P1. pose proof P as (A & _ & G & D). pose proof P1 as (A1 & _ & G1 & D1).
  assert (E : play w h s [10; 10] = line_feed h (line_feed h s)).
  { cbn [play fold_left]. unfold receive at 2. rewrite G. cbn. unfold receive. rewrite G1. reflexivity. }
  rewrite E. split; [|split].
  - rewrite !feed_cells; auto; lia.
  - unfold line_feed. repeat (destruct (_ <? _); cbn [s_row]); lia.
  - unfold line_feed. repeat (destruct (_ <? _); cbn [s_col]); reflexivity.
Qed.

(** ** Simple mode *)
Lemma cooked_app a b : cooked (a ++ b) = cooked a ++ cooked b.
Proof. apply flat_map_app. Qed.
Lemma cooked_text l : Forall printable l -> cooked l = l.
Proof.
  induction 1 as [|b l P F IH]; [reflexivity|]. unfold cooked in *. cbn [flat_map]. unfold printable in P.
  replace (b =? 10) with false by lia. rewrite IH. reflexivity.
Qed.

Section Simple.
Context (w h T R : Z) (cells : Z -> Z -> Z) (H1 : T <= R) (H2 : R + 1 < T + h) (H3 : 0 < w).
Context (E : Env) (W : wordlist_ok E) (SO : search_ok E).
Definition bare (s : screen) (ps : list bytes) : Prop :=
  exists base, ((forall c, base c = blank) \/ (forall c, base c = cells R c)) /\
    forall c, 0 <= c < w -> s_cell s R c = overlay base ps c.
Definition Top (s : screen) : Prop := On w T R cells s /\ s_col s = 0 /\ bare s [].
Definition Low (s : screen) : Prop := exists sv, entering w T R cells (R + 1) sv s.
Definition Low0 (s : screen) : Prop := Low s /\ s_col s = 0.

Lemma ok_enter_key : ok w h (On w T R cells) [13; 10] Low0.
Proof. intros s (sv & H) X. destruct (ok_down w h T R cells H2 H3 sv s H X) as [A B]. split; auto. exists sv. exact A. Qed.
Lemma ok_low_erase : ok w h Low0 erase_forward Low0.
Proof.
  intros s ((sv & H) & Z0) X. destruct (entering_open _ _ _ _ _ _ _ H) as (cell & c & -> & C & O & B).
  cbn [s_col] in Z0. subst c. cbn. split; [|reflexivity]. exists sv. apply entering_intro; auto.
  - intros r c' Hr Hr'. unfold erase_from. replace (r =? R + 1) with false by lia. cbn [andb]. auto.
  - exists (fun _ => blank), []. split; [left; reflexivity|]. split; [constructor|]. intros c Hc. unfold erase_from.
    rewrite Z.eqb_refl. replace (0 <=? c) with true by lia. reflexivity.
Qed.
Lemma ok_low_red m : notice m -> Forall printable m -> ok w h Low0 (red m) Low.
Proof.
  intros N P s ((sv & H) & Z0) X. exists sv. unfold red in *.
  refine (ok_app w h (fun s => entering w T R cells (R + 1) sv s /\ s_col s = 0) (fun s => entering w T R cells (R + 1) sv s /\ s_col s = 0) _ _ _ _ _ s (conj H Z0) X).
  - intros s' [H' Z'] X'. destruct (entering_open _ _ _ _ _ _ _ H') as (cell & c & -> & C & O & B). rewrite silent_red in *. auto.
  - eapply ok_app; [apply ok_notice_text; auto|]. apply ok_silent, silent_end.
Qed.
Lemma ok_up : ok w h Low (previous_line ++ erase_forward) Top.
Proof.
  intros s (sv & H) X. destruct (entering_open _ _ _ _ _ _ _ H) as (cell & c & -> & C & O & B).
  assert (Y : play w h (mk_screen cell T (R + 1) c sv Ground false) (previous_line ++ erase_forward) =
    mk_screen (erase_from cell (Z.max T (R + 1 - 1)) 0) T (Z.max T (R + 1 - 1)) 0 sv Ground false) by reflexivity.
  rewrite Y in *. replace (Z.max T (R + 1 - 1)) with R in * by lia. split; [|split].
  - exists sv. apply entering_intro; [lia| |].
    + intros r c' Hr Hr'. unfold erase_from. replace (r =? R) with false by lia. cbn [andb]. auto.
    + eapply below_same; [exact B|]. intros c' Hc'. unfold erase_from. replace (R + 1 =? R) with false by lia. reflexivity.
  - reflexivity.
  - exists (fun _ => blank). split; [left; reflexivity|]. intros c' Hc'. cbn [s_cell overlay]. unfold erase_from. rewrite Z.eqb_refl.
    replace (0 <=? c') with true by lia. reflexivity.
Qed.

Definition label (i : Z) : bytes := bs "Word " ++ itoa (i + 1) ++ bs " >> ".
Lemma label_printable i : Forall printable (label i).
Proof.
  apply Forall_app. split; [apply printableb_ok; reflexivity|]. apply Forall_app. split; [apply itoa_printable|apply printableb_ok; reflexivity].
Qed.
Lemma ok_label i : ok w h Top (simple_word_prompt i) (fun s => On w T R cells s /\ bare s [label i]).
Proof.
  intros s (O & Z0 & base & B1 & B2) X. split.
  - refine (ok_on w h T R cells (simple_word_prompt i) _ s O X). intros sv. unfold simple_word_prompt, bold, cyan.
    apply ok_app with (entering w T R cells R sv); [apply ok_silent, silent_bold|].
    apply ok_app with (entering w T R cells R sv); [|apply ok_silent, silent_plain].
    apply ok_app with (entering w T R cells R sv); [apply ok_silent, silent_cyan|].
    apply ok_app with (entering w T R cells R sv); [|apply ok_silent, silent_end].
    apply ok_text; auto. apply label_printable.
  - exists base. split; [exact B1|]. destruct O as (sv & H). destruct (entering_open _ _ _ _ _ _ _ H) as (cell & c & -> & C & O & B).
    cbn [s_col s_cell] in *. subst c. unfold simple_word_prompt, bold, cyan in *. fold (label i) in *.
    rewrite !play_app in *. rewrite silent_bold, silent_cyan in *. set (s1 := play w h _ (label i)) in *.
    assert (X1 : s_crowded s1 = false) by (eapply uncrowded, uncrowded, X).
    unfold s1 in *. destruct (play_text w h (label i) (label_printable i) _ _ _ _ _ _ X1) as [-> L].
    rewrite silent_end, silent_plain. cbn [s_cell]. intros c Hc. rewrite write_row. cbn [overlay]. rewrite Z.add_0_l, Z.sub_0_r.
    destruct (_ && _); [reflexivity|]. apply (B2 c Hc).
Qed.

(** at the end: the line is bare, or shows the prompt of the word where the input ended *)
Definition Done (s : screen) : Prop := exists i,
  (On w T R cells s /\ s_col s = 0 /\ bare s []) \/
  (exists s0, On w T R cells s0 /\ bare s0 [label i] /\ s = play w h s0 (cooked [10; 10])).
Lemma ok_simple lines : Forall (fun p => Forall printable (fst p) /\ snd p = true) lines ->
  forall i count, ok w h Top (cooked (simple_output E i count lines)) Done.
Proof.
  assert (Stop : ok w h Top [] Done) by (intros s H _; exists 0; left; exact H).
  induction 1 as [|[line ent] lines [P Q] F IH]; intros i count; cbn [simple_output].
  - destruct (i <? count); [|exact Stop]. rewrite cooked_app.
    assert (K : cooked (simple_word_prompt i) = simple_word_prompt i).
    { unfold simple_word_prompt, bold, cyan. fold (label i). rewrite !cooked_app, (cooked_text _ (label_printable i)). reflexivity. }
    rewrite K. apply ok_app with (fun s => On w T R cells s /\ bare s [label i]); [apply ok_label|].
    intros s [A B] X. exists i. right. exists s. auto.
  - destruct (i <? count); [|exact Stop]. cbn [fst snd] in P, Q. subst ent. rewrite !cooked_app.
    assert (K : cooked (simple_word_prompt i) = simple_word_prompt i).
    { unfold simple_word_prompt, bold, cyan. fold (label i). rewrite !cooked_app, (cooked_text _ (label_printable i)). reflexivity. }
    rewrite K, (cooked_text _ P). change (cooked [10]) with [13; 10].
    apply ok_app with (On w T R cells).
    { eapply ok_weak; [apply (ok_label i)|auto|]. intros s [A _]. exact A. }
    apply ok_app with (On w T R cells); [apply ok_on; intros; apply ok_text; auto|].
    apply ok_app with Low0; [apply ok_enter_key|].
    assert (Up : forall i count, ok w h Low (cooked (previous_line ++ erase_forward ++ simple_output E i count lines)) Done).
    { intros i' count'. rewrite app_assoc, cooked_app. apply ok_app with Top; [apply ok_up|apply IH]. }
    assert (Red : forall m, Forall printable m -> cooked (red m) = red m).
    { intros m Pm. unfold red. rewrite !cooked_app, (cooked_text _ Pm). reflexivity. }
    set (input := to_lower E (trim_space E line)).
    destruct (fst (wl_search E input)) eqn:M.
    + rewrite cooked_app. change (cooked erase_forward) with erase_forward. apply ok_app with Low0; [apply ok_low_erase|].
      destruct (i =? 0).
      * destruct (parse_mnemonic_version E input) as [v|e|] eqn:V;
          [eapply ok_weak; [apply Up|intros s [A _]; exact A|auto]| |];
          (destruct (version_error_notice E input W) as [N Pm]; [apply SO; exact M|rewrite V; discriminate|];
           rewrite cooked_app, (Red _ Pm); apply ok_app with Low; [apply ok_low_red; auto|apply Up]).
      * eapply ok_weak; [apply Up|intros s [A _]; exact A|auto].
    + rewrite cooked_app, (Red _ bad_word_printable). apply ok_app with Low; [|apply Up].
      apply ok_low_red; [apply bad_word_notice|apply bad_word_printable].
Qed.
End Simple.

Lemma simple_header_room w h s : 2 <= h -> 0 < w -> positioned w h s ->
  let s' := play w h s (cooked simple_header) in positioned w h s' /\ s_row s' + 1 < s_top s' + h /\ s_col s' = 0.
Proof.
  intros Hh Hw H s'. subst s'. unfold simple_header. rewrite cooked_app.
  assert (Q : cooked ([10] ++ previous_line) = [13] ++ [10] ++ previous_line) by reflexivity. rewrite Q, app_assoc, play_app.
  apply make_room; auto.
  assert (Q2 : cooked (bold (cyan (input_header ++ [10; 10]))) = bold (cyan (input_header ++ [13; 10] ++ [13; 10]))) by reflexivity.
  rewrite Q2. rewrite play_app.
  assert (K : keeps w h (bold (cyan (input_header ++ [13; 10] ++ [13; 10])))).
  { unfold bold, cyan. apply keeps_app; [apply keeps_silent, silent_bold|]. apply keeps_app; [|apply keeps_silent, silent_plain].
    apply keeps_app; [apply keeps_silent, silent_cyan|]. apply keeps_app; [|apply keeps_silent, silent_end].
    apply keeps_app; [apply keeps_text, printableb_ok; reflexivity|apply keeps_app; apply keeps_crlf; auto]. }
  specialize (K s H). destruct (positioned_open _ _ _ K) as (cell & t & r & c & sv & cr & -> & A & B & D).
  unfold positioned; cbn. repeat split; auto; lia.
Qed.
End Kinds.
