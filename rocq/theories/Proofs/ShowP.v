(** Printed phrases and key information. *)
From Coq Require Import Lia ZifyBool ZifyNat.
From Verif.Model Require Import GoBase Env Recovery CliText CliInput CliScreen.
From Verif.Spec Require Import EnvSpec ScreenSpec.
From Verif.Proofs Require Import BitsP PgpP ScreenP.
Ltac Zify.zify_post_hook ::= Z.div_mod_to_equations.

Lemma visible_text l r : ~ In 27 l -> visible Ground (l ++ r) = l ++ visible Ground r.
Proof.
  induction l as [|b l IH]; intros N; [reflexivity|]. cbn [app visible].
  destruct (b =? 27) eqn:B; [exfalso; apply N; left; lia|]. rewrite IH; [reflexivity|]. intros H. apply N. right. exact H.
Qed.
Lemma visible_magenta l r : ~ In 27 l -> visible Ground (magenta l ++ r) = l ++ visible Ground r.
Proof.
  intros N. unfold magenta. rewrite <- !app_assoc. transitivity (visible Ground (l ++ color_end ++ r)); [reflexivity|].
  rewrite visible_text by auto. reflexivity.
Qed.
Lemma visible_cyan l r : ~ In 27 l -> visible Ground (cyan l ++ r) = l ++ visible Ground r.
Proof.
  intros N. unfold cyan. rewrite <- !app_assoc. transitivity (visible Ground (l ++ color_end ++ r)); [reflexivity|].
  rewrite visible_text by auto. reflexivity.
Qed.
Lemma visible_faint l r : ~ In 27 l -> visible Ground (faint l ++ r) = l ++ visible Ground r.
Proof.
  intros N. unfold faint. rewrite <- !app_assoc. transitivity (visible Ground (l ++ (esc :: bs "[22m") ++ r)); [reflexivity|].
  rewrite visible_text by auto. reflexivity.
Qed.
Lemma visible_bold_magenta l r : ~ In 27 l -> visible Ground (bold (magenta l) ++ r) = l ++ visible Ground r.
Proof.
  intros N. unfold bold. rewrite <- !app_assoc. transitivity (visible Ground (magenta l ++ (esc :: bs "[22m") ++ r)); [reflexivity|].
  rewrite visible_magenta by auto. reflexivity.
Qed.
Lemma in_app_not {A} (x : A) a b : ~ In x a -> ~ In x b -> ~ In x (a ++ b).
Proof. intros N M H. apply in_app_or in H as [H|H]; auto. Qed.
Lemma printable_no_esc l : Forall printable l -> ~ In 27 l.
Proof. intros F H. rewrite Forall_forall in F. specialize (F _ H). unfold printable in F. lia. Qed.
Lemma spaces_no_esc n : ~ In 27 (repeat 32 n).
Proof. intros H. apply repeat_spec in H. discriminate. Qed.

(** *** decimal numbers *)
Lemma decimal_digits_value fuel n : 0 <= n < 10 ^ Z.of_nat fuel ->
  digit_text (decimal_digits fuel n) /\ forall a, fold_left (fun n d => 10 * n + (d - 48)) (decimal_digits fuel n) a = a * 10 ^ zlen (decimal_digits fuel n) + n.
Proof.
  revert n. induction fuel as [|f IH]; intros n Hn.
  - split; [constructor|]. intros a. change (decimal_digits 0 n) with (@nil Z). cbn [fold_left]. change (zlen []) with 0. rewrite Z.pow_0_r.
    change (10 ^ Z.of_nat 0) with 1 in Hn. lia.
  - cbn [decimal_digits]. destruct (n <? 10) eqn:L.
    + split; [repeat constructor; lia|]. intros a. cbn [app fold_left]. change (zlen [48 + n mod 10]) with 1. lia.
    + assert (B : 0 <= n / 10 < 10 ^ Z.of_nat f).
      { rewrite Nat2Z.inj_succ, Z.pow_succ_r in Hn by lia. lia. }
      destruct (IH _ B) as [D V]. split; [apply Forall_app; split; [exact D|repeat constructor; lia]|].
      intros a. rewrite fold_left_app, V, zlen_app. cbn [fold_left]. change (zlen [48 + n mod 10]) with 1.
      rewrite Z.pow_add_r by (unfold zlen; lia). change (10 ^ 1) with 10. ring_simplify. lia.
Qed.
Lemma itoa_fuel n : 0 <= n -> 0 <= n < 10 ^ Z.of_nat (S (Z.to_nat (Z.log2 n))).
Proof.
  intros H. split; [exact H|]. rewrite Nat2Z.inj_succ, Z2Nat.id by apply Z.log2_nonneg.
  destruct (Z.eq_dec n 0) as [->|N]; [reflexivity|]. destruct (Z.log2_spec n ltac:(lia)) as [_ U].
  eapply Z.lt_le_trans; [exact U|]. apply Z.pow_le_mono_l. split; lia.
Qed.
Lemma itoa_decimal n : 0 <= n -> decimal (itoa n) = Some n.
Proof.
  intros H. unfold itoa. replace (n <? 0) with false by lia. destruct (decimal_digits_value _ n (itoa_fuel n H)) as [D V].
  unfold decimal. destruct (decimal_digits _ n) as [|d l] eqn:Q.
  - cbn [decimal_digits] in Q. apply app_eq_nil in Q as [_ Q]. discriminate.
  - replace (forallb _ (d :: l)) with true.
    + rewrite V. reflexivity.
    + symmetry. apply forallb_forall. intros x Hx. unfold digit_text in D. rewrite Forall_forall in D. specialize (D x Hx). lia.
Qed.
Lemma decimal_digits_length fuel n k : 0 < k -> 0 <= n < 10 ^ k -> zlen (decimal_digits fuel n) <= k.
Proof.
  revert n k. induction fuel as [|f IH]; intros n k K Hn; [unfold zlen; cbn; lia|]. cbn [decimal_digits]. rewrite zlen_app.
  change (zlen [48 + n mod 10]) with 1. destruct (n <? 10) eqn:L; [change (zlen (@nil Z)) with 0; lia|].
  assert (1 < k) by (destruct (Z.eq_dec k 1) as [->|]; [change (10 ^ 1) with 10 in Hn; lia|lia]).
  assert (zlen (decimal_digits f (n / 10)) <= k - 1); [|lia]. apply IH; [lia|].
  replace k with (Z.succ (k - 1)) in Hn by lia. rewrite Z.pow_succ_r in Hn by lia. lia.
Qed.

(** *** phrases *)
Definition phrase_rows (i : Z) (ws : list bytes) (lines : list bytes) : Prop :=
  length lines = length ws /\
  forall j w line, nth_error ws j = Some w -> nth_error lines j = Some line ->
    exists label, table_row 5 label w line /\ decimal label = Some (i + 1 + Z.of_nat j).
Lemma phrase_lines_shown ws : forall i, 0 <= i -> i + zlen ws <= 999 -> Forall (fun w => ~ In 27 w) ws ->
  exists out lines, phrase_lines i ws = Ok out /\ visible Ground out = as_lines lines /\ phrase_rows i ws lines.
Proof.
  induction ws as [|w ws IH]; intros i Hi Hs F.
  - exists [], []. split; [reflexivity|]. split; [reflexivity|]. split; [reflexivity|]. intros j w line H. destruct j; discriminate.
  - inversion F as [|? ? Fw Fr]; subst. rewrite zlen_cons in Hs. pose proof (zlen_nonneg ws).
    destruct (IH (i + 1) ltac:(lia) ltac:(lia) Fr) as (out & lines & E1 & E2 & E3 & E4).
    assert (L : zlen (itoa (i + 1)) <= 3).
    { unfold itoa. replace (i + 1 <? 0) with false by lia. apply decimal_digits_length; [lia|]. change (10 ^ 3) with 1000. lia. }
    cbn [phrase_lines]. unfold phrase_line. replace (4 - zlen (itoa (i + 1)) <? 0) with false by lia. cbn [bind]. rewrite E1. cbn [bind].
    remember (Z.to_nat (4 - zlen (itoa (i + 1)))) as pad eqn:Hpad.
    eexists. exists ((itoa (i + 1) ++ bs ":" ++ repeat 32 pad ++ w) :: lines).
    split; [reflexivity|]. split; [|split].
    + rewrite <- !app_assoc. rewrite visible_text by (apply printable_no_esc, itoa_printable).
      rewrite visible_text by (cbn; intuition discriminate). rewrite visible_text by apply spaces_no_esc.
      rewrite visible_bold_magenta by auto. rewrite visible_text by (cbn; intuition discriminate). rewrite E2.
      unfold as_lines. cbn [map concat]. rewrite <- !app_assoc. reflexivity.
    + cbn [length]. congruence.
    + intros [|j] w' line Hw Hl; cbn [nth_error] in Hw, Hl.
      * injection Hw as <-. injection Hl as <-. exists (itoa (i + 1)). split; [|rewrite itoa_decimal by lia; f_equal; lia].
        exists (Z.to_nat (3 - zlen (itoa (i + 1)))). split; [|lia].
        replace pad with (S (Z.to_nat (3 - zlen (itoa (i + 1))))) by lia. reflexivity.
      * destruct (E4 j w' line Hw Hl) as (label & T & D). exists label. split; [exact T|]. rewrite D. f_equal. lia.
Qed.

(** *** tables *)
Definition table_rows (col : Z) (rows : list (bytes * bytes)) (lines : list bytes) : Prop :=
  Forall2 (fun p line => table_row col (fst p) (snd p) line) rows lines.
Lemma debug_lines_shown m values :
  Forall (fun p => zlen (fst p) <= m /\ ~ In 27 (fst p) /\ ~ In 27 (snd p)) values ->
  exists out lines, debug_lines m values = Ok out /\ visible Ground out = as_lines lines /\ table_rows (m + 2) values lines.
Proof.
  induction 1 as [|[k v] values (A & B & C) F (out & lines & E1 & E2 & E3)]; cbn [fst snd] in *.
  - exists [], []. split; [reflexivity|]. split; [reflexivity|constructor].
  - cbn [debug_lines]. unfold debug_line. cbn [fst snd]. replace (m - zlen k + 1 <? 0) with false by lia. cbn [bind]. rewrite E1. cbn [bind].
    eexists. exists ((k ++ bs ":" ++ repeat 32 (Z.to_nat (m - zlen k + 1)) ++ v) :: lines). split; [reflexivity|]. split.
    + rewrite <- !app_assoc. rewrite visible_faint by (apply in_app_not; [auto|cbn; intuition discriminate]).
      rewrite visible_text by apply spaces_no_esc. rewrite visible_cyan by auto. rewrite visible_text by (cbn; intuition discriminate).
      rewrite E2. unfold as_lines. cbn [map concat]. rewrite <- !app_assoc. reflexivity.
    + constructor; [|exact E3]. cbn [fst snd]. exists (Z.to_nat (m - zlen k)). split; [|lia].
      replace (Z.to_nat (m - zlen k + 1)) with (S (Z.to_nat (m - zlen k))) by lia. reflexivity.
Qed.
Definition ascii (t : bytes) : Prop := Forall (fun b => b < 128) t.
Lemma rune_count_ascii t : ascii t -> rune_count t = zlen t.
Proof.
  unfold rune_count. induction 1 as [|b t B F IH]; [reflexivity|]. cbn [filter]. replace ((128 <=? b) && (b <? 192)) with false by lia.
  cbn [negb]. rewrite !zlen_cons, IH. reflexivity.
Qed.
Lemma fold_max_ge {A} (f : A -> Z) l : forall a, a <= fold_left (fun m p => Z.max m (f p)) l a /\
  Forall (fun p => f p <= fold_left (fun m p => Z.max m (f p)) l a) l.
Proof.
  induction l as [|x l IH]; intros a; cbn [fold_left]; [split; [lia|constructor]|].
  destruct (IH (Z.max a (f x))) as [A1 A2]. split; [lia|]. constructor; [lia|exact A2].
Qed.
Lemma debug_info_shown (values : list (bytes * bytes)) : Forall (fun p => ascii (fst p) /\ ~ In 27 (fst p) /\ ~ In 27 (snd p)) values ->
  exists out col lines, print_debug_info values = Ok out /\ visible Ground out = as_lines lines /\ table_rows col values lines.
Proof.
  intros F. unfold print_debug_info.
  destruct (fold_max_ge (fun p : bytes * bytes => rune_count (fst p)) values 0) as [_ M].
  set (m := fold_left (fun m (p : bytes * bytes) => Z.max m (rune_count (fst p))) values 0) in *. clearbody m.
  destruct (debug_lines_shown m values) as (out & lines & H).
  - apply Forall_forall. intros p Hp. rewrite Forall_forall in F, M. destruct (F p Hp) as (A & B & C). specialize (M p Hp). cbn beta in M.
    rewrite rune_count_ascii in M by auto. auto.
  - exists out, (m + 2), lines. exact H.
Qed.

(** *** hexadecimal *)
Lemma hex_digit_value n : 0 <= n < 16 -> hex_value (hex_digit n) = Some n.
Proof.
  intros H. unfold hex_digit, hex_value. destruct (n <? 10) eqn:L.
  - replace ((48 <=? 48 + n) && (48 + n <=? 57)) with true by lia. f_equal. lia.
  - replace ((48 <=? 55 + n) && (55 + n <=? 57)) with false by lia. replace ((65 <=? 55 + n) && (55 + n <=? 70)) with true by lia. f_equal. lia.
Qed.
Lemma unhex_upper l : Forall byte l -> unhex (hex_upper l) = Some l.
Proof.
  induction 1 as [|b l B F IH]; [reflexivity|]. unfold byte in B. cbn [hex_upper flat_map app unhex]. fold (hex_upper l).
  rewrite !hex_digit_value by lia. rewrite IH. do 2 f_equal. lia.
Qed.
Lemma hex_upper_no_esc l : Forall byte l -> ~ In 27 (hex_upper l).
Proof.
  intros F H. unfold hex_upper in H. apply in_flat_map in H as (b & B & H). rewrite Forall_forall in F. specialize (F b B). unfold byte in F.
  unfold hex_digit in H. cbn [In] in H. destruct (b / 16 <? 10) eqn:?, (b mod 16 <? 10) eqn:?; lia.
Qed.
