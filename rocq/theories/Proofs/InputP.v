(** Lemmas about phrase and password input (Model/CliInput.v). *)
From Coq Require Import Lia ZifyBool ZifyNat.
From Verif.Model Require Import GoBase Env Version Recovery CliText CliInput.
From Verif.Spec Require Import EnvSpec CliEnvSpec InputSpec.
From Verif.Proofs Require Import BitsP PgpP.
Ltac Zify.zify_post_hook ::= Z.div_mod_to_equations.

(** ** Raw mode *)
Lemma removelast_firstn_len' {A} (l : list A) : removelast l = firstn (length l - 1) l.
Proof. rewrite removelast_firstn_len. f_equal. lia. Qed.

Lemma key_edit E s b : edit_key b ->
  key E s b = More (mk_entry (en_i s) (en_count s) (en_words s) (edited (completion E) (en_input s) b)).
Proof.
  intros H. unfold edit_key in H. cbn [In] in H. unfold key, key_ctrl_c, key_ctrl_d, key_left, key_delete.
  replace ((b =? 3) || (b =? 4)) with false by lia. replace (b =? 68) with false by lia.
  unfold edited, completion. rewrite removelast_firstn_len'.
  destruct ((97 <=? b) && (b <=? 122)) eqn:L.
  - replace (b =? 127) with false by lia. replace (b =? 9) with false by lia.
    replace ((b =? 13) || (b =? 32)) with false by lia. destruct (snd (wl_search E _)); reflexivity.
  - destruct (b =? 127) eqn:D.
    + replace (b =? 9) with false by lia. replace ((b =? 13) || (b =? 32)) with false by lia.
      destruct (snd (wl_search E _)); reflexivity.
    + replace ((b =? 13) || (b =? 32)) with false by lia.
      destruct (b =? 9) eqn:T; destruct (snd (wl_search E _)); reflexivity.
Qed.

Lemma enter_edit E i c ws t keys rest : Forall edit_key keys ->
  enter E (mk_entry i c ws t) (keys ++ rest) =
  enter E (mk_entry i c ws (fold_left (edited (completion E)) keys t)) rest.
Proof.
  intros F. revert t. induction F as [|k keys K F IH]; intros t; [reflexivity|].
  cbn [app enter fold_left]. rewrite key_edit by auto. cbn [en_i en_count en_words en_input]. apply IH.
Qed.

(** an accepted word, at a position where no version is checked *)
Lemma enter_word E i c ws keys w rest : enters E keys w -> i <> 0 ->
  enter E (mk_entry i c ws []) (keys ++ rest) =
  if i + 1 <? c then enter E (mk_entry (i + 1) c (ws ++ [w]) []) rest else (Ok (ws ++ [w]), rest).
Proof.
  intros (edit & k & -> & F & K & C) Hi. rewrite <- app_assoc. rewrite enter_edit by auto.
  fold (typed_text (completion E) edit). set (t := typed_text _ edit) in *. clearbody t.
  cbn [app enter]. unfold key, key_ctrl_c, key_ctrl_d, key_left, key_delete. cbn [en_i en_count en_words en_input].
  assert (B1 : (k =? 3) || (k =? 4) = false) by lia. assert (B2 : (97 <=? k) && (k <=? 122) = false) by lia.
  assert (B3 : k =? 127 = false) by lia. assert (B4 : k =? 68 = false) by lia.
  assert (B5 : k =? 9 = false) by lia. assert (B6 : (k =? 13) || (k =? 32) = true) by lia.
  rewrite B1, B2, B3, B4, B5, B6. unfold completion in C.
  destruct (snd (wl_search E t)) as [|s l]; [discriminate|]. injection C as <-.
  replace (i =? 0) with false by lia. unfold next_word. destruct (i + 1 <? c); reflexivity.
Qed.
(** the first word *)
Lemma enter_first E c ws keys w rest v : enters E keys w -> parse_mnemonic_version E w = Ok v ->
  enter E (mk_entry 0 c ws []) (keys ++ rest) =
  if 1 <? mnemonic_size v then enter E (mk_entry 1 (mnemonic_size v) (ws ++ [w]) []) rest else (Ok (ws ++ [w]), rest).
Proof.
  intros (edit & k & -> & F & K & C) V. rewrite <- app_assoc. rewrite enter_edit by auto.
  fold (typed_text (completion E) edit). set (t := typed_text _ edit) in *. clearbody t.
  cbn [app enter]. unfold key, key_ctrl_c, key_ctrl_d, key_left, key_delete. cbn [en_i en_count en_words en_input].
  assert (B1 : (k =? 3) || (k =? 4) = false) by lia. assert (B2 : (97 <=? k) && (k <=? 122) = false) by lia.
  assert (B3 : k =? 127 = false) by lia. assert (B4 : k =? 68 = false) by lia.
  assert (B5 : k =? 9 = false) by lia. assert (B6 : (k =? 13) || (k =? 32) = true) by lia.
  rewrite B1, B2, B3, B4, B5, B6. unfold completion in C.
  destruct (snd (wl_search E t)) as [|s l]; [discriminate|]. injection C as <-.
  cbn [Z.eqb]. rewrite V. unfold next_word. change (0 + 1) with 1. destruct (1 <? mnemonic_size v); reflexivity.
Qed.
Lemma enter_left E i c ws t rest : i - 1 < c ->
  enter E (mk_entry i c ws t) (68 :: rest) = enter E (mk_entry (i - 1) c ws []) rest.
Proof.
  intros H. cbn [enter]. change (key E (mk_entry i c ws t) 68) with (next_word (i - 1) c ws).
  unfold next_word. replace (i - 1 <? c) with true by lia. reflexivity.
Qed.
Lemma enter_words E i c ws groups news rest : 0 < i -> Forall2 (enters E) groups news -> i + zlen news <= c ->
  enter E (mk_entry i c ws []) (concat groups ++ rest) =
  if i + zlen news <? c then enter E (mk_entry (i + zlen news) c (ws ++ news) []) rest
  else match news with [] => enter E (mk_entry i c ws []) rest | _ => (Ok (ws ++ news), rest) end.
Proof.
  intros Hi F. revert i ws Hi. induction F as [|g w gs news G F IH]; intros i ws Hi L.
  - change (zlen (@nil bytes)) with 0. rewrite Z.add_0_r, app_nil_r. cbn [concat app].
    destruct (i <? c); reflexivity.
  - rewrite zlen_cons in *. pose proof (zlen_nonneg news). cbn [concat]. rewrite <- app_assoc.
    rewrite enter_word with (w := w) by (auto; lia).
    destruct (i + 1 <? c) eqn:B.
    + rewrite IH by lia. rewrite <- !app_assoc. cbn [app].
      replace (i + 1 + zlen news) with (i + (zlen news + 1)) by lia.
      destruct (i + (zlen news + 1) <? c) eqn:B2; auto. destruct news as [|w2 news]; [unfold zlen in B2; cbn [length] in B2; lia|]. reflexivity.
    + assert (zlen news = 0) by lia. destruct news; [|rewrite zlen_cons in *; pose proof (zlen_nonneg news); lia].
      inversion F; subst. cbn [concat app]. replace (_ <? c) with false by lia. reflexivity.
Qed.

(** ** What can come out of raw mode *)
Lemma index_from_ge w l i j : index_from w l i = Some j -> i <= j.
Proof.
  revert i. induction l as [|x l IH]; intros i; cbn [index_from]; [discriminate|].
  destruct (bytes_eqb w x); intros H; [injection H as <-; lia|]. apply IH in H. lia.
Qed.
Lemma parse_version_cases E w v : parse_mnemonic_version E w = Ok v -> v = 0 \/ v = 1.
Proof.
  unfold parse_mnemonic_version, parse_version_raw. destruct (word_map E _) as [z|] eqn:M; cbn [bind]; [|discriminate].
  assert (N : 0 <= Z.shiftr z (bits_per_word - version_bits)).
  { apply Z.shiftr_nonneg. eapply index_from_ge. exact M. }
  set (x := Z.shiftr z _) in *. clearbody x.
  unfold version_check, version_latest. destruct (x >? 1) eqn:C; cbn [bind]; intros H; [discriminate|]. injection H as <-. lia.
Qed.
Lemma size_supported v : v = 0 \/ v = 1 -> mnemonic_size v = 14 + 2 * v.
Proof. intros [->| ->]; reflexivity. Qed.

Definition lefts (l : bytes) : Z := zlen (filter (fun b => b =? 68) l).
Definition version_of (E : Env) (w : bytes) (v : Z) : Prop := parse_mnemonic_version E w = Ok v.

Definition inv (E : Env) (k : Z) (s : entry) : Prop :=
  0 <= k /\ en_i s = zlen (en_words s) - k /\ Forall (fun w => In w (wl_words E)) (en_words s) /\
  ((en_count s = 1 /\ en_i s <= 0) \/
   (exists v w, In w (en_words s) /\ version_of E w v /\ en_count s = mnemonic_size v /\ en_i s < en_count s)) /\
  (k = 0 -> (en_words s = [] /\ en_count s = 1) \/
            exists w t v, en_words s = w :: t /\ version_of E w v /\ en_count s = mnemonic_size v).
Definition done (E : Env) (k : Z) (ws : list bytes) : Prop :=
  Forall (fun w => In w (wl_words E)) ws /\
  (exists v w, In w ws /\ version_of E w v /\ zlen ws = mnemonic_size v + k) /\
  (k = 0 -> exists w t v, ws = w :: t /\ version_of E w v /\ zlen ws = mnemonic_size v).

Lemma inv_start E : inv E 0 entry_start.
Proof.
  unfold inv, entry_start. cbn [en_i en_count en_words]. split; [lia|]. split; [reflexivity|]. split; [constructor|].
  split; [left; lia|]. intros _. left. auto.
Qed.

Lemma key_inv E k s b : search_ok E -> inv E k s ->
  match key E s b with
  | More s' => inv E (if b =? 68 then k + 1 else k) s'
  | Entered ws => b <> 68 /\ done E k ws
  | Aborted => True
  end.
Proof.
  intros SO (K & I & F & C & Z0). unfold key, key_ctrl_c, key_ctrl_d, key_left, key_delete.
  destruct ((b =? 3) || (b =? 4)); auto.
  set (input := if b =? 127 then _ else _). clearbody input.
  assert (ST : forall t, inv E k (mk_entry (en_i s) (en_count s) (en_words s) t)).
  { intros t. unfold inv. cbn [en_i en_count en_words]. auto. }
  destruct (b =? 68) eqn:B.
  - unfold next_word. replace (en_i s - 1 <? en_count s) with true.
    2: { symmetry. destruct C as [[-> Ci]|(v & w & _ & _ & _ & Ci)]; lia. }
    unfold inv. cbn [en_i en_count en_words]. split; [lia|]. split; [lia|]. split; [auto|]. split; [|lia].
    destruct C as [[-> Ci]|(v & w & Hw & V & Cv & Ci)]; [left; lia|]. right. exists v, w. intuition lia.
  - destruct (SO input) as [_ SF]. destruct (snd (wl_search E input)) as [|suf l]; [apply ST|].
    inversion SF as [|? ? Hsuf _]; subst.
    destruct (b =? 9); [apply ST|]. destruct ((b =? 13) || (b =? 32)); [|apply ST].
    set (word := input ++ suf) in *. clearbody word.
    assert (Fw : Forall (fun w => In w (wl_words E)) (en_words s ++ [word])) by (apply Forall_app; auto).
    assert (Lw : zlen (en_words s ++ [word]) = zlen (en_words s) + 1) by (rewrite zlen_app; reflexivity).
    destruct (en_i s =? 0) eqn:I0.
    + destruct (parse_mnemonic_version E word) as [v|e|] eqn:V; [|apply ST|apply ST].
      assert (Sz := size_supported v (parse_version_cases _ _ _ V)). pose proof (parse_version_cases _ _ _ V) as Vc.
      unfold next_word. replace (en_i s + 1 <? mnemonic_size v) with true by lia.
      unfold inv. cbn [en_i en_count en_words]. split; [lia|]. split; [lia|]. split; [auto|]. split.
      { right. exists v, word. split; [apply in_or_app; right; left; auto|]. split; [exact V|]. split; [auto|]. lia. }
      intros K0. right. assert (zlen (en_words s) = 0) by lia.
      destruct (en_words s) as [|x y]; [|rewrite zlen_cons in *; pose proof (zlen_nonneg y); lia].
      exists word, [], v. split; [reflexivity|]. split; [exact V|auto].
    + unfold next_word. destruct (en_i s + 1 <? en_count s) eqn:D.
      * unfold inv. cbn [en_i en_count en_words]. split; [lia|]. split; [lia|]. split; [auto|]. split.
        { destruct C as [[Cc Ci]|(v & w & Hw & V & Cv & Ci)]; [left; lia|].
          right. exists v, w. split; [apply in_or_app; left; auto|]. split; [exact V|]. split; [auto|]. lia. }
        intros K0. destruct (Z0 K0) as [[W0 _]|(w & t & v & W0 & V & Cv)].
        { rewrite W0 in I. change (zlen (@nil bytes)) with 0 in I. lia. }
        right. exists w, (t ++ [word]), v. rewrite W0. split; [reflexivity|]. auto.
      * split; [lia|]. unfold done. split; [auto|].
        destruct C as [[Cc Ci]|(v & w & Hw & V & Cv & Ci)]; [lia|]. split.
        { exists v, w. split; [apply in_or_app; left; auto|]. split; [exact V|]. lia. }
        intros K0. destruct (Z0 K0) as [[W0 _]|(w' & t & v' & W0 & V' & Cv')].
        { rewrite W0 in I. change (zlen (@nil bytes)) with 0 in I. lia. }
        exists w', (t ++ [word]), v'. rewrite W0. split; [reflexivity|]. split; [exact V'|]. rewrite <- W0. lia.
Qed.

Lemma enter_inv E : search_ok E -> forall stdin k s ws rest, inv E k s -> enter E s stdin = (Ok ws, rest) ->
  exists consumed, stdin = consumed ++ rest /\ done E (k + lefts consumed) ws.
Proof.
  intros SO. induction stdin as [|b stdin IH]; intros k s ws rest I H; cbn [enter] in H; [discriminate|].
  pose proof (key_inv E k s b SO I) as KI. destruct (key E s b) as [s'|ws'|].
  - destruct (IH _ _ _ _ KI H) as (c & -> & D). exists (b :: c). split; [reflexivity|].
    replace (k + lefts (b :: c)) with ((if b =? 68 then k + 1 else k) + lefts c); auto.
    unfold lefts. cbn [filter]. destruct (b =? 68); [rewrite zlen_cons|]; lia.
  - destruct KI as [B D]. injection H as <- <-. exists [b]. split; [reflexivity|].
    replace (k + lefts [b]) with k; auto. unfold lefts. cbn [filter]. replace (b =? 68) with false by lia.
    change (zlen (@nil Z)) with 0. lia.
  - discriminate.
Qed.

(** ** Lines *)
Lemma drop_cr_plain l : (forall a, l <> a ++ [13]) -> drop_cr l = l.
Proof.
  intros H. unfold drop_cr. destruct (rev l) as [|c r] eqn:R; [reflexivity|].
  assert (L : l = rev r ++ [c]) by (rewrite <- (rev_involutive l), R; reflexivity).
  destruct (Z.eq_dec c 13) as [->|N]; [destruct (H _ L)|].
  destruct c as [|p|p]; auto. do 4 (destruct p as [p|p|]; auto). destruct (N eq_refl).
Qed.
Lemma drop_cr_cr l : drop_cr (l ++ [13]) = l.
Proof. unfold drop_cr. rewrite rev_app_distr. cbn [rev app]. apply rev_involutive. Qed.

Lemma scan_line_ok l rest cur : ~ In 10 l -> zlen cur + zlen l < 65536 ->
  scan_line (l ++ 10 :: rest) cur = Some (drop_cr (rev cur ++ l), rest).
Proof.
  revert cur. induction l as [|c l IH]; intros cur H L.
  - cbn [app scan_line]. unfold max_token. change (zlen (@nil Z)) with 0 in L. replace (zlen cur >=? 65536) with false by lia.
    rewrite Z.eqb_refl, app_nil_r. reflexivity.
  - cbn [app scan_line]. unfold max_token. rewrite zlen_cons in L. pose proof (zlen_nonneg l).
    replace (zlen cur >=? 65536) with false by lia.
    replace (c =? 10) with false by (symmetry; apply Z.eqb_neq; intros ->; apply H; left; auto).
    rewrite IH; [|intros X; apply H; right; auto|rewrite zlen_cons; lia].
    cbn [rev]. rewrite <- app_assoc. reflexivity.
Qed.
Lemma scan_line_text l cr rest : line_ok l -> scan_line (l ++ end_of_line cr ++ rest) [] = Some (l, rest).
Proof.
  intros (N & C & L). destruct cr; cbn [end_of_line].
  - replace (l ++ [13; 10] ++ rest) with ((l ++ [13]) ++ 10 :: rest) by (rewrite <- app_assoc; reflexivity).
    rewrite scan_line_ok.
    + cbn [rev app]. rewrite drop_cr_cr. reflexivity.
    + intros X. apply in_app_or in X as [X|[X|[]]]; [auto|lia].
    + rewrite zlen_app. change (zlen [13]) with 1. change (zlen (@nil Z)) with 0. lia.
  - cbn [app]. rewrite scan_line_ok; [|auto|change (zlen (@nil Z)) with 0; lia].
    cbn [rev app]. rewrite drop_cr_plain by auto. reflexivity.
Qed.

Section Simple.
Context (E : Env) (SO : search_ok E).

Lemma search_in_list w : fst (wl_search E w) = in_list E w.
Proof.
  destruct (SO w) as [H _]. apply eq_true_iff_eq. rewrite H. unfold in_list. rewrite existsb_exists.
  split; [intros X; exists w; rewrite bytes_eqb_refl; auto|]. intros (x & X & Q). apply bytes_eqb_eq in Q. subst. auto.
Qed.

(** after the first word *)
Lemma simple_loop_rest ls : forall fuel i c words rest, Forall (fun p => line_ok (fst p)) ls ->
  (length ls < fuel)%nat -> 0 < i < c ->
  let new := filter (in_list E) (map (fun p => line_word E (fst p)) ls) in
  (i + zlen new < c -> exists f', simple_loop E fuel i c words (text_of_lines ls ++ rest) =
                                 simple_loop E f' (i + zlen new) c (words ++ new) rest /\ (f' = fuel - length ls)%nat) /\
  (c <= i + zlen new -> exists used unused,
      ls = used ++ unused /\
      simple_loop E fuel i c words (text_of_lines ls ++ rest) =
      (Ok (words ++ firstn (Z.to_nat (c - i)) new), text_of_lines unused ++ rest)).
Proof.
  induction ls as [|[l cr] ls IH]; intros fuel i c words rest F L B new.
  - subst new. cbn [map filter]. change (zlen (@nil bytes)) with 0. split; [|lia]. intros _. exists fuel.
    rewrite Z.add_0_r, app_nil_r. cbn [text_of_lines flat_map app length]. split; [auto|lia].
  - inversion F as [|? ? Fl Fs]; subst. cbn [fst] in Fl. destruct fuel as [|fuel]; [cbn in L; lia|].
    assert (R : simple_loop E (S fuel) i c words (text_of_lines ((l, cr) :: ls) ++ rest) =
                if in_list E (line_word E l) then simple_loop E fuel (i + 1) c (words ++ [line_word E l]) (text_of_lines ls ++ rest)
                else simple_loop E fuel i c words (text_of_lines ls ++ rest)).
    { unfold text_of_lines at 1. cbn [flat_map fst snd]. fold (text_of_lines ls). cbn [simple_loop].
      replace (i <? c) with true by lia. rewrite <- !app_assoc. rewrite scan_line_text by auto.
      fold (line_word E l). rewrite search_in_list. replace (i =? 0) with false by lia. reflexivity. }
    cbn [length] in L. subst new. cbn [map filter fst].
    set (new := filter (in_list E) (map (fun p => line_word E (fst p)) ls)) in *.
    rewrite R. clear R. destruct (in_list E (line_word E l)).
    + rewrite zlen_cons. pose proof (zlen_nonneg new). destruct (Z.eq_dec (i + 1) c) as [D|D].
      { split; [lia|]. intros _. exists [(l, cr)], ls. split; [reflexivity|].
        replace (Z.to_nat (c - i)) with 1%nat by lia. cbn [firstn].
        destruct fuel; cbn [simple_loop]; replace (i + 1 <? c) with false by lia; reflexivity. }
      destruct (IH fuel (i + 1) c (words ++ [line_word E l]) rest Fs) as [IH1 IH2]; [lia|lia|]. fold new in IH1, IH2. split.
      * intros Q. destruct IH1 as (f' & E1 & E2); [lia|]. exists f'. rewrite E1. rewrite <- app_assoc. cbn [app length].
        split; [f_equal; lia|lia].
      * intros Q. destruct IH2 as (used & unused & E1 & E2); [lia|].
        exists ((l, cr) :: used), unused. rewrite E1. split; [reflexivity|]. rewrite <- E1, E2. rewrite <- app_assoc. cbn [app].
        replace (Z.to_nat (c - i)) with (S (Z.to_nat (c - (i + 1)))) by lia. reflexivity.
    + destruct (IH fuel i c words rest Fs) as [IH1 IH2]; [lia|lia|]. fold new in IH1, IH2. split.
      * intros Q. destruct IH1 as (f' & E1 & E2); [lia|]. exists f'. rewrite E1. cbn [length]. split; [auto|lia].
      * intros Q. destruct IH2 as (used & unused & E1 & E2); [lia|].
        exists ((l, cr) :: used), unused. rewrite E1. split; [reflexivity|]. rewrite <- E1, E2. auto.
Qed.

Lemma simple_loop_all ls : forall fuel rest, Forall (fun p => line_ok (fst p)) ls -> (length ls < fuel)%nat ->
  let acc := accepted_words E (map fst ls) in
  match acc with
  | [] => simple_loop E fuel 0 1 [] (text_of_lines ls ++ rest) = simple_loop E (fuel - length ls) 0 1 [] rest
  | w :: _ =>
      (phrase_size E w <= zlen acc ->
       exists used unused, ls = used ++ unused /\
         simple_loop E fuel 0 1 [] (text_of_lines ls ++ rest) =
         (Ok (firstn (Z.to_nat (phrase_size E w)) acc), text_of_lines unused ++ rest)) /\
      (zlen acc < phrase_size E w ->
         simple_loop E fuel 0 1 [] (text_of_lines ls ++ rest) =
         simple_loop E (fuel - length ls) (zlen acc) (phrase_size E w) acc rest)
  end.
Proof.
  induction ls as [|[l cr] ls IH]; intros fuel rest F L acc.
  - subst acc. cbn [map accepted_words text_of_lines flat_map app length]. f_equal. lia.
  - inversion F as [|? ? Fl Fs]; subst. cbn [fst] in Fl. destruct fuel as [|fuel]; [cbn in L; lia|]. cbn [length] in L.
    assert (R : simple_loop E (S fuel) 0 1 [] (text_of_lines ((l, cr) :: ls) ++ rest) =
                if supported_first E (line_word E l) then simple_loop E fuel 1 (phrase_size E (line_word E l)) [line_word E l] (text_of_lines ls ++ rest)
                else simple_loop E fuel 0 1 [] (text_of_lines ls ++ rest)).
    { unfold text_of_lines at 1. cbn [flat_map fst snd]. fold (text_of_lines ls). cbn [simple_loop].
      change (0 <? 1) with true. cbv iota. rewrite <- !app_assoc. rewrite scan_line_text by auto.
      fold (line_word E l). rewrite search_in_list. change (0 =? 0) with true. cbv iota.
      unfold supported_first, phrase_size. change (0 + 1) with 1.
      destruct (parse_mnemonic_version E (line_word E l)); destruct (in_list E (line_word E l)); reflexivity. }
    subst acc. cbn [map accepted_words fst].
    assert (R' := R). clear R. destruct (supported_first E (line_word E l)) eqn:S1.
    + assert (P : 14 <= phrase_size E (line_word E l)).
      { unfold supported_first in S1. unfold phrase_size.
        destruct (parse_mnemonic_version E (line_word E l)) as [v|e|] eqn:V; try discriminate.
        pose proof (parse_version_cases _ _ _ V) as Vc. rewrite (size_supported v Vc). lia. }
      destruct (simple_loop_rest ls fuel 1 (phrase_size E (line_word E l)) [line_word E l] rest Fs) as [H1 H2]; [lia|lia|].
      rewrite map_map. rewrite R'. set (new := filter (in_list E) (map _ ls)) in *. rewrite zlen_cons. split.
      * intros Q. destruct H2 as (used & unused & E1 & E2); [lia|].
        exists ((l, cr) :: used), unused. rewrite E1. split; [reflexivity|]. rewrite <- E1, E2. cbn [app].
        replace (Z.to_nat (phrase_size E (line_word E l))) with (S (Z.to_nat (phrase_size E (line_word E l) - 1))) by lia. reflexivity.
      * intros Q. destruct H1 as (f' & E1 & E2); [lia|]. rewrite E1, E2. cbn [app length]. f_equal; lia.
    + specialize (IH fuel rest Fs). cbv zeta in IH. rewrite R'.
      destruct (accepted_words E (map fst ls)) as [|w acc] eqn:A.
      * rewrite IH by lia. cbn [length]. f_equal; lia.
      * destruct IH as [IH1 IH2]; [lia|]. split.
        { intros Q. destruct (IH1 Q) as (used & unused & E1 & E2).
          exists ((l, cr) :: used), unused. rewrite E1. split; [reflexivity|]. rewrite <- E1. auto. }
        { intros Q. rewrite (IH2 Q). cbn [length]. f_equal; lia. }
Qed.

Lemma simple_loop_end fuel i c words : i < c -> simple_loop E fuel i c words [] = (Err ErrInputEOF, []).
Proof. intros H. destruct fuel; cbn [simple_loop]; replace (i <? c) with true by lia; reflexivity. Qed.
End Simple.

(** the last line may lack its end *)
Definition last_line (p : bytes * bool) : bytes := fst p ++ (if snd p then [13] else []).
Lemma scan_line_end l cur : ~ In 10 l -> zlen cur + zlen l < 65536 -> rev cur ++ l <> [] ->
  scan_line l cur = Some (drop_cr (rev cur ++ l), []).
Proof.
  revert cur. induction l as [|c l IH]; intros cur H L N.
  - cbn [scan_line]. unfold max_token. change (zlen (@nil Z)) with 0 in L. replace (zlen cur >=? 65536) with false by lia.
    rewrite app_nil_r in *. destruct cur; [destruct (N eq_refl)|reflexivity].
  - cbn [scan_line]. unfold max_token. rewrite zlen_cons in L. pose proof (zlen_nonneg l).
    replace (zlen cur >=? 65536) with false by lia.
    replace (c =? 10) with false by (symmetry; apply Z.eqb_neq; intros ->; apply H; left; auto).
    rewrite IH; [|intros X; apply H; right; auto|rewrite zlen_cons; lia|].
    + cbn [rev]. rewrite <- app_assoc. reflexivity.
    + cbn [rev]. rewrite <- app_assoc. cbn [app]. destruct (rev cur); discriminate.
Qed.
Lemma scan_line_last l cr : line_ok l -> last_line (l, cr) <> [] -> scan_line (last_line (l, cr)) [] = Some (l, []).
Proof.
  intros (N & C & L) M. unfold last_line in *. cbn [fst snd] in *. destruct cr.
  - rewrite scan_line_end; [|intros X; apply in_app_or in X as [X|[X|[]]]; [auto|lia]
      |rewrite zlen_app; change (zlen [13]) with 1; change (zlen (@nil Z)) with 0; lia|exact M].
    cbn [rev app]. rewrite drop_cr_cr. reflexivity.
  - rewrite app_nil_r in *. rewrite scan_line_end; [|auto|change (zlen (@nil Z)) with 0; lia|auto].
    cbn [rev app]. rewrite drop_cr_plain by auto. reflexivity.
Qed.
Lemma simple_loop_last E p : line_ok (fst p) -> last_line p <> [] ->
  forall ls fuel i c ws, Forall (fun p => line_ok (fst p)) ls ->
  fst (simple_loop E fuel i c ws (text_of_lines ls ++ last_line p)) =
  fst (simple_loop E fuel i c ws (text_of_lines (ls ++ [p]))).
Proof.
  intros P N. destruct p as [l cr]. cbn [fst] in P.
  induction ls as [|[m mr] ls IH]; intros fuel i c ws F.
  - unfold text_of_lines. cbn [flat_map app fst snd]. rewrite app_nil_r. destruct fuel as [|f]; [cbn [simple_loop]; destruct (i <? c); reflexivity|].
    cbn [simple_loop]. destruct (i <? c); [|reflexivity].
    rewrite scan_line_last by auto. rewrite <- (app_nil_r (l ++ end_of_line cr)), <- app_assoc.
    rewrite scan_line_text by auto. reflexivity.
  - inversion F as [|? ? Fm Fs]; subst. cbn [fst] in Fm.
    unfold text_of_lines. cbn [flat_map app fst snd]. fold (text_of_lines ls). fold (text_of_lines (ls ++ [(l, cr)])).
    destruct fuel as [|f]; [cbn [simple_loop]; destruct (i <? c); reflexivity|].
    cbn [simple_loop]. destruct (i <? c); [|reflexivity]. rewrite <- !app_assoc. rewrite !scan_line_text by auto.
    destruct (fst (wl_search E _)); [|apply IH; auto].
    destruct (i =? 0); [|apply IH; auto].
    destruct (parse_mnemonic_version E _); apply IH; auto.
Qed.

(** ** Password lines *)
Lemma rev_tl {A} (l : list A) : rev (tl l) = firstn (length (rev l) - 1) (rev l).
Proof.
  destruct l as [|x l]; [reflexivity|]. cbn [tl rev]. rewrite app_length. cbn [length].
  replace (length (rev l) + 1 - 1)%nat with (length (rev l)) by lia. rewrite firstn_app, Nat.sub_diag, firstn_all. cbn [firstn].
  rewrite app_nil_r. reflexivity.
Qed.
Lemma read_password_spec stdin cur :
  (exists l rest, stdin = l ++ 10 :: rest /\ ~ In 10 l /\
     read_password stdin cur = (Ok (fold_left pass_edited l (rev cur)), rest)) \/
  (~ In 10 stdin /\
     read_password stdin cur =
     (match fold_left pass_edited stdin (rev cur) with [] => Err ErrInputEOF | p => Ok p end, [])).
Proof.
  revert cur. induction stdin as [|b stdin IH]; intros cur; cbn [read_password].
  - right. split; [intros []|]. cbn [fold_left]. destruct cur as [|x cur]; [reflexivity|].
    destruct (rev (x :: cur)) eqn:R; [|reflexivity]. exfalso. cbn [rev] in R. apply app_eq_nil in R as [_ R]. discriminate.
  - destruct (b =? 10) eqn:B.
    + apply Z.eqb_eq in B. subst b. left. exists [], stdin. split; [reflexivity|]. split; [intros []|]. reflexivity.
    + set (cur' := if b =? 8 then tl cur else if b =? 13 then cur else b :: cur).
      assert (R : (if b =? 8 then read_password stdin (tl cur)
                   else if b =? 13 then read_password stdin cur else read_password stdin (b :: cur)) = read_password stdin cur').
      { unfold cur'. destruct (b =? 8), (b =? 13); reflexivity. }
      assert (Q : pass_edited (rev cur) b = rev cur').
      { unfold pass_edited, cur'. destruct (b =? 8); [rewrite rev_tl; reflexivity|]. destruct (b =? 13); reflexivity. }
      destruct (IH cur') as [(l & rest & -> & N & E1)|(N & E1)].
      * left. exists (b :: l), rest. split; [reflexivity|]. split; [intros [X|X]; [lia|auto]|].
        cbn [fold_left]. rewrite Q, <- E1, <- R. reflexivity.
      * right. split; [intros [X|X]; [lia|auto]|]. cbn [fold_left]. rewrite Q, <- E1, <- R. reflexivity.
Qed.
Lemma read_password_line stdin p rest : read_password stdin [] = (Ok p, rest) ->
  exists keys last, stdin = keys ++ rest /\ pass_line last keys p /\ (last = true -> rest = []) /\
    (length rest < length stdin)%nat /\ (last = false -> exists a, keys = a ++ [10]).
Proof.
  intros H. destruct (read_password_spec stdin []) as [(l & r & -> & N & E1)|(N & E1)]; rewrite E1 in H.
  - injection H as <- <-. exists (l ++ [10]), false. rewrite <- app_assoc. split; [reflexivity|].
    split; [exists l; split; [auto|]; split; [reflexivity|]; split; [reflexivity|discriminate]|].
    split; [discriminate|]. split; [rewrite app_length; cbn [length]; lia|]. intros _. exists l. reflexivity.
  - cbn [rev] in H. fold (pass_text stdin) in H. destruct (pass_text stdin) as [|x t] eqn:T; [discriminate|].
    injection H as <- <-. exists stdin, true. rewrite app_nil_r. split; [reflexivity|].
    split; [exists stdin; split; [auto|]; split; [auto|]; split; [reflexivity|discriminate]|].
    split; [reflexivity|]. split; [|discriminate]. destruct stdin; [discriminate|cbn; lia].
Qed.
Lemma read_password_no_panic stdin : fst (read_password stdin []) <> Panic.
Proof.
  destruct (read_password_spec stdin []) as [(l & r & -> & N & E1)|(N & E1)]; rewrite E1; cbn [fst]; [congruence|].
  destruct (fold_left _ _ _); congruence.
Qed.

(** ** The prompt *)
Definition typed (confirm : bool) (stdin pass : bytes) : Prop :=
  pass <> [] /\ if confirm then typed_twice stdin pass else typed_once stdin pass.
Definition reader_inv (confirm : bool) (stdin0 : bytes) (r : reader) (stdin : bytes) : Prop :=
  match r with
  | At_prompt => exists c, stdin0 = c ++ stdin /\ (whole_lines c \/ stdin = [])
  | At_confirm p => confirm = true /\ p <> [] /\ exists before keys last, stdin0 = before ++ keys ++ stdin /\ whole_lines before /\
      pass_line last keys p /\ (last = true -> stdin = []) /\ (last = false -> exists a, keys = a ++ [10])
  | Sending p => typed confirm stdin0 p
  | _ => True
  end.
Lemma whole_lines_app a b : whole_lines a -> (exists c, b = c ++ [10]) -> whole_lines (a ++ b).
Proof. intros _ (c & ->). right. exists (a ++ c). apply app_assoc. Qed.
Lemma read_password_nil : read_password [] [] = (Err ErrInputEOF, []).
Proof. reflexivity. Qed.

Lemma reader_step_inv confirm stdin0 r stdin r' rest :
  reader_inv confirm stdin0 r stdin -> reader_step confirm r stdin = Some (r', rest) ->
  reader_inv confirm stdin0 r' rest /\ ((length rest < length stdin)%nat \/ (length rest <= length stdin)%nat /\ r' = Failing).
Proof.
  intros I H. destruct r as [|p1| | |]; cbn [reader_step] in H; try discriminate.
  - destruct (read_password stdin []) as [[p|e|] rs] eqn:R.
    + destruct (read_password_line _ _ _ R) as (keys & last & S1 & PL & La & Len & Nl).
      destruct I as (c & S0 & W).
      assert (W' : whole_lines c).
      { destruct W as [W|W]; auto. rewrite W in Len. cbn in Len. lia. }
      destruct p as [|x p]; [|destruct confirm]; injection H as <- <-; (split; [|left; exact Len]).
      * exists (c ++ keys). rewrite <- app_assoc, <- S1. split; [auto|].
        destruct last; [right; auto|]. left. apply whole_lines_app; auto.
      * split; [reflexivity|]. split; [discriminate|]. exists c, keys, last. rewrite <- S1. auto.
      * split; [discriminate|]. exists c, keys, rs, last. rewrite <- S1. auto.
    + injection H as <- <-. split; [exact Logic.I|]. right. split; [|reflexivity].
      destruct (read_password_spec stdin []) as [(l & r & -> & N & E1)|(N & E1)]; rewrite E1 in R; [discriminate|].
      injection R as _ <-. cbn. lia.
    + exfalso. apply (read_password_no_panic stdin). rewrite R. reflexivity.
  - destruct (read_password stdin []) as [[p|e|] rs] eqn:R.
    + destruct (read_password_line _ _ _ R) as (keys2 & last2 & S1 & PL2 & La2 & Len & Nl2).
      destruct I as (Cf & P1 & before & keys & last & S0 & W & PL & La & Nl).
      assert (last = false).
      { destruct last; auto. rewrite (La eq_refl) in Len. cbn in Len. lia. }
      subst last.
      destruct (bytes_eqb p1 p) eqn:Q; injection H as <- <-; (split; [|left; exact Len]).
      * apply bytes_eqb_eq in Q. subst p. split; [auto|]. rewrite Cf. exists before, keys, keys2, rs, last2.
        rewrite <- S1. auto.
      * exists (before ++ keys ++ keys2). rewrite <- !app_assoc, <- S1. split; [auto|].
        destruct last2; [right; auto|]. left. rewrite app_assoc. apply whole_lines_app; auto.
        apply whole_lines_app; auto.
    + injection H as <- <-. split; [exact Logic.I|]. right. split; [|reflexivity].
      destruct (read_password_spec stdin []) as [(l & r & -> & N & E1)|(N & E1)]; rewrite E1 in R; [discriminate|].
      injection R as _ <-. cbn. lia.
    + exfalso. apply (read_password_no_panic stdin). rewrite R. reflexivity.
Qed.

Lemma reader_step_waiting confirm r stdin : (exists x, reader_step confirm r stdin = Some x) <-> (r = At_prompt \/ exists p, r = At_confirm p).
Proof.
  split.
  - intros (x & H). destruct r; cbn [reader_step] in H; try discriminate; eauto.
  - intros [->|(p & ->)]; cbn [reader_step]; destruct (read_password stdin []) as [[q|e|] rs]; eauto.
    + destruct q; [eauto|]. destruct confirm; eauto.
    + destruct (bytes_eqb p q); eauto.
Qed.

(** the function computed without interrupts *)
Definition value (confirm : bool) (r : reader) (stdin : bytes) : res bytes * bytes :=
  prompt_loop (length stdin + 2) confirm r stdin.
Lemma prompt_loop_unfold f confirm r stdin : (r = At_prompt \/ exists p, r = At_confirm p) ->
  prompt_loop (S f) confirm r stdin =
  match reader_step confirm r stdin with Some (r', rest) => prompt_loop f confirm r' rest | None => (Err ErrInputEOF, stdin) end.
Proof. intros [->|(p & ->)]; reflexivity. Qed.
Lemma reader_step_length confirm r stdin r' rest : reader_step confirm r stdin = Some (r', rest) ->
  ((length rest < length stdin)%nat \/ (length rest <= length stdin)%nat /\ r' = Failing).
Proof.
  intros H. assert (G : forall p rs, read_password stdin [] = (Ok p, rs) -> (length rs < length stdin)%nat).
  { intros p rs R. destruct (read_password_line _ _ _ R) as (keys & last & _ & _ & _ & Len & _). auto. }
  assert (B : forall e rs, read_password stdin [] = (Err e, rs) -> (length rs <= length stdin)%nat).
  { intros e rs R. destruct (read_password_spec stdin []) as [(l & r0 & -> & N & E1)|(N & E1)]; rewrite E1 in R; [discriminate|].
    injection R as _ <-. cbn. lia. }
  destruct r; cbn [reader_step] in H; try discriminate; destruct (read_password stdin []) as [[p|e|] rs] eqn:R.
  - specialize (G _ _ eq_refl). destruct p; [|destruct confirm]; injection H as <- <-; auto.
  - specialize (B _ _ eq_refl). injection H as <- <-; auto.
  - exfalso. apply (read_password_no_panic stdin). rewrite R. reflexivity.
  - specialize (G _ _ eq_refl). destruct (bytes_eqb _ _); injection H as <- <-; auto.
  - specialize (B _ _ eq_refl). injection H as <- <-; auto.
  - exfalso. apply (read_password_no_panic stdin). rewrite R. reflexivity.
Qed.
Lemma prompt_loop_fuel confirm : forall f r stdin, (length stdin + 2 <= f)%nat -> prompt_loop f confirm r stdin = value confirm r stdin.
Proof.
  assert (M : forall n r stdin f1 f2, (length stdin <= n)%nat -> (length stdin + 2 <= f1)%nat -> (length stdin + 2 <= f2)%nat ->
    prompt_loop f1 confirm r stdin = prompt_loop f2 confirm r stdin).
  { induction n as [|n IH]; intros r stdin f1 f2 Hn H1 H2;
    (destruct f1 as [|f1]; [lia|]; destruct f2 as [|f2]; [lia|];
     assert (D : (r = At_prompt \/ exists p, r = At_confirm p) \/ ~ (r = At_prompt \/ exists p, r = At_confirm p))
       by (destruct r; [left; left; reflexivity|left; right; eexists; reflexivity|right; intros [X|(? & X)]; discriminate..]);
     destruct D as [D|D]; [|destruct r; try reflexivity; destruct D; eauto];
     rewrite !prompt_loop_unfold by auto;
     destruct (reader_step confirm r stdin) as [[r' rest]|] eqn:R; [|reflexivity];
     destruct (reader_step_length _ _ _ _ _ R) as [L|[L ->]];
       [|destruct f1; [lia|]; destruct f2; [lia|]; reflexivity]).
    - lia.
    - apply IH; lia. }
  intros f r stdin H. apply (M (length stdin)); lia.
Qed.
Lemma value_step confirm r stdin r' rest : reader_step confirm r stdin = Some (r', rest) ->
  value confirm r stdin = value confirm r' rest.
Proof.
  intros H. assert (W : r = At_prompt \/ exists p, r = At_confirm p) by (apply (reader_step_waiting confirm r stdin); eauto).
  unfold value at 1. replace (length stdin + 2)%nat with (S (length stdin + 1)) by lia.
  rewrite prompt_loop_unfold by auto. rewrite H.
  destruct (reader_step_length _ _ _ _ _ H) as [L|[L ->]]; [apply prompt_loop_fuel; lia|].
  unfold value. rewrite !Nat.add_succ_r. reflexivity.
Qed.

Definition prompt_inv (confirm : bool) (stdin0 : bytes) (p : prompt) : Prop :=
  reader_inv confirm stdin0 (pr_reader p) (pr_stdin p) /\
  ((pr_errors p > 0)%nat -> pr_reader p = Finished) /\
  (pr_reader p = Finished -> pr_result p = None -> pr_errors p = 1%nat) /\
  (pr_errors p <= 1)%nat /\
  (pr_interrupted p = false ->
     match pr_result p with
     | Some r => r
     | None => match pr_errors p with O => fst (value confirm (pr_reader p) (pr_stdin p)) | _ => Err ErrInputEOF end
     end = fst (value confirm At_prompt stdin0)) /\
  (forall r, pr_result p = Some r ->
     r = Err ErrAborted /\ pr_interrupted p = true \/
     r = Err ErrInputEOF /\ pr_reader p = Finished \/
     exists pass, r = Ok pass /\ typed confirm stdin0 pass /\ pr_reader p = Finished) /\
  (pr_stdout p = match pr_watcher p with Watching => [] | _ => [10] end) /\
  (pr_watcher p <> Watching -> ctx_done p = true).
Lemma prompt_inv_start confirm stdin : prompt_inv confirm stdin (prompt_start stdin).
Proof.
  unfold prompt_inv, prompt_start. cbn [pr_reader pr_stdin pr_errors pr_result pr_interrupted pr_stdout pr_watcher].
  split; [exists []; split; [reflexivity|left; left; reflexivity]|]. split; [lia|]. split; [discriminate|]. split; [lia|].
  split; [reflexivity|]. split; [discriminate|]. split; [reflexivity|congruence].
Qed.
Lemma prompt_inv_step confirm stdin0 p q : prompt_inv confirm stdin0 p -> prompt_step confirm p q -> prompt_inv confirm stdin0 q.
Proof.
  intros (I1 & I2 & I3 & I4 & I5 & I6 & I7 & I8) S.
  inversion S; subst; unfold prompt_inv; cbn [pr_reader pr_stdin pr_errors pr_result pr_interrupted pr_stdout pr_watcher] in *.
  - (* reader *)
    destruct (reader_step_inv _ _ _ _ _ _ I1 H) as [J1 _].
    assert (NF : pr_reader p <> Finished) by (intros X; rewrite X in H; discriminate).
    assert (E0 : pr_errors p = 0%nat) by (destruct (pr_errors p); auto; destruct (NF (I2 ltac:(lia)))).
    split; [auto|]. split; [rewrite E0; lia|].
    split.
    { intros X. subst r. exfalso. revert H. destruct (pr_reader p); cbn [reader_step]; try discriminate;
      destruct (read_password (pr_stdin p) []) as [[y|e|] rs]; try discriminate.
      - destruct y; [discriminate|]. destruct confirm; discriminate.
      - destruct (bytes_eqb _ _); discriminate. }
    split; [lia|]. split; [|split; [|split; [auto|exact I8]]].
    + intros T. specialize (I5 T). destruct (pr_result p); [auto|]. rewrite E0 in *. rewrite <- (value_step _ _ _ _ _ H). auto.
    + intros r0 R0. destruct (I6 r0 R0) as [X|[[_ X]|(pp & _ & _ & X)]]; [auto|destruct (NF X)|destruct (NF X)].
  - (* send error *)
    split; [exact Logic.I|]. split; [auto|]. split; [auto|]. split; [lia|]. split; [|split; [|split; [auto|exact I8]]].
    + intros T. specialize (I5 T). destruct (pr_result p); [auto|]. rewrite H0, H in I5. rewrite <- I5.
      unfold value. rewrite !Nat.add_succ_r. reflexivity.
    + intros r0 R0. destruct (I6 r0 R0) as [X|[[X1 X]|(pp & _ & _ & X)]]; [auto| |]; rewrite H in X; discriminate.
  - (* interrupt *)
    split; [auto|]. split; [auto|]. split; [auto|]. split; [auto|]. split; [discriminate|]. split; [|split; [auto|reflexivity]].
    intros r0 R0. destruct (I6 r0 R0) as [[X _]|X]; auto.
  - (* abort *)
    split; [auto|]. split; [auto|]. split; [discriminate|]. split; [auto|]. split; [congruence|]. split; [|split; [auto|]].
    + intros r0 R0. injection R0 as <-. auto.
    + intros W. unfold ctx_done. cbn [pr_interrupted pr_result]. apply orb_true_r.
  - (* fail *)
    assert (F : pr_reader p = Finished) by (apply I2; lia).
    split; [auto|]. split; [auto|]. split; [discriminate|]. split; [lia|]. split; [|split; [|split; [auto|]]].
    + intros T. specialize (I5 T). rewrite H, H0 in I5. auto.
    + intros r0 R0. injection R0 as <-. auto.
    + intros W. unfold ctx_done. cbn [pr_interrupted pr_result]. apply orb_true_r.
  - (* receive *)
    rewrite H0 in I1. cbn [reader_inv] in I1.
    assert (E0 : pr_errors p = 0%nat).
    { destruct (pr_errors p); auto. rewrite I2 in H0 by lia. discriminate. }
    split; [exact Logic.I|]. split; [auto|]. split; [discriminate|]. split; [auto|]. split; [|split; [|split; [auto|]]].
    + intros T. specialize (I5 T). rewrite H, E0, H0 in I5. rewrite <- I5. unfold value. rewrite !Nat.add_succ_r. reflexivity.
    + intros r0 R0. injection R0 as <-. right. right. exists pass. auto.
    + intros W. unfold ctx_done. cbn [pr_interrupted pr_result]. apply orb_true_r.
  - (* print *)
    split; [auto|]. split; [auto|]. split; [auto|]. split; [auto|]. split; [auto|]. split; [auto|].
    rewrite H in I7. rewrite I7. split; [reflexivity|]. intros _. exact H0.
  - (* restore *)
    split; [auto|]. split; [auto|]. split; [auto|]. split; [auto|]. split; [auto|]. split; [auto|].
    rewrite H in I7, I8. split; [auto|]. intros _. apply I8. discriminate.
Qed.
Lemma prompt_inv_run confirm stdin p : prompt_run confirm (prompt_start stdin) p -> prompt_inv confirm stdin p.
Proof.
  intros R. remember (prompt_start stdin) as s. induction R as [p|p q r R IH S]; subst.
  - apply prompt_inv_start.
  - eapply prompt_inv_step; eauto.
Qed.

(** every step but a repeated interrupt brings the prompt closer to its end *)
Definition reader_weight (r : reader) : nat :=
  match r with At_prompt | At_confirm _ => 4 | Failing | Sending _ => 3 | Finished => 0 end.
Definition remaining (p : prompt) : nat :=
  4 * length (pr_stdin p) + reader_weight (pr_reader p) + pr_errors p +
  (match pr_watcher p with Watching => 2 | Printed => 1 | Restored => 0 end) +
  (match pr_result p with None => 1 | Some _ => 0 end) + (if pr_interrupted p then 0 else 1).
Lemma remaining_step confirm p q : prompt_step confirm p q -> q = p \/ (remaining q < remaining p)%nat.
Proof.
  intros S. inversion S; subst; unfold remaining; cbn [pr_reader pr_stdin pr_errors pr_result pr_interrupted pr_stdout pr_watcher].
  - right. assert (W : reader_weight (pr_reader p) = 4%nat).
    { destruct (pr_reader p); auto; discriminate. }
    rewrite W. destruct (reader_step_length _ _ _ _ _ H) as [L|[L ->]]; [destruct r; cbn [reader_weight]; lia|cbn [reader_weight]; lia].
  - right. rewrite H, H0. cbn [reader_weight]. lia.
  - destruct (pr_interrupted p) eqn:I; [left; destruct p; cbn in *; subst; reflexivity|right; lia].
  - right. rewrite H. lia.
  - right. rewrite H, H0. lia.
  - right. rewrite H, H0. cbn [reader_weight]. lia.
  - right. rewrite H. lia.
  - right. rewrite H. lia.
Qed.
