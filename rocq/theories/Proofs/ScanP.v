(** bufio.Scanner against the lines of CliText.v (C106). *)
From Coq Require Import Lia ZifyBool ZifyNat.
From Verif.Model Require Import GoBase Env Version Recovery CliText CliInput Scanner.
From Verif.Spec Require Import ScanSpec.

Lemma zl (l : bytes) : zlen l = Z.of_nat (length l). Proof. reflexivity. Qed.

Lemma index_some l : forall i, index_newline l = Some i ->
  l = firstn i l ++ 10 :: skipn (S i) l /\ ~ In 10 (firstn i l) /\ (i < length l)%nat.
Proof.
  induction l as [|b l IH]; intros i H; [discriminate|]. cbn [index_newline] in H.
  destruct (b =? 10) eqn:B.
  - injection H as <-. apply Z.eqb_eq in B. subst b. cbn [firstn skipn app length]. repeat split; [intros []|lia].
  - destruct (index_newline l) as [j|]; [|discriminate]. injection H as <-. destruct (IH j eq_refl) as (A & N & L).
    change (firstn (S j) (b :: l)) with (b :: firstn j l). change (skipn (S (S j)) (b :: l)) with (skipn (S j) l).
    cbn [app length]. repeat split; [f_equal; exact A| |lia]. intros [Q|Q]; [apply Z.eqb_neq in B; congruence|auto].
Qed.
Lemma index_none l : index_newline l = None -> ~ In 10 l.
Proof.
  induction l as [|b l IH]; intros H; [intros []|]. cbn [index_newline] in H. destruct (b =? 10) eqn:B; [discriminate|].
  destruct (index_newline l) as [j|]; [discriminate|]. intros [Q|Q]; [apply Z.eqb_neq in B; congruence|]. apply IH; auto.
Qed.

Lemma scan_line_newline l rest : forall cur, ~ In 10 l -> zlen cur + zlen l < 65536 ->
  scan_line (l ++ 10 :: rest) cur = Some (drop_cr (rev cur ++ l), rest).
Proof.
  induction l as [|b l IH]; intros cur N L; cbn [app scan_line]; unfold max_token; rewrite !zl in *; cbn [length] in L.
  - replace (Z.of_nat (length cur) >=? 65536) with false by lia. rewrite app_nil_r. reflexivity.
  - replace (Z.of_nat (length cur) >=? 65536) with false by lia.
    destruct (b =? 10) eqn:B; [exfalso; apply N; left; lia|]. rewrite IH.
    + cbn [rev]. rewrite <- app_assoc. reflexivity.
    + intros Q. apply N. right. exact Q.
    + rewrite !zl. cbn [length]. lia.
Qed.
Lemma scan_line_eof l : forall cur, ~ In 10 l -> zlen cur + zlen l < 65536 ->
  scan_line l cur = match rev cur ++ l with [] => None | t => Some (drop_cr t, []) end.
Proof.
  induction l as [|b l IH]; intros cur N L; cbn [scan_line]; unfold max_token; rewrite !zl in *; cbn [length] in L.
  - replace (Z.of_nat (length cur) >=? 65536) with false by lia. rewrite app_nil_r. destruct cur as [|c cur]; [reflexivity|].
    cbn [rev]. destruct (rev cur ++ [c]) eqn:Q; [destruct (rev cur); discriminate|]. reflexivity.
  - replace (Z.of_nat (length cur) >=? 65536) with false by lia.
    destruct (b =? 10) eqn:B; [exfalso; apply N; left; lia|]. rewrite IH.
    + cbn [rev]. rewrite <- app_assoc. reflexivity.
    + intros Q. apply N. right. exact Q.
    + rewrite !zl. cbn [length]. lia.
Qed.
Lemma scan_line_long l rest : forall cur, ~ In 10 l -> zlen cur + zlen l >= 65536 -> scan_line (l ++ rest) cur = None.
Proof.
  induction l as [|b l IH]; intros cur N L; rewrite !zl in *; cbn [length] in L.
  - destruct rest; cbn [app scan_line]; unfold max_token; rewrite !zl; replace (Z.of_nat (length cur) >=? 65536) with true by lia; reflexivity.
  - cbn [app scan_line]; unfold max_token; rewrite !zl. destruct (Z.of_nat (length cur) >=? 65536); [reflexivity|].
    destruct (b =? 10) eqn:B; [exfalso; apply N; left; lia|]. apply IH.
    + intros Q. apply N. right. exact Q.
    + rewrite !zl. cbn [length]. lia.
Qed.
Lemma scan_line_shorter l : forall cur line rest, scan_line l cur = Some (line, rest) -> (length rest <= length l)%nat /\ (cur = [] -> length rest < length l)%nat.
Proof.
  induction l as [|b l IH]; intros cur line rest H; cbn [scan_line] in H; destruct (zlen cur >=? max_token); try discriminate.
  - destruct cur; [discriminate|]. injection H as _ <-. split; [auto|discriminate].
  - destruct (b =? 10).
    + injection H as _ <-. cbn [length]. split; intros; lia.
    + destruct (IH _ _ _ H) as [A _]. cbn [length]. split; intros; lia.
Qed.

Lemma read_text room src more eof src' : 0 < room -> read room src = (more, eof, src') ->
  if eof then more = [] /\ text src = [] /\ (length (concat src') <= length (concat src))%nat /\ (Forall (fun p => p <> []) src -> src = [] /\ src' = [])
  else more <> [] /\ zlen more <= room /\ text src = more ++ text src' /\ length (concat src) = (length more + length (concat src'))%nat /\
       (Forall (fun p => p <> []) src -> Forall (fun p => p <> []) src').
Proof.
  intros R H. destruct src as [|[|b p] rest]; cbn [read] in H.
  - injection H as <- <- <-. split; [auto|]. split; [auto|]. split; auto.
  - injection H as <- <- <-. split; [auto|]. split; [auto|]. split; [auto|]. intros F. inversion F. congruence.
  - destruct (zlen (b :: p) <=? room) eqn:L.
    + injection H as <- <- <-. cbn [text concat]. rewrite app_length. split; [discriminate|]. split; [lia|]. split; [auto|]. split; [auto|].
      intros F. inversion F. auto.
    + injection H as <- <- <-. rewrite zl in *. set (l := b :: p) in *. set (n := Z.to_nat room).
      assert (Ln : (0 < n < length l)%nat /\ Z.of_nat n <= room) by lia. clearbody n.
      assert (Lf : length (firstn n l) = n) by (rewrite firstn_length; lia).
      assert (Ls : length (skipn n l) = (length l - n)%nat) by (apply skipn_length).
      repeat split.
      * intros Q. rewrite Q in Lf. change (length (@nil Z)) with 0%nat in Lf. lia.
      * rewrite Lf. lia.
      * cbn [text]. destruct (skipn n l) as [|c q] eqn:Q; [change (length (@nil Z)) with 0%nat in Ls; lia|]. unfold l at 1. cbv iota. fold l.
        change (text ((c :: q) :: rest)) with ((c :: q) ++ text rest). rewrite <- Q, app_assoc, firstn_skipn. reflexivity.
      * cbn [concat]. rewrite !app_length, Lf, Ls. lia.
      * intros F. inversion F; subst. constructor; [|assumption]. intros Q. rewrite Q in Ls. change (length (@nil Z)) with 0%nat in Ls. lia.
Qed.

(** What is still to come: what the scanner has read ahead, and what can yet be read *)
Definition to_come (s : scanner) (src : list bytes) : bytes :=
  sc_data s ++ match sc_err s with None => text src | Some _ => [] end.
Record sane (s : scanner) : Prop := mk_sane {
  sane_start : 0 <= sc_start s;
  sane_end : sc_end s <= sc_size s;
  sane_size : sc_size s <= 65536;
  sane_err : sc_err s <> Some Too_long;
  sane_eof : sc_err s <> None -> zlen (sc_data s) < 65536 }.

(** the two steps before a read *)
Definition shifted (s : scanner) : scanner :=
  if (0 <? sc_start s) && ((sc_end s =? sc_size s) || (sc_start s >? sc_size s / 2))
  then mk_scan (sc_data s) 0 (sc_size s) (sc_err s) else s.
Definition grown (s : scanner) : scanner :=
  if sc_end s =? sc_size s
  then mk_scan (sc_data s) 0 (Z.min max_token (if sc_size s =? 0 then start_buf_size else sc_size s * 2)) (sc_err s) else s.
Lemma shifted_sane s : sane s -> sane (shifted s) /\ sc_data (shifted s) = sc_data s /\ sc_err (shifted s) = sc_err s /\
  (sc_end (shifted s) = sc_size (shifted s) -> sc_start (shifted s) = 0).
Proof.
  intros [A B C D F]. unfold shifted. unfold sc_end in *. destruct (_ && _) eqn:Q; cbn [sc_data sc_err sc_start sc_size].
  - split; [|auto]. constructor; unfold sc_end; cbn [sc_data sc_err sc_start sc_size]; auto; lia.
  - split; [constructor; auto|]. split; [auto|]. split; [auto|]. intros. lia.
Qed.
Lemma grown_sane s : sane s -> sc_err s = None -> (sc_end s = sc_size s -> sc_start s = 0 /\ sc_size s < 65536) ->
  sane (grown s) /\ sc_data (grown s) = sc_data s /\ sc_end (grown s) < sc_size (grown s).
Proof.
  intros [A B C D F] N G. unfold grown. destruct (sc_end s =? sc_size s) eqn:Q; cbn [sc_data].
  - destruct G as [G1 G2]; [lia|]. assert (Qe : sc_end s = zlen (sc_data s)) by (unfold sc_end; lia).
    assert (L : zlen (sc_data s) < Z.min max_token (if sc_size s =? 0 then start_buf_size else sc_size s * 2)).
    { unfold max_token, start_buf_size. pose proof (Zle_0_nat (length (sc_data s))). rewrite zl in *. destruct (sc_size s =? 0) eqn:Q0; lia. }
    split; [|split; [reflexivity|unfold sc_end; cbn [sc_data sc_err sc_start sc_size]; lia]].
    constructor; unfold sc_end; cbn [sc_data sc_err sc_start sc_size]; auto; try lia; try (rewrite N; congruence).
    unfold max_token; lia.
  - split; [constructor; auto|]. split; [reflexivity|lia].
Qed.

Definition turn (s : scanner) : option (nat * bytes) :=
  match sc_data s, match sc_err s with Some _ => true | None => false end with
  | [], false => None
  | data, e => scan_lines data e
  end.
Lemma scan_step f s src : scan (S f) s src =
  match turn s with
  | Some (advance, t) => (Some t, mk_scan (skipn advance (sc_data s)) (sc_start s + Z.of_nat advance) (sc_size s) (sc_err s), src)
  | None =>
      match sc_err s with
      | Some _ => (None, mk_scan [] 0 (sc_size s) (sc_err s), src)
      | None =>
          let s := shifted s in
          if (sc_end s =? sc_size s) && (sc_size s >=? max_token)
          then (None, mk_scan (sc_data s) (sc_start s) (sc_size s) (Some Too_long), src)
          else
            let s := grown s in
            match read (sc_size s - sc_end s) src with
            | (more, eof, src) => scan f (mk_scan (sc_data s ++ more) (sc_start s) (sc_size s) (if eof then Some At_eof else None)) src
            end
      end
  end.
Proof.
  cbn [scan]. unfold turn, shifted, grown. destruct (sc_err s), (sc_data s); reflexivity.
Qed.
Lemma turn_none s : turn s = None -> ~ In 10 (sc_data s) /\ (sc_err s <> None -> sc_data s = []).
Proof.
  unfold turn. destruct (sc_data s) as [|b d] eqn:D; [split; [intros []|auto]|]. unfold scan_lines.
  destruct (index_newline (b :: d)) eqn:N; destruct (sc_err s); intros H; try discriminate H.
  split; [apply index_none; exact N|congruence].
Qed.
Lemma turn_some s n t : turn s = Some (n, t) -> (n <= length (sc_data s))%nat /\
  ((exists i, n = S i /\ t = drop_cr (firstn i (sc_data s)) /\ sc_data s = firstn i (sc_data s) ++ 10 :: skipn n (sc_data s) /\ ~ In 10 (firstn i (sc_data s)))
   \/ (sc_err s <> None /\ sc_data s <> [] /\ ~ In 10 (sc_data s) /\ t = drop_cr (sc_data s) /\ n = length (sc_data s))).
Proof.
  unfold turn. destruct (sc_data s) as [|b d] eqn:D; [destruct (sc_err s); discriminate|]. unfold scan_lines.
  destruct (index_newline (b :: d)) as [i|] eqn:N.
  - intros H. assert (Q : Some (S i, drop_cr (firstn i (b :: d))) = Some (n, t)) by (destruct (sc_err s); exact H).
    injection Q as <- <-. destruct (index_some _ _ N) as (A & B & C). split; [lia|]. left. exists i. auto.
  - destruct (sc_err s); intros H; [|discriminate]. assert (Q : Some (length (b :: d), drop_cr (b :: d)) = Some (n, t)) by exact H.
    injection Q as <- <-. split; [auto|]. right. split; [congruence|]. split; [discriminate|]. split; [apply index_none; auto|auto].
Qed.

Lemma scan_ok f : forall s src r s' src', sane s ->
  (match sc_err s with None => 2 + length (concat src) | Some _ => 1 end <= f)%nat ->
  scan f s src = (r, s', src') ->
  match scan_line (to_come s src) [] with
  | Some (line, rest) => r = Some line /\ to_come s' src' = rest /\ sane s' /\ (length (concat src') <= length (concat src))%nat
  | None => r = None
  end.
Proof.
  induction f as [|f IH]; intros s src r s' src' S F H; [destruct (sc_err s); lia|]. rewrite scan_step in H.
  destruct (turn s) as [[n t]|] eqn:T.
  - injection H as <- <- <-. destruct (turn_some _ _ _ T) as (Ln & [(i & -> & -> & Q & N)|(NE & ND & N & -> & ->)]).
    + assert (K : to_come s src = firstn i (sc_data s) ++ 10 :: (skipn (Datatypes.S i) (sc_data s) ++ match sc_err s with None => text src | Some _ => [] end)).
      { unfold to_come. rewrite Q at 1. rewrite <- app_assoc. reflexivity. }
      assert (Li : length (firstn i (sc_data s)) = i) by (rewrite firstn_length; lia).
      destruct S as [A B C D G]. unfold sc_end in B. rewrite zl in *.
      rewrite K, scan_line_newline; [|exact N|rewrite !zl, Li; cbn [length]; lia].
      split; [reflexivity|]. split; [reflexivity|]. split; [|auto].
      assert (Ls : length (skipn (Datatypes.S i) (sc_data s)) = (length (sc_data s) - Datatypes.S i)%nat) by apply skipn_length.
      constructor; unfold sc_end; cbn [sc_data sc_err sc_start sc_size]; rewrite ?zl, ?Ls; auto; try lia; intros W; specialize (G W); lia.
    + destruct S as [A B C D G]. specialize (G NE).
      assert (K : to_come s src = sc_data s) by (unfold to_come; destruct (sc_err s); [apply app_nil_r|congruence]).
      rewrite K, scan_line_eof; [|exact N|change (zlen (@nil Z)) with 0; lia]. cbn [rev app].
      destruct (sc_data s) as [|b d] eqn:DD; [congruence|]. rewrite <- DD in *.
      split; [reflexivity|]. rewrite skipn_all. unfold to_come. cbn [sc_data sc_err].
      split; [destruct (sc_err s); [reflexivity|congruence]|]. split; [|auto]. unfold sc_end in B. rewrite zl in *.
      constructor; unfold sc_end; cbn [sc_data sc_err sc_start sc_size]; rewrite ?zl; cbn [length]; auto; try lia.
  - destruct (turn_none _ T) as (N & NE). destruct (sc_err s) as [e|] eqn:SE.
    + injection H as <- <- <-. unfold to_come. rewrite SE, NE by congruence. reflexivity.
    + destruct (shifted_sane s S) as (S1 & D1 & E1 & Z1). cbv zeta in H. set (s1 := shifted s) in *. clearbody s1. rewrite SE in E1.
      destruct ((sc_end s1 =? sc_size s1) && (sc_size s1 >=? max_token)) eqn:Q.
      * injection H as <- <- <-. unfold to_come. rewrite scan_line_long; [reflexivity|exact N|].
        unfold max_token in Q. unfold sc_end in *. rewrite D1 in *. change (zlen (@nil Z)) with 0. lia.
      * destruct (grown_sane s1 S1 E1) as (S2 & D2 & R2). { intros W. split; [auto|]. unfold max_token in Q. lia. }
        set (s2 := grown s1) in *. clearbody s2. destruct (read (sc_size s2 - sc_end s2) src) as [[more eof] src2] eqn:RD.
        apply read_text in RD; [|lia]. destruct S2 as [A B C D G]. destruct eof.
        -- destruct RD as (-> & TX & LC & _). rewrite app_nil_r in H. apply IH in H.
           ++ unfold to_come in *. cbn [sc_data sc_err] in H. rewrite SE, TX. rewrite D2, D1 in H.
              destruct (scan_line (sc_data s ++ []) []) as [[line rest]|]; [|exact H]. destruct H as (H1 & H2 & H3 & H4). repeat split; auto; try (apply H3). lia.
           ++ constructor; cbn [sc_data sc_err sc_start sc_size]; auto; try discriminate.
              intros _. unfold sc_end in *. lia.
           ++ cbn [sc_err]. lia.
        -- destruct RD as (NM & LM & TX & LC & _). apply IH in H.
           ++ unfold to_come in *. cbn [sc_data sc_err] in H. rewrite SE, TX. rewrite D2, D1, <- app_assoc in H.
              destruct (scan_line (sc_data s ++ more ++ text src2) []) as [[line rest]|]; [|exact H]. destruct H as (H1 & H2 & H3 & H4). repeat split; auto; try (apply H3). lia.
           ++ constructor; unfold sc_end in *; cbn [sc_data sc_err sc_start sc_size]; auto; try discriminate; try congruence.
              rewrite !zl in *. rewrite app_length. lia.
           ++ cbn [sc_err]. destruct more as [|m more]; [congruence|]. cbn [length] in LC. lia.
Qed.

Lemma loop_ok E f1 : forall f2 i c ws s src, sane s -> (length (to_come s src) < f1)%nat -> (length (to_come s src) < f2)%nat ->
  match scanned_loop E f1 i c ws s src with
  | (r, s', src') => fst (simple_loop E f2 i c ws (to_come s src)) = r /\
      (forall ws', r = Ok ws' -> snd (simple_loop E f2 i c ws (to_come s src)) = to_come s' src' /\ sane s')
  end.
Proof.
  induction f1 as [|f1 IH]; intros f2 i c ws s src S F1 F2; [lia|]. destruct f2 as [|f2]; [lia|]. cbn [scanned_loop simple_loop].
  destruct (i <? c); [|auto]. destruct (scan (scan_fuel src) s src) as [[r s'] src'] eqn:SC. apply scan_ok in SC; [|auto|unfold scan_fuel; destruct (sc_err s); lia].
  destruct (scan_line (to_come s src) []) as [[line rest]|] eqn:SL.
  - destruct SC as (-> & <- & S' & _). destruct (scan_line_shorter _ _ _ _ SL) as [_ L]. specialize (L eq_refl).
    destruct (fst (wl_search E _)); [destruct (i =? 0); [destruct (parse_mnemonic_version E _)|]|]; apply IH; auto; lia.
  - subst r. split; [reflexivity|discriminate].
Qed.

Lemma text_short src : (length (text src) <= length (concat src))%nat.
Proof. induction src as [|[|b p] src IH]; cbn [text concat]; [auto|cbn; lia|]. rewrite !app_length. lia. Qed.
Lemma text_all src : Forall (fun p => p <> []) src -> text src = concat src.
Proof. induction 1 as [|[|b p] src N F IH]; [reflexivity|congruence|]. cbn [text concat]. rewrite IH. reflexivity. Qed.
Lemma new_sane : sane new_scanner. Proof. constructor; vm_compute; congruence. Qed.

(** ** Lines as a terminal hands them over *)
Lemma entered_prefix a b : entered_line (a ++ b) -> entered_line a.
Proof. intros H x y ->. specialize (H x (y ++ b)). rewrite <- app_assoc in H. specialize (H eq_refl). destruct y; [auto|discriminate]. Qed.
Lemma entered_suffix a b : entered_line (a ++ b) -> entered_line b.
Proof. intros H x y ->. apply (H (a ++ x) y). rewrite <- app_assoc. reflexivity. Qed.
Lemma entered_after a b : ~ In 10 a -> entered_line b -> entered_line (a ++ b).
Proof.
  induction a as [|x a IH]; intros N H; [exact H|]. intros p q Q. destruct p as [|y p]; cbn [app] in Q.
  - injection Q as -> _. exfalso. apply N. left. reflexivity.
  - injection Q as _ Q. refine (IH _ H _ _ Q). intros W. apply N. right. exact W.
Qed.
Lemma read_entered room src more eof src' : Forall entered_line src -> read room src = (more, eof, src') ->
  entered_line more /\ Forall entered_line src'.
Proof.
  intros F H. assert (N : entered_line []) by (intros [|? ?] ? Q; discriminate). destruct src as [|[|b p] rest]; cbn [read] in H.
  - injection H as <- <- <-. auto.
  - injection H as <- <- <-. inversion F; auto.
  - inversion F as [|? ? Fp Fr]; subst. destruct (zlen (b :: p) <=? room); injection H as <- <- <-; [auto|].
    split; [|constructor; [|assumption]].
    + apply (entered_prefix _ (skipn (Z.to_nat room) (b :: p))). rewrite firstn_skipn. exact Fp.
    + apply (entered_suffix (firstn (Z.to_nat room) (b :: p))). rewrite firstn_skipn. exact Fp.
Qed.
Definition at_prompt (s : scanner) (src : list bytes) : Prop :=
  Forall entered_line src /\ Forall (fun p => p <> []) src /\ (sc_err s <> None -> src = []).
Lemma scan_entered f : forall s src t s' src', sane s -> entered_line (sc_data s) -> at_prompt s src ->
  scan f s src = (Some t, s', src') -> sc_data s' = [] /\ at_prompt s' src'.
Proof.
  induction f as [|f IH]; intros s src t s' src' S D (P1 & P2 & P3) H; [discriminate|]. rewrite scan_step in H.
  destruct (turn s) as [[n u]|] eqn:T.
  - injection H as <- <- <-. cbn [sc_data sc_err]. split; [|split; [exact P1|split; [exact P2|exact P3]]].
    destruct (turn_some _ _ _ T) as (Ln & [(i & -> & _ & Q & _)|(_ & _ & _ & _ & ->)]); [exact (D _ _ Q)|apply skipn_all].
  - destruct (turn_none _ T) as (N & _). destruct (sc_err s) as [e|] eqn:SE; [discriminate|].
    destruct (shifted_sane s S) as (S1 & D1 & E1 & Z1). cbv zeta in H. set (s1 := shifted s) in *. clearbody s1. rewrite SE in E1.
    destruct ((sc_end s1 =? sc_size s1) && (sc_size s1 >=? max_token)) eqn:Q; [discriminate|].
    destruct (grown_sane s1 S1 E1) as (S2 & D2 & R2). { intros W. split; [auto|]. unfold max_token in Q. lia. }
    set (s2 := grown s1) in *. clearbody s2. destruct (read (sc_size s2 - sc_end s2) src) as [[more eof] src2] eqn:RD.
    pose proof (read_entered _ _ _ _ _ P1 RD) as (EM & ES). apply read_text in RD; [|lia]. destruct S2 as [A B C X G].
    apply IH in H; [exact H| | |].
    + destruct eof.
      * destruct RD as (-> & _). rewrite app_nil_r. constructor; cbn [sc_data sc_err sc_start sc_size]; auto; try discriminate. intros _. unfold sc_end in *. lia.
      * destruct RD as (_ & LM & _). constructor; unfold sc_end in *; cbn [sc_data sc_err sc_start sc_size]; auto; try discriminate; try congruence.
        rewrite !zl in *. rewrite app_length. lia.
    + cbn [sc_data]. rewrite D2, D1. apply entered_after; auto.
    + split; [exact ES|]. destruct eof; cbn [sc_err].
      * destruct RD as (_ & _ & _ & W). destruct (W P2) as [_ ->]. auto.
      * destruct RD as (_ & _ & _ & _ & W). split; [auto|congruence].
Qed.
Lemma loop_entered E f : forall i c ws s src ws' s' src', sane s -> sc_data s = [] -> at_prompt s src ->
  scanned_loop E f i c ws s src = (Ok ws', s', src') -> sc_data s' = [] /\ at_prompt s' src'.
Proof.
  induction f as [|f IH]; intros i c ws s src ws' s' src' S D P H; cbn [scanned_loop] in H.
  - destruct (i <? c); [discriminate|]. injection H as _ <- <-. auto.
  - destruct (i <? c); [|injection H as _ <- <-; auto]. destruct (scan (scan_fuel src) s src) as [[[t|] s1] src1] eqn:SC; [|discriminate].
    assert (EN : entered_line (sc_data s)) by (rewrite D; intros [|? ?] ? Q; discriminate).
    destruct (scan_entered _ _ _ _ _ _ S EN P SC) as (D1 & P1).
    apply scan_ok in SC; [|auto|unfold scan_fuel; destruct (sc_err s); lia].
    destruct (scan_line (to_come s src) []) as [[line rest]|]; [|discriminate]. destruct SC as (_ & _ & S1 & _).
    destruct (fst (wl_search E _)); [destruct (i =? 0); [destruct (parse_mnemonic_version E _)|]|]; eapply IH; eauto.
Qed.
