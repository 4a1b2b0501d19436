(** Lemmas about the text handling of the command line (Model/CliText.v). *)
From Coq Require Import Lia ZifyBool ZifyNat.
From Verif.Model Require Import GoBase Env Mnemonikey CliText.
From Verif.Spec Require Import EnvSpec CliEnvSpec TextSpec.
From Verif.Proofs Require Import BitsP PgpP.
Ltac Zify.zify_post_hook ::= Z.div_mod_to_equations.

(** ** Numbers *)
Lemma decimal_snoc q c : decimal (q ++ [c]) = decimal q * 10 + (c - 48).
Proof.
  induction q as [|d q IH]; cbn [app decimal length]; [lia|].
  rewrite IH, app_length. cbn [length]. rewrite Nat.add_1_r, Nat2Z.inj_succ, Z.pow_succ_r by lia. lia.
Qed.
Lemma decimal_nonneg q : Forall is_digit q -> 0 <= decimal q.
Proof.
  intros F. induction F as [|c q D F IH]; cbn [decimal]; [lia|]. unfold is_digit in D.
  pose proof (Z.pow_nonneg 10 (Z.of_nat (length q))). nia.
Qed.

Lemma parse_digits_spec s n : 0 <= n ->
  parse_digits n s =
  if forallb (fun c => (48 <=? c) && (c <=? 57)) s && (n * 10 ^ zlen s + decimal s <? 2 ^ 64) then
    match s with [] => Some n | _ => Some (n * 10 ^ zlen s + decimal s) end
  else match s with [] => Some n | _ => None end.
Proof.
  assert (M : max_uint64 = 18446744073709551615) by reflexivity.
  change (2 ^ 64) with 18446744073709551616.
  revert n. induction s as [|c s IH]; intros n Hn; cbn [parse_digits forallb].
  - destruct (_ && _); reflexivity.
  - destruct ((48 <=? c) && (c <=? 57)) eqn:D; cbn [andb]; [|reflexivity].
    assert (P : 0 <= 10 ^ zlen s) by (apply Z.pow_nonneg; lia).
    assert (P1 : 1 <= 10 ^ zlen s) by (pose proof (Z.pow_pos_nonneg 10 (zlen s)); pose proof (zlen_nonneg s); lia).
    assert (V : n * 10 ^ zlen (c :: s) + decimal (c :: s) = (n * 10 + (c - 48)) * 10 ^ zlen s + decimal s).
    { rewrite zlen_cons, Z.add_1_r, Z.pow_succ_r by apply zlen_nonneg. cbn [decimal]. unfold zlen. lia. }
    rewrite V. rewrite M. change (18446744073709551615 / 10 + 1) with 1844674407370955162.
    destruct (forallb _ s) eqn:Fs.
    + assert (Ds : 0 <= decimal s).
      { apply decimal_nonneg. apply Forall_forall. intros x Hx. rewrite forallb_forall in Fs.
        specialize (Fs x Hx). unfold is_digit. lia. }
      cbn [andb].
      destruct (n >=? 1844674407370955162) eqn:B1.
      { replace (_ <? 18446744073709551616) with false by nia. reflexivity. }
      destruct (n * 10 + (c - 48) >? 18446744073709551615) eqn:B2.
      { replace (_ <? 18446744073709551616) with false by nia. reflexivity. }
      rewrite IH by lia. cbn [andb].
      destruct s as [|d s]; [|destruct (_ <? _); reflexivity].
      change (zlen (@nil Z)) with 0. cbn [decimal]. rewrite Z.pow_0_r, Z.mul_1_r, Z.add_0_r.
      replace (_ <? _) with true by lia. reflexivity.
    + cbn [andb]. destruct (n >=? _); [reflexivity|]. destruct (_ >? _); [reflexivity|].
      rewrite IH by lia. cbn [andb]. destruct s; [discriminate|reflexivity].
Qed.

Lemma parse_uint10_spec s n : parse_uint10 s = Some n <->
  s <> [] /\ Forall is_digit s /\ n = decimal s /\ n < 2 ^ 64.
Proof.
  assert (A : forallb (fun c => (48 <=? c) && (c <=? 57)) s = true <-> Forall is_digit s).
  { rewrite forallb_forall, Forall_forall. unfold is_digit. split; intros H x Hx; specialize (H x Hx); lia. }
  destruct s as [|c s]; [cbn; intuition congruence|].
  cbn [parse_uint10]. rewrite parse_digits_spec by lia.
  change (0 * 10 ^ zlen (c :: s)) with 0. rewrite Z.add_0_l.
  remember (c :: s) as l. assert (Hl : l <> []) by (subst; congruence). clear Heql.
  destruct (forallb _ l) eqn:F; cbn [andb].
  - destruct (decimal l <? 2 ^ 64) eqn:B.
    + destruct l; [congruence|]. split.
      * intros H. injection H as <-. split; [auto|]. split; [apply A; auto|]. split; [auto|]. apply Z.ltb_lt; exact B.
      * intros (_ & _ & -> & _). reflexivity.
    + destruct l; [congruence|]. split; [discriminate|]. intros (_ & _ & -> & H). apply Z.ltb_ge in B. apply Z.lt_nge in H. contradiction.
  - destruct l; [congruence|]. split; [discriminate|]. intros (_ & H & _). apply A in H. congruence.
Qed.

(** ** Units *)
Lemma duration_unit_letter E c : lone_byte_ok E -> byte c ->
  (forall s, unit_seconds c s -> duration_unit (to_lower E [c]) = Some (s * 10 ^ 9)) /\
  ((forall s, ~ unit_seconds c s) -> duration_unit (to_lower E [c]) = None).
Proof.
  intros L B. split.
  - intros s U. assert (R : 0 <= c < 128) by (inversion U; subst; intuition lia).
    unfold to_lower. cbn [is_ascii forallb]. replace (c <? 128) with true by lia. cbn [andb map].
    inversion U as [? [->| ->]|? [->| ->]|? [->| ->]|? [->| ->]]; subst; vm_compute; reflexivity.
  - intros N. unfold to_lower. cbn [is_ascii forallb].
    destruct (c <? 128) eqn:A; cbn [andb map].
    + assert (X : forall d, (ascii_lower_byte c = d -> 97 <= d <= 122 -> c = d \/ c = d - 32)).
      { intros d. unfold ascii_lower_byte. destruct (_ && _) eqn:?; lia. }
      unfold duration_unit.
      change (bs "d") with [100]. change (bs "w") with [119]. change (bs "m") with [109]. change (bs "y") with [121].
      cbn [bytes_eqb]. rewrite !andb_true_r.
      destruct (ascii_lower_byte c =? 100) eqn:H1.
      { exfalso. eapply N. apply Day. specialize (X 100). lia. }
      destruct (ascii_lower_byte c =? 119) eqn:H2.
      { exfalso. eapply N. apply Week. specialize (X 119). lia. }
      destruct (ascii_lower_byte c =? 109) eqn:H3.
      { exfalso. eapply N. apply Month. specialize (X 109). lia. }
      destruct (ascii_lower_byte c =? 121) eqn:H4.
      { exfalso. eapply N. apply Year. specialize (X 121). lia. }
      reflexivity.
    + unfold byte in B. assert (Hc : 128 <= c < 256) by lia.
      unfold duration_unit.
      assert (X : forall d, 0 <= d < 128 -> bytes_eqb (unicode_lower E [c]) [d] = false).
      { intros d Hd. apply bytes_eqb_neq. apply L; auto. }
      change (bs "d") with [100]. change (bs "w") with [119]. change (bs "m") with [109]. change (bs "y") with [121].
      rewrite !X by lia. reflexivity.
Qed.
Lemma unit_seconds_dec c : (exists s, unit_seconds c s) \/ forall s, ~ unit_seconds c s.
Proof.
  destruct (in_dec Z.eq_dec c [100; 68]) as [H|H1]; [left; eexists; apply Day; cbn in H; lia|].
  destruct (in_dec Z.eq_dec c [119; 87]) as [H|H2]; [left; eexists; apply Week; cbn in H; lia|].
  destruct (in_dec Z.eq_dec c [109; 77]) as [H|H3]; [left; eexists; apply Month; cbn in H; lia|].
  destruct (in_dec Z.eq_dec c [121; 89]) as [H|H4]; [left; eexists; apply Year; cbn in H; lia|].
  right. intros s U. cbn in *. inversion U; lia.
Qed.
Lemma unit_seconds_fun c s s' : unit_seconds c s -> unit_seconds c s' -> s = s'.
Proof. intros U U'. inversion U; inversion U'; lia. Qed.
Lemma unit_seconds_pos c s : unit_seconds c s -> 0 < s <= 31536000.
Proof. intros U. inversion U; lia. Qed.

Lemma last_app_one {A} (q : list A) c d : last (q ++ [c]) d = c.
Proof. apply last_last. Qed.

Lemma parse_ttl_spec E s d : lone_byte_ok E -> Forall byte s ->
  parse_ttl E s = Ok d <->
  exists n secs, period s n secs /\ n < 2 ^ 64 /\ d = i64 (i64 n * (secs * 10 ^ 9)).
Proof.
  intros L B.
  destruct s as [|x s'] eqn:Es.
  { split; [discriminate|]. intros (n & secs & (q & c & E1 & _) & _). destruct q; discriminate. }
  rewrite <- Es in *. assert (Hs : s <> []) by (subst; congruence).
  destruct (exists_last Hs) as (q & c & Hq).
  assert (Bc : byte c). { rewrite Hq in B. apply Forall_app in B as [_ B]. inversion B; auto. }
  destruct (duration_unit_letter E c L Bc) as [U1 U2].
  assert (P : parse_ttl E s = match duration_unit (to_lower E [c]) with
      | None => Err ErrInvalidDuration
      | Some u => match parse_uint10 q with None => Err ErrInvalidDuration | Some n => Ok (i64 (i64 n * u)) end
      end).
  { rewrite Hq. unfold parse_ttl. destruct (q ++ [c]) eqn:Eq; [destruct q; discriminate|].
    rewrite <- Eq. rewrite last_last, removelast_last. reflexivity. }
  rewrite P. clear P. clear Es x s'.
  destruct (unit_seconds_dec c) as [[secs U]|U].
  - rewrite (U1 _ U). split.
    + destruct (parse_uint10 q) as [n|] eqn:N; [|discriminate]. intros H. injection H as <-.
      apply parse_uint10_spec in N as (Q & D & -> & Bn).
      exists (decimal q), secs. split; [|auto]. exists q, c. auto.
    + intros (n & secs' & (q' & c' & E1 & Q & D & -> & U') & Bn & ->).
      rewrite E1 in Hq. apply app_inj_tail in Hq as [-> ->].
      replace secs' with secs by (eapply unit_seconds_fun; eauto).
      replace (parse_uint10 q) with (Some (decimal q)); auto. symmetry. apply parse_uint10_spec. auto.
  - rewrite (U2 U). split; [discriminate|].
    intros (n & secs' & (q' & c' & E1 & Q & D & -> & U') & _).
    rewrite E1 in Hq. apply app_inj_tail in Hq as [-> ->]. destruct (U _ U').
Qed.

(** ** Splitting *)
Lemma split_on_nonempty sep s : split_on sep s <> [].
Proof. destruct s as [|c s]; cbn; [congruence|]. destruct (c =? sep); [congruence|]. destruct (split_on sep s); congruence. Qed.
Lemma split_on_one sep p : ~ In sep p -> split_on sep p = [p].
Proof.
  induction p as [|c p IH]; intros H; cbn [split_on]; auto.
  replace (c =? sep) with false by (symmetry; apply Z.eqb_neq; intros ->; apply H; left; auto).
  rewrite IH; auto. intros X. apply H. right. auto.
Qed.
Lemma split_on_sep sep p s : ~ In sep p -> split_on sep (p ++ sep :: s) = p :: split_on sep s.
Proof.
  induction p as [|c p IH]; intros H; cbn [app split_on].
  - rewrite Z.eqb_refl. reflexivity.
  - replace (c =? sep) with false by (symmetry; apply Z.eqb_neq; intros ->; apply H; left; auto).
    rewrite IH; auto. intros X. apply H. right. auto.
Qed.
Lemma split_comma_list parts : parts <> [] -> Forall no_comma parts -> split_on 44 (comma_list parts) = parts.
Proof.
  intros N F. induction F as [|p ps Hp F IH]; [congruence|].
  destruct ps as [|p' ps]; [apply split_on_one; auto|].
  change (comma_list (p :: p' :: ps)) with (p ++ 44 :: comma_list (p' :: ps)).
  rewrite split_on_sep by auto. rewrite IH by congruence. reflexivity.
Qed.
Lemma split_parts s : Forall no_comma (split_on 44 s) /\ comma_list (split_on 44 s) = s.
Proof.
  induction s as [|c s [F IH]]; cbn [split_on].
  - split; auto. constructor; auto. intros [].
  - destruct (c =? 44) eqn:Ec.
    + split; [constructor; auto; intros []|].
      pose proof (split_on_nonempty 44 s). destruct (split_on 44 s) as [|p ps]; [congruence|].
      apply Z.eqb_eq in Ec. subst c. cbn [comma_list app] in *. destruct ps; rewrite IH; reflexivity.
    + pose proof (split_on_nonempty 44 s). destruct (split_on 44 s) as [|p ps]; [congruence|].
      inversion F as [|? ? P Ps]; subst. split.
      * constructor; auto. intros [X|X]; [lia|auto].
      * cbn [comma_list app] in *. destruct ps; cbn [app] in *; congruence.
Qed.

(** ** The -only list *)
Definition known_type (t : bytes) : bool :=
  bytes_eqb t type_encryption || bytes_eqb t type_authentication || bytes_eqb t type_signing.
Lemma only_loop_spec l m ts :
  only_loop m ts l =
  if forallb (fun t => bytes_eqb t (bs "master") || known_type t) l
  then Ok (m || existsb (fun t => bytes_eqb t (bs "master")) l,
           ts ++ filter (fun t => negb (bytes_eqb t (bs "master"))) l)
  else Err ErrPrintUsage.
Proof.
  revert m ts. induction l as [|t l IH]; intros m ts; cbn [only_loop forallb existsb filter].
  - rewrite orb_false_r, app_nil_r. reflexivity.
  - destruct (bytes_eqb t (bs "master")) eqn:M; cbn [orb andb negb].
    + rewrite IH. cbn [orb]. rewrite orb_true_r. reflexivity.
    + fold (known_type t). destruct (known_type t); cbn [andb]; [|reflexivity].
      rewrite IH. rewrite <- app_assoc. reflexivity.
Qed.

(** ** Wrapping *)
Lemma words_from_split l cur : words_from l cur =
  filter (fun w => negb (bytes_eqb w []))
    (match split_on 32 l with w :: ws => (rev cur ++ w) :: ws | [] => [] end).
Proof.
  revert cur. induction l as [|c l IH]; intros cur; cbn [words_from split_on].
  - rewrite app_nil_r. destruct cur as [|x cur]; [reflexivity|]. cbn [filter].
    replace (bytes_eqb (rev (x :: cur)) []) with false; [reflexivity|].
    symmetry. apply bytes_eqb_neq. cbn [rev]. intros X. apply app_eq_nil in X as [_ X]. discriminate.
  - destruct (c =? 32) eqn:Ec.
    + rewrite IH. cbn [rev app]. rewrite app_nil_r.
      pose proof (split_on_nonempty 32 l). destruct (split_on 32 l) as [|w ws]; [congruence|].
      destruct cur as [|x cur]; [reflexivity|].
      cbn [filter].
      replace (bytes_eqb (rev (x :: cur)) []) with false; [reflexivity|].
      symmetry. apply bytes_eqb_neq. cbn [rev]. intros X. apply app_eq_nil in X as [_ X]. discriminate.
    + rewrite IH. pose proof (split_on_nonempty 32 l). destruct (split_on 32 l) as [|w ws]; [congruence|].
      cbn [rev]. rewrite <- app_assoc. reflexivity.
Qed.
Lemma blank_words_split l : blank_words l = filter (fun w => negb (bytes_eqb w [])) (split_on 32 l).
Proof.
  unfold blank_words. rewrite words_from_split. pose proof (split_on_nonempty 32 l).
  destruct (split_on 32 l); [congruence|reflexivity].
Qed.
Lemma words_from_space a b cur : words_from (a ++ 32 :: b) cur = words_from a cur ++ blank_words b.
Proof.
  revert cur. induction a as [|c a IH]; intros cur; cbn [app words_from].
  - rewrite Z.eqb_refl. reflexivity.
  - destruct (c =? 32); rewrite IH; [rewrite app_assoc|]; reflexivity.
Qed.
Lemma blank_words_space a b : blank_words (a ++ 32 :: b) = blank_words a ++ blank_words b.
Proof. apply words_from_space. Qed.
Lemma blank_words_indent k w : blank_words (repeat 32 k ++ w) = blank_words w.
Proof. induction k; auto. Qed.
Lemma split_on_no_sep sep s : Forall (fun w => ~ In sep w) (split_on sep s).
Proof.
  induction s as [|c s IH]; cbn [split_on]; [repeat constructor; intros []|].
  destruct (c =? sep) eqn:Ec; [constructor; auto; intros []|].
  destruct (split_on sep s); inversion IH; subst; constructor; auto; intros [X|X]; auto; try lia; destruct X.
Qed.
Lemma blank_words_one w : ~ In 32 w -> blank_words w = filter (fun w => negb (bytes_eqb w [])) [w].
Proof. intros H. rewrite blank_words_split, split_on_one by auto. reflexivity. Qed.

Lemma iter_succ_r {A} (f : A -> A) k x : Nat.iter (S k) f x = Nat.iter k f (f x).
Proof. induction k as [|k IH]; [reflexivity|]. change (f (Nat.iter (S k) f x) = f (Nat.iter k f (f x))). rewrite IH. reflexivity. Qed.

Section Fill.
Variables (k : nat) (n : Z).
Let ind := repeat 32 k.

Definition nonblank := filter (fun w => negb (bytes_eqb w [])).
Lemma nonblank_app a b : nonblank (a ++ b) = nonblank a ++ nonblank b.
Proof. apply filter_app. Qed.

(** what the inner loop takes *)
Lemma fill_line_spec (ws : list bytes) (line : bytes) : Forall (fun w => ~ In 32 w) ws -> zlen line <= n -> (exists t, line = ind ++ t) ->
  exists (taken rest : list bytes) (line' : bytes),
    fill_line ind n line ws = (line', rest) /\ ws = taken ++ rest /\
    zlen line' <= n /\ (exists t, line' = ind ++ t) /\
    blank_words line' = blank_words line ++ nonblank taken /\
    (rest = [] \/ exists w r, rest = w :: r /\ n < zlen line' + zlen w + 1).
Proof.
  revert line. induction ws as [|w ws IH]; intros line F L T; cbn [fill_line].
  - exists [], [], line. split; [auto|]. split; [auto|]. split; [auto|]. split; [auto|].
    split; [unfold nonblank; cbn [filter]; rewrite app_nil_r; auto|auto].
  - inversion F as [|? ? Fw Fs]; subst. destruct (zlen line + zlen w + 1 <=? n) eqn:C.
    + set (line1 := (if bytes_eqb line ind then line else line ++ [32]) ++ w).
      destruct (IH line1) as (taken & rest & line' & E1 & -> & L' & T' & W & R); auto.
      { unfold line1. destruct (bytes_eqb line ind); rewrite !zlen_app; [lia|]. change (zlen [32]) with 1. lia. }
      { destruct T as [t ->]. unfold line1. destruct (bytes_eqb _ _); eexists; rewrite <- !app_assoc; reflexivity. }
      exists (w :: taken), rest, line'. split; [auto|]. split; [auto|]. split; [auto|]. split; [auto|].
      split; [|auto]. rewrite W. change (w :: taken) with ([w] ++ taken). rewrite nonblank_app, app_assoc. f_equal.
      unfold line1. destruct (bytes_eqb line ind) eqn:Ei.
      * apply bytes_eqb_eq in Ei. subst line. unfold ind. rewrite blank_words_indent.
        rewrite (blank_words_one w) by auto. unfold ind.
        replace (blank_words (repeat 32 k)) with (@nil bytes); [reflexivity|].
        rewrite <- (app_nil_r (repeat 32 k)), blank_words_indent. reflexivity.
      * rewrite <- app_assoc. cbn [app]. rewrite blank_words_space, (blank_words_one w) by auto. reflexivity.
    + exists [], (w :: ws), line. split; [auto|]. split; [auto|]. split; [auto|]. split; [auto|].
      split; [unfold nonblank; cbn [filter]; rewrite app_nil_r; auto|].
      right. exists w, ws. split; auto. lia.
Qed.

Lemma fill_line_first (w : bytes) (ws : list bytes) : zlen ind + zlen w + 1 <= n ->
  exists taken rest, snd (fill_line ind n ind (w :: ws)) = rest /\ ws = taken ++ rest.
Proof.
  intros H. cbn [fill_line]. replace (_ <=? n) with true by lia. rewrite bytes_eqb_refl.
  set (l1 := ind ++ w). clearbody l1. clear H. revert l1.
  induction ws as [|v ws IH]; intros l1; cbn [fill_line snd]; [exists [], []; auto|].
  destruct (_ <=? n); [|exists [], (v :: ws); auto].
  destruct (IH ((if bytes_eqb l1 ind then l1 else l1 ++ [32]) ++ v)) as (t & r & E1 & ->).
  exists (v :: t), r. auto.
Qed.
Lemma fill_line_stuck (w : bytes) (ws : list bytes) : n < zlen ind + zlen w + 1 -> fill_line ind n ind (w :: ws) = (ind, w :: ws).
Proof. intros H. cbn [fill_line]. replace (_ <=? n) with false by lia. reflexivity. Qed.

Definition fits (w : bytes) : Prop := zlen ind + zlen w + 1 <= n.

Lemma join_newlines lines : join [10] lines = with_newlines lines.
Proof.
  induction lines as [|l ls IH]; auto. destruct ls as [|l2 ls]; auto.
  change (join [10] (l :: l2 :: ls)) with (l ++ [10] ++ join [10] (l2 :: ls)). rewrite IH. reflexivity.
Qed.

Lemma justify_loop_fits fuel ws lines : Forall fits ws -> Forall (fun w => ~ In 32 w) ws -> (length ws <= fuel)%nat ->
  exists new, justify_loop ind n fuel ws lines = Text (with_newlines (lines ++ new)) /\
    Forall (fun l => zlen l <= n /\ exists t, l = ind ++ t) new /\
    flat_map blank_words new = nonblank ws /\
    exists turns, Nat.iter turns (justify_step ind n) (ws, lines) = ([], lines ++ new).
Proof.
  revert ws lines. induction fuel as [|f IH]; intros ws lines F S L.
  - destruct ws; [|cbn in L; lia]. exists []. cbn [justify_loop]. rewrite app_nil_r, join_newlines.
    split; [auto|]. split; [auto|]. split; [auto|]. exists 0%nat. reflexivity.
  - destruct ws as [|w ws].
    { exists []. cbn [justify_loop]. rewrite app_nil_r, join_newlines.
      split; [auto|]. split; [auto|]. split; [auto|]. exists 0%nat. reflexivity. }
    cbn [justify_loop]. unfold justify_step at 1. cbn [fst snd].
    inversion F as [|? ? Fw Fs]; subst.
    assert (Li : zlen ind <= n) by (unfold fits in Fw; pose proof (zlen_nonneg w); lia).
    destruct (fill_line_spec (w :: ws) ind S Li) as (taken & rest & line & E1 & E2 & L1 & T1 & W1 & _).
    { exists []. rewrite app_nil_r. auto. }
    destruct (fill_line_first w ws Fw) as (t2 & r2 & E3 & E4). rewrite E1 in E3. cbn [snd] in E3. subst r2.
    rewrite E1. replace (Nat.eqb (length rest) (length (w :: ws))) with false.
    2: { symmetry. apply Nat.eqb_neq. rewrite E4. cbn [length]. rewrite app_length. lia. }
    assert (Fr : Forall fits rest) by (rewrite E4 in Fs; apply Forall_app in Fs; tauto).
    assert (Sr : Forall (fun w => ~ In 32 w) rest) by (rewrite E2 in S; apply Forall_app in S; tauto).
    assert (Lr : (length rest <= f)%nat) by (rewrite E4 in L; cbn [length] in L; rewrite app_length in L; lia).
    destruct (IH rest (lines ++ [line]) Fr Sr Lr) as (new & J & N1 & N2 & turns & N3).
    exists (line :: new). rewrite J. rewrite <- app_assoc. cbn [app].
    split; [auto|]. split; [auto|]. split.
    { cbn [flat_map]. rewrite N2, W1, E2. rewrite nonblank_app. f_equal.
      unfold ind. rewrite <- (app_nil_r (repeat 32 k)), blank_words_indent. reflexivity. }
    exists (Datatypes.S turns). rewrite iter_succ_r. unfold justify_step at 2. cbn [fst snd]. rewrite E1.
    rewrite N3. rewrite <- app_assoc. reflexivity.
Qed.

Lemma justify_stuck_forever (w : bytes) (ws lines : list bytes) turns : ~ fits w ->
  fst (Nat.iter turns (justify_step ind n) (w :: ws, lines)) = w :: ws.
Proof.
  intros H. unfold fits in H. revert lines. induction turns as [|t IH]; intros lines; [reflexivity|].
  rewrite iter_succ_r. unfold justify_step at 2. cbn [fst snd]. rewrite fill_line_stuck by lia. apply IH.
Qed.

Lemma justify_loop_stuck fuel ws lines : ~ Forall fits ws -> Forall (fun w => ~ In 32 w) ws -> (length ws <= fuel)%nat ->
  justify_loop ind n fuel ws lines = Loops /\ forall turns, fst (Nat.iter turns (justify_step ind n) (ws, lines)) <> [].
Proof.
  revert ws lines. induction fuel as [|f IH]; intros ws lines F S L.
  - destruct ws; [|cbn in L; lia]. destruct F. constructor.
  - destruct ws as [|w ws]; [destruct F; constructor|].
    destruct (Z.leb_spec (zlen ind + zlen w + 1) n) as [Fw|Fw].
    + assert (Fs : ~ Forall fits ws) by (intros X; apply F; constructor; auto).
      assert (Li : zlen ind <= n) by (pose proof (zlen_nonneg w); lia).
      destruct (fill_line_spec (w :: ws) ind S Li) as (taken & rest & line & E1 & E2 & L1 & T1 & W1 & R1).
      { exists []. rewrite app_nil_r. auto. }
      destruct (fill_line_first w ws Fw) as (t2 & r2 & E3 & E4). rewrite E1 in E3. cbn [snd] in E3. subst r2.
      cbn [justify_loop]. unfold justify_step at 1. cbn [fst snd]. rewrite E1.
      replace (Nat.eqb (length rest) (length (w :: ws))) with false.
      2: { symmetry. apply Nat.eqb_neq. rewrite E4. cbn [length]. rewrite app_length. lia. }
      assert (Fr : ~ Forall fits rest).
      { intros X. apply F. rewrite E2. apply Forall_app. split; auto.
        clear - E1 E2 Li. 
        (* every word taken fitted behind a line at least as long as the indent *)
        assert (G : forall ws line taken rest line', zlen ind <= zlen line -> fill_line ind n line ws = (line', rest) ->
                    ws = taken ++ rest -> Forall fits taken).
        { induction ws0 as [|v vs IHv]; intros l0 tk rs l' Hl Hf He; cbn [fill_line] in Hf.
          - injection Hf as <- <-. symmetry in He. apply app_eq_nil in He as [-> _]. constructor.
          - destruct (zlen l0 + zlen v + 1 <=? n) eqn:C.
            + destruct tk as [|x tk]; [constructor|]. injection He as <- He. constructor; [unfold fits; lia|].
              eapply IHv; [|exact Hf|exact He].
              destruct (bytes_eqb l0 ind); rewrite !zlen_app; pose proof (zlen_nonneg v); [lia|]. change (zlen [32]) with 1. lia.
            + injection Hf as <- <-. replace tk with (@nil bytes); [constructor|].
              apply (f_equal (@length bytes)) in He. rewrite app_length in He. destruct tk; auto. cbn [length] in He. lia. }
        eapply G; [|exact E1|exact E2]. lia. }
      assert (Sr : Forall (fun w => ~ In 32 w) rest) by (rewrite E2 in S; apply Forall_app in S; tauto).
      assert (Lr : (length rest <= f)%nat) by (rewrite E4 in L; cbn [length] in L; rewrite app_length in L; lia).
      destruct (IH rest (lines ++ [line]) Fr Sr Lr) as [J N]. split; [auto|].
      intros [|turns]; [cbn; congruence|].
      rewrite iter_succ_r. unfold justify_step at 2. cbn [fst snd]. rewrite E1. apply N.
    + cbn [justify_loop]. unfold justify_step at 1. cbn [fst snd]. rewrite fill_line_stuck by lia.
      rewrite Nat.eqb_refl. split; [auto|]. intros turns. rewrite justify_stuck_forever; [congruence|unfold fits; lia].
Qed.
End Fill.
