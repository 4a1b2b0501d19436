(** strings.ToLower and strings.TrimSpace (Spec/GoText.v): which texts become a given word, and what is cut off. *)
From Coq Require Import Lia ZifyBool ZifyNat.
From Verif.Model Require Import GoBase Env.
From Verif.Spec Require Import EnvSpec SpaceSpec SpellSpec GoText.
From Verif.Proofs Require Import SpaceP.
Ltac Zify.zify_post_hook ::= Z.div_mod_to_equations.

Lemma decode_utf8 c l : code_point c -> decode_rune (utf8 c ++ l) = (c, length (utf8 c)).
Proof.
  intros P. unfold code_point in P. unfold utf8. destruct (c <? 128) eqn:B1; [|destruct (c <? 2048) eqn:B2; [|destruct (c <? 65536) eqn:B3]].
  - cbn [app decode_rune length]. rewrite B1. reflexivity.
  - cbn [app decode_rune length]. replace (192 + c / 64 <? 128) with false by lia.
    replace ((192 + c / 64 <? 194) || (244 <? 192 + c / 64)) with false by lia.
    replace (192 + c / 64 =? 224) with false by lia. replace (192 + c / 64 =? 240) with false by lia.
    replace (192 + c / 64 =? 237) with false by lia. replace (192 + c / 64 =? 244) with false by lia.
    replace (negb ((128 <=? 128 + c mod 64) && (128 + c mod 64 <=? 191))) with false by lia.
    replace (192 + c / 64 <? 224) with true by lia. f_equal. lia.
  - cbn [app decode_rune length]. set (a := 224 + c / 4096). set (b := 128 + c / 64 mod 64). set (d := 128 + c mod 64).
    replace (a <? 128) with false by lia. replace ((a <? 194) || (244 <? a)) with false by lia.
    replace (a =? 240) with false by lia. replace (a =? 244) with false by lia.
    replace (negb (((if a =? 224 then 160 else 128) <=? b) && (b <=? (if a =? 237 then 159 else 191)))) with false
      by (destruct (a =? 224) eqn:?, (a =? 237) eqn:?; lia).
    replace (a <? 224) with false by lia. unfold is_tail. replace (negb ((128 <=? d) && (d <=? 191))) with false by lia.
    replace (a <? 240) with true by lia. f_equal. lia.
  - cbn [app decode_rune length]. set (a := 240 + c / 262144). set (b := 128 + c / 4096 mod 64). set (d := 128 + c / 64 mod 64). set (e := 128 + c mod 64).
    replace (a <? 128) with false by lia. replace ((a <? 194) || (244 <? a)) with false by lia.
    replace (a =? 224) with false by lia. replace (a =? 237) with false by lia.
    replace (negb (((if a =? 240 then 144 else 128) <=? b) && (b <=? (if a =? 244 then 143 else 191)))) with false
      by (destruct (a =? 240) eqn:?, (a =? 244) eqn:?; lia).
    replace (a <? 224) with false by lia. unfold is_tail. replace (negb ((128 <=? d) && (d <=? 191))) with false by lia.
    replace (a <? 240) with false by lia. replace (negb ((128 <=? e) && (e <=? 191))) with false by lia. f_equal. lia.
Qed.

(** what was decoded is there, unless it is U+FFFD *)
Lemma decode_there s c n : decode_rune s = (c, n) -> s <> [] ->
  (1 <= n)%nat /\ (c = rune_error /\ n = 1%nat \/ (c < 0 \/ code_point c) /\ s = utf8 c ++ skipn n s).
Proof.
  unfold code_point. destruct s as [|b0 s]; [congruence|]. intros D _. unfold decode_rune in D.
  destruct (b0 <? 128) eqn:B0.
  { injection D as <- <-. split; [lia|right]. split; [lia|]. unfold utf8. rewrite B0. reflexivity. }
  destruct ((b0 <? 194) || (244 <? b0)) eqn:B1; [injection D as <- <-; auto|].
  destruct s as [|b1 s]; [injection D as <- <-; auto|]. cbv zeta in D.
  destruct (negb (((if b0 =? 224 then 160 else if b0 =? 240 then 144 else 128) <=? b1) && (b1 <=? (if b0 =? 237 then 159 else if b0 =? 244 then 143 else 191)))) eqn:B2;
    [injection D as <- <-; auto|].
  destruct (b0 <? 224) eqn:B3.
  { injection D as <- <-. split; [lia|right].
    replace (b0 =? 224) with false in B2 by lia. replace (b0 =? 240) with false in B2 by lia.
    replace (b0 =? 237) with false in B2 by lia. replace (b0 =? 244) with false in B2 by lia.
    assert (R : 128 <= b0 mod 32 * 64 + b1 mod 64 < 2048) by lia.
    split; [lia|]. unfold utf8. set (c := b0 mod 32 * 64 + b1 mod 64) in *.
    replace (c <? 128) with false by lia. replace (c <? 2048) with true by lia. cbn [app skipn].
    f_equal; [lia|f_equal; lia]. }
  destruct s as [|b2 s]; [injection D as <- <-; auto|]. unfold is_tail in D.
  destruct (negb ((128 <=? b2) && (b2 <=? 191))) eqn:B4; [injection D as <- <-; auto|].
  destruct (b0 <? 240) eqn:B5.
  { injection D as <- <-. split; [lia|right].
    replace (b0 =? 240) with false in B2 by lia. replace (b0 =? 244) with false in B2 by lia.
    assert (K : 128 <= b1 <= 191 /\ (b0 = 224 -> 160 <= b1) /\ (b0 = 237 -> b1 <= 159)).
    { destruct (b0 =? 224) eqn:?, (b0 =? 237) eqn:?; lia. } clear B2.
    set (c := b0 mod 16 * 4096 + b1 mod 64 * 64 + b2 mod 64).
    assert (C : c = (b0 - 224) * 4096 + (b1 - 128) * 64 + (b2 - 128)) by (unfold c; lia). clearbody c.
    assert (R : 2048 <= c < 65536 /\ ~ (55296 <= c < 57344)) by lia.
    split; [lia|]. unfold utf8.
    replace (c <? 128) with false by lia. replace (c <? 2048) with false by lia. replace (c <? 65536) with true by lia. cbn [app skipn].
    f_equal; [lia|f_equal; [lia|f_equal; lia]]. }
  destruct s as [|b3 s]; [injection D as <- <-; auto|].
  destruct (negb ((128 <=? b3) && (b3 <=? 191))) eqn:B6; injection D as <- <-; [auto|]. split; [lia|right].
  replace (b0 =? 224) with false in B2 by lia. replace (b0 =? 237) with false in B2 by lia.
  assert (K : 128 <= b1 <= 191 /\ (b0 = 240 -> 144 <= b1) /\ (b0 = 244 -> b1 <= 143)).
  { destruct (b0 =? 240) eqn:?, (b0 =? 244) eqn:?; lia. } clear B2.
  set (c := b0 mod 8 * 262144 + b1 mod 64 * 4096 + b2 mod 64 * 64 + b3 mod 64).
  assert (C : c = (b0 - 240) * 262144 + (b1 - 128) * 4096 + (b2 - 128) * 64 + (b3 - 128)) by (unfold c; lia). clearbody c.
  assert (R : 65536 <= c < 1114112) by lia.
  split; [lia|]. unfold utf8.
  replace (c <? 128) with false by lia. replace (c <? 2048) with false by lia. replace (c <? 65536) with false by lia. cbn [app skipn].
  f_equal; [lia|f_equal; [lia|f_equal; [lia|f_equal; lia]]].
Qed.

Lemma space_white c : is_space c = true <-> white c.
Proof.
  rewrite white_iff. unfold is_space. destruct (c <=? 255) eqn:B; lia.
Qed.
Lemma white_code c : white c -> code_point c.
Proof. apply white_point. Qed.
Lemma error_not_white : is_space rune_error = false.
Proof. reflexivity. Qed.

(** the last rune *)
Lemma utf8_shape c : code_point c -> exists b s, utf8 c = b :: s /\ is_tail b = false /\ Forall (fun x => is_tail x = true) s /\
  (length s <= 3)%nat /\ (s = [] -> b < 128).
Proof.
  intros P. unfold code_point in P. unfold utf8, is_tail. destruct (c <? 128) eqn:B1; [|destruct (c <? 2048) eqn:B2; [|destruct (c <? 65536) eqn:B3]];
    do 2 eexists; (split; [reflexivity|]); (split; [lia|]); (split; [repeat constructor; lia|]); cbn [length]; (split; [lia|]); (discriminate || lia).
Qed.
Lemma back_tails r : forall s fuel k b, Forall (fun x => is_tail x = true) s -> is_tail b = false -> (length s < fuel)%nat ->
  back (s ++ b :: r) fuel k = (k + length s + 1)%nat.
Proof.
  induction s as [|x s IH]; intros fuel k b F T L; cbn [app back length] in *.
  - destruct fuel; [lia|]. rewrite T. lia.
  - destruct fuel; [lia|]. inversion F; subst. rewrite H1. rewrite IH by (auto; lia). lia.
Qed.
Lemma decode_last_utf8 c a : code_point c -> decode_last_rune (a ++ utf8 c) = (c, length (utf8 c)).
Proof.
  intros P. pose proof (decode_utf8 c [] P) as D. rewrite app_nil_r in D.
  destruct (utf8_shape c P) as (b & s & U & T & F & L & O). unfold decode_last_rune. rewrite U in *.
  destruct (list_eq_dec Z.eq_dec s []) as [->|N].
  - rewrite rev_app_distr. cbn [rev app]. specialize (O eq_refl). replace (b <? 128) with true by lia. f_equal.
    unfold decode_rune in D. replace (b <? 128) with true in D by lia. congruence.
  - destruct (exists_last N) as (s' & x & ->).
    apply Forall_app in F as [F1 F2]. inversion F2 as [|? ? Tx _]; subst. rewrite app_length in L. cbn [length] in L.
    assert (RV : rev (a ++ b :: s' ++ [x]) = x :: rev s' ++ b :: rev a).
    { change (b :: s' ++ [x]) with ((b :: s') ++ [x]). rewrite app_assoc, rev_app_distr. cbn [rev app]. f_equal.
      rewrite rev_app_distr. cbn [rev]. rewrite <- app_assoc. reflexivity. }
    change bytes with (list Z) in *. rewrite RV. unfold is_tail in Tx. replace (x <? 128) with false by lia.
    rewrite back_tails; [|apply Forall_rev; exact F1|exact T|rewrite rev_length; lia]. rewrite rev_length.
    assert (Q : (length (a ++ b :: s' ++ [x]) - (1 + length s' + 1))%nat = length a).
    { rewrite app_length. cbn [length]. rewrite app_length. cbn [length]. lia. }
    cbv zeta. rewrite Q, skipn_app, skipn_all, Nat.sub_diag. cbn [app skipn]. rewrite D.
    cbn [length]. rewrite app_length. cbn [length]. replace (Nat.eqb _ _) with true by (symmetry; apply Nat.eqb_eq; lia). reflexivity.
Qed.
Lemma decode_last_there s c n : decode_last_rune s = (c, n) -> s <> [] ->
  (1 <= n <= length s)%nat /\ (c = rune_error \/ (c < 0 \/ code_point c) /\ s = firstn (length s - n) s ++ utf8 c).
Proof.
  unfold decode_last_rune. intros D N. destruct (rev s) as [|b r] eqn:R.
  { apply (f_equal (@rev Z)) in R. rewrite rev_involutive in R. contradiction. }
  assert (S : s = rev r ++ [b]) by (rewrite <- (rev_involutive s), R; reflexivity).
  assert (L : length s = (length r + 1)%nat) by (rewrite S, app_length, rev_length; reflexivity).
  destruct (b <? 128) eqn:B.
  { injection D as <- <-. split; [lia|right]. unfold code_point. split; [lia|]. unfold utf8. rewrite B. rewrite L, Nat.add_sub, S.
    rewrite firstn_app, rev_length, Nat.sub_diag, firstn_all2 by (rewrite rev_length; lia). cbn [firstn]. rewrite app_nil_r. reflexivity. }
  assert (K : (1 <= back r 3 1 )%nat).
  { assert (G : forall r f k, (k <= back r f k)%nat).
    { induction r0 as [|x r0 IH]; intros f k; cbn [back]; [lia|]. destruct f; [lia|]. destruct (is_tail x); [|lia]. specialize (IH f (Datatypes.S k)). lia. }
    apply G. }
  assert (K2 : (back r 3 1 <= length s)%nat).
  { assert (G : forall r f k, (back r f k <= length r + k)%nat).
    { induction r0 as [|x r0 IH]; intros f k; cbn [back length]; [lia|]. destruct f; [lia|]. destruct (is_tail x); [|lia]. specialize (IH f (Datatypes.S k)). lia. }
    specialize (G r 3%nat 1%nat). lia. }
  cbv zeta in D. set (k := back r 3 1) in *. clearbody k.
  destruct (decode_rune (skipn (length s - k) s)) as [c' n'] eqn:DR. destruct (Nat.eqb n' k) eqn:NK.
  - injection D as -> ->. assert (n = k) by lia. subst n.
    destruct (decode_there _ _ _ DR) as (_ & [[T _]|(T & U)]).
    { intros E. apply (f_equal (@length Z)) in E. rewrite skipn_length in E. cbn [length] in E. lia. }
    + split; [lia|auto].
    + split; [lia|right]. split; [exact T|]. rewrite <- (firstn_skipn (length s - k) s) at 1. f_equal. rewrite U.
      rewrite skipn_all2 by (rewrite skipn_length; lia). apply app_nil_r.
  - injection D as <- <-. split; [lia|auto].
Qed.

(** trimming *)
Lemma utf8_nonempty c : utf8 c <> [].
Proof. unfold utf8. destruct (c <? 128); [|destruct (c <? 2048); [|destruct (c <? 65536)]]; discriminate. Qed.
Lemma white_start s c n : decode_rune s = (c, n) -> s <> [] -> is_space c = true -> white c /\ s = utf8 c ++ skipn n s /\ (1 <= n)%nat.
Proof.
  intros D N W. destruct (decode_there s c n D N) as (L & [[-> _]|(_ & U)]); [rewrite error_not_white in W; discriminate|].
  apply space_white in W. auto.
Qed.
Lemma skip_utf8 c l : code_point c -> skipn (snd (decode_rune (utf8 c ++ l))) (utf8 c ++ l) = l.
Proof. intros P. rewrite decode_utf8 by auto. cbn [snd]. rewrite skipn_app, skipn_all, Nat.sub_diag. reflexivity. Qed.

Lemma trim_left_spec fuel : forall s, (length s <= fuel)%nat ->
  exists a, Forall white a /\ s = utf8_text a ++ trim_left fuel s /\ (forall c r, white c -> trim_left fuel s <> utf8 c ++ r).
Proof.
  induction fuel as [|f IH]; intros s L.
  - destruct s; [|cbn [length] in L; lia]. exists []. split; [constructor|]. split; [reflexivity|]. cbn [trim_left].
    intros c r _ E. symmetry in E. apply app_eq_nil in E as [E _]. exact (utf8_nonempty c E).
  - destruct s as [|b s].
    { exists []. split; [constructor|]. split; [reflexivity|]. cbn [trim_left]. intros c r _ E. symmetry in E. apply app_eq_nil in E as [E _]. exact (utf8_nonempty c E). }
    cbn [trim_left]. set (u := b :: s) in *. destruct (decode_rune u) as [c n] eqn:D. destruct (is_space c) eqn:S.
    + destruct (white_start u c n D ltac:(discriminate) S) as (W & U & N1).
      assert (L' : (length (skipn n u) <= f)%nat).
      { rewrite skipn_length. lia. }
      destruct (IH _ L') as (a & A & E & X). exists (c :: a). split; [constructor; auto|]. split; [|exact X].
      unfold utf8_text in *. cbn [flat_map]. rewrite <- app_assoc, <- E. exact U.
    + exists []. split; [constructor|]. split; [reflexivity|]. intros c' r W E. rewrite E, decode_utf8 in D by (apply white_code; exact W).
      injection D as <- <-. apply space_white in W. congruence.
Qed.
Lemma trim_right_spec fuel : forall s, (length s <= fuel)%nat ->
  exists a, Forall white a /\ s = trim_right fuel s ++ utf8_text a /\ (forall c r, white c -> trim_right fuel s <> r ++ utf8 c).
Proof.
  induction fuel as [|f IH]; intros s L.
  - destruct s; [|cbn [length] in L; lia]. exists []. split; [constructor|]. split; [reflexivity|]. cbn [trim_right].
    intros c r _ E. symmetry in E. apply app_eq_nil in E as [_ E]. exact (utf8_nonempty c E).
  - destruct s as [|b s].
    { exists []. split; [constructor|]. split; [reflexivity|]. cbn [trim_right]. intros c r _ E. symmetry in E. apply app_eq_nil in E as [_ E]. exact (utf8_nonempty c E). }
    cbn [trim_right]. set (u := b :: s) in *. destruct (decode_last_rune u) as [c n] eqn:D. destruct (is_space c) eqn:S.
    + destruct (decode_last_there u c n D ltac:(discriminate)) as (N1 & [->|(_ & U)]); [rewrite error_not_white in S; discriminate|].
      apply space_white in S. set (v := firstn (length u - n) u) in *.
      assert (L' : (length v <= f)%nat).
      { unfold v. rewrite firstn_length. lia. }
      destruct (IH _ L') as (a & A & E & X). exists (a ++ [c]). split; [apply Forall_app; auto|]. split; [|exact X].
      unfold utf8_text in *. rewrite flat_map_app. cbn [flat_map]. rewrite app_nil_r, app_assoc, <- E. exact U.
    + exists []. split; [constructor|]. split; [unfold utf8_text; cbn [flat_map]; symmetry; apply app_nil_r|]. intros c' r W E. rewrite E, decode_last_utf8 in D by (apply white_code; exact W).
      injection D as <- <-. apply space_white in W. congruence.
Qed.

Lemma trim_left_white a : forall fuel s, Forall white a -> (length (utf8_text a ++ s) <= fuel)%nat ->
  exists f, (length s <= f)%nat /\ trim_left fuel (utf8_text a ++ s) = trim_left f s.
Proof.
  induction a as [|c a IH]; intros fuel s A L; [exists fuel; auto|]. inversion A as [|? ? W A']; subst.
  unfold utf8_text in *. cbn [flat_map] in *. rewrite <- app_assoc in *. destruct (utf8_shape c (white_code c W)) as (b & t & U & _).
  assert (K : (length (flat_map utf8 a ++ s) < length (utf8 c ++ flat_map utf8 a ++ s))%nat) by (rewrite (app_length (utf8 c)), U; cbn [length]; lia).
  destruct fuel as [|f]; [lia|]. pose proof (skip_utf8 c (flat_map utf8 a ++ s) (white_code c W)) as SK.
  pose proof (decode_utf8 c (flat_map utf8 a ++ s) (white_code c W)) as D. destruct (utf8 c ++ flat_map utf8 a ++ s) as [|x y] eqn:Q; [rewrite U in Q; discriminate|].
  cbn [trim_left]. rewrite D in *. cbn [snd] in SK. apply space_white in W. rewrite W, SK. apply IH; [exact A'|lia].
Qed.
Lemma trim_left_stop fuel s : (forall c r, white c -> s <> utf8 c ++ r) -> trim_left fuel s = s.
Proof.
  intros N. destruct fuel; [destruct s; reflexivity|]. destruct s as [|b s]; [reflexivity|]. cbn [trim_left].
  destruct (decode_rune (b :: s)) as [c n] eqn:D. destruct (is_space c) eqn:S; [|reflexivity].
  destruct (white_start _ c n D ltac:(discriminate) S) as (W & U & _). destruct (N _ _ W U).
Qed.
Lemma trim_right_white a : forall fuel s, Forall white a -> (length (s ++ utf8_text a) <= fuel)%nat ->
  exists f, (length s <= f)%nat /\ trim_right fuel (s ++ utf8_text a) = trim_right f s.
Proof.
  induction a as [|c a IH] using rev_ind; intros fuel s A L; [exists fuel; unfold utf8_text in *; cbn [flat_map] in *; rewrite app_nil_r in *; auto|].
  apply Forall_app in A as [A' W']. inversion W' as [|? ? W _]; subst.
  unfold utf8_text in *. rewrite flat_map_app in *. cbn [flat_map] in *. rewrite app_nil_r, app_assoc in *.
  destruct (utf8_shape c (white_code c W)) as (b & t & U & _).
  assert (K : (length (s ++ flat_map utf8 a) < length ((s ++ flat_map utf8 a) ++ utf8 c))%nat) by (rewrite (app_length _ (utf8 c)), U; cbn [length]; lia).
  destruct fuel as [|f]; [lia|]. set (v := s ++ flat_map utf8 a) in *.
  pose proof (decode_last_utf8 c v (white_code c W)) as D.
  assert (Q : firstn (length (v ++ utf8 c) - length (utf8 c)) (v ++ utf8 c) = v).
  { rewrite app_length, Nat.add_sub, firstn_app, Nat.sub_diag, firstn_all. apply app_nil_r. }
  destruct (v ++ utf8 c) as [|x y] eqn:X; [rewrite U in X; destruct v; discriminate|].
  cbn [trim_right]. rewrite D in *. apply space_white in W. rewrite W, Q. apply IH; [exact A'|]. change (length v <= f)%nat. lia.
Qed.
Lemma trim_right_stop fuel s : (forall c r, white c -> s <> r ++ utf8 c) -> trim_right fuel s = s.
Proof.
  intros N. destruct fuel; [destruct s; reflexivity|]. destruct s as [|b s]; [reflexivity|]. cbn [trim_right].
  destruct (decode_last_rune (b :: s)) as [c n] eqn:D. destruct (is_space c) eqn:S; [|reflexivity].
  destruct (decode_last_there _ c n D ltac:(discriminate)) as (_ & [->|(_ & U)]); [rewrite error_not_white in S; discriminate|].
  apply space_white in S. destruct (N _ _ S U).
Qed.

Lemma trim_exact s t : std_trim s = t <-> trimmed s t.
Proof.
  split.
  - intros <-. unfold std_trim. destruct (trim_left_spec (length s) s (le_n _)) as (a & A & Ea & Na). set (u := trim_left (length s) s) in *.
    destruct (trim_right_spec (length u) u (le_n _)) as (b & B & Eb & Nb). set (t := trim_right (length u) u) in *.
    split; [exists a, b; rewrite <- Eb; auto|]. split; [|exact Nb]. intros c r W E. apply (Na c (r ++ utf8_text b) W). rewrite Eb, E, <- app_assoc. reflexivity.
  - intros ((a & b & A & B & ->) & N1 & N2). unfold std_trim.
    destruct (trim_left_white a (length (utf8_text a ++ t ++ utf8_text b)) (t ++ utf8_text b) A (le_n _)) as (f & Lf & ->).
    assert (E : trim_left f (t ++ utf8_text b) = if t then [] else t ++ utf8_text b).
    { destruct t as [|x t].
      - cbn [app]. destruct (trim_left_white b f [] B) as (f' & _ & X); [rewrite app_nil_r; exact Lf|]. rewrite app_nil_r in X. rewrite X.
        destruct f'; reflexivity.
      - apply trim_left_stop. intros c r W E. destruct (utf8_shape c (white_code c W)) as (y & s & U & _ & F & _).
        assert (G : forall (p q : bytes) r b', Forall (fun z => is_tail z = true) q -> Forall white b' -> (forall r', p <> q ++ r') -> p ++ utf8_text b' = q ++ r -> False).
        { induction p as [|p0 p IHp]; intros q r0 b' Fq Wb Nq Eq.
          - destruct q as [|q0 q]; [apply (Nq []); reflexivity|]. destruct b' as [|w b']; [discriminate|]. inversion Wb as [|? ? Ww _]; subst.
            destruct (utf8_shape w (white_code w Ww)) as (y' & s' & U' & T' & _). unfold utf8_text in Eq. cbn [flat_map app] in Eq. rewrite U' in Eq.
            inversion Fq; subst. injection Eq as -> _. congruence.
          - destruct q as [|q0 q]; [apply (Nq (p0 :: p)); reflexivity|]. injection Eq as -> Eq. inversion Fq; subst.
            eapply (IHp q); eauto. intros r' ->. apply (Nq r'). reflexivity. }
        rewrite U in E. injection E as -> E. apply (G t s r b F B); [|exact E]. intros r' ->. apply (N1 c r' W). rewrite U. reflexivity. }
    rewrite E. destruct t as [|x t]; [reflexivity|].
    destruct (trim_right_white b (length ((x :: t) ++ utf8_text b)) (x :: t) B (le_n _)) as (f' & _ & ->). apply trim_right_stop, N2.
Qed.

(** lower case *)
Lemma find_range_ascii t r : forallb (fun e => match e with (lo, hi, step, d) =>
     (128 <=? lo + d) || ((lo =? hi) && (((lo =? 0x212A) && (lo + d =? 107)) || ((lo =? 0x130) && (lo + d =? 105)))) end) t = true ->
  128 <= r -> find_range t r < 128 -> (r = 0x212A /\ find_range t r = 107) \/ (r = 0x130 /\ find_range t r = 105).
Proof.
  intros T R. induction t as [|[[[lo hi] step] d] t IH]; cbn [find_range]; [lia|]. cbn [forallb] in T. apply andb_true_iff in T as [T1 T2].
  destruct ((lo <=? r) && (r <=? hi) && ((r - lo) mod step =? 0)) eqn:B; [|apply IH; exact T2]. lia.
Qed.
Lemma lower_rune_ascii r : lower_rune r < 128 -> (r < 128 /\ lower_rune r = ascii_lower_byte r) \/ (r = 0x212A /\ lower_rune r = 107) \/ (r = 0x130 /\ lower_rune r = 105).
Proof.
  unfold lower_rune, ascii_lower_byte. destruct (r <? 128) eqn:B; [left; split; [lia|reflexivity]|]. intros L. right.
  apply find_range_ascii; [vm_compute; reflexivity|lia|exact L].
Qed.
Lemma utf8_ascii c : c < 128 -> utf8 c = [c].
Proof. intros L. unfold utf8. replace (c <? 128) with true by lia. reflexivity. Qed.
Lemma utf8_high c b s : utf8 c = b :: s -> b < 128 -> c < 128.
Proof.
  unfold utf8. intros E L. destruct (c <? 128) eqn:B1; [lia|].
  destruct (c <? 2048) eqn:B2; [assert (b = 192 + c / 64) by congruence; lia|].
  destruct (c <? 65536); [assert (b = 224 + c / 4096) by congruence; lia|assert (b = 240 + c / 262144) by congruence; lia].
Qed.
Lemma runes_ascii fuel : forall s, (length s <= fuel)%nat -> is_ascii s = true -> runes fuel s = s.
Proof.
  induction fuel as [|f IH]; intros s L A; destruct s as [|b s]; cbn [length] in L; try lia; try reflexivity.
  unfold is_ascii in *. cbn [forallb] in A. apply andb_true_iff in A as [A1 A2]. cbn [runes]. unfold decode_rune. rewrite A1. cbn [skipn]. rewrite IH by (auto; lia). reflexivity.
Qed.
Lemma lower_ascii s : is_ascii s = true -> std_lower s = map ascii_lower_byte s.
Proof.
  intros A. unfold std_lower. rewrite runes_ascii by auto. clear - A. unfold is_ascii in A. induction s as [|b s IH]; [reflexivity|].
  cbn [forallb] in A. apply andb_true_iff in A as [A1 A2]. cbn [flat_map map]. rewrite (IH A2). unfold lower_rune. rewrite A1.
  change (if (65 <=? b) && (b <=? 90) then b + 32 else b) with (ascii_lower_byte b). rewrite utf8_ascii; [reflexivity|]. unfold ascii_lower_byte. destruct ((65 <=? b) && (b <=? 90)) eqn:?; lia.
Qed.
Lemma runes_fuel s : forall f1 f2, (length s <= f1)%nat -> (length s <= f2)%nat -> runes f1 s = runes f2 s.
Proof.
  induction s as [s IH] using (well_founded_induction (Wf_nat.well_founded_ltof _ (@length Z))). intros f1 f2 L1 L2.
  destruct s as [|b s]; [destruct f1, f2; reflexivity|]. cbn [length] in *. destruct f1 as [|f1]; [lia|]. destruct f2 as [|f2]; [lia|]. cbn [runes].
  destruct (decode_rune (b :: s)) as [c n] eqn:D. destruct (decode_there _ _ _ D ltac:(discriminate)) as [N _]. f_equal.
  assert (LS : (length (skipn n (b :: s)) < length (b :: s))%nat) by (rewrite skipn_length; cbn [length]; lia).
  apply IH; [exact LS| |]; cbn [length] in LS; lia.
Qed.
Lemma lower_step c l : code_point c -> std_lower (utf8 c ++ l) = utf8 (lower_rune c) ++ std_lower l.
Proof.
  intros P. unfold std_lower. destruct (utf8_shape c P) as (b & t & U & _).
  assert (Q : runes (length (utf8 c ++ l)) (utf8 c ++ l) = c :: runes (length l) l); [|rewrite Q; reflexivity].
  pose proof (decode_utf8 c l P) as D. pose proof (skip_utf8 c l P) as SK. rewrite D in SK. cbn [snd] in SK. rewrite app_length in *. rewrite U in *. cbn [length app Nat.add runes] in *. rewrite D. f_equal. rewrite SK.
  apply runes_fuel; lia.
Qed.
Lemma spelling_point b p : lower_letter b -> spelling b p -> exists c, code_point c /\ p = utf8 c /\ lower_rune c = b.
Proof.
  unfold lower_letter, code_point. intros L [->|[->|[[-> ->]|[-> ->]]]].
  - exists b. split; [lia|]. rewrite utf8_ascii by lia. split; [reflexivity|]. unfold lower_rune. replace (b <? 128) with true by lia. replace ((65 <=? b) && (b <=? 90)) with false by lia. reflexivity.
  - exists (b - 32). split; [lia|]. rewrite utf8_ascii by lia. split; [reflexivity|]. unfold lower_rune. replace (b - 32 <? 128) with true by lia. replace ((65 <=? b - 32) && (b - 32 <=? 90)) with true by lia. lia.
  - exists 0x212A. split; [lia|]. split; reflexivity.
  - exists 0x130. split; [lia|]. split; reflexivity.
Qed.
Lemma lower_exact x : Forall lower_letter x -> forall s, std_lower s = x <-> spelled x s.
Proof.
  intros F s. split.
  - revert x F. induction s as [s IH] using (well_founded_induction (Wf_nat.well_founded_ltof _ (@length Z))). intros x F E.
    destruct s as [|b s].
    { subst x. exists []. split; [constructor|reflexivity]. }
    set (u := b :: s) in *. assert (X : exists c n, decode_rune u = (c, n)) by (destruct (decode_rune u); eauto). destruct X as (c & n & D).
    destruct (decode_there u c n D ltac:(discriminate)) as (N & T).
    assert (ST : std_lower u = utf8 (lower_rune c) ++ std_lower (skipn n u)).
    { unfold std_lower at 1. unfold u. cbn [length runes]. fold u. rewrite D. cbn [flat_map]. unfold std_lower. f_equal. f_equal. apply runes_fuel; [|lia].
      rewrite skipn_length. unfold u. cbn [length]. lia. }
    rewrite ST in E.
    destruct (utf8 (lower_rune c)) as [|y z] eqn:U; [destruct (utf8_nonempty _ U)|].
    assert (Ly : lower_letter y) by (rewrite <- E in F; inversion F; assumption). unfold lower_letter in Ly.
    assert (LC : lower_rune c < 128) by (apply (utf8_high _ y z U); lia). rewrite (utf8_ascii _ LC) in U. injection U as Ey <-.
    destruct T as [[-> _]|(P & U)]; [vm_compute in LC; discriminate|].
    assert (SP : spelling y (utf8 c)).
    { unfold spelling. destruct (lower_rune_ascii c LC) as [(L1 & L2)|[(-> & L2)|(-> & L2)]].
      - rewrite utf8_ascii by exact L1. unfold ascii_lower_byte in L2. destruct ((65 <=? c) && (c <=? 90)) eqn:B; [right; left; f_equal; lia|left; f_equal; lia].
      - right. right. left. split; [lia|reflexivity].
      - right. right. right. split; [lia|reflexivity]. }
    rewrite <- E in F. cbn [app] in F. inversion F as [|? ? _ F']; subst.
    destruct (IH (skipn n u)) with (x := std_lower (skipn n u)) as (parts & FP & EP).
    + unfold Wf_nat.ltof. rewrite skipn_length. unfold u. cbn [length]. lia.
    + exact F'.
    + reflexivity.
    + exists (utf8 c :: parts). split; [cbn [app]; constructor; auto|]. cbn [concat]. rewrite <- EP. exact U.
  - intros (parts & FP & ->). induction FP as [|b p x parts SP FP IH]; [reflexivity|]. inversion F as [|? ? L F']; subst.
    destruct (spelling_point b p L SP) as (c & P & -> & Lc). cbn [concat]. rewrite lower_step, Lc, IH by auto. unfold lower_letter in L. rewrite utf8_ascii by lia. reflexivity.
Qed.
Lemma lone_byte b c : 128 <= b < 256 -> 0 <= c < 128 -> std_lower [b] <> [c].
Proof.
  intros B C E. unfold std_lower in E. cbn [length runes] in E.
  assert (D : decode_rune [b] = (rune_error, 1%nat)).
  { unfold decode_rune. replace (b <? 128) with false by lia. destruct ((b <? 194) || (244 <? b)); reflexivity. }
  rewrite D in E. vm_compute in E. discriminate.
Qed.
