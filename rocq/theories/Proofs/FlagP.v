(** Lemmas about integers and options on the command line. *)
From Coq Require Import Lia ZifyBool ZifyNat.
From Verif.Model Require Import GoBase Env CliText CliFlags.
From Verif.Spec Require Import FlagSpec.
From Verif.Proofs Require Import BitsP.
Ltac Zify.zify_post_hook ::= Z.div_mod_to_equations.

(** ** Integers *)
Lemma lower_bit_small : forallb (fun n => let c := Z.of_nat n in
  (lower_bit c =? (if (65 <=? c) && (c <=? 90) then c + 32 else lower_bit c)) &&
  (implb ((97 <=? c) && (c <=? 122)) (lower_bit c =? c)) &&
  (implb ((97 <=? lower_bit c) && (lower_bit c <=? 122)) (((97 <=? c) && (c <=? 122)) || ((65 <=? c) && (c <=? 90))))) (seq 0 123) = true.
Proof. vm_compute. reflexivity. Qed.
Lemma lower_bit_le c : 0 <= c -> c <= lower_bit c.
Proof.
  intros H. unfold lower_bit. replace (Z.lor c 32) with (c + Z.land (Z.lnot c) 32).
  - assert (0 <= Z.land (Z.lnot c) 32) by (apply Z.land_nonneg; lia). lia.
  - rewrite Z.add_nocarry_lxor.
    + apply Z.bits_inj'. intros n Hn. rewrite Z.lxor_spec, Z.land_spec, Z.lnot_spec, Z.lor_spec by lia.
      destruct (Z.testbit c n), (Z.testbit 32 n); reflexivity.
    + apply Z.bits_inj'. intros n Hn. rewrite !Z.land_spec, Z.lnot_spec, Z.bits_0 by lia.
      destruct (Z.testbit c n), (Z.testbit 32 n); reflexivity.
Qed.
Lemma lower_bit_neg c : c < 0 -> lower_bit c < 0.
Proof. intros H. unfold lower_bit. apply Z.lor_neg. lia. Qed.
Lemma lower_bit_letter c l : 97 <= l <= 122 -> (lower_bit c = l <-> c = l \/ c = l - 32).
Proof.
  intros L. pose proof lower_bit_small as S. rewrite forallb_forall in S.
  assert (T : 0 <= c <= 122 -> forall P : Prop, (
    (lower_bit c =? (if (65 <=? c) && (c <=? 90) then c + 32 else lower_bit c)) &&
  (implb ((97 <=? c) && (c <=? 122)) (lower_bit c =? c)) &&
  (implb ((97 <=? lower_bit c) && (lower_bit c <=? 122)) (((97 <=? c) && (c <=? 122)) || ((65 <=? c) && (c <=? 90)))) = true -> P) -> P).
  { intros H P Q. apply Q. specialize (S (Z.to_nat c)). cbv beta zeta in S. rewrite Z2Nat.id in S by lia. apply S. apply in_seq. lia. }
  split.
  - intros H. destruct (Z_lt_ge_dec c 0); [pose proof (lower_bit_neg c); lia|].
    pose proof (lower_bit_le c). apply T; [lia|]. intros X. rewrite !andb_true_iff in X. destruct X as [[X1 X2] X3].
    rewrite H in *. destruct ((97 <=? l) && (l <=? 122)) eqn:E; [|lia]. cbn [implb] in X3.
    destruct ((65 <=? c) && (c <=? 90)) eqn:E1; [lia|]. destruct ((97 <=? c) && (c <=? 122)) eqn:E2; cbn in *; lia.
  - intros H. assert (C : 0 <= c <= 122) by lia. apply (T C). intros X. rewrite !andb_true_iff in X. destruct X as [[X1 X2] X3].
    destruct H as [-> | ->].
    + destruct ((97 <=? l) && (l <=? 122)) eqn:E; cbn [implb] in X2; lia.
    + destruct ((65 <=? l - 32) && (l - 32 <=? 90)) eqn:E; lia.
Qed.
Lemma lower_bit_other c : ~ (97 <= c <= 122) -> ~ (65 <= c <= 90) -> ~ (97 <= lower_bit c <= 122).
Proof. intros A B H. destruct (lower_bit_letter c (lower_bit c) H) as [X _]. specialize (X eq_refl). lia. Qed.

(** the digit the loop sees *)
Definition seen_digit (c : Z) : option Z :=
  if (48 <=? c) && (c <=? 57) then Some (c - 48)
  else if (97 <=? lower_bit c) && (lower_bit c <=? 122) then Some (lower_bit c - 97 + 10) else None.
Lemma seen_digit_spec c d : seen_digit c = Some d <-> digit c d.
Proof.
  unfold seen_digit, digit. destruct ((48 <=? c) && (c <=? 57)) eqn:E.
  - split; [intros H; injection H as <-; lia|]. intros [H|[H|H]]; try lia. f_equal. lia.
  - destruct ((97 <=? lower_bit c) && (lower_bit c <=? 122)) eqn:F.
    + destruct (lower_bit_letter c (lower_bit c)) as [X _]; [lia|]. specialize (X eq_refl). split.
      * intros H. injection H as <-. lia.
      * intros [H|[H|H]]; try lia; f_equal; lia.
    + split; [discriminate|]. intros [H|[H|H]]; try lia.
      * destruct (lower_bit_letter c c) as [_ X]; [lia|]. lia.
      * destruct (lower_bit_letter c (c + 32)) as [_ X]; [lia|]. lia.
Qed.
Lemma digit_under c d : digit c d -> c <> 95.
Proof. unfold digit. lia. Qed.
Lemma digit_pos c d : digit c d -> 0 <= d.
Proof. unfold digit. lia. Qed.

(** The value of the digits, without the overflow checks *)
Fixpoint plain_digits (base n : Z) (s : bytes) : option Z :=
  match s with
  | [] => Some n
  | c :: s' => if c =? 95 then plain_digits base n s'
               else match seen_digit c with
                    | Some d => if d >=? base then None else plain_digits base (n * base + d) s'
                    | None => None
                    end
  end.
Lemma plain_mono base : 2 <= base -> forall s n v, 0 <= n -> plain_digits base n s = Some v -> n <= v.
Proof.
  intros B. induction s as [|c s IH]; intros n v N H; cbn [plain_digits] in H; [injection H as <-; lia|].
  destruct (c =? 95); [eauto|]. destruct (seen_digit c) as [d|] eqn:D; [|discriminate].
  apply seen_digit_spec in D. apply digit_pos in D. destruct (d >=? base); [discriminate|].
  apply IH in H; [|nia]. nia.
Qed.
Lemma base_plain base : 2 <= base <= 36 -> forall s n under, 0 <= n <= max_uint64 ->
  base_digits base n under s =
  match plain_digits base n s with
  | Some v => if v <=? max_uint64 then Some (v, under || existsb (fun c => c =? 95) s) else None
  | None => None
  end.
Proof.
  intros B. induction s as [|c s IH]; intros n under N; cbn [base_digits plain_digits existsb].
  - replace (n <=? max_uint64) with true by lia. rewrite orb_false_r. reflexivity.
  - destruct (c =? 95) eqn:C.
    + rewrite IH by lia. rewrite orb_true_r. reflexivity.
    + fold (seen_digit c). destruct (seen_digit c) as [d|] eqn:D; [|reflexivity].
      apply seen_digit_spec in D. apply digit_pos in D. destruct (d >=? base) eqn:DB; [reflexivity|].
      assert (Big : max_uint64 < n * base + d ->
        match plain_digits base (n * base + d) s with
        | Some v => if v <=? max_uint64 then Some (v, under || (false || existsb (fun c => c =? 95) s)) else None
        | None => None end = None).
      { intros L. destruct (plain_digits base (n * base + d) s) as [v|] eqn:P; [|reflexivity].
        apply plain_mono in P; [|lia|unfold max_uint64 in *; lia]. replace (v <=? max_uint64) with false by lia. reflexivity. }
      destruct (n >=? max_uint64 / base + 1) eqn:O.
      * symmetry. apply Big. assert (max_uint64 < base * (max_uint64 / base + 1)) by (pose proof (Z.mul_succ_div_gt max_uint64 base); lia). nia.
      * destruct (n * base + d >? max_uint64) eqn:P; [symmetry; apply Big; lia|]. rewrite IH by nia. reflexivity.
Qed.
Lemma plain_app base s t : forall n, plain_digits base n (s ++ t) =
  match plain_digits base n s with Some m => plain_digits base m t | None => None end.
Proof.
  induction s as [|c s IH]; intros n; cbn [app plain_digits]; [reflexivity|]. destruct (c =? 95); [apply IH|].
  destruct (seen_digit c); [|reflexivity]. destruct (_ >=? base); [reflexivity|]. apply IH.
Qed.

(** [spaced]: no underscore at the end or beside another; [first] says whether one may be first *)
Fixpoint spaced (ok : bool) (s : bytes) : bool :=
  match s with
  | [] => ok
  | c :: s' => if c =? 95 then ok && spaced false s' else spaced true s'
  end.
Lemma spaced_app ok s c : spaced ok (s ++ [c]) = if c =? 95 then false else spaced ok (s ++ [48]).
Proof.
  revert ok. induction s as [|a s IH]; intros ok; cbn [app spaced].
  - destruct (c =? 95); [apply andb_false_r|reflexivity].
  - rewrite !IH. destruct (a =? 95), (c =? 95); try reflexivity. apply andb_false_r.
Qed.
Lemma run_spaced base s v : digit_run base s v -> spaced false s = true /\ spaced true s = true.
Proof.
  induction 1 as [c d D|s v c d R IH D B|s v c d R IH D B]; try apply digit_under in D.
  - cbn [spaced]. replace (c =? 95) with false by lia. auto.
  - assert (X : forall ok, spaced ok s = true -> spaced ok (s ++ [c]) = true).
    { clear - D. induction s as [|a s IH]; intros ok H; cbn [app spaced] in *; [replace (c =? 95) with false by lia; reflexivity|].
      destruct (a =? 95); [|auto]. apply andb_true_iff in H as [H1 H2]. rewrite H1. cbn. auto. }
    destruct IH. split; apply X; auto.
  - assert (X : forall ok, spaced ok s = true -> spaced ok (s ++ [95; c]) = true).
    { clear - D. induction s as [|a s IH]; intros ok H; cbn [app spaced] in *.
      - rewrite H. cbn [spaced]. replace (c =? 95) with false by lia. reflexivity.
      - destruct (a =? 95); [|auto]. apply andb_true_iff in H as [H1 H2]. rewrite H1. cbn. auto. }
    destruct IH. split; apply X; auto.
Qed.
Lemma run_plain base s v : digit_run base s v -> plain_digits base 0 s = Some v.
Proof.
  assert (Y : forall c d n, digit c d -> d < base -> plain_digits base n [c] = Some (n * base + d)).
  { intros c d n D B. cbn [plain_digits]. pose proof (digit_under c d D). replace (c =? 95) with false by lia.
    apply seen_digit_spec in D. rewrite D. replace (d >=? base) with false by lia. reflexivity. }
  induction 1 as [c d D B|s v c d R IH D B|s v c d R IH D B].
  - rewrite (Y c d 0); auto.
  - rewrite plain_app, IH. apply Y; auto.
  - rewrite plain_app, IH. cbn [plain_digits]. apply (Y c d v); auto.
Qed.
(** digits read one after the other *)
Lemma run_extend base pre v s : digit_run base pre v -> forall w, spaced true s = true -> plain_digits base v s = Some w -> digit_run base (pre ++ s) w.
Proof.
  intros R w. revert pre v R. remember (length s) as k eqn:K. revert s K.
  induction k as [k IH] using lt_wf_ind. intros s K pre v R S P. destruct s as [|c s].
  - cbn in P. injection P as <-. rewrite app_nil_r. auto.
  - cbn [spaced plain_digits] in *. destruct (c =? 95) eqn:C.
    + assert (c = 95) by lia. subst c. cbn [andb] in S. destruct s as [|c s]; [discriminate|]. cbn [spaced plain_digits] in *.
      destruct (c =? 95) eqn:C2; [discriminate|]. destruct (seen_digit c) as [d|] eqn:D; [|discriminate].
      apply seen_digit_spec in D. destruct (d >=? base) eqn:B; [discriminate|].
      replace (pre ++ 95 :: c :: s) with ((pre ++ [95; c]) ++ s) by (rewrite <- app_assoc; reflexivity).
      apply (IH (length s)) with (v * base + d); auto; [cbn in K; lia|]. apply Run_under; auto; lia.
    + destruct (seen_digit c) as [d|] eqn:D; [|discriminate]. apply seen_digit_spec in D. destruct (d >=? base) eqn:B; [discriminate|].
      replace (pre ++ c :: s) with ((pre ++ [c]) ++ s) by (rewrite <- app_assoc; reflexivity).
      apply (IH (length s)) with (v * base + d); auto; [cbn in K; lia|]. apply Run_more; auto; lia.
Qed.
Lemma run_start base s v : s <> [] -> spaced false s = true -> plain_digits base 0 s = Some v -> digit_run base s v.
Proof.
  destruct s as [|c s]; [congruence|]. intros _ S P. cbn [spaced plain_digits] in *. destruct (c =? 95) eqn:C; [discriminate|].
  destruct (seen_digit c) as [d|] eqn:D; [|discriminate]. apply seen_digit_spec in D. destruct (d >=? base) eqn:B; [discriminate|].
  apply (run_extend base [c] d s); auto. apply Run_one; auto; lia.
Qed.
Lemma run_nonempty base s v : digit_run base s v -> s <> [].
Proof. intros R. inversion R; subst; try discriminate; intros X; symmetry in X; revert X; apply app_cons_not_nil. Qed.
Lemma prefixed_iff base s v : prefixed_run base s v <-> s <> [] /\ spaced true s = true /\ plain_digits base 0 s = Some v.
Proof.
  split.
  - intros [R|(s' & -> & R)].
    + split; [apply (run_nonempty base s v R)|]. split; [apply run_spaced in R; tauto|apply run_plain; auto].
    + split; [discriminate|]. cbn [spaced plain_digits]. change (95 =? 95) with true. cbv iota. split; [apply run_spaced in R; tauto|apply run_plain; auto].
  - intros (N & S & P). destruct s as [|c s]; [congruence|]. destruct (Z.eq_dec c 95) as [->|C].
    + right. exists s. split; auto. cbn [spaced plain_digits] in *. change (95 =? 95) with true in *. cbv iota in *. cbn [andb] in S.
      apply run_start; auto. intros ->. discriminate.
    + left. apply run_start; auto. cbn [spaced] in *. replace (c =? 95) with false in * by lia. auto.
Qed.
Lemma run_iff base s v : digit_run base s v <-> s <> [] /\ spaced false s = true /\ plain_digits base 0 s = Some v.
Proof.
  split.
  - intros R. split; [apply (run_nonempty base s v R)|split; [apply run_spaced in R; tauto|apply run_plain; auto]].
  - intros (N & S & P). apply run_start; auto.
Qed.

(** the check of the underscores, for text that consists of digits *)
Lemma underscore_spaced hex base : base <= 10 \/ (hex = true /\ base <= 16) -> forall s n v saw, plain_digits base n s = Some v ->
  saw = 1 \/ saw = 2 -> underscore_loop hex saw s = spaced (saw =? 1) s.
Proof.
  intros B. induction s as [|c s IH]; intros n v saw P S; cbn [underscore_loop spaced plain_digits] in *.
  - destruct S as [-> | ->]; reflexivity.
  - destruct (c =? 95) eqn:C.
    + assert (c = 95) by lia. subst c. replace (((48 <=? 95) && (95 <=? 57)) || (hex && (97 <=? lower_bit 95) && (lower_bit 95 <=? 102))) with false
        by (change (lower_bit 95) with 127; destruct hex; reflexivity).
      destruct S as [-> | ->]; cbn [Z.eqb Pos.eqb negb andb]; [apply (IH n v 2); auto|reflexivity].
    + destruct (seen_digit c) as [d|] eqn:D; [|discriminate]. destruct (d >=? base) eqn:DB; [discriminate|].
      replace (((48 <=? c) && (c <=? 57)) || (hex && (97 <=? lower_bit c) && (lower_bit c <=? 102))) with true; [apply (IH _ v 1 P); auto|].
      unfold seen_digit in D. destruct ((48 <=? c) && (c <=? 57)) eqn:E; [reflexivity|].
      destruct ((97 <=? lower_bit c) && (lower_bit c <=? 122)) eqn:F; [|discriminate]. injection D as <-.
      destruct B as [B|[-> B]]; [lia|]. cbn. lia.
Qed.
Lemma no_under s ok : existsb (fun c => c =? 95) s = false -> s <> [] \/ ok = true -> spaced ok s = true.
Proof.
  revert ok. induction s as [|c s IH]; intros ok U N; cbn [existsb spaced] in *; [tauto|].
  apply orb_false_iff in U as [-> U]. apply IH; auto.
Qed.
Lemma digits_match base ok check s : 2 <= base <= 36 -> s <> [] \/ ok = true ->
  (forall v, plain_digits base 0 s = Some v -> check = spaced ok s) -> forall n,
  match base_digits base 0 false s with None => None | Some (n, under) => if under && negb check then None else Some n end = Some n <->
  spaced ok s = true /\ plain_digits base 0 s = Some n /\ n < 2 ^ 64.
Proof.
  intros B N C n. rewrite base_plain by (unfold max_uint64; lia). destruct (plain_digits base 0 s) as [v|]; [|split; [discriminate|intros (_ & X & _); discriminate]].
  specialize (C v eq_refl). subst check. unfold max_uint64. change (18446744073709551615) with (2 ^ 64 - 1). destruct (v <=? 2 ^ 64 - 1) eqn:V; cbn [orb].
  - destruct (existsb _ s) eqn:U; cbn [andb].
    + destruct (spaced ok s); cbn [negb]; split; try discriminate; try (intros (X & _); discriminate).
      * intros X. injection X as ->. repeat split; auto; lia.
      * intros (_ & X & _). exact X.
    + rewrite no_under by auto. split; [intros X; injection X as ->; repeat split; auto; lia|intros (_ & X & _); exact X].
  - split; [discriminate|]. intros (_ & X & L). injection X as ->. lia.
Qed.
Lemma not_octal p s n v : lower_bit p = 98 \/ lower_bit p = 111 \/ lower_bit p = 120 -> plain_digits 8 n (p :: s) <> Some v.
Proof.
  intros L. cbn [plain_digits].
  assert (X : seen_digit p = Some (lower_bit p - 87)).
  { apply seen_digit_spec. assert (Y : 97 <= lower_bit p <= 122) by lia. destruct (lower_bit_letter p _ Y) as [Z _].
    specialize (Z eq_refl). unfold digit. lia. }
  rewrite X. pose proof (digit_under p _ (proj1 (seen_digit_spec _ _) X)). replace (p =? 95) with false by lia.
  replace (lower_bit p - 87 >=? 8) with true by lia. discriminate.
Qed.
Lemma base_letter_lower p base : base_letter p base <->
  (lower_bit p = 98 /\ base = 2) \/ (lower_bit p = 111 /\ base = 8) \/ (lower_bit p = 120 /\ base = 16).
Proof.
  rewrite !lower_bit_letter by lia. split.
  - intros [c H|c H|c H]; lia.
  - intros [[H ->]|[[H ->]|[H ->]]]; [apply Binary|apply Octal|apply Hexadecimal]; lia.
Qed.
Lemma integer_iff s n : parse_uint0 s = Some n <-> integer s n /\ n < 2 ^ 64.
Proof.
  destruct s as [|z r].
  { split; [discriminate|]. intros [H _]. inversion H. }
  destruct (Z.eq_dec z 48) as [->|Z].
  2:{ (* decimal *)
    assert (U : forall v, plain_digits 10 0 (z :: r) = Some v -> underscore_ok (z :: r) = spaced false (z :: r)).
    { intros v P. unfold underscore_ok. replace ((z =? 45) || (z =? 43)) with false.
      - assert (X : underscore_loop false 0 (z :: r) = spaced false (z :: r)).
        { cbn [plain_digits underscore_loop spaced] in *. destruct (z =? 95) eqn:C.
          - assert (z = 95) by lia. subst z. cbn. reflexivity.
          - destruct (seen_digit z) as [d|] eqn:D; [|discriminate]. destruct (d >=? 10) eqn:B; [discriminate|].
            apply seen_digit_spec in D. replace ((48 <=? z) && (z <=? 57)) with true by (unfold digit in D; lia). cbn [orb].
            apply (underscore_spaced false 10 ltac:(lia) r _ v 1 P). auto. }
        destruct r as [|p r]; [exact X|]. replace (z =? 48) with false by lia. exact X.
      - symmetry. apply orb_false_iff. cbn [plain_digits] in P. destruct (z =? 95) eqn:C; [lia|].
        destruct (seen_digit z) as [d|] eqn:D; [|discriminate]. apply seen_digit_spec in D. unfold digit in D. lia. }
    assert (M : parse_uint0 (z :: r) = match base_digits 10 0 false (z :: r) with None => None | Some (n, under) => if under && negb (underscore_ok (z :: r)) then None else Some n end).
    { unfold parse_uint0. replace (z =? 48) with false by lia. reflexivity. }
    rewrite M. rewrite (digits_match 10 false _ (z :: r) ltac:(lia) ltac:(left; discriminate) U n). split.
    - intros (S & P & L). split; [|auto]. apply Int_decimal; auto. apply run_iff. split; [discriminate|auto].
    - intros [I L]. inversion I; subst; try congruence. match goal with R : digit_run _ _ _ |- _ => apply run_iff in R; tauto end. }
  (* a leading zero *)
  destruct r as [|p r].
  { split.
    - intros H. cbn in H. injection H as <-. split; [constructor|lia].
    - intros [H _]. inversion H; subst; [reflexivity|congruence|]. match goal with R : prefixed_run _ _ _ |- _ => apply prefixed_iff in R; tauto end. }
  assert (Oct : (lower_bit p = 98 \/ lower_bit p = 111 \/ lower_bit p = 120 -> r = []) ->
    parse_uint0 (48 :: p :: r) = match base_digits 8 0 false (p :: r) with None => None | Some (n, under) => if under && negb (underscore_ok (48 :: p :: r)) then None else Some n end).
  { intros H. unfold parse_uint0. change (48 =? 48) with true. cbv iota. destruct r as [|q r]; [reflexivity|].
    destruct (lower_bit p =? 98) eqn:B1; [exfalso; discriminate H; lia|]. destruct (lower_bit p =? 111) eqn:B2; [exfalso; discriminate H; lia|].
    destruct (lower_bit p =? 120) eqn:B3; [exfalso; discriminate H; lia|]. reflexivity. }
  assert (OctI : (lower_bit p = 98 \/ lower_bit p = 111 \/ lower_bit p = 120 -> r = []) -> (integer (48 :: p :: r) n <-> prefixed_run 8 (p :: r) n)).
  { intros H. split; [|intros X; apply Int_octal; auto]. intros I. inversion I; subst; try congruence; auto.
    exfalso. match goal with BL : base_letter _ _, PR : prefixed_run _ r _ |- _ => apply base_letter_lower in BL; assert (r = []) by (apply H; tauto); subst r; apply prefixed_iff in PR; tauto end. }
  assert (Oct2 : (lower_bit p = 98 \/ lower_bit p = 111 \/ lower_bit p = 120 -> r = []) -> parse_uint0 (48 :: p :: r) = Some n <-> integer (48 :: p :: r) n /\ n < 2 ^ 64).
  { intros H. rewrite Oct, OctI by auto. rewrite (digits_match 8 true _ (p :: r) ltac:(lia) ltac:(auto)).
    - rewrite prefixed_iff. split; [intros (S & P & L); repeat split; auto; discriminate|tauto].
    - intros v P. unfold underscore_ok. cbn [Z.eqb Pos.eqb orb andb].
      destruct ((lower_bit p =? 98) || (lower_bit p =? 111) || (lower_bit p =? 120)) eqn:E.
      + exfalso. apply (not_octal p r 0 v ltac:(lia) P).
      + cbn [underscore_loop]. cbn [Z.leb Z.compare Pos.compare Pos.compare_cont andb orb]. apply (underscore_spaced false 8 ltac:(lia) _ 0 v 1 P). auto. }
  destruct r as [|q r]; [apply Oct2; auto|].
  assert (D : (exists base, base_letter p base) \/ ~ (lower_bit p = 98 \/ lower_bit p = 111 \/ lower_bit p = 120)).
  { setoid_rewrite base_letter_lower. destruct (Z.eq_dec (lower_bit p) 98); [left; exists 2; tauto|]. destruct (Z.eq_dec (lower_bit p) 111); [left; exists 8; tauto|].
    destruct (Z.eq_dec (lower_bit p) 120); [left; exists 16; tauto|]. right. tauto. }
  destruct D as [[base BL]|D]; [|apply Oct2; tauto]. clear Oct OctI Oct2.
  assert (I : integer (48 :: p :: q :: r) n <-> prefixed_run base (q :: r) n).
  { split; [|intros X; apply (Int_base p base); auto]. intros I. inversion I; subst; try congruence.
    - exfalso. match goal with R : prefixed_run _ _ _ |- _ => apply prefixed_iff in R; destruct R as (_ & _ & P) end. apply base_letter_lower in BL. apply (not_octal p (q :: r) 0 n ltac:(tauto) P).
    - match goal with R : prefixed_run ?b _ _, B2 : base_letter p ?b |- _ => apply base_letter_lower in BL; apply base_letter_lower in B2; assert (b = base) by lia; subst; auto end. }
  rewrite I, prefixed_iff. clear I. apply base_letter_lower in BL.
  assert (M : parse_uint0 (48 :: p :: q :: r) = match base_digits base 0 false (q :: r) with None => None | Some (n, under) => if under && negb (underscore_ok (48 :: p :: q :: r)) then None else Some n end).
  { unfold parse_uint0. change (48 =? 48) with true. cbv iota. destruct BL as [[L ->]|[[L ->]|[L ->]]]; rewrite L; reflexivity. }
  rewrite M. rewrite (digits_match base true _ (q :: r) ltac:(lia) ltac:(auto)).
  - split; [intros (S & P & L); repeat split; auto; discriminate|tauto].
  - intros v P. unfold underscore_ok. cbn [Z.eqb Pos.eqb orb andb].
    replace ((lower_bit p =? 98) || (lower_bit p =? 111) || (lower_bit p =? 120)) with true by lia.
    apply (underscore_spaced (lower_bit p =? 120) base ltac:(lia) _ 0 v 1 P). auto.
Qed.

(** ** Options *)
Definition kind_of (v : flag_value) : kind := match v with Bool _ => Switch | Uint _ => Number | Str _ => Words end.
Definition value_of (v : setting) : flag_value := match v with On b => Bool b | Num n => Uint n | Txt t => Str t end.
Definition table_of (fs : flag_set) (tab : table) : Prop :=
  forall n k, In (n, k) tab <-> exists v, flag_get fs n = Some v /\ kind_of v = k.
Definition names_ok (tab : table) : Prop := forall n k, In (n, k) tab -> option_name n.
Fixpoint put_all (fs : flag_set) (s : list (bytes * setting)) : flag_set :=
  match s with [] => fs | (n, v) :: s' => put_all (flag_put fs n (value_of v)) s' end.

Lemma get_put fs n v m : flag_get (flag_put fs n v) m =
  if bytes_eqb n m then match flag_get fs n with Some _ => Some v | None => None end else flag_get fs m.
Proof.
  induction fs as [|[k w] fs IH]; cbn [flag_put flag_get]; [destruct (bytes_eqb n m); reflexivity|].
  destruct (bytes_eqb k n) eqn:K; cbn [flag_get].
  - apply bytes_eqb_eq in K. subst k. destruct (bytes_eqb n m); reflexivity.
  - rewrite IH. destruct (bytes_eqb k m) eqn:KM; [|reflexivity]. destruct (bytes_eqb n m) eqn:NM; [|reflexivity].
    apply bytes_eqb_eq in KM, NM. subst. assert (X : bytes_eqb m m = true) by (apply bytes_eqb_eq; reflexivity). congruence.
Qed.
Lemma table_put fs tab n v old : table_of fs tab -> flag_get fs n = Some old -> kind_of v = kind_of old -> table_of (flag_put fs n v) tab.
Proof.
  intros T G K m k. rewrite (T m k), get_put. destruct (bytes_eqb n m) eqn:E; [|reflexivity]. apply bytes_eqb_eq in E. subst m. rewrite G.
  split; intros (x & X & <-); injection X as <-; eauto.
Qed.
Lemma means_kind k t v : means k t v -> kind_of (value_of v) = k.
Proof. intros []; reflexivity. Qed.
Lemma parse_value_iff old t v : flag_parse_value old t = Some v <-> exists x, v = value_of x /\ means (kind_of old) t x.
Proof.
  destruct old as [b|m|w]; cbn [flag_parse_value kind_of].
  - unfold parse_bool. fold true_texts. fold false_texts. assert (X : forall l, existsb (bytes_eqb t) l = true <-> In t l).
    { intros l. rewrite existsb_exists. split; [intros (x & I & Q); apply bytes_eqb_eq in Q; subst; auto|]. intros I. exists t. split; auto. apply bytes_eqb_eq. auto. }
    destruct (existsb (bytes_eqb t) true_texts) eqn:T; [|destruct (existsb (bytes_eqb t) false_texts) eqn:F]; cbn [option_map].
    + apply X in T. split; [intros H; injection H as <-; exists (On true); split; [reflexivity|constructor; exact T]|].
      intros (x & -> & M). inversion M; subst; [reflexivity|]. exfalso. clear M X. repeat (destruct T as [<-|T]; [vm_compute in H; intuition discriminate|]). destruct T.
    + apply X in F. split; [intros H; injection H as <-; exists (On false); split; [reflexivity|constructor; exact F]|].
      intros (x & -> & M). inversion M; subst; [|reflexivity]. apply X in H. congruence.
    + split; [discriminate|]. intros (x & -> & M). inversion M; subst; apply X in H; congruence.
  - split.
    + destruct (parse_uint0 t) as [n|] eqn:P; [|discriminate]. intros H. injection H as <-. apply integer_iff in P. exists (Num n). split; [reflexivity|constructor; tauto].
    + intros (x & -> & M). inversion M; subst. destruct (integer_iff t n) as [_ X]. rewrite X; auto.
  - split.
    + intros H. injection H as <-. exists (Txt t). split; [reflexivity|constructor].
    + intros (x & -> & M). inversion M; subst. reflexivity.
Qed.
Lemma parse_value_none old t : flag_parse_value old t = None <-> forall x, ~ means (kind_of old) t x.
Proof.
  split.
  - intros H x M. destruct (parse_value_iff old t (value_of x)) as [_ X]. rewrite X in H by eauto. discriminate.
  - intros H. destruct (flag_parse_value old t) eqn:E; [|reflexivity]. apply parse_value_iff in E as (x & _ & M). destruct (H x M).
Qed.
Lemma means_fun k t v v' : means k t v -> means k t v' -> v = v'.
Proof.
  intros M M'. assert (exists old, kind_of old = k) as [old <-] by (destruct k; [exists (Bool true)|exists (Uint 0)|exists (Str [])]; reflexivity).
  assert (A : flag_parse_value old t = Some (value_of v)) by (apply parse_value_iff; eauto).
  assert (B : flag_parse_value old t = Some (value_of v')) by (apply parse_value_iff; eauto).
  rewrite A in B. destruct v, v'; cbn in B; congruence.
Qed.

Lemma cut_none n : ~ In 61 n -> cut_equals n = (n, None).
Proof.
  induction n as [|c n IH]; intros H; cbn [cut_equals]; [reflexivity|]. destruct (c =? 61) eqn:C; [destruct H; left; lia|].
  rewrite IH; [reflexivity|]. intros X. apply H. right. auto.
Qed.
Lemma cut_some n t : ~ In 61 n -> cut_equals (n ++ 61 :: t) = (n, Some t).
Proof.
  induction n as [|c n IH]; intros H; cbn [app cut_equals]; [reflexivity|]. destruct (c =? 61) eqn:C; [destruct H; left; lia|].
  rewrite IH; [reflexivity|]. intros X. apply H. right. auto.
Qed.
Lemma cut_inv s : match cut_equals s with (n, None) => s = n /\ ~ In 61 n | (n, Some t) => s = n ++ 61 :: t /\ ~ In 61 n end.
Proof.
  induction s as [|c s IH]; cbn [cut_equals]; [auto|]. destruct (c =? 61) eqn:C; [split; [cbn; f_equal; lia|auto]|].
  destruct (cut_equals s) as [n [t|]]; destruct IH as [-> N]; split; auto; cbn [In]; intros [X|X]; (lia || auto).
Qed.

(** one turn of the parser on an argument that names an option *)
Definition turn (f : nat) (fs : flag_set) (name : bytes) (value : option bytes) (rest : list bytes) : parsed :=
  match flag_get fs name with
  | None => if bytes_eqb name (bs "help") || bytes_eqb name (bs "h") then Help else Bad_flags
  | Some old =>
      match old, value, rest with
      | Bool _, None, _ => flag_parse f (flag_put fs name (Bool true)) rest
      | _, Some text, _ =>
          match flag_parse_value old text with
          | Some v => flag_parse f (flag_put fs name v) rest
          | None => Bad_flags
          end
      | _, None, text :: rest' =>
          match flag_parse_value old text with
          | Some v => flag_parse f (flag_put fs name v) rest'
          | None => Bad_flags
          end
      | _, None, [] => Bad_flags
      end
  end.
Lemma turn_body f fs body a rest c r : body = c :: r -> c <> 45 -> c <> 61 -> dashed body a ->
  flag_parse (S f) fs (a :: rest) = let (n, v) := cut_equals body in turn f fs n v rest.
Proof.
  intros -> C E D. assert (X : split_flag (c :: r) = cut_equals (c :: r)).
  { unfold split_flag. cbn [cut_equals]. replace (c =? 61) with false by lia. reflexivity. }
  inversion D; subst.
  - cbn [flag_parse]. change (negb (45 =? 45)) with false. cbv iota. replace (c =? 45) with false by lia. cbn [andb orb]. cbv beta iota zeta.
    replace (c =? 45) with false by lia. replace (c =? 61) with false by lia. cbn [orb]. rewrite X. destruct (cut_equals (c :: r)). reflexivity.
  - cbn [flag_parse]. change (negb (45 =? 45)) with false. cbv iota. change (45 =? 45) with true. cbn [andb orb]. cbv beta iota zeta.
    replace (c =? 45) with false by lia. replace (c =? 61) with false by lia. cbn [orb]. rewrite X. destruct (cut_equals (c :: r)). reflexivity.
Qed.
Lemma turn_bare f fs n a rest : option_name n -> dashed n a -> flag_parse (S f) fs (a :: rest) = turn f fs n None rest.
Proof.
  intros (c & r & E & C & N) D. rewrite (turn_body f fs n a rest c r); auto; [|intros ->; subst n; apply N; left; reflexivity].
  rewrite cut_none by auto. reflexivity.
Qed.
Lemma turn_equals f fs n t a rest : option_name n -> dashed (n ++ 61 :: t) a -> flag_parse (S f) fs (a :: rest) = turn f fs n (Some t) rest.
Proof.
  intros (c & r & E & C & N) D. rewrite (turn_body f fs (n ++ 61 :: t) a rest c (r ++ 61 :: t)); auto; [|subst n; reflexivity|intros ->; subst n; apply N; left; reflexivity].
  rewrite cut_some by auto. reflexivity.
Qed.

(** Settings are stored, whatever follows *)
Lemma parse_settings tab s args more : settings_then tab s args more -> forall fs f, table_of fs tab -> names_ok tab -> (length args < f)%nat ->
  exists f', (length more < f')%nat /\ flag_parse f fs args = flag_parse f' (put_all fs s) more /\ table_of (put_all fs s) tab.
Proof.
  induction 1 as [rest|n k v opt s args rest I S R IH]; intros fs f T O L; [exists f; auto|].
  destruct (proj1 (T n k) I) as (old & G & K). pose proof (O n k I) as ON.
  assert (P : forall m, (length args < m)%nat -> kind_of (value_of v) = k ->
    exists f', (length rest < f')%nat /\ flag_parse m (flag_put fs n (value_of v)) args = flag_parse f' (put_all fs ((n, v) :: s)) rest /\ table_of (put_all fs ((n, v) :: s)) tab).
  { intros m Lm Km. cbn [put_all]. apply IH; auto. apply (table_put fs tab n _ old); auto. congruence. }
  destruct f as [|f]; [lia|]. inversion S; subst; cbn [app length] in *.
  - rewrite (turn_bare f fs n a args) by auto. unfold turn. rewrite G. destruct old; try discriminate. apply P; [lia|reflexivity].
  - rewrite (turn_equals f fs n t a args) by auto. unfold turn. rewrite G.
    assert (X : flag_parse_value old t = Some (value_of v)) by (apply parse_value_iff; eauto).
    assert (Q : kind_of (value_of v) = kind_of old) by (eapply means_kind; eauto).
    destruct old; rewrite X; apply P; auto; lia.
  - rewrite (turn_bare f fs n a (t :: args)) by auto. unfold turn. rewrite G.
    assert (X : flag_parse_value old t = Some (value_of v)) by (apply parse_value_iff; eauto).
    assert (Q : kind_of (value_of v) = kind_of old) by (eapply means_kind; eauto).
    destruct old; [exfalso; auto| |]; rewrite X; apply P; auto; lia.
Qed.
Lemma parse_end more rest fs f : options_end more rest -> (length more < f)%nat -> flag_parse f fs more = Parsed fs rest.
Proof.
  intros H L. destruct f as [|f]; [lia|]. destruct H as [|rest|a rest [->|[->|(c & r & -> & C)]]]; try reflexivity.
  destruct r as [|c' r]; [reflexivity|]. cbn [flag_parse]. replace (c =? 45) with false by lia. reflexivity.
Qed.
Lemma parse_help more n rest fs f : names more n -> In n help_names -> flag_get fs n = None -> flag_parse (S f) fs (more :: rest) = Help.
Proof.
  intros N H G. assert (X : bytes_eqb n (bs "help") || bytes_eqb n (bs "h") = true).
  { destruct H as [<-|[<-|[]]]; reflexivity. }
  destruct N as [O D|t O D]; [rewrite (turn_bare f fs n more rest O D)|rewrite (turn_equals f fs n t more rest O D)]; unfold turn; rewrite G, X; reflexivity.
Qed.
Lemma parse_wrong tab more fs f : wrong tab more -> table_of fs tab -> names_ok tab -> (length more < f)%nat -> flag_parse f fs more = Bad_flags.
Proof.
  intros W T O L. destruct f as [|f]; [lia|].
  assert (G0 : forall n, (forall k, ~ In (n, k) tab) -> flag_get fs n = None).
  { intros n H. destruct (flag_get fs n) as [v|] eqn:G; [|reflexivity]. destruct (H (kind_of v)). apply T. eauto. }
  destruct W as [r rest|a r rest D|a n rest N H K|n k t a rest I D M|n k t a rest I K D M|n k a I K D].
  - reflexivity.
  - inversion D; subst; reflexivity.
  - assert (X : bytes_eqb n (bs "help") || bytes_eqb n (bs "h") = false).
    { apply orb_false_iff. split; (match goal with |- bytes_eqb n ?x = false => destruct (bytes_eqb n x) eqn:E; [apply bytes_eqb_eq in E; subst; destruct K; cbn; auto|reflexivity] end). }
    destruct N as [On D|t On D]; [rewrite (turn_bare f fs n a rest On D)|rewrite (turn_equals f fs n t a rest On D)]; unfold turn; rewrite G0, X by auto; reflexivity.
  - destruct (proj1 (T n k) I) as (old & G & <-). rewrite (turn_equals f fs n t a rest (O n _ I) D). unfold turn. rewrite G.
    apply parse_value_none in M. destruct old; rewrite M; reflexivity.
  - destruct (proj1 (T n k) I) as (old & G & <-). rewrite (turn_bare f fs n a _ (O n _ I) D). unfold turn. rewrite G.
    apply parse_value_none in M. destruct old; [destruct K; reflexivity| |]; rewrite M; reflexivity.
  - destruct (proj1 (T n k) I) as (old & G & <-). rewrite (turn_bare f fs n a _ (O n _ I) D). unfold turn. rewrite G.
    destruct old; [destruct K; reflexivity| |]; reflexivity.
Qed.

(** Every command line is of one of the three sorts *)
Lemma sorts tab : names_ok tab -> (forall n, (exists k, In (n, k) tab) \/ forall k, ~ In (n, k) tab) -> forall len args, (length args <= len)%nat ->
  (exists s rest, command_line tab s args rest) \/ help_line tab args \/ wrong_line tab args.
Proof.
  intros O Dec. induction len as [|len IH]; intros args L.
  { destruct args; [|cbn in L; lia]. left. exists [], []. exists []. split; constructor. }
  destruct args as [|a rest]; [left; exists [], []; exists []; split; constructor|]. cbn [length] in L.
  assert (Step : forall n k v opt args', In (n, k) tab -> spelled n k v opt -> a :: rest = opt ++ args' -> (length args' <= len)%nat ->
    (exists s rest', command_line tab s (a :: rest) rest') \/ help_line tab (a :: rest) \/ wrong_line tab (a :: rest)).
  { intros n k v opt args' I S E La. rewrite E. destruct (IH args' La) as [(s & r & more & S1 & S2)|[(s & b & m & r & S1 & S2)|(s & more & S1 & S2)]].
    - left. exists ((n, v) :: s), r, more. split; [econstructor; eauto|auto].
    - right; left. exists ((n, v) :: s), b, m, r. split; [econstructor; eauto|auto].
    - right; right. exists ((n, v) :: s), more. split; [econstructor; eauto|auto]. }
  assert (End : forall r, options_end (a :: rest) r -> (exists s rest', command_line tab s (a :: rest) rest')).
  { intros r E. exists [], r, (a :: rest). split; [constructor|auto]. }
  assert (Bad : wrong tab (a :: rest) -> wrong_line tab (a :: rest)).
  { intros W. exists [], (a :: rest). split; [constructor|auto]. }
  destruct a as [|m [|c s']]; [left; apply (End ([] :: rest)), End_plain; left; auto| |].
  { destruct (Z.eq_dec m 45) as [->|M]; left; eapply End, End_plain; [right; left; auto|right; right; eauto]. }
  destruct (Z.eq_dec m 45) as [->|M]; [|left; eapply End, End_plain; right; right; eauto].
  assert (Body : forall body, dashed body (45 :: c :: s') -> (exists d r, body = d :: r /\ d <> 45 /\ d <> 61) ->
    (exists s rest', command_line tab s ((45 :: c :: s') :: rest) rest') \/ help_line tab ((45 :: c :: s') :: rest) \/ wrong_line tab ((45 :: c :: s') :: rest)).
  { intros body D (d & r & E & Nd & Ne). pose proof (cut_inv body) as C. destruct (cut_equals body) as [n v] eqn:CE.
    assert (ON : option_name n).
    { subst body. cbn [cut_equals] in CE. replace (d =? 61) with false in CE by lia. destruct (cut_equals r) as [n' v']. injection CE as <- <-.
      exists d, n'. split; [auto|]. split; [auto|]. destruct v'; tauto. }
    assert (N : names (45 :: c :: s') n).
    { destruct v as [t|]; destruct C as [C _]; rewrite C in D; [apply (Names_equals _ _ t)|apply Names_bare]; auto. }
    destruct (Dec n) as [[k I]|A].
    - destruct v as [t|]; destruct C as [C _]; rewrite C in D.
      + assert (V : (exists v, means k t v) \/ forall v, ~ means k t v).
        { destruct (flag_parse_value (match k with Switch => Bool true | Number => Uint 0 | Words => Str [] end) t) as [v|] eqn:P.
          - apply parse_value_iff in P as (x & _ & X). left. exists x. destruct k; exact X.
          - right. intros v X. apply parse_value_none with (x := v) in P. apply P. destruct k; exact X. }
        destruct V as [[v V]|V].
        * apply (Step n k v [45 :: c :: s'] rest I); [eapply Spell_equals; eauto|reflexivity|lia].
        * right; right. apply Bad. eapply Wrong_value; eauto.
      + destruct k.
        * apply (Step n Switch (On true) [45 :: c :: s'] rest I); [apply Spell_bare; auto|reflexivity|lia].
        * destruct rest as [|t rest]; [right; right; apply Bad; apply (Wrong_missing tab n Number); auto; discriminate|].
          assert (V : (exists v, means Number t v) \/ forall v, ~ means Number t v).
          { destruct (flag_parse_value (Uint 0) t) as [v|] eqn:P.
            - apply parse_value_iff in P as (x & _ & X). left. exists x. exact X.
            - right. intros v X. apply parse_value_none with (x := v) in P. apply P. exact X. }
          destruct V as [[v V]|V].
          -- apply (Step n Number v [45 :: c :: s'; t] rest I); [apply Spell_next; auto; discriminate|reflexivity|cbn in L; lia].
          -- right; right. apply Bad. apply (Wrong_next tab n Number); auto. discriminate.
        * destruct rest as [|t rest]; [right; right; apply Bad; apply (Wrong_missing tab n Words); auto; discriminate|].
          apply (Step n Words (Txt t) [45 :: c :: s'; t] rest I); [apply Spell_next; auto; [discriminate|constructor]|reflexivity|cbn in L; lia].
    - destruct (in_dec (list_eq_dec Z.eq_dec) n help_names) as [H|H].
      + right; left. exists [], (45 :: c :: s'), n, rest. split; [constructor|auto].
      + right; right. apply Bad. apply (Wrong_name tab _ n); auto. }
  destruct (Z.eq_dec c 45) as [->|C].
  - destruct s' as [|d s']; [left; apply (End rest); constructor|].
    destruct (Z.eq_dec d 45) as [->|D]; [right; right; apply Bad; constructor|].
    destruct (Z.eq_dec d 61) as [->|D1]; [right; right; apply Bad; apply (Wrong_equals tab _ s'); constructor|].
    apply (Body (d :: s')); [constructor|eauto 6].
  - destruct (Z.eq_dec c 61) as [->|C1]; [right; right; apply Bad; apply (Wrong_equals tab _ s'); constructor|].
    apply (Body (c :: s')); [constructor|eauto 6].
Qed.

(** reading the options back *)
Lemma get_all s : forall fs n, (forall m v, In (m, v) s -> flag_get fs m <> None) ->
  flag_get (put_all fs s) n = match last_setting s n with Some v => Some (value_of v) | None => flag_get fs n end.
Proof.
  induction s as [|[m v] s IH]; intros fs n H; [reflexivity|]. cbn [put_all last_setting]. rewrite IH.
  - destruct (last_setting s n); [reflexivity|]. rewrite get_put. destruct (list_eq_dec Z.eq_dec m n) as [->|N].
    + replace (bytes_eqb n n) with true by (symmetry; apply bytes_eqb_eq; reflexivity).
      specialize (H n v (or_introl eq_refl)). destruct (flag_get fs n); congruence.
    + destruct (bytes_eqb m n) eqn:E; [apply bytes_eqb_eq in E; congruence|reflexivity].
  - intros m' v' I. rewrite get_put. specialize (H m' v' (or_intror I)). destruct (bytes_eqb m m') eqn:E; [|auto].
    apply bytes_eqb_eq in E. subst m'. destruct (flag_get fs m); congruence.
Qed.
Lemma settings_known tab s args more : settings_then tab s args more -> forall m v, In (m, v) s -> exists k, In (m, k) tab /\ kind_of (value_of v) = k.
Proof.
  induction 1 as [|n k v opt s args rest I S R IH]; intros m x; [intros []|]. intros [E|X]; [|eauto]. injection E as <- <-. exists k. split; [auto|].
  inversion S; subst; try reflexivity; eapply means_kind; eauto.
Qed.
Lemma last_in s n v : last_setting s n = Some v -> In (n, v) s.
Proof.
  induction s as [|[m x] s IH]; cbn [last_setting]; [discriminate|]. destruct (last_setting s n) as [y|].
  - intros H. injection H as <-. right. auto.
  - destruct (list_eq_dec Z.eq_dec m n) as [->|]; [|discriminate]. intros H. injection H as <-. left. auto.
Qed.
