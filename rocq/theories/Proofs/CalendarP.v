(** The calendar of package time is the Gregorian one. *)
From Coq Require Import Lia ZifyBool ZifyNat.
From Verif.Model Require Import GoBase GoTime.
From Verif.Spec Require Import GoCalendar CalendarSpec.
Ltac Zify.zify_post_hook ::= Z.div_mod_to_equations.

(** the year, less absoluteZeroYear, and the day in it, of a day *)
Definition year_and_day (d : Z) : Z * Z :=
  let n := d / days_400 in
  let y := 400 * n in
  let d := d - days_400 * n in
  let n := d / days_100 in
  let n := n - n / 4 in
  let y := y + 100 * n in
  let d := d - days_100 * n in
  let n := d / days_4 in
  let y := y + 4 * n in
  let d := d - days_4 * n in
  let n := d / 365 in
  let n := n - n / 4 in
  (y + n, d - 365 * n).
Definition date_of (d : Z) : date :=
  let (y, f) := year_and_day d in
  let (month, day) := month_and_day (go_leap (y + absolute_zero_year)) f in (y + absolute_zero_year, month, day).
Lemma abs_date_day abs : abs_date abs = date_of (abs / 86400).
Proof. unfold abs_date, date_of, year_and_day. generalize (abs / 86400) as d. intros d. cbv zeta. reflexivity. Qed.

(** 400, 100, 4 years, years and days *)
Definition parts (a b c e f : Z) : Prop :=
  0 <= b <= 3 /\ 0 <= c <= 24 /\ 0 <= e <= 3 /\ 0 <= f <= 365 /\ (f = 365 -> e = 3 /\ (c < 24 \/ b = 3)).
Definition day_of (a b c e f : Z) : Z := 146097 * a + 36524 * b + 1461 * c + 365 * e + f.
Lemma year_parts a b c e f : parts a b c e f -> year_and_day (day_of a b c e f) = (400 * a + 100 * b + 4 * c + e, f).
Proof.
  intros (B & C & E & F & L). unfold year_and_day, day_of. change days_400 with 146097. change days_100 with 36524. change days_4 with 1461.
  assert (N1 : (146097 * a + 36524 * b + 1461 * c + 365 * e + f) / 146097 = a) by (symmetry; apply Z.div_unique with (36524 * b + 1461 * c + 365 * e + f); lia).
  rewrite N1. replace (146097 * a + 36524 * b + 1461 * c + 365 * e + f - 146097 * a) with (36524 * b + (1461 * c + 365 * e + f)) by lia.
  assert (N2 : let n := (36524 * b + (1461 * c + 365 * e + f)) / 36524 in n - n / 4 = b) by (cbv zeta; lia). cbv zeta in N2. rewrite N2.
  replace (36524 * b + (1461 * c + 365 * e + f) - 36524 * b) with (1461 * c + (365 * e + f)) by lia.
  assert (N3 : (1461 * c + (365 * e + f)) / 1461 = c) by (symmetry; apply Z.div_unique with (365 * e + f); lia). rewrite N3.
  replace (1461 * c + (365 * e + f) - 1461 * c) with (365 * e + f) by lia.
  assert (N4 : let n := (365 * e + f) / 365 in n - n / 4 = e) by (cbv zeta; lia). cbv zeta in N4. rewrite N4.
  replace (365 * e + f - 365 * e) with f by lia. reflexivity.
Qed.
Lemma parts_exist d : exists a b c e f, parts a b c e f /\ d = day_of a b c e f.
Proof.
  unfold parts, day_of. set (a := d / 146097). set (r := d - 146097 * a). assert (R : 0 <= r < 146097) by (unfold r, a; lia).
  set (b := Z.min 3 (r / 36524)). set (r2 := r - 36524 * b). assert (R2 : 0 <= b <= 3 /\ 0 <= r2 /\ (b < 3 -> r2 < 36524) /\ r2 <= 36524) by (unfold r2, b; lia).
  set (c := r2 / 1461). set (r3 := r2 - 1461 * c). assert (R3 : 0 <= c <= 24 /\ 0 <= r3 < 1461 /\ (c = 24 -> b < 3 -> r3 < 1460)) by (unfold r3, c; lia).
  set (e := Z.min 3 (r3 / 365)). set (f := r3 - 365 * e). exists a, b, c, e, f.
  assert (R4 : 0 <= e <= 3 /\ 0 <= f <= 365 /\ (f = 365 -> e = 3 /\ r3 = 1460)) by (unfold f, e; lia).
  assert (Q3 : r3 = 365 * e + f) by (unfold f; lia). assert (Q2 : r2 = 1461 * c + r3) by (unfold r3; lia). assert (Q1 : r = 36524 * b + r2) by (unfold r2; lia). assert (Q0 : d = 146097 * a + r) by (unfold r; lia).
  clearbody f e r3 c r2 b r a. lia.
Qed.
Lemma leap_parts a b c e f : parts a b c e f -> go_leap (400 * a + 100 * b + 4 * c + e + absolute_zero_year) = (e =? 3) && ((c <? 24) || (b =? 3)).
Proof.
  intros (B & C & E & _). unfold go_leap, absolute_zero_year.
  assert (M4 : (400 * a + 100 * b + 4 * c + e + -292277022399) mod 4 = (e + 1) mod 4).
  { replace (400 * a + 100 * b + 4 * c + e + -292277022399) with (e + 1 + (100 * a + 25 * b + c - 73069255600) * 4) by lia. apply Z_mod_plus_full. }
  assert (M100 : (400 * a + 100 * b + 4 * c + e + -292277022399) mod 100 = (4 * c + e + 1) mod 100).
  { replace (400 * a + 100 * b + 4 * c + e + -292277022399) with (4 * c + e + 1 + (4 * a + b - 2922770224) * 100) by lia. apply Z_mod_plus_full. }
  assert (M400 : (400 * a + 100 * b + 4 * c + e + -292277022399) mod 400 = (100 * b + 4 * c + e + 1) mod 400).
  { replace (400 * a + 100 * b + 4 * c + e + -292277022399) with (100 * b + 4 * c + e + 1 + (a - 730692556) * 400) by lia. apply Z_mod_plus_full. }
  rewrite M4, M100, M400. clear M4 M100 M400. lia.
Qed.
Lemma go_leap_ok y : go_leap y = true <-> leap_year y.
Proof.
  unfold go_leap, leap_year. rewrite <- !Z.mod_divide by discriminate. rewrite andb_true_iff, orb_true_iff, negb_true_iff, !Z.eqb_eq, Z.eqb_neq.
  destruct (Z.eq_dec (y mod 100) 0); intuition.
Qed.
(** within a year: a sweep over its days *)
Definition month_days (leap : bool) (m : Z) : Z :=
  if (m =? 2) then (if leap then 29 else 28) else if (m =? 4) || (m =? 6) || (m =? 9) || (m =? 11) then 30 else 31.
Definition step_ok (leap : bool) (f : nat) : bool :=
  let (m, d) := month_and_day leap (Z.of_nat f) in
  let (m', d') := month_and_day leap (Z.of_nat f + 1) in
  (1 <=? m) && (m <=? 12) && (1 <=? d) && (d <=? month_days leap m) &&
  (if Nat.eqb f (if leap then 365 else 364) then (m =? 12) && (d =? 31)
   else if d <? month_days leap m then (m' =? m) && (d' =? d + 1) else (m <? 12) && (m' =? m + 1) && (d' =? 1)).
Lemma steps_ok : forallb (step_ok false) (seq 0 365) && forallb (step_ok true) (seq 0 366) = true.
Proof. vm_compute. reflexivity. Qed.
Lemma month_days_ok y m : 1 <= m <= 12 -> month_length y m (month_days (go_leap y) m).
Proof.
  intros M. unfold month_length, month_days. pose proof (go_leap_ok y) as L.
  assert (C : m = 1 \/ m = 2 \/ m = 3 \/ m = 4 \/ m = 5 \/ m = 6 \/ m = 7 \/ m = 8 \/ m = 9 \/ m = 10 \/ m = 11 \/ m = 12) by lia.
  destruct C as [-> |[-> |[-> |[-> |[-> |[-> |[-> |[-> |[-> |[-> |[-> | ->]]]]]]]]]]]; cbn [Z.eqb Pos.eqb orb];
    try (left; split; [cbn; tauto|reflexivity]); try (right; left; split; [cbn; tauto|reflexivity]).
  destruct (go_leap y); right; right; [left|right]; (split; [reflexivity|]); split; [tauto|reflexivity| |reflexivity]. intuition discriminate.
Qed.
Lemma step_in y f : 0 <= f -> f <= (if go_leap y then 365 else 364) ->
  let (m, d) := month_and_day (go_leap y) f in
  (f = (if go_leap y then 365 else 364) -> m = 12 /\ d = 31) /\
  (f < (if go_leap y then 365 else 364) -> next_day (y, m, d) (y, fst (month_and_day (go_leap y) (f + 1)), snd (month_and_day (go_leap y) (f + 1)))) /\
  1 <= m <= 12 /\ 1 <= d <= 31.
Proof.
  intros F0 F1. assert (S : step_ok (go_leap y) (Z.to_nat f) = true).
  { pose proof steps_ok as A. apply andb_true_iff in A as [A B]. rewrite forallb_forall in A, B. destruct (go_leap y); [apply B|apply A]; apply in_seq; lia. }
  pose proof (month_days_ok y) as ML.
  unfold step_ok in S. rewrite Z2Nat.id in S by lia. destruct (month_and_day (go_leap y) f) as [m d]. destruct (month_and_day (go_leap y) (f + 1)) as [m' d']. cbn [fst snd].
  assert (MD : month_days (go_leap y) m <= 31) by (unfold month_days; destruct (m =? 2), (go_leap y), ((m =? 4) || (m =? 6) || (m =? 9) || (m =? 11)); lia).
  repeat match type of S with _ && _ = true => apply andb_true_iff in S; let T := fresh in destruct S as [S T] end.
  specialize (ML m ltac:(lia)).
  split; [|split; [|lia]].
  - intros Q. assert (X : Nat.eqb (Z.to_nat f) (if go_leap y then 365 else 364) = true) by (apply Nat.eqb_eq; destruct (go_leap y); lia).
    rewrite X in *. lia.
  - intros Q. assert (X : Nat.eqb (Z.to_nat f) (if go_leap y then 365 else 364) = false) by (apply Nat.eqb_neq; destruct (go_leap y); lia).
    rewrite X in *. destruct (d <? month_days (go_leap y) m) eqn:D.
    + replace m' with m by lia. replace d' with (d + 1) by lia. apply Next_in with (n := month_days (go_leap y) m); [exact ML|lia].
    + replace m' with (m + 1) by lia. replace d' with 1 by lia. replace d with (month_days (go_leap y) m) by lia. apply Next_month; [exact ML|lia].
Qed.
Lemma date_of_parts a b c e f : parts a b c e f -> let y := 400 * a + 100 * b + 4 * c + e + absolute_zero_year in
  date_of (day_of a b c e f) = (y, fst (month_and_day (go_leap y) f), snd (month_and_day (go_leap y) f)).
Proof. intros P y. unfold date_of. rewrite (year_parts _ _ _ _ _ P). fold y. destruct (month_and_day (go_leap y) f). reflexivity. Qed.
Lemma date_of_next d : next_day (date_of d) (date_of (d + 1)).
Proof.
  destruct (parts_exist d) as (a & b & c & e & f & P & ->). rewrite (date_of_parts _ _ _ _ _ P). cbv zeta. set (y := 400 * a + 100 * b + 4 * c + e + absolute_zero_year).
  pose proof (leap_parts _ _ _ _ _ P) as L. fold y in L. pose proof P as (B & C & E & F & X).
  assert (FL : f <= (if go_leap y then 365 else 364)) by (rewrite L; destruct ((e =? 3) && ((c <? 24) || (b =? 3))) eqn:Q; lia).
  pose proof (step_in y f ltac:(lia) FL) as S. destruct (month_and_day (go_leap y) f) as [m dd] eqn:MD. destruct S as (S1 & S2 & _ & _). cbn [fst snd].
  destruct (Z_lt_dec f (if go_leap y then 365 else 364)) as [LT|GE].
  - specialize (S2 LT). assert (P' : parts a b c e (f + 1)) by (unfold parts; rewrite L in LT; destruct ((e =? 3) && ((c <? 24) || (b =? 3))) eqn:Q; lia).
    replace (day_of a b c e f + 1) with (day_of a b c e (f + 1)) by (unfold day_of; lia). rewrite (date_of_parts _ _ _ _ _ P'). exact S2.
  - assert (FE : f = (if go_leap y then 365 else 364)) by lia. destruct (S1 FE) as [-> ->].
    assert (N : forall a' b' c' e', parts a' b' c' e' 0 -> 400 * a' + 100 * b' + 4 * c' + e' = 400 * a + 100 * b + 4 * c + e + 1 -> day_of a b c e f + 1 = day_of a' b' c' e' 0 ->
      next_day (y, 12, 31) (date_of (day_of a b c e f + 1))).
    { intros a' b' c' e' P' Y D. rewrite D, (date_of_parts _ _ _ _ _ P'). cbv zeta. replace (400 * a' + 100 * b' + 4 * c' + e' + absolute_zero_year) with (y + 1) by (unfold y; lia).
      destruct (go_leap (y + 1)); apply Next_year. }
    rewrite L in FE. unfold day_of in N |- *. destruct (Z.eq_dec e 3) as [-> |E3].
    + destruct (Z.eq_dec c 24) as [-> |C24].
      * destruct (Z.eq_dec b 3) as [-> |B3].
        -- apply (N (a + 1) 0 0 0); [unfold parts; lia|lia|]. change ((3 =? 3) && ((24 <? 24) || (3 =? 3))) with true in FE. cbv iota in FE. clear N S1 S2 L MD. lia.
        -- apply (N a (b + 1) 0 0); [unfold parts; lia|lia|]. replace ((3 =? 3) && ((24 <? 24) || (b =? 3))) with false in FE by lia. cbv iota in FE. clear N S1 S2 L MD. lia.
      * apply (N a b (c + 1) 0); [unfold parts; lia|lia|]. replace ((3 =? 3) && ((c <? 24) || (b =? 3))) with true in FE by lia. cbv iota in FE. clear N S1 S2 L MD. lia.
    + apply (N a b c (e + 1)); [unfold parts; lia|lia|]. replace (e =? 3) with false in FE by lia. cbn [andb] in FE. lia.
Qed.
(** day 0 of 1970 *)
Definition day_1970 : Z := unix_to_absolute / 86400.
Lemma date_1970 : date_of day_1970 = (1970, 1, 1). Proof. vm_compute. reflexivity. Qed.
Lemma days_date n : 0 <= n -> days_from (1970, 1, 1) n (date_of (day_1970 + n)).
Proof.
  intros N. pattern n. apply natlike_ind; [| |exact N].
  - rewrite Z.add_0_r, date_1970. constructor.
  - intros x X IH. unfold Z.succ. apply Days_more with (b := date_of (day_1970 + x)); [exact IH|]. replace (day_1970 + (x + 1)) with (day_1970 + x + 1) by lia. apply date_of_next.
Qed.
(** days count, so a date is at one distance only *)
Definition before_month (leap : bool) (m : Z) : Z := days_before (m - 1) + (if leap && (m >? 2) then 1 else 0).
Definition before_year (y : Z) : Z := 365 * (y - 1) + (y - 1) / 4 - (y - 1) / 100 + (y - 1) / 400.
Definition day_count (x : date) : Z := let '(y, m, d) := x in before_year y + before_month (go_leap y) m + d.
Lemma length_month y m n : month_length y m n -> 1 <= m <= 12 /\ n = month_days (go_leap y) m.
Proof.
  pose proof (go_leap_ok y) as L. intros [(I & ->)|[(I & ->)|[(-> & Y & ->)|(-> & Y & ->)]]].
  - cbn in I. repeat (destruct I as [<- |I]; [split; [lia|reflexivity]|]). destruct I.
  - cbn in I. repeat (destruct I as [<- |I]; [split; [lia|reflexivity]|]). destruct I.
  - apply L in Y. rewrite Y. split; [lia|reflexivity].
  - split; [lia|]. destruct (go_leap y); [|reflexivity]. destruct Y. apply L. reflexivity.
Qed.
Lemma before_month_next leap m : 1 <= m < 12 -> before_month leap (m + 1) = before_month leap m + month_days leap m.
Proof.
  intros M. assert (C : m = 1 \/ m = 2 \/ m = 3 \/ m = 4 \/ m = 5 \/ m = 6 \/ m = 7 \/ m = 8 \/ m = 9 \/ m = 10 \/ m = 11) by lia.
  destruct C as [-> |[-> |[-> |[-> |[-> |[-> |[-> |[-> |[-> |[-> | ->]]]]]]]]]]; destruct leap; reflexivity.
Qed.
Lemma before_year_next y : before_year (y + 1) = before_year y + (if go_leap y then 366 else 365).
Proof.
  unfold before_year, go_leap. replace (y + 1 - 1) with y by lia.
  assert (G : forall k, 0 < k -> y / k = (y - 1) / k + (if y mod k =? 0 then 1 else 0)).
  { intros k K. destruct (y mod k =? 0) eqn:Q.
    - apply Z.eqb_eq in Q. pose proof (Z.div_mod y k ltac:(lia)) as D. rewrite Q in D. symmetry. assert (X : (y - 1) / k = y / k - 1) by (symmetry; apply Z.div_unique with (k - 1); lia). lia.
    - apply Z.eqb_neq in Q. pose proof (Z.div_mod y k ltac:(lia)) as D. pose proof (Z.mod_pos_bound y k K) as P. rewrite Z.add_0_r. apply Z.div_unique with (y mod k - 1); lia. }
  rewrite (G 4), (G 100), (G 400) by lia.
  assert (M1 : (y mod 400 =? 0) = true -> (y mod 100 =? 0) = true) by lia. assert (M2 : (y mod 100 =? 0) = true -> (y mod 4 =? 0) = true) by lia.
  clear G. destruct (y mod 4 =? 0), (y mod 100 =? 0), (y mod 400 =? 0); try (specialize (M1 eq_refl); discriminate M1); try (specialize (M2 eq_refl); discriminate M2); cbn [andb orb negb]; lia.
Qed.
Lemma next_count x x' : next_day x x' -> day_count x' = day_count x + 1.
Proof.
  intros [y m d n L D|y m n L M|y]; unfold day_count.
  - lia.
  - destruct (length_month y m n L) as [M1 ->]. rewrite before_month_next by lia. lia.
  - rewrite before_year_next. assert (A : forall l, before_month l 1 = 0) by (intros []; reflexivity). assert (B : forall l, before_month l 12 = if l then 335 else 334) by (intros []; reflexivity).
    rewrite A, B. destruct (go_leap y); lia.
Qed.
Lemma days_count a n b : days_from a n b -> day_count b = day_count a + n.
Proof. induction 1 as [|n b c D IH N]; [lia|]. rewrite (next_count _ _ N). lia. Qed.

(** digits *)
Lemma digits_cases t n : in_digits t n -> (t = [] /\ n = 0) \/ exists s k d, t = s ++ [48 + d] /\ n = k * 10 + d /\ in_digits s k /\ 0 <= d <= 9.
Proof. intros [|s k d D B]; [auto|]. right. exists s, k, d. auto. Qed.
Lemma digits_exact n : forall t, in_digits t n -> forall n', in_digits t n' -> n' = n.
Proof.
  intros t D. induction D as [|s n d D IH B]; intros n' D'; apply digits_cases in D' as [(E & ->)|(s' & k & d' & E & -> & D' & B')].
  - reflexivity.
  - destruct s'; discriminate.
  - destruct s; discriminate.
  - apply app_inj_tail in E as [<- E]. rewrite (IH k D'). lia.
Qed.
Lemma fixed_digits_ok w : forall n, 0 <= n < 10 ^ Z.of_nat w -> in_digits (fixed_digits w n) n /\ length (fixed_digits w n) = w.
Proof.
  induction w as [|w IH]; intros n N; cbn [fixed_digits].
  - change (10 ^ Z.of_nat 0) with 1 in N. replace n with 0 by lia. split; [constructor|reflexivity].
  - rewrite Nat2Z.inj_succ, Z.pow_succ_r in N by lia. assert (B : 0 <= n / 10 < 10 ^ Z.of_nat w) by (split; [apply Z.div_pos; lia|apply Z.div_lt_upper_bound; lia]).
    destruct (IH (n / 10) B) as [I L]. split; [|rewrite app_length, L; cbn; lia].
    assert (Q : n = n / 10 * 10 + n mod 10) by (pose proof (Z.div_mod n 10); lia). rewrite Q at 3. apply Digits_more; [exact I|]. pose proof (Z.mod_pos_bound n 10). lia.
Qed.
Lemma number_width_le f : forall w n, (1 <= w)%nat -> 0 <= n < 10 ^ Z.of_nat w -> (number_width f n <= w)%nat.
Proof.
  induction f as [|f IH]; intros w n W N; cbn [number_width]; [lia|]. destruct (n <? 10) eqn:Q; [lia|].
  destruct w as [|w]; [lia|]. rewrite Nat2Z.inj_succ, Z.pow_succ_r in N by lia. destruct w as [|w]; [change (10 * 10 ^ Z.of_nat 0) with 10 in N; lia|].
  assert (B : 0 <= n / 10 < 10 ^ Z.of_nat (S w)) by (split; [apply Z.div_pos; lia|apply Z.div_lt_upper_bound; lia]). specialize (IH (S w) (n / 10) ltac:(lia) B). lia.
Qed.
Lemma append_int_ok w n : (1 <= w)%nat -> 0 <= n < 10 ^ Z.of_nat w -> in_digits (append_int n w) n /\ length (append_int n w) = w.
Proof.
  intros W N. unfold append_int. rewrite Nat.max_l by (apply number_width_le; auto). apply fixed_digits_ok, N.
Qed.
(** the year stays below 10000 *)
Lemma year_bounds n : 0 <= n < 2932897 -> let '(y, m, d) := date_of (day_1970 + n) in 1970 <= y <= 9999 /\ 1 <= m <= 12 /\ 1 <= d <= 31.
Proof.
  intros N. destruct (parts_exist (day_1970 + n)) as (a & b & c & e & f & P & Q). rewrite Q, (date_of_parts _ _ _ _ _ P). cbv zeta.
  set (y := 400 * a + 100 * b + 4 * c + e + absolute_zero_year).
  pose proof (leap_parts _ _ _ _ _ P) as L. fold y in L. pose proof P as (B & C & E & F & X).
  assert (FL : f <= (if go_leap y then 365 else 364)) by (rewrite L; destruct ((e =? 3) && ((c <? 24) || (b =? 3))) eqn:R; lia).
  pose proof (step_in y f ltac:(lia) FL) as S. destruct (month_and_day (go_leap y) f) as [m d]. destruct S as (_ & _ & S1 & S2). cbn [fst snd]. split; [|split; [exact S1|exact S2]].
  clear L FL S1 S2 m d. unfold y. clear y. unfold day_of in Q. change day_1970 with (719162 + 146097 * 730692556) in Q. change absolute_zero_year with (1 - 400 * 730692556).
  clear P. set (a' := a - 730692556). assert (Q' : 719162 + n = 146097 * a' + 36524 * b + 1461 * c + 365 * e + f) by lia.
  replace (400 * a + 100 * b + 4 * c + e + (1 - 400 * 730692556)) with (400 * a' + 100 * b + 4 * c + e + 1) by lia. clearbody a'. clear Q a. lia.
Qed.
