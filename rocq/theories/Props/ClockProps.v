(** Times as the tables print them (C90): Format(time.RFC3339) against the calendar. *)
From Coq Require Import Lia ZifyBool ZifyNat.
From Verif.Model Require Import GoBase GoTime.
From Verif.Spec Require Import KeySpec CalendarSpec GoCalendar.
From Verif.Proofs Require Import CalendarP QuoteP.
Ltac Zify.zify_post_hook ::= Z.div_mod_to_equations.

(** The text printed for a time between 1970 and the end of 9999 reads, by the calendar, as the second it
    falls in. *)
Theorem rfc3339_reads : forall t, 0 <= t < 253402300800 * 10 ^ 9 -> reads_time (go_rfc3339 t) (t / 10 ^ 9).
Proof.
  intros t T. unfold go_rfc3339. cbv zeta. rewrite abs_date_day. change (t_unix t) with (t / 10 ^ 9). set (u := t / 10 ^ 9).
  assert (U : 0 <= u < 253402300800) by (unfold u; split; [apply Z.div_pos; lia|apply Z.div_lt_upper_bound; lia]). clearbody u.
  set (n := u / 86400). assert (N : 0 <= n < 2932897) by (unfold n; lia).
  assert (A : (u + unix_to_absolute) / 86400 = day_1970 + n).
  { unfold n. replace unix_to_absolute with (day_1970 * 86400) by reflexivity. rewrite Z.div_add by discriminate. apply Z.add_comm. }
  assert (M : (u + unix_to_absolute) mod 86400 = u mod 86400).
  { replace unix_to_absolute with (day_1970 * 86400) by reflexivity. apply Z.mod_add. discriminate. }
  unfold abs_clock. rewrite A, M. pose proof (days_date n (proj1 N)) as D. pose proof (year_bounds n N) as Y.
  clear A M. destruct (date_of (day_1970 + n)) as [[y m] d]. cbv zeta. set (r := u mod 86400). assert (R : 0 <= r < 86400) by (unfold r; lia).
  assert (UR : u = n * 86400 + r) by (unfold n, r; lia). clearbody n r.
  set (h := r / 3600). set (i := (r - h * 3600) / 60). set (s := r - h * 3600 - i * 60).
  assert (H : 0 <= h < 24 /\ 0 <= i < 60 /\ 0 <= s < 60) by (unfold s, i, h; lia). destruct H as (Hh & Hi & Hs).
  assert (E : u = ((n * 24 + h) * 60 + i) * 60 + s) by (unfold s; lia). clearbody s i h.
  destruct (append_int_ok 4 y) as [Y1 Y2]; [lia|cbn; lia|]. destruct (append_int_ok 2 m) as [M1 M2]; [lia|cbn; lia|]. destruct (append_int_ok 2 d) as [D1 D2]; [lia|cbn; lia|].
  destruct (append_int_ok 2 h) as [H1 H2]; [lia|cbn; lia|]. destruct (append_int_ok 2 i) as [I1 I2]; [lia|cbn; lia|]. destruct (append_int_ok 2 s) as [S1 S2]; [lia|cbn; lia|].
  exists (append_int y 4), (append_int m 2), (append_int d 2), (append_int h 2), (append_int i 2), (append_int s 2), y, m, d, h, i, s, n. repeat (split; [assumption || reflexivity|]). exact E.
Qed.
Print Assumptions rfc3339_reads.
(** A text reads as one second only, so two times printed alike are less than a second apart. *)
Theorem reads_time_exact : forall text u u', reads_time text u -> reads_time text u' -> u = u'.
Proof.
  intros text u u' (ty & tm & td & th & ti & ts & y & m & d & h & i & s & n & -> & L1 & L2 & L3 & L4 & L5 & L6 & Y & M & D & H & I & S & _ & _ & _ & N & ->)
    (ty' & tm' & td' & th' & ti' & ts' & y' & m' & d' & h' & i' & s' & n' & Q & L1' & L2' & L3' & L4' & L5' & L6' & Y' & M' & D' & H' & I' & S' & _ & _ & _ & N' & ->).
  apply same_split in Q as [<- Q]; [|congruence]. apply app_inv_head in Q. apply same_split in Q as [<- Q]; [|congruence]. apply app_inv_head in Q.
  apply same_split in Q as [<- Q]; [|congruence]. apply app_inv_head in Q. apply same_split in Q as [<- Q]; [|congruence]. apply app_inv_head in Q.
  apply same_split in Q as [<- Q]; [|congruence]. apply app_inv_head in Q. apply same_split in Q as [<- _]; [|congruence].
  rewrite (digits_exact _ _ Y _ Y'), (digits_exact _ _ M _ M'), (digits_exact _ _ D _ D') in N'. rewrite (digits_exact _ _ H _ H'), (digits_exact _ _ I _ I'), (digits_exact _ _ S _ S').
  apply days_count in N, N'. replace n' with n by lia. reflexivity.
Qed.
Print Assumptions reads_time_exact.
(** The bounds of creation times, in the calendar: from the first second of 2023, for 2^31 seconds. *)
Theorem epoch_dates : go_rfc3339 epoch_start = bs "2023-01-01T00:00:00Z" /\ go_rfc3339 max_creation_time = bs "2091-01-19T03:14:07Z" /\
  go_rfc3339 zero_time = bs "0001-01-01T00:00:00Z" /\ reads_time (bs "2023-01-01T00:00:00Z") first_second /\ reads_time (bs "2091-01-19T03:14:07Z") last_second.
Proof.
  assert (A : go_rfc3339 epoch_start = bs "2023-01-01T00:00:00Z") by (vm_compute; reflexivity).
  assert (B : go_rfc3339 max_creation_time = bs "2091-01-19T03:14:07Z") by (vm_compute; reflexivity).
  split; [exact A|]. split; [exact B|]. split; [vm_compute; reflexivity|]. split.
  - rewrite <- A. refine (rfc3339_reads epoch_start _). vm_compute. intuition congruence.
  - rewrite <- B. refine (rfc3339_reads max_creation_time _). vm_compute. intuition congruence.
Qed.
Print Assumptions epoch_dates.

(** a leap day in a century year, and a time with a fraction of a second *)
Example rfc3339_case : go_rfc3339 (951868799 * 10 ^ 9 + 999999999) = bs "2000-02-29T23:59:59Z" /\ reads_time (bs "2000-02-29T23:59:59Z") 951868799.
Proof.
  assert (A : go_rfc3339 (951868799 * 10 ^ 9 + 999999999) = bs "2000-02-29T23:59:59Z") by (vm_compute; reflexivity).
  split; [exact A|]. rewrite <- A. apply (rfc3339_reads (951868799 * 10 ^ 9 + 999999999)). vm_compute. intuition congruence.
Qed.
