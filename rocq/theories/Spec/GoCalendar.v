(** Time.Format(time.RFC3339) of Go 1.20 for a time in UTC (package time: format_rfc3339.go, time.go, format.go).
    The absolute count starts in the year absoluteZeroYear, -292277022399, which is 1 modulo 400. *)
From Verif.Model Require Import GoBase GoTime.

Definition days_400 : Z := 365 * 400 + 97.
Definition days_100 : Z := 365 * 100 + 24.
Definition days_4 : Z := 365 * 4 + 1.
Definition absolute_zero_year : Z := -292277022399.
(** unixToInternal + internalToAbsolute *)
Definition unix_to_absolute : Z := 62135596800 + 292277022400 / 400 * (days_400 * 86400).
Definition go_leap (year : Z) : bool := (year mod 4 =? 0) && (negb (year mod 100 =? 0) || (year mod 400 =? 0)).
(** daysBefore *)
Definition days_before (month : Z) : Z := nth (Z.to_nat month) [0; 31; 59; 90; 120; 151; 181; 212; 243; 273; 304; 334; 365] 0.
(** the end of absDate: month and day of the day [yday] of a year *)
Definition month_and_day (leap : bool) (yday : Z) : Z * Z :=
  if leap && (yday =? 31 + 29 - 1) then (2, 29)
  else
    let day := if leap && (yday >? 31 + 29 - 1) then yday - 1 else yday in
    let month := day / 31 in
    if day >=? days_before (month + 1) then (month + 2, day - days_before (month + 1) + 1)
    else (month + 1, day - days_before month + 1).
(** absDate *)
Definition abs_date (abs : Z) : Z * Z * Z :=
  let d := abs / 86400 in
  let n := d / days_400 in
  let y := 400 * n in
  let d := d - days_400 * n in
  let n := d / days_100 in
  let n := n - n / 4 in
  let y := y + 100 * n in
  let d := d - days_100 * n in
  let n := d / days_4 in
  let y := y + 4 * n in
  let d := d - days_4 * n in
  let n := d / 365 in
  let n := n - n / 4 in
  let y := y + n in
  let d := d - 365 * n in
  let year := y + absolute_zero_year in
  let (month, day) := month_and_day (go_leap year) d in
  (year, month, day).
(** absClock *)
Definition abs_clock (abs : Z) : Z * Z * Z :=
  let sec := abs mod 86400 in
  let hour := sec / 3600 in
  let sec := sec - hour * 3600 in
  (hour, sec / 60, sec - sec / 60 * 60).
(** appendInt for numbers that are not negative *)
Fixpoint fixed_digits (width : nat) (n : Z) : bytes :=
  match width with O => [] | S w => fixed_digits w (n / 10) ++ [48 + n mod 10] end.
Fixpoint number_width (fuel : nat) (n : Z) : nat :=
  match fuel with O => O | S f => if n <? 10 then 1%nat else S (number_width f (n / 10)) end.
Definition append_int (n : Z) (width : nat) : bytes := fixed_digits (Nat.max width (number_width 20 n)) n.
Definition go_rfc3339 (t : Z) : bytes :=
  let abs := t_unix t + unix_to_absolute in
  let '(year, month, day) := abs_date abs in
  let '(hour, minute, sec) := abs_clock abs in
  append_int year 4 ++ [45] ++ append_int month 2 ++ [45] ++ append_int day 2 ++ [84] ++
  append_int hour 2 ++ [58] ++ append_int minute 2 ++ [58] ++ append_int sec 2 ++ [90].
