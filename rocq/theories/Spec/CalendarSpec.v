(** The Gregorian calendar, day by day, and times as RFC 3339 writes them. *)
From Verif.Model Require Import GoBase.

(** a year has a 29 February if 4 divides it, unless 100 does and 400 does not *)
Definition leap_year (y : Z) : Prop := (4 | y) /\ ((100 | y) -> (400 | y)).
Definition month_length (y m n : Z) : Prop :=
  (In m [1; 3; 5; 7; 8; 10; 12] /\ n = 31) \/ (In m [4; 6; 9; 11] /\ n = 30) \/
  (m = 2 /\ leap_year y /\ n = 29) \/ (m = 2 /\ ~ leap_year y /\ n = 28).
Definition date := (Z * Z * Z)%type.
(** the day after another *)
Inductive next_day : date -> date -> Prop :=
| Next_in y m d n : month_length y m n -> 1 <= d < n -> next_day (y, m, d) (y, m, d + 1)
| Next_month y m n : month_length y m n -> m < 12 -> next_day (y, m, n) (y, m + 1, 1)
| Next_year y : next_day (y, 12, 31) (y + 1, 1, 1).
(** [days_from a n b]: the date [b] is [n] days after [a] *)
Inductive days_from (a : date) : Z -> date -> Prop :=
| Days_none : days_from a 0 a
| Days_more n b c : days_from a n b -> next_day b c -> days_from a (n + 1) c.

(** a number in exactly so many digits *)
Inductive in_digits : bytes -> Z -> Prop :=
| Digits_none : in_digits [] 0
| Digits_more s n d : in_digits s n -> 0 <= d <= 9 -> in_digits (s ++ [48 + d]) (n * 10 + d).
(** YYYY-MM-DDTHH:MM:SSZ is the time so many seconds after the start of 1970, in UTC *)
Definition reads_time (text : bytes) (unix : Z) : Prop :=
  exists ty tm td th ti ts y m d h i s n,
    text = ty ++ bs "-" ++ tm ++ bs "-" ++ td ++ bs "T" ++ th ++ bs ":" ++ ti ++ bs ":" ++ ts ++ bs "Z" /\
    length ty = 4%nat /\ length tm = 2%nat /\ length td = 2%nat /\ length th = 2%nat /\ length ti = 2%nat /\ length ts = 2%nat /\
    in_digits ty y /\ in_digits tm m /\ in_digits td d /\ in_digits th h /\ in_digits ti i /\ in_digits ts s /\
    0 <= h < 24 /\ 0 <= i < 60 /\ 0 <= s < 60 /\
    days_from (1970, 1, 1) n (y, m, d) /\ unix = ((n * 24 + h) * 60 + i) * 60 + s.
