(** The part of package time the code relies on, and the time constants of parameters.go. *)
From Verif.Model Require Import GoBase Version.

(** time.Time as nanoseconds since the Unix epoch; time.Duration as int64 nanoseconds. *)
Definition nanosecond : Z := 1.
Definition second : Z := 10 ^ 9.
Definition zero_time : Z := -62135596800 * second.    (* time.Time{}: January 1, year 1 UTC *)
Definition is_zero_time (t : Z) : bool := t =? zero_time.
Definition t_unix (t : Z) : Z := t / second.            (* Time.Unix() *)
Definition t_from_unix (s : Z) : Z := s * second.       (* time.Unix(s, 0) *)
Definition t_add (t d : Z) : Z := t + d.
Definition t_sub (t u : Z) : Z :=                       (* Time.Sub saturates *)
  let d := t - u in
  if d >? 2 ^ 63 - 1 then 2 ^ 63 - 1 else if d <? - 2 ^ 63 then - 2 ^ 63 else d.
Definition t_after (t u : Z) : bool := t >? u.
Definition t_before (t u : Z) : bool := t <? u.
Definition d_mul (a b : Z) : Z := i64 (a * b).          (* Duration multiplication wraps *)
Definition d_quot (a b : Z) : Z := Z.quot a b.          (* Duration division truncates *)

(** parameters.go:9 *)
Definition epoch_increment : Z := second.
(** parameters.go:16: 2023-01-01T00:00:00Z *)
Definition epoch_start : Z := 1672531200 * second.
(** parameters.go:54 *)
Definition max_creation_time : Z :=
  t_add epoch_start (d_mul epoch_increment (i64 (Z.shiftl 1 offset_bits) - 1)).
