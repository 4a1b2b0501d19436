(** Decimal numbers, periods, comma lists and words separated by blanks, independent of the code
    that reads them. *)
From Verif.Model Require Import GoBase.

(** ** Decimal numbers and periods *)
Definition is_digit (c : Z) : Prop := 48 <= c <= 57.
Fixpoint decimal (s : bytes) : Z :=
  match s with
  | [] => 0
  | c :: s' => (c - 48) * 10 ^ Z.of_nat (length s') + decimal s'
  end.
(** seconds in a day, a week, a month (a twelfth of 365 days) and a year of 365 days *)
Inductive unit_seconds : Z -> Z -> Prop :=
| Day c : c = 100 \/ c = 68 -> unit_seconds c 86400
| Week c : c = 119 \/ c = 87 -> unit_seconds c 604800
| Month c : c = 109 \/ c = 77 -> unit_seconds c 2628000
| Year c : c = 121 \/ c = 89 -> unit_seconds c 31536000.
(** [s] is a number and a unit: [n] times [secs] seconds *)
Definition period (s : bytes) (n secs : Z) : Prop :=
  exists q c, s = q ++ [c] /\ q <> [] /\ Forall is_digit q /\ n = decimal q /\ unit_seconds c secs.

(** ** Lists of names separated by commas *)
Fixpoint comma_list (parts : list bytes) : bytes :=
  match parts with
  | [] => []
  | [p] => p
  | p :: ps => p ++ 44 :: comma_list ps
  end.
Definition no_comma (p : bytes) : Prop := ~ In 44 p.

(** ** Words separated by blanks; [cur] is the word being read, in reverse *)
Fixpoint words_from (l cur : bytes) : list bytes :=
  let done := match cur with [] => [] | _ => [rev cur] end in
  match l with
  | [] => done
  | c :: l' => if c =? 32 then done ++ words_from l' [] else words_from l' (c :: cur)
  end.
Definition blank_words (l : bytes) : list bytes := words_from l [].
(** the lines with a newline between any two *)
Fixpoint with_newlines (lines : list bytes) : bytes :=
  match lines with
  | [] => []
  | [l] => l
  | l :: ls => l ++ 10 :: with_newlines ls
  end.
