(** Corruptions of a phrase. *)
From Verif.Model Require Import GoBase Env Recovery.

Definition accepted (E : Env) (ws : list bytes) : Prop := exists dm, decode_mnemonic E ws = Ok dm.

(** word number i of the list *)
Definition word (E : Env) (i : Z) : bytes := nth (Z.to_nat i) (wl_words E) [].

(** the phrase with position j replaced by w *)
Definition put_word (ws : list bytes) (j : nat) (w : bytes) : list bytes :=
  map (fun t => if Nat.eqb t j then w else nth t ws []) (seq 0 (length ws)).

(** the phrase with positions j and k exchanged *)
Definition swap_words (ws : list bytes) (j k : nat) : list bytes :=
  map (fun t => nth (if Nat.eqb t j then k else if Nat.eqb t k then j else t) ws [])
      (seq 0 (length ws)).

(** word numbers of the list *)
Definition all_numbers : list Z := map Z.of_nat (seq 0 4096).
