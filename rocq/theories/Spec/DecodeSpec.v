(** The complete table of what decoding a list of words must give. *)
From Verif.Model Require Import GoBase Env Seed Recovery.
From Verif.Spec Require Import PhraseSpec.

(** the first word of the phrase is number [i] of the word list *)
Definition first_index (E : Env) (ws : list bytes) (i : Z) : Prop :=
  0 <= i /\ exists w0 rest, ws = w0 :: rest /\ nth_error (wl_words E) (Z.to_nat i) = Some (to_lower E w0).

Definition known_word (E : Env) (w : bytes) : Prop := In (to_lower E w) (wl_words E).

(** number of words of a phrase of version 0 / 1 *)
Definition phrase_words (version : Z) : nat := if version =? 0 then 14 else 16.

Inductive outcome (E : Env) (ws : list bytes) : res decoded -> Prop :=
| O_empty : ws = [] -> outcome E ws (Err ErrInvalidWordCount)
| O_first_unknown : forall w0 rest, ws = w0 :: rest -> ~ known_word E w0 ->
    outcome E ws (Err ErrInvalidWord)
| O_version : forall i, first_index E ws i -> 1 < i / 256 ->
    outcome E ws (Err ErrInvalidVersionNumber)
| O_count : forall i, first_index E ws i -> i / 256 <= 1 ->
    length ws <> phrase_words (i / 256) ->
    outcome E ws (Err ErrInvalidWordCount)
| O_unknown : forall i, first_index E ws i -> i / 256 <= 1 ->
    length ws = phrase_words (i / 256) -> ~ Forall (known_word E) ws ->
    outcome E ws (Err ErrInvalidWord)
| O_checksum : forall i n, first_index E ws i -> i / 256 <= 1 ->
    length ws = phrase_words (i / 256) -> spells E ws n ->
    n mod 32 <> checksum_spec (12 * length ws - 5) (n / 32) ->
    outcome E ws (Err ErrInvalidChecksum)
| O_plain : forall entropy offset,
    0 <= entropy < 2 ^ 128 -> 0 <= offset < 2 ^ 31 ->
    length ws = 14%nat -> spells E ws (plain_int entropy offset) ->
    outcome E ws (Ok (mk_decoded 0 entropy 0 0 offset))
| O_encrypted : forall entropy salt verify offset,
    0 <= entropy < 2 ^ 128 -> 0 <= salt < 2 ^ 19 -> 0 <= verify < 2 ^ 5 -> 0 <= offset < 2 ^ 31 ->
    length ws = 16%nat -> spells E ws (enc_int entropy salt verify offset) ->
    outcome E ws (Ok (mk_decoded 1 entropy salt verify offset)).

(** seeds the library is meant to handle *)
Definition seed_ok (s : seed) : Prop := seed_era s = 0 /\ 0 <= seed_value s < 2 ^ 128.
