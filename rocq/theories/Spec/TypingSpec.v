(** What the two lines of phrase entry show after each key, independent of the code that draws them. *)
From Verif.Model Require Import GoBase Env Version Recovery.
From Verif.Spec Require Import InputSpec.

(** The number of the word from 0, the number of words of the phrase as far as known, the text typed, the
    completion shown after it, whether the line below was cleared since the start, and the notices written
    there one over the other, the last one first. *)
Record line_state := mk_line {
  ln_number : Z;
  ln_count : Z;
  ln_text : bytes;
  ln_hint : bytes;
  ln_wiped : bool;
  ln_notes : list bytes
}.
Definition no_match : bytes := bs "No matching words found in the wordlist!".
Definition noted (s : line_state) (t : bytes) : line_state :=
  mk_line (ln_number s) (ln_count s) (ln_text s) (ln_hint s) (ln_wiped s) (t :: ln_notes s).
Definition word_line (s : line_state) (n count : Z) : option line_state :=
  if n <? count then Some (mk_line n count [] [] (ln_wiped s) (ln_notes s)) else None.
(** the text changed: the completion is shown, or why there is none *)
Definition text_line (E : Env) (s : line_state) (text : bytes) : line_state :=
  match completion E text, text with
  | Some w, _ => mk_line (ln_number s) (ln_count s) text (skipn (length text) w) true []
  | None, [] => mk_line (ln_number s) (ln_count s) text [] true []
  | None, _ => noted (mk_line (ln_number s) (ln_count s) text [] (ln_wiped s) (ln_notes s)) no_match
  end.
(** one key; none when phrase entry ends.  [refusal] is the notice for a first word of another version. *)
Definition line_key (E : Env) (refusal : bytes -> bytes) (s : line_state) (k : Z) : option line_state :=
  if (k =? 3) || (k =? 4) then None
  else if k =? 68 then word_line s (ln_number s - 1) (ln_count s)
  else if (k =? 13) || (k =? 32) then
    match completion E (ln_text s) with
    | None => Some (noted s no_match)
    | Some w =>
        if ln_number s =? 0 then
          if supported_first E w then word_line s 1 (phrase_size E w) else Some (noted s (refusal w))
        else word_line s (ln_number s + 1) (ln_count s)
    end
  else
    match k =? 9, completion E (ln_text s) with
    | true, Some w => Some (mk_line (ln_number s) (ln_count s) w [] (ln_wiped s) (ln_notes s))
    | _, _ => Some (text_line E s (edited (completion E) (ln_text s) k))
    end.
Fixpoint line_keys (E : Env) (refusal : bytes -> bytes) (s : line_state) (keys : bytes) : option line_state :=
  match keys with
  | [] => Some s
  | k :: ks => match line_key E refusal s k with Some s' => line_keys E refusal s' ks | None => None end
  end.
Definition line_start : line_state := mk_line 0 1 [] [] false [].
