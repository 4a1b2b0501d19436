(** Simple phrase entry when lines are typed, or pasted, before they are asked for (C107):
    /repo/cmd/mnemonikey/word_input.go:171-223 with what the terminal shows, CliScreen.v without the assumption that a line is typed
    only at its prompt.  The terminal is in its normal mode: it echoes a line as it is typed and keeps it until the program reads
    it.  Simplifications: every line ends with Enter and is echoed as a whole; the input does not end. *)
From Verif.Model Require Import GoBase Env Version Recovery CliText CliInput CliScreen.

Inductive event :=
| Typed (line : bytes)   (** a line with Enter is typed *)
| Turn.                  (** the program goes on: to its next read, or from the read if there is a line *)
(** i, wordCount and words of lines 172-182; whether the prompt of line 183 is out; the lines typed and not yet read *)
Record ahead := mk_ahead { ah_i : Z; ah_count : Z; ah_words : list bytes; ah_prompted : bool; ah_queue : list bytes }.
Definition ahead_start (count : Z) : ahead := mk_ahead 0 count [] false [].
(** lines 188-219: what is written after a line was read, and i, wordCount and words after it *)
Definition answer (E : Env) (i count : Z) (words : list bytes) (line : bytes) : bytes * (Z * Z * list bytes) :=
  let input := to_lower E (trim_space E line) in
  if fst (wl_search E input) then
    if i =? 0 then
      match parse_mnemonic_version E input with
      | Ok v => (erase_forward ++ previous_line ++ erase_forward, (i + 1, mnemonic_size v, words ++ [input]))
      | _ => (erase_forward ++ red (version_error E input) ++ previous_line ++ erase_forward, (i, count, words))
      end
    else (erase_forward ++ previous_line ++ erase_forward, (i + 1, count, words ++ [input]))
  else (red bad_word ++ previous_line ++ erase_forward, (i, count, words)).
(** One event: what appears on the terminal, and what then holds *)
Definition happen (E : Env) (a : ahead) (e : event) : bytes * ahead :=
  match e with
  | Typed line => (line ++ [10], mk_ahead (ah_i a) (ah_count a) (ah_words a) (ah_prompted a) (ah_queue a ++ [line]))
  | Turn =>
      if ah_i a <? ah_count a then
        if ah_prompted a then
          match ah_queue a with
          | [] => ([], a)
          | line :: rest =>
              let '(out, (i, count, words)) := answer E (ah_i a) (ah_count a) (ah_words a) line in
              (out, mk_ahead i count words false rest)
          end
        else (simple_word_prompt (ah_i a), mk_ahead (ah_i a) (ah_count a) (ah_words a) true (ah_queue a))
      else ([], a)
  end.
Fixpoint events (E : Env) (a : ahead) (l : list event) : bytes * ahead :=
  match l with
  | [] => ([], a)
  | e :: l =>
      let (out, a) := happen E a e in
      let (out', a) := events E a l in
      (out ++ out', a)
  end.
