(** What is typed: phrase entry key by key, lines, and password lines, independent of the code that
    reads them. *)
From Verif.Model Require Import GoBase Env Version Recovery.

(** ** Phrase entry in raw mode *)
(** Keys that edit the current word: everything but Ctrl-C (3), Ctrl-D (4), left arrow (68 is the
    last byte of its escape sequence), Enter (13) and space (32). *)
Definition edit_key (k : Z) : Prop := ~ In k [3; 4; 68; 13; 32].
(** the text after one key: letters are added, 127 removes the last letter, tab completes *)
Definition edited (complete : bytes -> option bytes) (text : bytes) (k : Z) : bytes :=
  if (97 <=? k) && (k <=? 122) then text ++ [k]
  else if k =? 127 then firstn (length text - 1) text
  else if k =? 9 then match complete text with Some w => w | None => text end
  else text.
Definition typed_text (complete : bytes -> option bytes) (keys : bytes) : bytes :=
  fold_left (edited complete) keys [].
(** the first completion of a text *)
Definition completion (E : Env) (text : bytes) : option bytes :=
  match snd (wl_search E text) with
  | [] => None
  | s :: _ => Some (text ++ s)
  end.
(** the keys enter the word *)
Definition enters (E : Env) (keys : bytes) (w : bytes) : Prop :=
  exists edit k, keys = edit ++ [k] /\ Forall edit_key edit /\ (k = 13 \/ k = 32) /\
    completion E (typed_text (completion E) edit) = Some w.

(** ** Lines: the end of a line is a newline, possibly with a carriage return before it *)
Definition line_ok (l : bytes) : Prop := ~ In 10 l /\ (forall a, l <> a ++ [13]) /\ zlen l < 65535.
Definition end_of_line (cr : bool) : bytes := if cr then [13; 10] else [10].
Definition text_of_lines (ls : list (bytes * bool)) : bytes :=
  flat_map (fun p => fst p ++ end_of_line (snd p)) ls.
(** the word on a line *)
Definition line_word (E : Env) (l : bytes) : bytes := to_lower E (trim_space E l).
Definition in_list (E : Env) (w : bytes) : bool := existsb (bytes_eqb w) (wl_words E).
Definition supported_first (E : Env) (w : bytes) : bool :=
  match parse_mnemonic_version E w with Ok _ => in_list E w | _ => false end.
(** the words accepted from lines: first one of a supported version, then any in the list *)
Fixpoint accepted_words (E : Env) (ls : list bytes) : list bytes :=
  match ls with
  | [] => []
  | l :: ls' => if supported_first E (line_word E l)
                then line_word E l :: filter (in_list E) (map (line_word E) ls')
                else accepted_words E ls'
  end.
(** the number of words a phrase with this first word has *)
Definition phrase_size (E : Env) (w : bytes) : Z :=
  match parse_mnemonic_version E w with Ok v => mnemonic_size v | _ => 0 end.

(** ** Password lines: backspace removes a byte, carriage returns are dropped *)
Definition pass_edited (text : bytes) (k : Z) : bytes :=
  if k =? 8 then firstn (length text - 1) text
  else if k =? 13 then text
  else text ++ [k].
Definition pass_text (keys : bytes) : bytes := fold_left pass_edited keys [].
(** [keys] is one line of input, with its newline unless it is the last one *)
Definition pass_line (last : bool) (keys pass : bytes) : Prop :=
  exists l, ~ In 10 l /\ pass_text l = pass /\ keys = (if last then l else l ++ [10]) /\ (last = true -> pass <> []).
(** whole lines *)
Definition whole_lines (s : bytes) : Prop := s = [] \/ exists a, s = a ++ [10].
(** the password was typed on a line, respectively on two lines one after the other *)
Definition typed_once (stdin pass : bytes) : Prop :=
  exists before keys after last, stdin = before ++ keys ++ after /\ whole_lines before /\
    pass_line last keys pass /\ (last = true -> after = []).
Definition typed_twice (stdin pass : bytes) : Prop :=
  exists before keys keys2 after last, stdin = before ++ keys ++ keys2 ++ after /\ whole_lines before /\
    pass_line false keys pass /\ pass_line last keys2 pass /\ (last = true -> after = []).

(** the words a key sequence without Ctrl-C, Ctrl-D and left arrow submits: Enter or space submits
    the completion of the text, if there is one; the first word must be of a supported version *)
Fixpoint submitted (E : Env) (first : bool) (text keys : bytes) : list bytes :=
  match keys with
  | [] => []
  | k :: ks =>
      if (k =? 13) || (k =? 32) then
        match completion E text with
        | Some w => if first && negb (supported_first E w) then submitted E true text ks
                    else w :: submitted E false [] ks
        | None => submitted E first text ks
        end
      else submitted E first (edited (completion E) text k) ks
  end.

(** the password chosen from the texts of the lines: the first that is not empty, respectively the
    first that is repeated at once, where a pair that differs is dropped *)
Fixpoint chosen (confirm : bool) (texts : list bytes) : option bytes :=
  match texts with
  | [] => None
  | [] :: ts => chosen confirm ts
  | t :: ts =>
      if confirm then match ts with
                      | [] => None
                      | u :: us => if bytes_eqb t u then Some t else chosen confirm us
                      end
      else Some t
  end.
Definition password_lines (ls : list bytes) : bytes := flat_map (fun l => l ++ [10]) ls.
