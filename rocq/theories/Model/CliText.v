(** Model of the text handling in /repo/cmd/mnemonikey: expiry.go, the -only list of
    common_opts.go, justifyWidth of terminal.go, and the standard-library splitting functions
    they use. *)
From Verif.Model Require Import GoBase Env Mnemonikey.

(** cmd/mnemonikey/expiry.go:13-18, in nanoseconds *)
Definition hour : Z := 3600 * 10 ^ 9.
Definition duration_unit (u : bytes) : option Z :=
  if bytes_eqb u (bs "d") then Some (hour * 24)
  else if bytes_eqb u (bs "w") then Some (hour * 24 * 7)
  else if bytes_eqb u (bs "m") then Some (hour * 24 * 365 / 12)
  else if bytes_eqb u (bs "y") then Some (hour * 24 * 365)
  else None.

(** strconv.ParseUint(s, 10, 64) (Go standard library): the digit loop with its two overflow
    checks.  Both kinds of error are None. *)
Definition max_uint64 : Z := 2 ^ 64 - 1.
Fixpoint parse_digits (n : Z) (s : bytes) : option Z :=
  match s with
  | [] => Some n
  | c :: s' =>
      if (48 <=? c) && (c <=? 57) then
        if n >=? max_uint64 / 10 + 1 then None
        else
          let n1 := n * 10 + (c - 48) in
          if n1 >? max_uint64 then None else parse_digits n1 s'
      else None
  end.
Definition parse_uint10 (s : bytes) : option Z :=
  match s with [] => None | _ => parse_digits 0 s end.

(** cmd/mnemonikey/expiry.go:20-38.  input[len-1:] and input[:len-1] on a non-empty string. *)
Definition parse_ttl (E : Env) (input : bytes) : res Z :=
  match input with
  | [] => Err ErrInvalidDuration
  | _ =>
      match duration_unit (to_lower E [last input 0]) with
      | None => Err ErrInvalidDuration
      | Some unit =>
          match parse_uint10 (removelast input) with
          | None => Err ErrInvalidDuration
          | Some quantity => Ok (i64 (i64 quantity * unit))
          end
      end
  end.

(** strings.Split with a one-byte separator *)
Fixpoint split_on (sep : Z) (s : bytes) : list bytes :=
  match s with
  | [] => [[]]
  | c :: s' =>
      if c =? sep then [] :: split_on sep s'
      else match split_on sep s' with
           | [] => [[c]]
           | w :: ws => (c :: w) :: ws
           end
  end.
(** strings.Join *)
Fixpoint join (sep : bytes) (l : list bytes) : bytes :=
  match l with
  | [] => []
  | [w] => w
  | w :: l' => w ++ sep ++ join sep l'
  end.

(** cmd/mnemonikey/common_opts.go:90-102: the loop *)
Fixpoint only_loop (master : bool) (types : list bytes) (l : list bytes) : res (bool * list bytes) :=
  match l with
  | [] => Ok (master, types)
  | t :: l' =>
      if bytes_eqb t (bs "master") then only_loop true types l'
      else if bytes_eqb t type_encryption || bytes_eqb t type_authentication || bytes_eqb t type_signing
      then only_loop master (types ++ [t]) l'
      else Err ErrPrintUsage
  end.
(** cmd/mnemonikey/common_opts.go:79-104.  A nil subkeyTypes is None. *)
Definition decode_only_key_types (only : bytes) : res (bool * option (list bytes)) :=
  match only with
  | [] => Ok (true, None)
  | _ =>
      let* (master, types) := only_loop false [] (split_on 44 only) in
      Ok (master, Some types)
  end.

(** unicode.IsSpace as used by bufio.ScanWords (isSpace): the width in bytes of the white space
    character [l] starts with, 0 if it starts with none.  Spaces beyond ASCII are recognised by
    their UTF-8 form; continuation bytes never start such a form, so scanning byte by byte finds
    the same ones as scanning rune by rune. *)
Definition space_width (l : bytes) : nat :=
  match l with
  | b :: l1 =>
      if (b =? 32) || ((9 <=? b) && (b <=? 13)) then 1%nat
      else match l1 with
      | c :: l2 =>
          if (b =? 0xC2) && ((c =? 0x85) || (c =? 0xA0)) then 2%nat
          else match l2 with
          | d :: _ =>
              if (b =? 0xE1) && (c =? 0x9A) && (d =? 0x80) then 3%nat
              else if (b =? 0xE2) && (c =? 0x80) && (((0x80 <=? d) && (d <=? 0x8A)) || (d =? 0xA8) || (d =? 0xA9) || (d =? 0xAF)) then 3%nat
              else if (b =? 0xE2) && (c =? 0x81) && (d =? 0x9F) then 3%nat
              else if (b =? 0xE3) && (c =? 0x80) && (d =? 0x80) then 3%nat
              else 0%nat
          | [] => 0%nat
          end
      | [] => 0%nat
      end
  | [] => 0%nat
  end.

(** bufio.Scanner: a token together with the separator ending it must fit into 64 KiB *)
Definition max_token : Z := 65536.

(** bufio.NewScanner(r).Split(bufio.ScanWords): the tokens Scan delivers for the content of [r]
    (whether reading ends with EOF or with an error).  A token that is too long ends the sequence;
    the caller of readWordFile does not look at Scanner.Err.  [skip] counts remaining bytes of a
    separator, [cur] is the token read so far in reverse. *)
Definition emit (cur : bytes) (rest : list bytes) : list bytes :=
  match cur with [] => rest | _ => rev cur :: rest end.
Fixpoint scan_words (l : bytes) (skip : nat) (cur : bytes) : list bytes :=
  match l with
  | [] => if zlen cur >=? max_token then [] else emit cur []
  | b :: l' =>
      match skip with
      | S k => scan_words l' k cur
      | O =>
          match space_width l with
          | O => if zlen cur >=? max_token then [] else scan_words l' O (b :: cur)
          | S k => if (zlen cur >? 0) && (zlen cur + Z.of_nat (S k) >? max_token) then []
                   else emit cur (scan_words l' k [])
          end
      end
  end.

(** bufio.ScanLines: the next line without its end of line, and what follows; None at the end of
    the input or when the line is too long *)
Definition drop_cr (l : bytes) : bytes :=
  match rev l with 13 :: r => rev r | _ => l end.
Fixpoint scan_line (l : bytes) (cur : bytes) : option (bytes * bytes) :=
  if zlen cur >=? max_token then None
  else match l with
       | [] => match cur with [] => None | _ => Some (drop_cr (rev cur), []) end
       | b :: l' => if b =? 10 then Some (drop_cr (rev cur), l') else scan_line l' (b :: cur)
       end.

(** cmd/mnemonikey/terminal.go:85-91: the inner loop fills one line.  [n] is maxWidth; the indent
    string is a run of spaces. *)
Definition spaces (n : Z) : bytes := repeat 32 (Z.to_nat n).
Fixpoint fill_line (indent : bytes) (n : Z) (line : bytes) (words : list bytes) : bytes * list bytes :=
  match words with
  | [] => (line, [])
  | w :: ws =>
      if zlen line + zlen w + 1 <=? n then
        fill_line indent n ((if bytes_eqb line indent then line else line ++ [32]) ++ w) ws
      else (line, words)
  end.
(** One turn of the outer loop (lines 83-93) on the state (words, lines). *)
Definition justify_step (indent : bytes) (n : Z) (s : list bytes * list bytes) : list bytes * list bytes :=
  let (line, rest) := fill_line indent n indent (fst s) in (rest, snd s ++ [line]).

(** What a call does: returns text, panics, or never returns. *)
Inductive justified := Text (t : bytes) | Crashes | Loops.
(** The outer loop.  A turn that takes no word leaves [words] as it was, so the loop never ends;
    Props/TextProps.v proves [Loops] is exactly non-termination of [justify_step]. *)
Fixpoint justify_loop (indent : bytes) (n : Z) (fuel : nat) (words lines : list bytes) : justified :=
  match words with
  | [] => Text (join [10] lines)
  | _ =>
      match fuel with
      | O => Loops
      | S f =>
          let (rest, lines) := justify_step indent n (words, lines) in
          if Nat.eqb (length rest) (length words) then Loops else justify_loop indent n f rest lines
      end
  end.
(** cmd/mnemonikey/terminal.go:75-95.  strings.Repeat panics on a negative count (line 78), the
    division on zero and make on a negative capacity (line 81). *)
Definition justify_width (indent width : Z) (text : bytes) : justified :=
  let n := indent + width in
  if indent <? 0 then Crashes
  else if n =? 0 then Crashes
  else if Z.quot (zlen text) n + 1 <? 0 then Crashes
  else let words := split_on 32 text in
       justify_loop (spaces indent) n (length words) words [].

(** cmd/mnemonikey/terminal.go:60-73: None when term.GetSize fails *)
Definition terminal_width (size : option Z) : Z := match size with Some w => w | None => 75 end.
(** cmd/mnemonikey/terminal.go:97-102 and 104-109 *)
Definition justify_terminal_width (size : option Z) (indent : Z) (text : bytes) : justified :=
  justify_width indent (Z.quot (terminal_width size * 4) 5) text.
Definition justify_option_description (size : option Z) (text : bytes) : justified :=
  justify_width 8 (Z.quot ((terminal_width size - 8) * 4) 5) text.
