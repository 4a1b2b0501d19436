(** Model of what /repo/cmd/mnemonikey writes to the terminal while a phrase is entered
    (word_input.go), when it shows a phrase (generate.go) and for -verbose (terminal.go). *)
From Verif.Model Require Import GoBase Env Version GoTime Recovery Mnemonikey CliText CliInput.

(** ** cmd/mnemonikey/terminal.go:16-58 *)
Definition esc : Z := 27.
Definition backspace_code : bytes := [8; 127].
Definition previous_line : bytes := esc :: bs "[F".
Definition erase_forward : bytes := esc :: bs "[0K".
Definition save_cursor : bytes := esc :: bs "7" ++ esc :: bs "[s".
Definition load_cursor : bytes := esc :: bs "8" ++ esc :: bs "[u".
Definition color_end : bytes := esc :: bs "[39m".
Definition bold (s : bytes) : bytes := (esc :: bs "[1m") ++ s ++ (esc :: bs "[22m").
Definition faint (s : bytes) : bytes := (esc :: bs "[2m") ++ s ++ (esc :: bs "[22m").
Definition red (s : bytes) : bytes := (esc :: bs "[31m") ++ s ++ color_end.
Definition magenta (s : bytes) : bytes := (esc :: bs "[35m") ++ s ++ color_end.
Definition cyan (s : bytes) : bytes := (esc :: bs "[36m") ++ s ++ color_end.

(** strconv.Itoa, and %d of fmt: decimal digits, with a sign.  The fuel is the number of bits. *)
Fixpoint decimal_digits (fuel : nat) (n : Z) : bytes :=
  match fuel with
  | O => []
  | S f => (if n <? 10 then [] else decimal_digits f (n / 10)) ++ [48 + n mod 10]
  end.
Definition itoa (n : Z) : bytes :=
  let digits m := decimal_digits (S (Z.to_nat (Z.log2 m))) m in
  if n <? 0 then 45 :: digits (- n) else digits n.

(** ** cmd/mnemonikey/word_input.go:33-165: the terminal is in raw mode, so "\n" is a plain line feed *)
(** lines 20-21 *)
Definition input_header : bytes := bs "Enter the words of your recovery mnemonic in sequence.".
Definition bad_word : bytes := bs "No matching words found in the wordlist!".
(** lines 52-62 *)
Definition raw_header : bytes :=
  let crlf := [13; 10] in
  bold (cyan (input_header ++ crlf)) ++ crlf ++
  faint (bs "- ENTER/SPACE:    Autocomplete and submit word" ++ crlf) ++
  faint (bs "- TAB:            Autocomplete word without submitting" ++ crlf) ++
  faint (bs "- BACKSPACE:      Revise current word" ++ crlf) ++
  faint (bs "- LEFT ARROW:     Revise previous word" ++ crlf) ++
  faint (bs "- CTRL+C/CTRL+D:  Quit" ++ crlf) ++ crlf ++
  [10] ++ previous_line.
(** line 65 *)
Definition raw_word_prompt (i : Z) : bytes :=
  [13] ++ erase_forward ++ bold (cyan (bs "Word " ++ itoa (i + 1) ++ bs " >> ")).
(** lines 118-119, 131-132 *)
Definition raw_notice (text : bytes) : bytes := [13; 10] ++ red text ++ load_cursor.
(** the text of the error ParseMnemonicVersion returns: version.go:17, 69 and mnemonic/decode.go:14 *)
Definition version_error (E : Env) (word : bytes) : bytes :=
  match parse_version_raw E word with
  | (_, Err ErrInvalidWord) => bs "word is not a member of the wordlist"
  | (v, _) => bs "invalid version number in recovery phrase: " ++ itoa v
  end.
(** lines 69-161: what is written for one byte of input *)
Definition key_output (E : Env) (s : entry) (b : Z) : bytes :=
  if (b =? key_ctrl_c) || (b =? key_ctrl_d) then []
  else
    let letter := (97 <=? b) && (b <=? 122) in
    let input := if letter then en_input s ++ [b] else en_input s in
    let erased := (b =? key_delete) && negb (bytes_eqb input []) in
    let echo := (if letter then [b] else []) ++ (if erased then backspace_code else []) in
    let input := if b =? key_delete then removelast input else input in
    if b =? key_left then echo
    else
      let suffixes := snd (wl_search E input) in
      match b =? 9, suffixes with
      | true, suffix :: _ => echo ++ suffix
      | _, _ =>
          echo ++ save_cursor ++
          (if (b =? 13) || (b =? 32) then
             match suffixes with
             | [] => raw_notice bad_word
             | suffix :: _ =>
                 if en_i s =? 0 then
                   match parse_mnemonic_version E (input ++ suffix) with
                   | Ok _ => []
                   | _ => raw_notice (version_error E (input ++ suffix))
                   end
                 else []
             end
           else
             erase_forward ++
             match suffixes with
             | suffix :: _ => faint suffix ++ [13; 10] ++ erase_forward
             | [] => if bytes_eqb input [] then [13; 10] ++ erase_forward else [13; 10] ++ red bad_word
             end ++ load_cursor)
      end.
(** lines 64-162: everything after the header.  A word that was submitted or left changes i, and only
    then the loop prints the next prompt. *)
Fixpoint raw_keys_output (E : Env) (s : entry) (stdin : bytes) : bytes :=
  match stdin with
  | [] => []
  | b :: rest =>
      key_output E s b ++
      match key E s b with
      | More s' => (if en_i s' =? en_i s then [] else raw_word_prompt (en_i s')) ++ raw_keys_output E s' rest
      | _ => []
      end
  end.
(** and the deferred function at lines 40-46, which runs however the function returns *)
Definition raw_footer : bytes := [13] ++ erase_forward ++ [10; 10].
Definition raw_body (E : Env) (stdin : bytes) : bytes :=
  raw_word_prompt 0 ++ raw_keys_output E entry_start stdin ++ raw_footer.

(** ** cmd/mnemonikey/word_input.go:171-223: the terminal is in its normal mode *)
(** lines 177-180 *)
Definition simple_header : bytes := bold (cyan (input_header ++ [10; 10])) ++ [10] ++ previous_line.
(** line 183 *)
Definition simple_word_prompt (i : Z) : bytes := bold (cyan (bs "Word " ++ itoa (i + 1) ++ bs " >> ")).
(** lines 182-219 for the lines of standard input, each with its line end as the terminal echoes it
    ([snd]: Enter was pressed; false for a last line ended by the end of the input).  The lines are
    echoed when they are read; for lines typed ahead see CliAhead.v. *)
Fixpoint simple_output (E : Env) (i count : Z) (lines : list (bytes * bool)) : bytes :=
  if i <? count then
    simple_word_prompt i ++
    match lines with
    | [] => [10; 10]
    | (line, entered) :: rest =>
        let input := to_lower E (trim_space E line) in
        line ++ (if entered then [10] else []) ++
        (if fst (wl_search E input) then
           erase_forward ++
           if i =? 0 then
             match parse_mnemonic_version E input with
             | Ok v => previous_line ++ erase_forward ++ simple_output E (i + 1) (mnemonic_size v) rest
             | _ => red (version_error E input) ++ previous_line ++ erase_forward ++ simple_output E i count rest
             end
           else previous_line ++ erase_forward ++ simple_output E (i + 1) count rest
         else red bad_word ++ previous_line ++ erase_forward ++ simple_output E i count rest)
    end
  else [].

(** ** cmd/mnemonikey/generate.go:177-185, the lines that show a phrase.  strings.Repeat panics on a
    negative count. *)
Definition phrase_line (i : Z) (word : bytes) : res bytes :=
  let human := itoa (i + 1) in
  let spaces := 4 - zlen human in
  if spaces <? 0 then Panic
  else Ok (human ++ bs ":" ++ repeat 32 (Z.to_nat spaces) ++ bold (magenta word) ++ [10]).
Fixpoint phrase_lines (i : Z) (words : list bytes) : res bytes :=
  match words with
  | [] => Ok []
  | w :: rest => let* l := phrase_line i w in let* ls := phrase_lines (i + 1) rest in Ok (l ++ ls)
  end.

(** ** cmd/mnemonikey/terminal.go:111-146 *)
(** fmt's %X of a byte slice *)
Definition hex_digit (n : Z) : Z := if n <? 10 then 48 + n else 55 + n.
Definition hex_upper (l : bytes) : bytes := flat_map (fun b => [hex_digit (b / 16); hex_digit (b mod 16)]) l.
(** utf8.RuneCountInString: bytes that do not continue a rune; exact for valid UTF-8 *)
Definition rune_count (s : bytes) : Z := zlen (filter (fun b => negb ((128 <=? b) && (b <? 192))) s).
(** lines 131-146 *)
Definition debug_line (max_len : Z) (p : bytes * bytes) : res bytes :=
  let spaces := max_len - zlen (fst p) + 1 in
  if spaces <? 0 then Panic
  else Ok (faint (fst p ++ bs ":") ++ repeat 32 (Z.to_nat spaces) ++ cyan (snd p) ++ [10]).
Fixpoint debug_lines (max_len : Z) (values : list (bytes * bytes)) : res bytes :=
  match values with
  | [] => Ok []
  | p :: rest => let* l := debug_line max_len p in let* ls := debug_lines max_len rest in Ok (l ++ ls)
  end.
Definition print_debug_info (values : list (bytes * bytes)) : res bytes :=
  debug_lines (fold_left (fun m p => Z.max m (rune_count (fst p))) values 0) values.
(** lines 127-129, for the ASCII names of subkey types; slicing the empty string panics *)
Definition capitalize (s : bytes) : res bytes :=
  match s with
  | [] => Panic
  | c :: s' => Ok ((if (97 <=? c) && (c <=? 122) then c - 32 else c) :: s')
  end.
(** lines 111-125.  [quote] is %q and [rfc3339] formats a time; all times shown derive from EpochStart or from
    derive.go:60 and are in UTC (Spec/GoQuote.v and Spec/GoCalendar.v have both functions) *)
Fixpoint subkey_info (E : Env) (m : mnemonikey) (types : list bytes) : res (list (bytes * bytes)) :=
  match types with
  | [] => Ok []
  | t :: rest =>
      let* name := capitalize t in
      let fp := match mnk_subkey_fingerprint E m t with Some fp => fp | None => [] end in
      let* infos := subkey_info E m rest in
      Ok ((name ++ bs " subkey fingerprint", hex_upper fp) :: infos)
  end.
Definition key_debug_info (E : Env) (quote : bytes -> bytes) (rfc3339 : Z -> bytes) (m : mnemonikey)
  : res (list (bytes * bytes)) :=
  let* subkeys := subkey_info E m (mnk_subkey_types m) in
  Ok ([(bs "Master key Fingerprint", hex_upper (mnk_fingerprint E m));
       (bs "User ID", quote (mnk_user_id m));
       (bs "Created at", rfc3339 (mnk_created_at m))] ++
      (if is_zero_time (mnk_expiry m) then [] else [(bs "Expires at", rfc3339 (mnk_expiry m))]) ++
      subkeys).
Definition print_key_debug_info (E : Env) (quote : bytes -> bytes) (rfc3339 : Z -> bytes) (m : mnemonikey) : res bytes :=
  let* info := key_debug_info E quote rfc3339 m in print_debug_info info.
