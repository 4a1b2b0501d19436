(** Model of /repo/cmd/mnemonikey/word_input.go: phrase entry in raw and simple mode, and the
    password prompt as a concurrent system.  Standard input is the list of bytes it will deliver.
    What is written to the terminal is not modelled, except the blank line on standard output
    (line 241). *)
From Verif.Model Require Import GoBase Env Version Recovery CliText.

(** ** cmd/mnemonikey/word_input.go:33-165 *)

(** cmd/mnemonikey/terminal.go:37-41, and deleteCode at line 21 *)
Definition key_left : Z := 68.
Definition key_ctrl_c : Z := 3.
Definition key_ctrl_d : Z := 4.
Definition key_delete : Z := 127.

(** The variables of the loop: i, wordCount, words and wordInput *)
Record entry := mk_entry { en_i : Z; en_count : Z; en_words : list bytes; en_input : bytes }.
(** lines 48-50, 67 *)
Definition entry_start : entry := mk_entry 0 1 [] [].
(** What a key does: the loop goes on, the function returns the words, or it aborts. *)
Inductive keyed := More (s : entry) | Entered (words : list bytes) | Aborted.

(** line 64: back to the loop condition with an empty wordInput (line 67) *)
Definition next_word (i count : Z) (words : list bytes) : keyed :=
  if i <? count then More (mk_entry i count words []) else Entered words.

(** lines 69-161: one byte of input.  ParseMnemonicVersion never panics. *)
Definition key (E : Env) (s : entry) (b : Z) : keyed :=
  if (b =? key_ctrl_c) || (b =? key_ctrl_d) then Aborted
  else
    let input := if (97 <=? b) && (b <=? 122) then en_input s ++ [b] else en_input s in
    let input := if b =? key_delete then removelast input else input in
    if b =? key_left then next_word (en_i s - 1) (en_count s) (en_words s)
    else
      let stay w := More (mk_entry (en_i s) (en_count s) (en_words s) w) in
      match snd (wl_search E input) with
      | [] => stay input
      | suffix :: _ =>
          if b =? 9 then stay (input ++ suffix)
          else if (b =? 13) || (b =? 32) then
            let word := input ++ suffix in
            if en_i s =? 0 then
              match parse_mnemonic_version E word with
              | Ok v => next_word (en_i s + 1) (mnemonic_size v) (en_words s ++ [word])
              | _ => stay input
              end
            else next_word (en_i s + 1) (en_count s) (en_words s ++ [word])
          else stay input
      end.

(** the whole loop on the bytes of standard input; also what is left of them *)
Fixpoint enter (E : Env) (s : entry) (stdin : bytes) : res (list bytes) * bytes :=
  match stdin with
  | [] => (Err ErrInputEOF, [])
  | b :: rest =>
      match key E s b with
      | More s' => enter E s' rest
      | Entered words => (Ok words, rest)
      | Aborted => (Err ErrAborted, rest)
      end
  end.
Definition user_input_mnemonic (E : Env) (stdin : bytes) : res (list bytes) * bytes :=
  enter E entry_start stdin.

(** ** cmd/mnemonikey/word_input.go:171-223 *)
(** The loop: fuel bounds the number of lines, of which there are at most as many as bytes. *)
Fixpoint simple_loop (E : Env) (fuel : nat) (i count : Z) (words : list bytes) (stdin : bytes)
  : res (list bytes) * bytes :=
  if i <? count then
    match fuel with
    | O => (Err ErrInputEOF, stdin)
    | S f =>
        match scan_line stdin [] with
        | None => (Err ErrInputEOF, [])
        | Some (line, rest) =>
            let input := to_lower E (trim_space E line) in
            if fst (wl_search E input) then
              if i =? 0 then
                match parse_mnemonic_version E input with
                | Ok v => simple_loop E f (i + 1) (mnemonic_size v) (words ++ [input]) rest
                | _ => simple_loop E f i count words rest
                end
              else simple_loop E f (i + 1) count (words ++ [input]) rest
            else simple_loop E f i count words rest
        end
    end
  else (Ok words, stdin).
Definition user_input_mnemonic_simple (E : Env) (stdin : bytes) : res (list bytes) * bytes :=
  simple_loop E (S (length stdin)) 0 1 [] stdin.

(** ** cmd/mnemonikey/word_input.go:230-291 *)

(** golang.org/x/term.ReadPassword (readPasswordLine, not on Windows): a line, where backspace
    removes a byte and carriage returns are dropped; at the end of input what was read, unless it
    is nothing.  [cur] is in reverse. *)
Fixpoint read_password (stdin cur : bytes) : res bytes * bytes :=
  match stdin with
  | [] => match cur with [] => (Err ErrInputEOF, []) | _ => (Ok (rev cur), []) end
  | b :: rest =>
      if b =? 8 then read_password rest (tl cur)
      else if b =? 10 then (Ok (rev cur), rest)
      else if b =? 13 then read_password rest cur
      else read_password rest (b :: cur)
  end.

(** The goroutine at lines 248-278: at the prompt, at the confirmation prompt holding the first
    password, about to send an error, about to send a password, finished. *)
Inductive reader := At_prompt | At_confirm (pass1 : bytes) | Failing | Sending (pass : bytes) | Finished.
(** One turn of it up to the next channel operation or read *)
Definition reader_step (confirm : bool) (r : reader) (stdin : bytes) : option (reader * bytes) :=
  match r with
  | At_prompt =>
      match read_password stdin [] with
      | (Ok pass1, rest) =>
          match pass1 with
          | [] => Some (At_prompt, rest)
          | _ => if confirm then Some (At_confirm pass1, rest) else Some (Sending pass1, rest)
          end
      | (_, rest) => Some (Failing, rest)
      end
  | At_confirm pass1 =>
      match read_password stdin [] with
      | (Ok pass2, rest) => if bytes_eqb pass1 pass2 then Some (Sending pass1, rest) else Some (At_prompt, rest)
      | (_, rest) => Some (Failing, rest)
      end
  | _ => None
  end.

(** The goroutine at lines 239-243: waiting, printed the newline, restored the terminal. *)
Inductive watcher := Watching | Printed | Restored.

(** The system: standard input, the reader, the watcher, the buffered error channel, whether the
    interrupt signal arrived, the value returned by the function if it returned, and the bytes
    written to standard output. *)
Record prompt := mk_prompt {
  pr_stdin : bytes;
  pr_reader : reader;
  pr_watcher : watcher;
  pr_errors : nat;
  pr_interrupted : bool;
  pr_result : option (res bytes);
  pr_stdout : bytes
}.
Definition prompt_start (stdin : bytes) : prompt :=
  mk_prompt stdin At_prompt Watching 0 false None [].

(** ctx.Done is closed by the signal, or by the deferred cancel when the function returns *)
Definition ctx_done (p : prompt) : bool :=
  pr_interrupted p || match pr_result p with Some _ => true | None => false end.

Inductive prompt_step (confirm : bool) : prompt -> prompt -> Prop :=
| Step_reader p r rest :                            (* lines 249-276 *)
    reader_step confirm (pr_reader p) (pr_stdin p) = Some (r, rest) ->
    prompt_step confirm p (mk_prompt rest r (pr_watcher p) (pr_errors p) (pr_interrupted p) (pr_result p) (pr_stdout p))
| Step_send_error p :                               (* lines 253, 266: errChan has room for one *)
    pr_reader p = Failing -> pr_errors p = 0%nat ->
    prompt_step confirm p (mk_prompt (pr_stdin p) Finished (pr_watcher p) 1 (pr_interrupted p) (pr_result p) (pr_stdout p))
| Step_interrupt p :                                (* the signal, at any time *)
    prompt_step confirm p (mk_prompt (pr_stdin p) (pr_reader p) (pr_watcher p) (pr_errors p) true (pr_result p) (pr_stdout p))
| Step_abort p :                                    (* lines 281-282 *)
    pr_result p = None -> pr_interrupted p = true ->
    prompt_step confirm p (mk_prompt (pr_stdin p) (pr_reader p) (pr_watcher p) (pr_errors p) (pr_interrupted p) (Some (Err ErrAborted)) (pr_stdout p))
| Step_fail p n :                                   (* lines 284-286 *)
    pr_result p = None -> pr_errors p = S n ->
    prompt_step confirm p (mk_prompt (pr_stdin p) (pr_reader p) (pr_watcher p) n (pr_interrupted p) (Some (Err ErrInputEOF)) (pr_stdout p))
| Step_receive p pass :                             (* lines 275 and 288-289 together: passChan is unbuffered *)
    pr_result p = None -> pr_reader p = Sending pass ->
    prompt_step confirm p (mk_prompt (pr_stdin p) Finished (pr_watcher p) (pr_errors p) (pr_interrupted p) (Some (Ok pass)) (pr_stdout p))
| Step_print p :                                    (* lines 240-241 *)
    pr_watcher p = Watching -> ctx_done p = true ->
    prompt_step confirm p (mk_prompt (pr_stdin p) (pr_reader p) Printed (pr_errors p) (pr_interrupted p) (pr_result p) (pr_stdout p ++ [10]))
| Step_restore p :                                  (* line 242 *)
    pr_watcher p = Printed ->
    prompt_step confirm p (mk_prompt (pr_stdin p) (pr_reader p) Restored (pr_errors p) (pr_interrupted p) (pr_result p) (pr_stdout p)).

Inductive prompt_run (confirm : bool) : prompt -> prompt -> Prop :=
| Run_nil p : prompt_run confirm p p
| Run_step p q r : prompt_run confirm p q -> prompt_step confirm q r -> prompt_run confirm p r.

(** The result without an interrupt, as a function; Props/InputProps.v proves it is the result of
    every uninterrupted run.  Every turn of the reader takes a byte of input or fails. *)
Fixpoint prompt_loop (fuel : nat) (confirm : bool) (r : reader) (stdin : bytes) : res bytes * bytes :=
  match r with
  | Sending pass => (Ok pass, stdin)
  | Failing | Finished => (Err ErrInputEOF, stdin)
  | _ =>
      match fuel with
      | O => (Err ErrInputEOF, stdin)
      | S f => match reader_step confirm r stdin with
               | Some (r', rest) => prompt_loop f confirm r' rest
               | None => (Err ErrInputEOF, stdin)
               end
      end
  end.
(** [tty] is whether standard input is a terminal; term.GetState fails if not (line 234) *)
Definition user_input_password (tty confirm : bool) (stdin : bytes) : res bytes * bytes :=
  if tty then prompt_loop (length stdin + 2) confirm At_prompt stdin else (Err ErrOther, stdin).
