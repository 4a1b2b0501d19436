(** Model of everything the commands of /repo/cmd/mnemonikey write to standard error, in the order it is
    written: prompts, notices, the tables of -verbose, help, phrases and the final error line.  Each function
    runs the function of CliMain.v it belongs to and adds the text.  Not modelled: the trace of a panic, and
    what a usage text that cannot be wrapped had written before (CliHelp.v). *)
From Verif.Model Require Import GoBase Env Version GoTime Seed Encoding Recovery PgpKeys Mnemonikey.
From Verif.Model Require Import CliText CliInput CliFlags CliMain CliHelp CliScreen.

(** Texts made by the operating system, by fmt's %q and by time.Format; [h_other] for the errors of the
    library that carry numbers (Props/TraceProps.v shows which of them a run can reach). *)
Record host := mk_host {
  h_quote : bytes -> bytes;      (* %q *)
  h_time : Z -> bytes;           (* Format(time.RFC3339) *)
  h_open : bytes -> bytes;       (* why os.Open of a path failed *)
  h_stat : bytes -> bytes;       (* why os.Stat of a path failed *)
  h_write : bytes -> bytes;      (* why os.WriteFile to a path failed *)
  h_source : bytes;              (* why a random source could not be read *)
  h_export : bytes;              (* the same during an export, with the names of packet and field *)
  h_read : bytes;                (* why standard input could not be read: EOF *)
  h_terminal : bytes;            (* why standard input is not a terminal *)
  h_other : err -> bytes
}.

(** A function with the text it writes to standard error, and the text of its error if it fails *)
Definition traced (A : Type) := world -> (outcome A * world) * (bytes * bytes).
Definition t_ret {A} (a : A) : traced A := fun w => ((Ret a, w), ([], [])).
Definition t_fail {A} (e : err) (text : bytes) : traced A := fun w => ((Fail e, w), ([], text)).
Definition t_then {A B} (m : traced A) (f : A -> traced B) : traced B :=
  fun w => match m w with
           | ((Ret a, w'), (out, _)) => let (r, t) := f a w' in (r, (out ++ fst t, snd t))
           | ((Fail e, w'), t) => ((Fail e, w'), t)
           | ((Crash, w'), t) => ((Crash, w'), t)
           | ((Hang, w'), t) => ((Hang, w'), t)
           | ((Exit c, w'), t) => ((Exit c, w'), t)
           end.
Notation "'tell' p <- a ; b" := (t_then a (fun p => b)) (at level 200, p as pattern, a at level 100, b at level 200).
Definition say (text : bytes) : traced unit := fun w => ((Ret tt, w), (text, [])).
(** a step that writes nothing; [text] is the text of its error *)
Definition quiet {A} (a : action A) (text : err -> bytes) : traced A :=
  fun w => let r := a w in (r, ([], match fst r with Fail e => text e | _ => [] end)).
Definition line (text : bytes) : bytes := text ++ [10].

(** ** Texts of errors *)
(** mnemonikey.go:27-35, recovery.go:19-27, 96, encoding.go:78, mnemonic/decode.go:14 *)
Definition lib_text (H : host) (e : err) : bytes :=
  match e with
  | ErrInvalidChecksum => bs "failed to validate checksum embedded in mnemonic phrase"
  | ErrInvalidWordCount => bs "mnemonic is not the correct length"
  | ErrMnemonicDecryption => bs "failed to decrypt entropy: incorrect password"
  | ErrInvalidWord => bs "word is not a member of the wordlist"
  | ErrTTLInvalid => bs "key time-to-live cannot be negative"
  | ErrCreationTooLate => bs "key creation time exceeds maximum"
  | ErrCreationTooEarly => bs "key creation time exceeds maximum"
  | ErrEmptyPassword => bs "cannot encrypt recovery phrase with empty password"
  | ErrRandomSource => h_source H
  | e => h_other H e
  end.
(** recovery.go:184-245; version.go:69 adds the number *)
Definition decode_text (E : Env) (H : host) (words : list bytes) (e : err) : bytes :=
  match e, words with
  | ErrInvalidVersionNumber, w0 :: _ => version_error E w0
  | e, _ => lib_text H e
  end.
(** command.go:11 *)
Definition incorrect_usage : bytes := bs "incorrect usage".
(** expiry.go:11, 21; generate.go:78, recover.go:150 *)
Definition ttl_text (H : host) (text : bytes) : bytes :=
  incorrect_usage ++ bs ": " ++ bs "invalid duration parameter" ++ bs ": " ++ h_quote H text.
(** common_opts.go:89-99: the first element that is none of the four names *)
Definition only_text (H : host) (text : bytes) : bytes :=
  let known x := bytes_eqb x (bs "master") || bytes_eqb x type_encryption
                 || bytes_eqb x type_authentication || bytes_eqb x type_signing in
  match filter (fun x => negb (known x)) (split_on 44 text) with
  | x :: _ => incorrect_usage ++ bs ": unknown -only list element " ++ h_quote H x
  | [] => incorrect_usage
  end.

(** ** cmd/mnemonikey/word_input.go:230-291 *)
(** lines 248-278: what the reader writes, with the text of its error.  A failing read is followed by the
    newline of line 285. *)
Fixpoint prompt_text (H : host) (fuel : nat) (confirm : bool) (prompt : bytes) (r : reader) (stdin : bytes) : bytes * bytes :=
  match fuel with
  | O => ([], [])
  | S f =>
      match r with
      | At_prompt =>
          let ask := faint prompt in
          match read_password stdin [] with
          | (Ok [], rest) =>
              let (out, text) := prompt_text H f confirm prompt At_prompt rest in
              (ask ++ line (red (10 :: bs "Cannot use an empty password.")) ++ out, text)
          | (Ok pass1, rest) =>
              if confirm
              then let (out, text) := prompt_text H f confirm prompt (At_confirm pass1) rest in (ask ++ out, text)
              else (ask, [])
          | (_, _) => (ask ++ [10], bs "failed to read password: " ++ h_read H)
          end
      | At_confirm pass1 =>
          let ask := faint (10 :: bs "Repeat password to confirm: ") in
          match read_password stdin [] with
          | (Ok pass2, rest) =>
              if bytes_eqb pass1 pass2 then (ask, [])
              else let (out, text) := prompt_text H f confirm prompt At_prompt rest in
                   (ask ++ line (red (10 :: bs "Passwords do not match. Please try again.")) ++ out, text)
          | (_, _) => (ask ++ [10], bs "failed to confirm password: " ++ h_read H)
          end
      | _ => ([], [])
      end
  end.
Definition t_password (H : host) (prompt : bytes) (confirm : bool) : traced bytes :=
  fun w => (ask_password confirm w,
            if w_tty w then prompt_text H (length (w_stdin w) + 2) confirm prompt At_prompt (w_stdin w)
            else ([], h_terminal H)).
Definition key_prompt : bytes := bs "Enter key encryption password: ".
Definition phrase_prompt : bytes := bs "Enter phrase encryption password: ".
Definition decrypt_prompt : bytes := bs "Enter phrase decryption password: ".

(** ** The phrase: cmd/mnemonikey/recover.go:207-239, word_input.go:33-223 *)
Definition count_text (E : Env) (path : bytes) (words : list bytes) : bytes :=
  let (version, _) := parse_version_raw E (hd [] words) in
  bs "found only " ++ itoa (zlen words) ++ bs " words in word file " ++ path ++ bs ", expected "
  ++ itoa (mnemonic_size version) ++ bs " words for version " ++ itoa version ++ bs " phrase".
Definition word_file_text (E : Env) (H : host) (path content : bytes) (e : err) : bytes :=
  match e with
  | ErrWordFileWord => bs "found word in " ++ path ++ bs " not present in wordlist"
  | ErrWordFileFormat => bs "invalid format for word file"
  | ErrWordFileEmpty => bs "found only no words in word file " ++ path
  | ErrWordFileCount =>
      match word_file_loop E 0 (scan_words content 0 []) with Ok words => count_text E path words | _ => [] end
  | e => h_other H e
  end.
Definition t_read_word_file (E : Env) (H : host) (path : bytes) : traced (list bytes) :=
  tell content <- quiet (open_file path) (fun _ => h_open H path);
  quiet (lift (parse_word_file E content)) (word_file_text E H path content).

(** word_input.go:182-219: what the program itself writes; the terminal's echo is in CliScreen.v *)
Fixpoint simple_writes (E : Env) (fuel : nat) (i count : Z) (stdin : bytes) : bytes :=
  if i <? count then
    simple_word_prompt i ++
    match fuel with
    | O => [10; 10]
    | S f =>
        match scan_line stdin [] with
        | None => [10; 10]
        | Some (text, rest) =>
            let input := to_lower E (trim_space E text) in
            if fst (wl_search E input) then
              erase_forward ++
              if i =? 0 then
                match parse_mnemonic_version E input with
                | Ok v => previous_line ++ erase_forward ++ simple_writes E f (i + 1) (mnemonic_size v) rest
                | _ => red (version_error E input) ++ previous_line ++ erase_forward ++ simple_writes E f i count rest
                end
              else previous_line ++ erase_forward ++ simple_writes E f (i + 1) count rest
            else red bad_word ++ previous_line ++ erase_forward ++ simple_writes E f i count rest
        end
    end
  else [].
(** lines 34-39: MakeRaw fails when standard input is not a terminal *)
Definition fallback_warning (H : host) : bytes :=
  line (bs "WARN: failed to hook into terminal interface: " ++ h_terminal H) ++ line (bs "WARN: reverting to backup input method").
Definition entry_error (H : host) (raw : bool) (e : err) : bytes :=
  match e with
  | ErrAborted => bs "aborted"
  | ErrInputEOF => if raw then bs "failed to read from standard input: " ++ h_read H else bs "unexpected EOF on standard input"
  | e => h_other H e
  end.
Definition simple_entry (E : Env) (stdin : bytes) : bytes := simple_header ++ simple_writes E (S (length stdin)) 0 1 stdin.
(** cmd/mnemonikey/recover.go:90-99 *)
Definition t_read_phrase (E : Env) (H : host) (o : input_options) : traced (list bytes) :=
  fun w => match io_in_file o with
           | [] => if io_simple o || negb (w_tty w)
                   then (tell _ <- say ((if io_simple o then [] else fallback_warning H) ++ simple_entry E (w_stdin w));
                         quiet (from_stdin (user_input_mnemonic_simple E)) (entry_error H false)) w
                   else (tell _ <- say (raw_header ++ raw_body E (w_stdin w));
                         quiet (from_stdin (user_input_mnemonic E)) (entry_error H true)) w
           | path => t_read_word_file E H path w
           end.

(** ** cmd/mnemonikey/recover.go:82-135 *)
(** a table of -verbose; its lines never panic, Props/ScreenProps.v *)
Definition table (title : bytes) (rows : res bytes) : traced unit :=
  tell _ <- say (line title);
  match rows with
  | Ok text => say (text ++ [10])
  | _ => fun w => ((Crash, w), ([], []))
  end.
Definition phrase_info (dm : decoded) : list (bytes * bytes) :=
  [(bs "version", itoa (dm_version dm)); (bs "era", itoa (version_era (dm_version dm)));
   (bs "encrypted", if dm_encrypted dm then bs "true" else bs "false")].
Fixpoint t_decrypt_loop (E : Env) (H : host) (fuel : nat) (dm : decoded) : traced seed :=
  fun w =>
    match fuel with
    | O => ((Fail ErrInputEOF, w), ([], []))
    | S f =>
        (tell password <- (if dm_encrypted dm then t_password H decrypt_prompt false else t_ret []);
         fun w => match dm_decrypt_seed E dm password with
                  | Ok s => t_ret s w
                  | Err ErrMnemonicDecryption =>
                      (tell _ <- say (line (red (lib_text H ErrMnemonicDecryption))); t_decrypt_loop E H f dm) w
                  | Err e => t_fail e (lib_text H e) w
                  | Panic => ((Crash, w), ([], []))
                  end) w
    end.
Definition t_decode_mnemonic_from_input (E : Env) (H : host) (verbose : bool) (o : input_options) : traced (seed * decoded) :=
  tell words <- t_read_phrase E H o;
  tell dm <- quiet (lift (decode_mnemonic E words)) (decode_text E H words);
  tell _ <- (if verbose then table (bs "Decoded mnemonic recovery phrase:") (print_debug_info (phrase_info dm)) else t_ret tt);
  tell s <- (fun w => t_decrypt_loop E H (S (S (length (w_stdin w)))) dm w);
  t_ret (s, dm).

(** ** cmd/mnemonikey/generate.go:177-213 *)
Definition underline (s : bytes) : bytes := (esc :: bs "[4m") ++ s ++ (esc :: bs "[24m").
Definition t_print_mnemonic (words : list bytes) : traced unit :=
  fun w =>
    let head := 10 :: bs "This is the mnemonic phrase which can be used to recover the private key:" ++ [10; 10] in
    let saved := 10 :: bs "Save this phrase in a secure place, preferably offline, on paper." ++ [10; 10] in
    let never := underline (bs "If you do not save it now, you will " ++ bold (bs "NEVER") ++ bs " see this phrase again." ++ [10; 10]) in
    (print_mnemonic words w,
     (match phrase_lines 0 words with
      | Ok rows => head ++ rows ++ saved ++
          match justify_terminal_width (w_width w) 0 save_reminder with Text t => t ++ never | _ => [] end
      | _ => head
      end, [])).
Definition save_text (H : host) (path : bytes) (n : node) : bytes :=
  bs "failed to write words to file: " ++
  match n with
  | File _ | Closed => bs "refused to write word-file to " ++ path ++ bs ": file already exists"
  | Blocked => bs "failed to write word-file to " ++ path ++ bs ": path is not accessible: " ++ h_stat H path
  | _ => bs "failed to write words to file: " ++ h_write H path
  end.
Definition t_save_mnemonic (H : host) (words : list bytes) (path : bytes) : traced unit :=
  fun w => quiet (save_mnemonic words path) (fun _ => save_text H path (w_files w path)) w.

(** ** cmd/mnemonikey/generate.go:64-175 *)
Definition t_ttl_option (E : Env) (H : host) (text : bytes) : traced Z := quiet (ttl_option E text) (fun _ => ttl_text H text).
Definition t_only (H : host) (text : bytes) : traced (bool * option (list bytes)) :=
  quiet (lift (decode_only_key_types text)) (fun _ => only_text H text).
Definition entropy_warning : bytes :=
  line (red (bold (bs "WARNING:") ++ bs " The -unsafe-entropy option is dangerous and can produce weak PGP keys if used incorrectly.")).
(** seed.go:66-77 *)
Definition seed_text (H : host) (e : err) : bytes :=
  match e with
  | ErrRandomSource => bs "failed to generate 128 bits of secure random seed data: " ++ h_source H
  | e => h_other H e
  end.
Definition t_seed_from_source (H : host) (option : bytes) : traced seed :=
  match option with
  | [] => quiet (seed_from_source option) (seed_text H)
  | _ =>
      tell _ <- say entropy_warning;
      quiet (seed_from_source option)
        (fun e => match e with
                  | ErrFileNotFound => bs "failed to open entropy source file: " ++ h_open H option
                  | e => seed_text H e
                  end)
  end.
Definition export_text (H : host) (e : err) : bytes :=
  match e with ErrRandomSource => h_export H | e => h_other H e end.
Definition key_table (E : Env) (H : host) (title : bytes) (m : mnemonikey) : traced unit :=
  table title (print_key_debug_info E (h_quote H) (h_time H) m).
(** lines 166-168, recover.go:200-202 *)
Definition t_print_key (armor : bytes) : traced unit :=
  tell _ <- say (esc :: bs "[35m");
  tell _ <- quiet (print_out (line armor)) (fun _ => []);
  say color_end.
Definition t_generate (E : Env) (H : host) (verbose : bool) (o : generate_options) : traced unit :=
  fun w =>
  let creation := w_now w in
  (tell ttl <- t_ttl_option E H (go_ttl o);
   tell (output_master, types) <- t_only H (go_only o);
   tell seed <- t_seed_from_source H (go_entropy o);
   tell mnk <- quiet (lift (mnk_new E seed creation
                       (Some (mk_opts (trim_space E (go_name o)) (trim_space E (go_email o)) ttl 0 0 0 types)))) (lib_text H);
   tell password <- (if go_encrypt_keys o then t_password H key_prompt true else t_ret []);
   tell armor <- quiet (with_random (if output_master then mnk_encode_pgp_armor E mnk password
                                     else mnk_encode_subkeys_pgp_armor E mnk password true)) (export_text H);
   tell words <- (if go_encrypt_phrase o
                  then tell phrase_password <- t_password H phrase_prompt true;
                       quiet (fun w => (of_res (mnk_encode_encrypted E mnk phrase_password (w_random w)), w)) (lib_text H)
                  else quiet (lift (mnk_encode_plaintext E mnk)) (lib_text H));
   tell _ <- (match go_out_file o with [] => t_ret tt | path => t_save_mnemonic H words path end);
   tell _ <- (if verbose then key_table E H (bs "Generated OpenPGP private key with 128 bits of entropy:") mnk else t_ret tt);
   tell _ <- t_print_key armor;
   match go_out_file o with [] => t_print_mnemonic words | _ => t_ret tt end) w.

(** ** cmd/mnemonikey/recover.go:137-205 *)
Definition t_recover (E : Env) (H : host) (verbose : bool) (o : recover_options) : traced unit :=
  tell ttl <- t_ttl_option E H (ro_ttl o);
  if (ro_enc_index o >? max_subkey_index) || (ro_auth_index o >? max_subkey_index) || (ro_sign_index o >? max_subkey_index)
  then t_fail ErrSubkeyIndex (bs "invalid subkey index; must be less than or equal to " ++ itoa max_subkey_index)
  else
    tell (output_master, types) <- t_only H (ro_only o);
    tell (seed, dm) <- t_decode_mnemonic_from_input E H verbose (ro_input o);
    tell mnk <- quiet (lift (mnk_new E seed (dm_creation dm)
                        (Some (mk_opts (trim_space E (ro_name o)) (trim_space E (ro_email o)) ttl
                                 (u16 (ro_enc_index o)) (u16 (ro_auth_index o)) (u16 (ro_sign_index o)) types))))
                  (fun e => bs "failed to re-derive PGP keys: " ++ lib_text H e);
    tell password <- (if ro_encrypt_keys o then t_password H key_prompt true else t_ret []);
    tell armor <- quiet (with_random (if output_master then mnk_encode_pgp_armor E mnk password
                                      else mnk_encode_subkeys_pgp_armor E mnk password (ro_self_cert o))) (export_text H);
    tell _ <- (if verbose then key_table E H (bs "Re-derived OpenPGP key:") mnk else t_ret tt);
    t_print_key armor.

(** ** cmd/mnemonikey/convert.go:48-85 *)
Definition t_convert (E : Env) (H : host) (verbose : bool) (o : convert_options) : traced unit :=
  tell (seed, dm) <- t_decode_mnemonic_from_input E H verbose (co_input o);
  tell words <- (if co_encrypt o
                 then tell phrase_password <- t_password H phrase_prompt true;
                      quiet (fun w => (of_res (encode_mnemonic_encrypted E seed (dm_offset dm) phrase_password (w_random w)), w)) (lib_text H)
                 else quiet (lift (encode_mnemonic_plaintext E seed (dm_offset dm))) (lib_text H));
  match io_in_file (co_input o) with
  | [] => t_print_mnemonic words
  | path => t_save_mnemonic H words path
  end.

(** ** Package flag (Go 1.20): the line a bad command line is answered with *)
(** numError of strconv's errors: where the digit loop of ParseUint stops decides between the two *)
Fixpoint digits_overflow (base n : Z) (s : bytes) : bool :=
  match s with
  | [] => false
  | c :: s' =>
      if c =? 95 then digits_overflow base n s'
      else
        let digit :=
          if (48 <=? c) && (c <=? 57) then Some (c - 48)
          else if (97 <=? lower_bit c) && (lower_bit c <=? 122) then Some (lower_bit c - 97 + 10)
          else None in
        match digit with
        | None => false
        | Some d =>
            if d >=? base then false
            else if n >=? max_uint64 / base + 1 then true
            else let n1 := n * base + d in
                 if n1 >? max_uint64 then true else digits_overflow base n1 s'
        end
  end.
Definition uint_overflow (s : bytes) : bool :=
  match s with
  | z :: r =>
      if z =? 48 then
        match r with
        | p :: ((_ :: _) as r') =>
            if lower_bit p =? 98 then digits_overflow 2 0 r'
            else if lower_bit p =? 111 then digits_overflow 8 0 r'
            else if lower_bit p =? 120 then digits_overflow 16 0 r'
            else digits_overflow 8 0 r
        | _ => digits_overflow 8 0 r
        end
      else digits_overflow 10 0 s
  | [] => false
  end.
Definition value_error (H : host) (old : flag_value) (name text : bytes) : bytes :=
  match old with
  | Bool _ => bs "invalid boolean value " ++ h_quote H text ++ bs " for -" ++ name ++ bs ": parse error"
  | _ => bs "invalid value " ++ h_quote H text ++ bs " for flag -" ++ name ++ bs ": "
         ++ (if uint_overflow text then bs "value out of range" else bs "parse error")
  end.
(** parseOne and Parse again, for the message *)
Fixpoint flag_error (H : host) (fuel : nat) (fs : flag_set) (args : list bytes) : bytes :=
  match fuel with
  | O => []
  | S f =>
      match args with
      | [] => []
      | s :: rest =>
          match s with
          | m :: ((c :: s') as after) =>
              if negb (m =? 45) then []
              else
                let double := c =? 45 in
                if double && (match s' with [] => true | _ => false end) then []
                else
                  let name := if double then s' else after in
                  match name with
                  | [] => []
                  | c0 :: _ =>
                      if (c0 =? 45) || (c0 =? 61) then bs "bad flag syntax: " ++ s
                      else
                        let (name, value) := split_flag name in
                        match flag_get fs name with
                        | None => bs "flag provided but not defined: -" ++ name
                        | Some old =>
                            match old, value, rest with
                            | Bool _, None, _ => flag_error H f (flag_put fs name (Bool true)) rest
                            | _, Some text, _ =>
                                match flag_parse_value old text with
                                | Some v => flag_error H f (flag_put fs name v) rest
                                | None => value_error H old name text
                                end
                            | _, None, text :: rest' =>
                                match flag_parse_value old text with
                                | Some v => flag_error H f (flag_put fs name v) rest'
                                | None => value_error H old name text
                                end
                            | _, None, [] => bs "flag needs an argument: -" ++ name
                            end
                        end
                  end
          | _ => []
          end
      end
  end.

(** ** cmd/mnemonikey/command.go:27-94, main.go *)
Definition t_usage (d : command_doc) (t : command_text) : traced unit :=
  fun w => (usage t w, (match help_output d (w_width w) with Text text => text | _ => [] end, [])).
Definition t_exit {A} (c : Z) : traced A := fun w => ((Exit c, w), ([], [])).
Definition t_run_command (H : host) (d : command_doc) (t : command_text) (flags : flag_set)
           (execute : flag_set -> list bytes -> traced unit) (args : list bytes) : traced unit :=
  let parse :=
    match parse_flags flags args with
    | Help => tell _ <- t_usage d t; t_exit 0
    | Bad_flags => tell _ <- say (line (flag_error H (S (length args)) flags args)); tell _ <- t_usage d t; t_exit 2
    | Parsed fs rest =>
        fun w => match execute fs rest w with
                 | ((Fail ErrPrintUsage, w), (out, text)) =>
                     (tell _ <- say out; tell _ <- t_usage d t; t_fail ErrOther text) w
                 | r => r
                 end
    end in
  match args with
  | [a] => if bytes_eqb a (bs "help") then t_usage d t else parse
  | _ => parse
  end.
Definition verbose_of (fs : flag_set) : bool := flag_bool fs (bs "verbose").
Definition t_generate_command (E : Env) (H : host) : list bytes -> traced unit :=
  t_run_command H generate_doc generate_text generate_flags
    (fun fs _ => t_generate E H (verbose_of fs) (generate_options_of fs)).
Definition t_recover_command (E : Env) (H : host) : list bytes -> traced unit :=
  t_run_command H recover_doc recover_text recover_flags
    (fun fs _ => t_recover E H (verbose_of fs) (recover_options_of fs)).
Definition t_convert_command (E : Env) (H : host) : list bytes -> traced unit :=
  t_run_command H convert_doc convert_text convert_flags
    (fun fs _ => t_convert E H (verbose_of fs) (convert_options_of fs)).
Definition t_subcommand (E : Env) (H : host) (name : bytes) : option (list bytes -> traced unit) :=
  if bytes_eqb name (bs "generate") then Some (t_generate_command E H)
  else if bytes_eqb name (bs "recover") then Some (t_recover_command E H)
  else if bytes_eqb name (bs "convert") then Some (t_convert_command E H)
  else None.
Definition t_root_execute (H : host) (sub : bytes -> option (list bytes -> traced unit)) (args : list bytes) : traced unit :=
  match args with
  | [] => t_fail ErrPrintUsage (incorrect_usage ++ bs ": missing subcommand")
  | a :: rest =>
      if bytes_eqb a (bs "help") then t_fail ErrPrintUsageGraceful incorrect_usage
      else match sub a with
           | None => t_fail ErrPrintUsage (incorrect_usage ++ bs ": unknown subcommand " ++ h_quote H a)
           | Some run => run rest
           end
  end.
(** main.go:43-49: exit status, world and standard error *)
Definition t_main (E : Env) (H : host) (args : list bytes) (w : world) : (option Z * world) * bytes :=
  match t_run_command H root_doc root_text [] (fun _ args => t_root_execute H (t_subcommand E H) args) args w with
  | ((o, w'), (out, text)) =>
      ((exit_status o, w'),
       out ++ match o with
              | Fail ErrPrintUsageGraceful => []
              | Fail _ => line (bs "ERROR: " ++ text)
              | _ => []
              end)
  end.
