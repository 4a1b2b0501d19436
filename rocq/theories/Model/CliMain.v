(** Model of the commands in /repo/cmd/mnemonikey: main.go, command.go, generate.go, recover.go,
    convert.go.  A command runs in a world: files, standard input, the terminal, the system's
    random source, the clock, and what has been printed.  Text on standard error is not modelled,
    except which phrases are shown and how often the usage text is printed; the -verbose option
    only adds such text and has no field.  Interrupts are modelled inside the password prompt
    (CliInput.v) only. *)
From Verif.Model Require Import GoBase Env Version GoTime Seed Encoding Recovery PgpKeys Mnemonikey.
From Verif.Model Require Import CliText CliInput CliFlags.

(** A path of the file system.
    [Absent room]: nothing there, a file can be created; with [Some n] writing fails after n bytes.
    [Uncreatable]: nothing there and no file can be created.
    [File content]: reading delivers [content], then the end of file or an error (a directory is
      [File []]; it cannot be written, which only matters for interference during a save).
    [Closed]: exists but cannot be opened.
    [Blocked]: os.Stat fails with another error than "does not exist". *)
Inductive node := Absent (room : option nat) | Uncreatable | File (content : bytes) | Closed | Blocked.
Definition files := bytes -> node.
Definition put_file (fs : files) (path : bytes) (n : node) : files :=
  fun p => if bytes_eqb p path then n else fs p.

Record world := mk_world {
  w_files : files;
  w_stdin : bytes;
  w_tty : bool;                 (* standard input is a terminal *)
  w_width : option Z;           (* its width, if term.GetSize succeeds *)
  w_random : bytes;             (* what crypto/rand.Reader will deliver *)
  w_now : Z;                    (* time.Now *)
  w_stdout : list bytes;        (* what the main goroutine wrote, by write *)
  w_prompts : nat;              (* password prompts that returned: each has a goroutine that writes
                                   one newline to standard output, if the process lives on *)
  w_shown : list (list bytes);  (* phrases shown on the terminal *)
  w_usage : nat                 (* usage texts started *)
}.
Definition set_files w x := mk_world x (w_stdin w) (w_tty w) (w_width w) (w_random w) (w_now w) (w_stdout w) (w_prompts w) (w_shown w) (w_usage w).
Definition set_stdin w x := mk_world (w_files w) x (w_tty w) (w_width w) (w_random w) (w_now w) (w_stdout w) (w_prompts w) (w_shown w) (w_usage w).
Definition set_random w x := mk_world (w_files w) (w_stdin w) (w_tty w) (w_width w) x (w_now w) (w_stdout w) (w_prompts w) (w_shown w) (w_usage w).
Definition set_stdout w x := mk_world (w_files w) (w_stdin w) (w_tty w) (w_width w) (w_random w) (w_now w) x (w_prompts w) (w_shown w) (w_usage w).
Definition set_prompts w x := mk_world (w_files w) (w_stdin w) (w_tty w) (w_width w) (w_random w) (w_now w) (w_stdout w) x (w_shown w) (w_usage w).
Definition set_shown w x := mk_world (w_files w) (w_stdin w) (w_tty w) (w_width w) (w_random w) (w_now w) (w_stdout w) (w_prompts w) x (w_usage w).
Definition set_usage w x := mk_world (w_files w) (w_stdin w) (w_tty w) (w_width w) (w_random w) (w_now w) (w_stdout w) (w_prompts w) (w_shown w) x.

(** How a function ends: a value, an error, a panic, never, or os.Exit. *)
Inductive outcome (A : Type) := Ret (a : A) | Fail (e : err) | Crash | Hang | Exit (code : Z).
Arguments Ret {A} a. Arguments Fail {A} e. Arguments Crash {A}. Arguments Hang {A}. Arguments Exit {A} code.
Definition action (A : Type) := world -> outcome A * world.
Definition ret {A} (a : A) : action A := fun w => (Ret a, w).
Definition fail {A} (e : err) : action A := fun w => (Fail e, w).
Definition andthen {A B} (m : action A) (f : A -> action B) : action B :=
  fun w => match m w with
           | (Ret a, w') => f a w'
           | (Fail e, w') => (Fail e, w')
           | (Crash, w') => (Crash, w')
           | (Hang, w') => (Hang, w')
           | (Exit c, w') => (Exit c, w')
           end.
Notation "'do' p <- a ; b" := (andthen a (fun p => b)) (at level 200, p as pattern, a at level 100, b at level 200).
Definition of_res {A} (r : res A) : outcome A :=
  match r with Ok a => Ret a | Err e => Fail e | Panic => Crash end.
Definition lift {A} (r : res A) : action A := fun w => (of_res r, w).
(** a call that takes bytes of the system's random source *)
Definition with_random {A} (f : bytes -> res (A * bytes)) : action A :=
  fun w => match f (w_random w) with
           | Ok (a, rest) => (Ret a, set_random w rest)
           | Err e => (Fail e, w)
           | Panic => (Crash, w)
           end.
Definition print_out (text : bytes) : action unit := fun w => (Ret tt, set_stdout w (w_stdout w ++ [text])).

(** os.Open and reading; os.WriteFile *)
Definition open_file (path : bytes) : action bytes :=
  fun w => match w_files w path with
           | File content => (Ret content, w)
           | _ => (Fail ErrFileNotFound, w)
           end.
Definition write_node (n : node) (content : bytes) : node * res unit :=
  match n with
  | Absent None => (File content, Ok tt)
  | Absent (Some room) => if Nat.ltb room (length content) then (File (firstn room content), Err ErrFileInaccessible)
                          else (File content, Ok tt)
  | File _ => (File content, Ok tt)
  | n => (n, Err ErrFileInaccessible)
  end.
Definition write_file (path content : bytes) : action unit :=
  fun w => let (n, r) := write_node (w_files w path) content in
           (of_res r, set_files w (put_file (w_files w) path n)).

(** cmd/mnemonikey/recover.go:216-226: the loop over the tokens; [n] words were read before *)
Fixpoint word_file_loop (E : Env) (n : Z) (tokens : list bytes) : res (list bytes) :=
  match tokens with
  | [] => Ok []
  | t :: ts =>
      let word := to_lower E t in
      match word_map E word with
      | None => Err ErrWordFileWord
      | Some _ => if n + 1 >? 100 then Err ErrWordFileFormat
                  else let* ws := word_file_loop E (n + 1) ts in Ok (word :: ws)
      end
  end.
(** cmd/mnemonikey/recover.go:213-238 on the content of the file.  The error of
    ParseMnemonicVersion is overwritten; its version is used (line 231). *)
Definition parse_word_file (E : Env) (content : bytes) : res (list bytes) :=
  let* words := word_file_loop E 0 (scan_words content 0 []) in
  match words with
  | [] => Err ErrWordFileEmpty
  | w0 :: _ =>
      let (version, _) := parse_version_raw E w0 in
      if negb (zlen words =? mnemonic_size version) then Err ErrWordFileCount else Ok words
  end.
(** cmd/mnemonikey/recover.go:207-239 *)
Definition read_word_file (E : Env) (path : bytes) : action (list bytes) :=
  do content <- open_file path; lift (parse_word_file E content).

(** cmd/mnemonikey/generate.go:208 *)
Definition word_file_content (words : list bytes) : bytes := join [32] words ++ [10].
(** cmd/mnemonikey/generate.go:201-213.  [other] is what other processes do to the file system
    between the check and the write. *)
Definition save_mnemonic_with (other : files -> files) (words : list bytes) (path : bytes) : action unit :=
  fun w =>
    match w_files w path with
    | File _ | Closed => (Fail ErrFileExists, w)
    | Blocked => (Fail ErrFileInaccessible, w)
    | Absent _ | Uncreatable => write_file path (word_file_content words) (set_files w (other (w_files w)))
    end.
Definition save_mnemonic : list bytes -> bytes -> action unit := save_mnemonic_with (fun fs => fs).
(** The file systems that may be left behind when the process is killed during saveMnemonic:
    untouched, or with the first [n] bytes written. *)
Inductive save_killed (words : list bytes) (path : bytes) (fs : files) : files -> Prop :=
| Killed_before : save_killed words path fs fs
| Killed_writing room n :
    fs path = Absent room -> (n <= length (word_file_content words))%nat ->
    save_killed words path fs (put_file fs path (File (firstn n (word_file_content words)))).

(** cmd/mnemonikey/word_input.go:230-291 (CliInput.v).  GetState fails before the goroutine is
    started when standard input is not a terminal. *)
Definition ask_password (confirm : bool) : action bytes :=
  fun w => let (r, rest) := user_input_password (w_tty w) confirm (w_stdin w) in
           let w := set_stdin w rest in
           (of_res r, if w_tty w then set_prompts w (S (w_prompts w)) else w).

(** cmd/mnemonikey/recover.go:90-99; MakeRaw fails when standard input is not a terminal
    (word_input.go:34-39) *)
Definition from_stdin {A} (f : bytes -> res A * bytes) : action A :=
  fun w => let (r, rest) := f (w_stdin w) in (of_res r, set_stdin w rest).
Definition read_phrase (E : Env) (o : input_options) : action (list bytes) :=
  fun w => match io_in_file o with
           | [] => if io_simple o || negb (w_tty w) then from_stdin (user_input_mnemonic_simple E) w
                   else from_stdin (user_input_mnemonic E) w
           | path => read_word_file E path w
           end.

(** cmd/mnemonikey/recover.go:116-134.  Every password asked for takes at least a byte of standard
    input, which bounds the number of turns. *)
Fixpoint decrypt_loop (E : Env) (fuel : nat) (dm : decoded) : action seed :=
  fun w =>
    match fuel with
    | O => (Fail ErrInputEOF, w)
    | S f =>
        (do password <- (if dm_encrypted dm then ask_password false else ret []);
         fun w => match dm_decrypt_seed E dm password with
                  | Ok s => (Ret s, w)
                  | Err ErrMnemonicDecryption => decrypt_loop E f dm w
                  | Err e => (Fail e, w)
                  | Panic => (Crash, w)
                  end) w
    end.
(** cmd/mnemonikey/recover.go:82-135 *)
Definition decode_mnemonic_from_input (E : Env) (o : input_options) : action (seed * decoded) :=
  do words <- read_phrase E o;
  do dm <- lift (decode_mnemonic E words);
  do s <- (fun w => decrypt_loop E (S (S (length (w_stdin w)))) dm w);
  ret (s, dm).

Definition of_justified (j : justified) : outcome unit :=
  match j with Text _ => Ret tt | Crashes => Crash | Loops => Hang end.
(** cmd/mnemonikey/generate.go:186-192 *)
Definition save_reminder : bytes :=
  bs "Once you have saved it, use the 'mnemonikey recover' command to verify that you have saved the phrase correctly."
  ++ [10; 10].
(** cmd/mnemonikey/generate.go:177-199.  The padding at line 182 would panic from the ten
    thousandth word on. *)
Definition print_mnemonic (words : list bytes) : action unit :=
  fun w => (of_justified (justify_terminal_width (w_width w) 0 save_reminder),
            set_shown w (w_shown w ++ [words])).

(** cmd/mnemonikey/generate.go:75-80, recover.go:147-152 *)
Definition ttl_option (E : Env) (text : bytes) : action Z :=
  match text with
  | [] => ret 0
  | _ => match parse_ttl E text with Ok d => ret d | _ => fail ErrPrintUsage end
  end.
(** cmd/mnemonikey/generate.go:88-107 with GenerateSeed at line 109 *)
Definition seed_from_source (option : bytes) : action seed :=
  match option with
  | [] => with_random generate_seed
  | _ =>
      if bytes_eqb option (bs "-") then
        fun w => match generate_seed (w_stdin w) with
                 | Ok (s, rest) => (Ret s, set_stdin w rest)
                 | Err e => (Fail e, set_stdin w [])
                 | Panic => (Crash, w)
                 end
      else
        do content <- open_file option;
        lift (let* (s, _) := generate_seed content in Ok s)
  end.

(** cmd/mnemonikey/generate.go:64-175.  TTL() etc. as in the code; fmt.Println adds a newline. *)
Definition generate_and_print (E : Env) (o : generate_options) : action unit :=
  fun w =>
  let creation := w_now w in
  (do ttl <- ttl_option E (go_ttl o);
   do (output_master, types) <- lift (decode_only_key_types (go_only o));
   do seed <- seed_from_source (go_entropy o);
   do mnk <- lift (mnk_new E seed creation
                     (Some (mk_opts (trim_space E (go_name o)) (trim_space E (go_email o)) ttl 0 0 0 types)));
   do password <- (if go_encrypt_keys o then ask_password true else ret []);
   do armor <- with_random (if output_master then mnk_encode_pgp_armor E mnk password
                            else mnk_encode_subkeys_pgp_armor E mnk password true);
   do words <- (if go_encrypt_phrase o
                then do phrase_password <- ask_password true;
                     fun w => (of_res (mnk_encode_encrypted E mnk phrase_password (w_random w)), w)
                else lift (mnk_encode_plaintext E mnk));
   do _ <- (match go_out_file o with [] => ret tt | path => save_mnemonic words path end);
   do _ <- print_out (armor ++ [10]);
   match go_out_file o with [] => print_mnemonic words | _ => ret tt end) w.

(** cmd/mnemonikey/recover.go:16 *)
Definition max_subkey_index : Z := 0xFFFF.
(** cmd/mnemonikey/recover.go:137-205 *)
Definition recover_and_print (E : Env) (o : recover_options) : action unit :=
  do ttl <- ttl_option E (ro_ttl o);
  if (ro_enc_index o >? max_subkey_index) || (ro_auth_index o >? max_subkey_index) || (ro_sign_index o >? max_subkey_index)
  then fail ErrSubkeyIndex
  else
    do (output_master, types) <- lift (decode_only_key_types (ro_only o));
    do (seed, dm) <- decode_mnemonic_from_input E (ro_input o);
    do mnk <- lift (mnk_new E seed (dm_creation dm)
                      (Some (mk_opts (trim_space E (ro_name o)) (trim_space E (ro_email o)) ttl
                               (u16 (ro_enc_index o)) (u16 (ro_auth_index o)) (u16 (ro_sign_index o)) types)));
    do password <- (if ro_encrypt_keys o then ask_password true else ret []);
    do armor <- with_random (if output_master then mnk_encode_pgp_armor E mnk password
                             else mnk_encode_subkeys_pgp_armor E mnk password (ro_self_cert o));
    print_out (armor ++ [10]).

(** cmd/mnemonikey/convert.go:48-85.  The output option is not read: line 76 asks for
    InputWordFile, and so does line 79. *)
Definition decode_and_convert (E : Env) (o : convert_options) : action unit :=
  do (seed, dm) <- decode_mnemonic_from_input E (co_input o);
  do words <- (if co_encrypt o
               then do phrase_password <- ask_password true;
                    fun w => (of_res (encode_mnemonic_encrypted E seed (dm_offset dm) phrase_password (w_random w)), w)
               else lift (encode_mnemonic_plaintext E seed (dm_offset dm)));
  match io_in_file (co_input o) with
  | [] => print_mnemonic words
  | path => save_mnemonic words path
  end.

(** ** cmd/mnemonikey/command.go and main.go *)

(** terminal.go:49-57 *)
Definition escape : bytes := [27].
Definition bold (s : bytes) : bytes := escape ++ bs "[1m" ++ s ++ escape ++ bs "[22m".
Definition faint (s : bytes) : bytes := escape ++ bs "[2m" ++ s ++ escape ++ bs "[22m".
Definition magenta (s : bytes) : bytes := escape ++ bs "[35m" ++ s ++ escape ++ bs "[39m".

(** The texts a command's usage wraps to the width of the terminal: its description (command.go:40)
    and the descriptions of its options in the order of their names (line 60), with the back quotes
    removed by flag.UnquoteUsage. *)
Record command_text := mk_text { ct_description : bytes; ct_options : list bytes }.
(** main.go:18-33 *)
Definition root_text : command_text :=
  mk_text (bs "Deterministically generate and recover OpenPGP keys with mnemonic backup phrases.") [].
(** common_opts.go:18-23, 37-73, 114-129, 139-146 *)
Definition text_verbose := bs "Print extra debugging information to stderr when building keys.".
Definition text_name := bs "Display name for the PGP key user identifier.".
Definition text_email := bs "Email for the PGP key user identifier.".
Definition text_ttl := bs "Set a time-to-live validity period on the exported key. Can be a number denominated in days (d) weeks (w) months (m) or years (y) relative to the key creation time, such as ""24d"" or ""2y"" after key creation.".
Definition text_encrypt_keys := bs "Encrypt the derived PGP private keys with a password when exporting them.".
Definition text_only := bs "Only output a subset key containing the given key types as PGP packets. A comma-delimited list of the following possible values:  master | encryption | signing | authentication".
Definition text_simple := bs "Revert to a simpler terminal input mechanism for entering the recovery phrase. Useful if the fancy terminal manipulation used by the default input mode doesn't work on your system.".
Definition text_in_word_file := bs "Read the words of the mnemonic from this file. Words should be separated by whitespace and the file should contain the exact words. Useful for debugging.".
Definition text_out_word_file := bs "Write the words of the recovery phrase to this file in PLAIN TEXT. Useful for debugging. Do not use this if you care about keeping your keys safe. Words will be separated by a single space. The file will contain the exact words and nothing else.".
(** generate.go:28-58 *)
Definition generate_text : command_text :=
  mk_text (bs "Generate a new OpenPGP key and its mnemonic recovery phrase.")
    [text_email; text_encrypt_keys;
     bs "Encrypt the exported recovery phrase with a password. The resulting phrase will require the same password for later recovery.";
     text_name; text_only; text_out_word_file; text_ttl;
     bold (bs "(UNSAFE)") ++ bs " Generate the key using seed entropy drawn directly from the given file. Specify '-' to read entropy from standard input. "
       ++ bold (bs "You probably shouldn't use this flag.");
     text_verbose].
(** recover.go:29-76 *)
Definition recover_text : command_text :=
  mk_text (bs "Recover an OpenPGP private key from an existing mnemonic recovery phrase.")
    [bs "The index of the authentication subkey which will be recovered.";
     text_email;
     bs "The index of the encryption subkey which will be recovered.";
     text_encrypt_keys; text_in_word_file; text_name; text_only;
     bs "This flag decides if mnemonikey will output the master key's self-certification signature or not. Set "
       ++ magenta (bs "-self-cert=false") ++
       bs " if you are importing keys into a keyring which already has the master key, to avoid adding extra signatures to the key.";
     bs "The index of the signing subkey which will be recovered.";
     text_simple; text_ttl; text_verbose].
(** convert.go:20-42 *)
Definition convert_text : command_text :=
  mk_text (bs "Add, change, or remove an encryption password on an existing mnemonic recovery phrase.")
    [bs "If true, encrypt the recovery phrase with a new password. The resulting phrase will require the same password for later recovery. If false, output a plaintext phrase.";
     text_in_word_file; text_out_word_file; text_simple; text_verbose].

Fixpoint all_justified (l : list justified) : outcome unit :=
  match l with
  | [] => Ret tt
  | j :: l' => match of_justified j with Ret _ => all_justified l' | o => o end
  end.
(** command.go:35-74 *)
Definition usage (t : command_text) : action unit :=
  fun w => (all_justified (justify_terminal_width (w_width w) 2 (ct_description t)
                           :: map (fun d => justify_option_description (w_width w) (faint d)) (ct_options t)),
            set_usage w (S (w_usage w))).

(** command.go:27-94.  A FlagSet with ExitOnError prints the usage and exits with status 0 for
    -h and -help and with status 2 for other errors.  errors.New at line 89 drops the identity of
    the error. *)
Definition run_command (t : command_text) (flags : flag_set)
           (execute : flag_set -> list bytes -> action unit) (args : list bytes) : action unit :=
  let parse :=
    match parse_flags flags args with
    | Help => do _ <- usage t; fun w => (Exit 0, w)
    | Bad_flags => do _ <- usage t; fun w => (Exit 2, w)
    | Parsed fs rest =>
        fun w => match execute fs rest w with
                 | (Fail ErrPrintUsage, w) => (do _ <- usage t; fail ErrOther) w
                 | r => r
                 end
    end in
  match args with
  | [a] => if bytes_eqb a (bs "help") then usage t else parse
  | _ => parse
  end.

(** generate.go:59-61, recover.go:77-79, convert.go:43-45 *)
Definition generate_command (E : Env) : list bytes -> action unit :=
  run_command generate_text generate_flags (fun fs _ => generate_and_print E (generate_options_of fs)).
Definition recover_command (E : Env) : list bytes -> action unit :=
  run_command recover_text recover_flags (fun fs _ => recover_and_print E (recover_options_of fs)).
Definition convert_command (E : Env) : list bytes -> action unit :=
  run_command convert_text convert_flags (fun fs _ => decode_and_convert E (convert_options_of fs)).
(** main.go:12-16 *)
Definition subcommand (E : Env) (name : bytes) : option (list bytes -> action unit) :=
  if bytes_eqb name (bs "generate") then Some (generate_command E)
  else if bytes_eqb name (bs "recover") then Some (recover_command E)
  else if bytes_eqb name (bs "convert") then Some (convert_command E)
  else None.
(** main.go:27-40 *)
Definition root_execute (sub : bytes -> option (list bytes -> action unit)) (args : list bytes) : action unit :=
  match args with
  | [] => fail ErrPrintUsage
  | a :: rest =>
      if bytes_eqb a (bs "help") then fail ErrPrintUsageGraceful
      else match sub a with
           | None => fail ErrPrintUsage
           | Some run => run rest
           end
  end.
Definition root_command (sub : bytes -> option (list bytes -> action unit)) : list bytes -> action unit :=
  run_command root_text [] (fun _ args => root_execute sub args).

(** main.go:43-49: the exit status, None if the process never ends; a panic exits with 2 *)
Definition exit_status {A} (o : outcome A) : option Z :=
  match o with
  | Ret _ => Some 0
  | Fail ErrPrintUsageGraceful => Some 0
  | Fail _ => Some 1
  | Crash => Some 2
  | Hang => None
  | Exit c => Some c
  end.
Definition run_main (sub : bytes -> option (list bytes -> action unit)) (args : list bytes) (w : world)
  : option Z * world :=
  let (o, w) := root_command sub args w in (exit_status o, w).
Definition mnemonikey_main (E : Env) : list bytes -> world -> option Z * world := run_main (subcommand E).
