(** What may and must appear on standard error, in texts of its own. *)
From Verif.Model Require Import GoBase Env GoTime Seed Recovery Mnemonikey CliText CliInput CliFlags CliMain CliScreen CliTrace.
From Verif.Spec Require Import EnvSpec PhraseSpec DecodeSpec KeySpec InputSpec.
From Verif.Spec Require ScreenSpec.
From Verif.Spec Require Import TextSpec FlagSpec.

(** ECMA-48 colours *)
Definition sgr (code : String.string) (s : bytes) : bytes := 27 :: bs "[" ++ bs code ++ bs "m" ++ s.
Definition dim (s : bytes) : bytes := sgr "2" (s ++ sgr "22" []).
Definition heavy (s : bytes) : bytes := sgr "1" (s ++ sgr "22" []).
Definition crimson (s : bytes) : bytes := sgr "31" (s ++ sgr "39" []).
Definition turquoise (s : bytes) : bytes := sgr "36" (s ++ sgr "39" []).
(** a decimal number *)
Definition number (t : bytes) (n : Z) : Prop := ScreenSpec.decimal t = Some n /\ ScreenSpec.digit_text t.

(** ** Password prompts *)
(** the texts typed at the prompts: of each line, and of what stands after the last newline unless it is empty *)
Fixpoint lines_of (keys cur : bytes) : list bytes * bytes :=
  match keys with
  | [] => ([], rev cur)
  | k :: ks => if k =? 10 then let (ls, last) := lines_of ks [] in (rev cur :: ls, last) else lines_of ks (k :: cur)
  end.
Definition typed_texts (stdin : bytes) : list bytes :=
  let (ls, last) := lines_of stdin [] in
  map pass_text ls ++ match pass_text last with [] => [] | t => [t] end.
Definition repeat_prompt : bytes := dim (10 :: bs "Repeat password to confirm: ").
Definition empty_notice : bytes := crimson (10 :: bs "Cannot use an empty password.") ++ [10].
Definition differ_notice : bytes := crimson (10 :: bs "Passwords do not match. Please try again.") ++ [10].
(** the conversation until a password is chosen or the input ends *)
Fixpoint dialogue (confirm : bool) (prompt : bytes) (texts : list bytes) : bytes :=
  match texts with
  | [] => dim prompt ++ [10]
  | [] :: ts => dim prompt ++ empty_notice ++ dialogue confirm prompt ts
  | t :: ts =>
      dim prompt ++
      if confirm then
        repeat_prompt ++
        match ts with
        | [] => [10]
        | u :: us => if bytes_eqb t u then [] else differ_notice ++ dialogue confirm prompt us
        end
      else []
  end.
(** how many texts were used up *)
Fixpoint texts_used (confirm : bool) (texts : list bytes) : nat :=
  match texts with
  | [] => 0
  | [] :: ts => S (texts_used confirm ts)
  | t :: ts =>
      if confirm then match ts with
                      | [] => 1
                      | u :: us => if bytes_eqb t u then 2 else S (S (texts_used confirm us))
                      end
      else 1
  end.
Definition key_question : bytes := bs "Enter key encryption password: ".
Definition phrase_question : bytes := bs "Enter phrase encryption password: ".
Definition unlock_question : bytes := bs "Enter phrase decryption password: ".
Definition wrong_notice : bytes := crimson (bs "failed to decrypt entropy: incorrect password") ++ [10].
(** asking for the password of an encrypted phrase until it is right *)
Fixpoint unlocking (right : bytes -> bool) (texts : list bytes) : bytes :=
  match texts with
  | [] => dim unlock_question ++ [10]
  | [] :: ts => dim unlock_question ++ empty_notice ++ unlocking right ts
  | t :: ts => dim unlock_question ++ if right t then [] else wrong_notice ++ unlocking right ts
  end.

Fixpoint unlock_used (right : bytes -> bool) (texts : list bytes) : nat :=
  match texts with
  | [] => 0
  | [] :: ts => S (unlock_used right ts)
  | t :: ts => S (if right t then 0 else unlock_used right ts)
  end.
Definition opens (E : Env) (dm : decoded) (password : bytes) : bool :=
  match dm_decrypt_seed E dm password with Ok _ => true | _ => false end.

(** ** Texts made of pieces *)
Definition made_of (piece : bytes -> Prop) (text : bytes) : Prop :=
  exists pieces, text = concat pieces /\ Forall piece pieces.
Definition prompt_piece (question p : bytes) : Prop :=
  In p [dim question; repeat_prompt; empty_notice; differ_notice; [10]].
Definition magenta_on : bytes := sgr "35" [].
Definition colour_off : bytes := sgr "39" [].
Definition entropy_notice : bytes :=
  crimson (heavy (bs "WARNING:") ++ bs " The -unsafe-entropy option is dangerous and can produce weak PGP keys if used incorrectly.") ++ [10].
(** a row of a table: label and value, [n] spaces between them *)
Definition trow (label : bytes) (n : nat) (value : bytes) : bytes := dim (label ++ bs ":") ++ repeat 32 n ++ turquoise value ++ [10].
(** the table of -verbose for a phrase: one of two *)
Definition phrase_title : bytes := bs "Decoded mnemonic recovery phrase:" ++ [10].
Definition phrase_table (encrypted : bool) : bytes :=
  trow (bs "version") 3 (if encrypted then bs "1" else bs "0") ++ trow (bs "era") 7 (bs "0") ++
  trow (bs "encrypted") 1 (if encrypted then bs "true" else bs "false") ++ [10].
(** the table of -verbose for a key; C65 says what it shows *)
Definition generate_title : bytes := bs "Generated OpenPGP private key with 128 bits of entropy:" ++ [10].
Definition recover_title : bytes := bs "Re-derived OpenPGP key:" ++ [10].
Definition key_rows (E : Env) (H : host) (m : mnemonikey) (p : bytes) : Prop :=
  exists text, print_key_debug_info E (h_quote H) (h_time H) m = Ok text /\ p = text ++ [10].

(** the printed phrase: a row for each word, with its number *)
Inductive phrase_rows : Z -> list bytes -> bytes -> Prop :=
| Rows_none n : phrase_rows n [] []
| Rows_more n word ws t rest : number t n -> (length t <= 4)%nat -> phrase_rows (n + 1) ws rest ->
    phrase_rows n (word :: ws) (t ++ bs ":" ++ repeat 32 (4 - length t) ++ heavy (sgr "35" (word ++ colour_off)) ++ [10] ++ rest).
Definition never_again : bytes :=
  sgr "4" (bs "If you do not save it now, you will " ++ heavy (bs "NEVER") ++ bs " see this phrase again." ++ [10; 10] ++ sgr "24" []).
(** the reminder between them is wrapped to the terminal (C54) and can fail there *)
Definition phrase_block (width : option Z) (words : list bytes) (text : bytes) : Prop :=
  exists rows tail,
    text = [10] ++ bs "This is the mnemonic phrase which can be used to recover the private key:" ++ [10; 10] ++ rows ++
           [10] ++ bs "Save this phrase in a secure place, preferably offline, on paper." ++ [10; 10] ++ tail /\
    phrase_rows 1 words rows /\
    match justify_terminal_width width 0 save_reminder with
    | Text t => tail = t ++ never_again
    | _ => tail = []
    end.

(** what the program writes in simple mode: nothing that was typed *)
Definition word_question (n : Z) (p : bytes) : Prop :=
  exists t, number t n /\ p = heavy (turquoise (bs "Word " ++ t ++ bs " >> ")).
Definition simple_piece (H : host) (p : bytes) : Prop :=
  In p [bs "WARN: failed to hook into terminal interface: " ++ h_terminal H ++ [10];
        bs "WARN: reverting to backup input method" ++ [10];
        heavy (turquoise (bs "Enter the words of your recovery mnemonic in sequence." ++ [10; 10])); [10];
        27 :: bs "[0K"; 27 :: bs "[F"] \/
  (exists n, 1 <= n <= 16 /\ word_question n p) \/ (exists t, ScreenSpec.notice t /\ p = crimson t).
(** what phrase entry writes: nothing for a word file *)
Definition entry_text (E : Env) (H : host) (o : input_options) (w : world) (text : bytes) : Prop :=
  match io_in_file o with
  | [] => if io_simple o || negb (w_tty w) then made_of (simple_piece H) text
          else text = raw_header ++ raw_body E (w_stdin w)
  | _ => text = []
  end.
(** what is written while a phrase is decoded, after it was entered *)
Definition decode_piece (verbose : bool) (p : bytes) : Prop :=
  prompt_piece unlock_question p \/ p = wrong_notice \/
  verbose = true /\ In p [phrase_title; phrase_table true; phrase_table false].
Definition printing_piece (E : Env) (H : host) (verbose : bool) (title p : bytes) : Prop :=
  p = magenta_on \/ p = colour_off \/ verbose = true /\ (p = title \/ exists m, key_rows E H m p).
Definition recover_piece (E : Env) (H : host) (verbose : bool) (o : recover_options) (p : bytes) : Prop :=
  decode_piece verbose p \/ ro_encrypt_keys o = true /\ prompt_piece key_question p \/ printing_piece E H verbose recover_title p.
Definition convert_piece (verbose : bool) (o : convert_options) (p : bytes) : Prop :=
  decode_piece verbose p \/ co_encrypt o = true /\ prompt_piece phrase_question p.
Definition generate_piece (E : Env) (H : host) (verbose : bool) (o : generate_options) (p : bytes) : Prop :=
  go_entropy o <> [] /\ p = entropy_notice \/
  go_encrypt_keys o = true /\ prompt_piece key_question p \/
  go_encrypt_phrase o = true /\ prompt_piece phrase_question p \/
  printing_piece E H verbose generate_title p.

(** ** Complaints: the error, its text and its cause *)
Inductive prompt_complaint (H : host) (tty : bool) (confirm : bool) : err -> bytes -> Prop :=
| No_terminal : tty = false -> prompt_complaint H tty confirm ErrOther (h_terminal H)
| No_password : tty = true -> prompt_complaint H tty confirm ErrInputEOF (bs "failed to read password: " ++ h_read H)
| No_repetition : tty = true -> confirm = true ->
    prompt_complaint H tty confirm ErrInputEOF (bs "failed to confirm password: " ++ h_read H).

Inductive file_complaint (E : Env) (H : host) (path : bytes) (n : node) : err -> bytes -> Prop :=
| File_closed : (forall c, n <> File c) -> file_complaint E H path n ErrFileNotFound (h_open H path)
| File_word c t : n = File c -> In t (scan_words c 0 []) -> ~ known_word E t ->
    file_complaint E H path n ErrWordFileWord (bs "found word in " ++ path ++ bs " not present in wordlist")
| File_long c : n = File c -> (100 < length (scan_words c 0 []))%nat ->
    file_complaint E H path n ErrWordFileFormat (bs "invalid format for word file")
| File_empty c : n = File c -> scan_words c 0 [] = [] ->
    file_complaint E H path n ErrWordFileEmpty (bs "found only no words in word file " ++ path)
| File_count c i a b v : n = File c -> (length (scan_words c 0 []) <= 100)%nat -> Forall (known_word E) (scan_words c 0 []) ->
    first_index E (scan_words c 0 []) i -> let size := if i / 256 =? 0 then 14 else if i / 256 =? 1 then 16 else 0 in
    zlen (scan_words c 0 []) <> size -> number a (zlen (scan_words c 0 [])) -> number b size -> number v (i / 256) ->
    file_complaint E H path n ErrWordFileCount
      (bs "found only " ++ a ++ bs " words in word file " ++ path ++ bs ", expected " ++ b ++ bs " words for version " ++ v ++ bs " phrase").

Inductive phrase_complaint (E : Env) (H : host) (o : input_options) (w : world) : err -> bytes -> Prop :=
| Entry_aborted : io_in_file o = [] -> io_simple o = false -> w_tty w = true ->
    In 3 (w_stdin w) \/ In 4 (w_stdin w) -> phrase_complaint E H o w ErrAborted (bs "aborted")
| Entry_end : io_in_file o = [] -> io_simple o = false -> w_tty w = true ->
    phrase_complaint E H o w ErrInputEOF (bs "failed to read from standard input: " ++ h_read H)
| Entry_simple_end : io_in_file o = [] -> io_simple o = true \/ w_tty w = false ->
    phrase_complaint E H o w ErrInputEOF (bs "unexpected EOF on standard input")
| Entry_file e t : io_in_file o <> [] -> file_complaint E H (io_in_file o) (w_files w (io_in_file o)) e t ->
    phrase_complaint E H o w e t
| Phrase_version words w1 i v : read_phrase E o w = (Ret words, w1) -> io_in_file o = [] ->
    first_index E words i -> 1 < i / 256 -> number v (i / 256) ->
    phrase_complaint E H o w ErrInvalidVersionNumber (bs "invalid version number in recovery phrase: " ++ v)
| Phrase_count words w1 : read_phrase E o w = (Ret words, w1) -> io_in_file o = [] ->
    DecodeSpec.outcome E words (Err ErrInvalidWordCount) ->
    phrase_complaint E H o w ErrInvalidWordCount (bs "mnemonic is not the correct length")
| Phrase_checksum words w1 : read_phrase E o w = (Ret words, w1) -> DecodeSpec.outcome E words (Err ErrInvalidChecksum) ->
    phrase_complaint E H o w ErrInvalidChecksum (bs "failed to validate checksum embedded in mnemonic phrase")
| Phrase_password words w1 dm e t : read_phrase E o w = (Ret words, w1) -> decode_mnemonic E words = Ok dm -> dm_encrypted dm = true ->
    prompt_complaint H (w_tty w) false e t -> phrase_complaint E H o w e t.

Inductive option_complaint (E : Env) (H : host) (ttl only : bytes) : err -> bytes -> Prop :=
| Bad_ttl : ttl <> [] -> (forall d, parse_ttl E ttl <> Ok d) ->
    option_complaint E H ttl only ErrPrintUsage (bs "incorrect usage: invalid duration parameter: " ++ h_quote H ttl)
| Bad_only before x after : only <> [] -> only = comma_list (before ++ x :: after) -> Forall no_comma (before ++ x :: after) ->
    Forall (fun y => In y [bs "master"; bs "encryption"; bs "authentication"; bs "signing"]) before ->
    ~ In x [bs "master"; bs "encryption"; bs "authentication"; bs "signing"] ->
    option_complaint E H ttl only ErrPrintUsage (bs "incorrect usage: unknown -only list element " ++ h_quote H x)
| Negative_ttl d : parse_ttl E ttl = Ok d -> d < 0 ->
    option_complaint E H ttl only ErrTTLInvalid (bs "key time-to-live cannot be negative").

Inductive save_complaint (H : host) (path : bytes) (n : node) : err -> bytes -> Prop :=
| Save_exists : (exists c, n = File c) \/ n = Closed ->
    save_complaint H path n ErrFileExists (bs "failed to write words to file: refused to write word-file to " ++ path ++ bs ": file already exists")
| Save_blocked : n = Blocked ->
    save_complaint H path n ErrFileInaccessible
      (bs "failed to write words to file: failed to write word-file to " ++ path ++ bs ": path is not accessible: " ++ h_stat H path)
| Save_fails : n = Uncreatable \/ (exists room, n = Absent (Some room)) ->
    save_complaint H path n ErrFileInaccessible (bs "failed to write words to file: failed to write words to file: " ++ h_write H path).

Inductive recover_complaint (E : Env) (H : host) (o : recover_options) (w : world) : err -> bytes -> Prop :=
| Rec_option e t : option_complaint E H (ro_ttl o) (ro_only o) e t -> e <> ErrTTLInvalid -> recover_complaint E H o w e t
| Rec_ttl e t : option_complaint E H (ro_ttl o) (ro_only o) e t -> e = ErrTTLInvalid ->
    recover_complaint E H o w e (bs "failed to re-derive PGP keys: " ++ t)
| Rec_index : 65535 < ro_enc_index o \/ 65535 < ro_auth_index o \/ 65535 < ro_sign_index o ->
    recover_complaint E H o w ErrSubkeyIndex (bs "invalid subkey index; must be less than or equal to 65535")
| Rec_phrase e t : phrase_complaint E H (ro_input o) w e t -> recover_complaint E H o w e t
| Rec_password e t : ro_encrypt_keys o = true -> prompt_complaint H (w_tty w) true e t -> recover_complaint E H o w e t
| Rec_random : ro_encrypt_keys o = true -> recover_complaint E H o w ErrRandomSource (h_export H).

Inductive convert_complaint (E : Env) (H : host) (o : convert_options) (w : world) : err -> bytes -> Prop :=
| Con_phrase e t : phrase_complaint E H (co_input o) w e t -> convert_complaint E H o w e t
| Con_password e t : co_encrypt o = true -> prompt_complaint H (w_tty w) true e t -> convert_complaint E H o w e t
| Con_random : co_encrypt o = true -> convert_complaint E H o w ErrRandomSource (h_source H)
| Con_save e t : io_in_file (co_input o) <> [] ->
    save_complaint H (io_in_file (co_input o)) (w_files w (io_in_file (co_input o))) e t -> convert_complaint E H o w e t.

Inductive generate_complaint (E : Env) (H : host) (o : generate_options) (w : world) : err -> bytes -> Prop :=
| Gen_option e t : option_complaint E H (go_ttl o) (go_only o) e t -> generate_complaint E H o w e t
| Gen_entropy_file : go_entropy o <> [] -> go_entropy o <> bs "-" -> (forall c, w_files w (go_entropy o) <> File c) ->
    generate_complaint E H o w ErrFileNotFound (bs "failed to open entropy source file: " ++ h_open H (go_entropy o))
| Gen_entropy : generate_complaint E H o w ErrRandomSource (bs "failed to generate 128 bits of secure random seed data: " ++ h_source H)
| Gen_late : last_second * ns < w_now w -> generate_complaint E H o w ErrCreationTooLate (bs "key creation time exceeds maximum")
| Gen_early : w_now w < first_second * ns -> generate_complaint E H o w ErrCreationTooEarly (bs "key creation time exceeds maximum")
| Gen_password e t : go_encrypt_keys o = true \/ go_encrypt_phrase o = true ->
    prompt_complaint H (w_tty w) true e t -> generate_complaint E H o w e t
| Gen_random : go_encrypt_keys o = true -> generate_complaint E H o w ErrRandomSource (h_export H)
| Gen_phrase_random : go_encrypt_phrase o = true -> generate_complaint E H o w ErrRandomSource (h_source H)
| Gen_save e t : go_out_file o <> [] -> save_complaint H (go_out_file o) (w_files w (go_out_file o)) e t -> generate_complaint E H o w e t.

(** ** Transcripts of runs that succeed *)
Definition when {A} (b : bool) (text : list A) : list A := if b then text else [].
(** after the phrase [words] was read, leaving the world [w1] *)
Definition decode_transcript (E : Env) (verbose : bool) (dm : decoded) (w1 : world) : bytes :=
  when verbose (phrase_title ++ phrase_table (dm_encrypted dm)) ++
  when (dm_encrypted dm) (unlocking (opens E dm) (typed_texts (w_stdin w1))).
Definition texts_after (E : Env) (dm : decoded) (w1 : world) : list bytes :=
  skipn (if dm_encrypted dm then unlock_used (opens E dm) (typed_texts (w_stdin w1)) else 0) (typed_texts (w_stdin w1)).
(** the key shown by -verbose is the one that was printed *)
Definition printed (E : Env) (m : mnemonikey) (w w' : world) : Prop :=
  exists out pw tape rest, w_stdout w' = w_stdout w ++ [out ++ [10]] /\
    (mnk_encode_pgp_armor E m pw tape = Ok (out, rest) \/ exists c, mnk_encode_subkeys_pgp_armor E m pw c tape = Ok (out, rest)).
Definition table_shown (E : Env) (H : host) (verbose : bool) (title : bytes) (w w' : world) (text : bytes) : Prop :=
  if verbose then exists m rows, text = title ++ rows /\ key_rows E H m rows /\ printed E m w w' else text = [].
Definition recover_transcript (E : Env) (H : host) (verbose : bool) (o : recover_options) (w w' : world) (text : bytes) : Prop :=
  exists words w1 dm entry rows, read_phrase E (ro_input o) w = (Ret words, w1) /\ decode_mnemonic E words = Ok dm /\
    entry_text E H (ro_input o) w entry /\ table_shown E H verbose recover_title w w' rows /\
    text = entry ++ decode_transcript E verbose dm w1 ++
           when (ro_encrypt_keys o) (dialogue true key_question (texts_after E dm w1)) ++ rows ++ magenta_on ++ colour_off.
Definition convert_transcript (E : Env) (H : host) (verbose : bool) (o : convert_options) (w w' : world) (text : bytes) : Prop :=
  exists words w1 dm entry block, read_phrase E (co_input o) w = (Ret words, w1) /\ decode_mnemonic E words = Ok dm /\
    entry_text E H (co_input o) w entry /\
    match io_in_file (co_input o) with
    | [] => exists new, w_shown w' = w_shown w ++ [new] /\ phrase_block (w_width w) new block
    | _ => block = []
    end /\
    text = entry ++ decode_transcript E verbose dm w1 ++
           when (co_encrypt o) (dialogue true phrase_question (texts_after E dm w1)) ++ block.
Definition nonempty (s : bytes) : bool := match s with [] => false | _ => true end.
Definition generate_transcript (E : Env) (H : host) (verbose : bool) (o : generate_options) (w w' : world) (text : bytes) : Prop :=
  exists rows block, table_shown E H verbose generate_title w w' rows /\
    match go_out_file o with
    | [] => exists words, w_shown w' = w_shown w ++ [words] /\ phrase_block (w_width w) words block
    | _ => block = []
    end /\
    let texts := typed_texts (if bytes_eqb (go_entropy o) (bs "-") then skipn 16 (w_stdin w) else w_stdin w) in
    text = when (nonempty (go_entropy o)) entropy_notice ++
           when (go_encrypt_keys o) (dialogue true key_question texts) ++
           when (go_encrypt_phrase o)
             (dialogue true phrase_question (skipn (if go_encrypt_keys o then texts_used true texts else 0) texts)) ++
           rows ++ magenta_on ++ colour_off ++ block.

(** ** What a run may write before it ends *)
Definition spoken (entry : bytes -> Prop) (piece : bytes -> Prop) (y : bytes) : Prop := exists a b, y = a ++ b /\ entry a /\ made_of piece b.
Definition generate_says (E : Env) (H : host) (v : bool) (o : generate_options) (w : world) (y : bytes) : Prop :=
  exists a b, y = a ++ b /\ made_of (generate_piece E H v o) a /\ (b = [] \/ go_out_file o = [] /\ exists words, phrase_block (w_width w) words b).
Definition recover_says (E : Env) (H : host) (v : bool) (o : recover_options) (w : world) (y : bytes) : Prop :=
  y = [] \/ spoken (entry_text E H (ro_input o) w) (recover_piece E H v o) y.
Definition convert_says (E : Env) (H : host) (v : bool) (o : convert_options) (w : world) (y : bytes) : Prop :=
  exists a b c, y = a ++ b ++ c /\ entry_text E H (co_input o) w a /\ made_of (convert_piece v o) b /\
    (c = [] \/ io_in_file (co_input o) = [] /\ exists words, phrase_block (w_width w) words c).

(** ** What a wrong command line is answered with *)
Inductive wrong_text (H : host) (tab : table) : list bytes -> bytes -> Prop :=
| Text_dashes r rest : wrong_text H tab ((45 :: 45 :: 45 :: r) :: rest) (bs "bad flag syntax: ---" ++ r)
| Text_equals a r rest : dashed (61 :: r) a -> wrong_text H tab (a :: rest) (bs "bad flag syntax: " ++ a)
| Text_name a n rest : names a n -> (forall k, ~ In (n, k) tab) -> ~ In n help_names ->
    wrong_text H tab (a :: rest) (bs "flag provided but not defined: -" ++ n)
| Text_switch n t a rest : In (n, Switch) tab -> dashed (n ++ 61 :: t) a -> (forall v, ~ means Switch t v) ->
    wrong_text H tab (a :: rest) (bs "invalid boolean value " ++ h_quote H t ++ bs " for -" ++ n ++ bs ": parse error")
| Text_number n t args rest why : In (n, Number) tab ->
    (exists a, args = [a] /\ dashed (n ++ 61 :: t) a \/ args = [a; t] /\ dashed n a) -> (forall v, ~ means Number t v) ->
    In why [bs "parse error"; bs "value out of range"] -> (forall v, integer t v -> why = bs "value out of range") ->
    wrong_text H tab (args ++ rest) (bs "invalid value " ++ h_quote H t ++ bs " for flag -" ++ n ++ bs ": " ++ why)
| Text_missing n k a : In (n, k) tab -> k <> Switch -> dashed n a -> wrong_text H tab [a] (bs "flag needs an argument: -" ++ n).
Definition wrong_reason (H : host) (tab : table) (args : list bytes) (reason : bytes) : Prop :=
  exists s more, settings_then tab s args more /\ wrong_text H tab more reason.

(** ** Simple entry: what is asked after the lines [pre] *)
Definition finished (E : Env) (pre : list bytes) : Prop :=
  exists w more, accepted_words E pre = w :: more /\ phrase_size E w <= zlen (w :: more).
Definition cursor_up : bytes := 27 :: bs "[F".
Definition clear_right : bytes := 27 :: bs "[0K".
(** the answer to a line *)
Inductive reply (E : Env) (pre : list bytes) (l : bytes) : bytes -> Prop :=
| Reply_accepted : accepted_words E (pre ++ [l]) = accepted_words E pre ++ [line_word E l] -> reply E pre l clear_right
| Reply_unknown : ~ In (line_word E l) (wl_words E) -> accepted_words E (pre ++ [l]) = accepted_words E pre ->
    reply E pre l (crimson (bs "No matching words found in the wordlist!"))
| Reply_version i t : accepted_words E pre = [] -> accepted_words E (pre ++ [l]) = [] -> 0 <= i -> nth_error (wl_words E) (Z.to_nat i) = Some (line_word E l) ->
    1 < i / 256 -> number t (i / 256) ->
    reply E pre l (clear_right ++ crimson (bs "invalid version number in recovery phrase: " ++ t)).
(** questions and answers; [echo] is what the terminal adds for a line *)
Inductive asks (E : Env) (echo : bytes -> bytes) : list bytes -> list bytes -> bytes -> Prop :=
| Asks_done pre lines : finished E pre -> asks E echo pre lines []
| Asks_end pre q : ~ finished E pre -> word_question (zlen (accepted_words E pre) + 1) q -> asks E echo pre [] (q ++ [10; 10])
| Asks_line pre l lines q answer text : ~ finished E pre -> word_question (zlen (accepted_words E pre) + 1) q -> reply E pre l answer ->
    asks E echo (pre ++ [l]) lines text -> asks E echo pre (l :: lines) (q ++ echo l ++ answer ++ cursor_up ++ clear_right ++ text).
Definition simple_title : bytes :=
  heavy (turquoise (bs "Enter the words of your recovery mnemonic in sequence." ++ [10; 10])) ++ [10] ++ cursor_up.

(** ** Typed texts that are told apart in the same way *)
Definition renaming (f : bytes -> bytes) : Prop := f [] = [] /\ forall a b, f a = f b -> a = b.
