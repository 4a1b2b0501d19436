(** Model of the help text of /repo/cmd/mnemonikey (command.go:35-74), with the texts of main.go,
    common_opts.go, generate.go, recover.go and convert.go as they are written there. *)
From Verif.Model Require Import GoBase Env CliText CliFlags CliMain.

(** terminal.go:55, 58 *)
Definition green (s : bytes) : bytes := escape ++ bs "[32m" ++ s ++ escape ++ bs "[39m".
Definition cyan (s : bytes) : bytes := escape ++ bs "[36m" ++ s ++ escape ++ bs "[39m".

(** flag.UnquoteUsage (Go 1.20): the part between the first two back quotes is the name of the
    value; without it the name comes from the type.  [back_quoted] splits at a back quote. *)
Fixpoint back_quoted (s : bytes) : option (bytes * bytes) :=
  match s with
  | [] => None
  | c :: s' => if c =? 96 then Some ([], s')
               else match back_quoted s' with Some (a, b) => Some (c :: a, b) | None => None end
  end.
Definition unquote_usage (v : flag_value) (usage : bytes) : bytes * bytes :=
  let by_type := match v with Bool _ => [] | Uint _ => bs "uint" | Str _ => bs "string" end in
  match back_quoted usage with
  | None => (by_type, usage)
  | Some (a, r) =>
      match back_quoted r with
      | None => (by_type, usage)
      | Some (name, b) => (name, a ++ name ++ b)
      end
  end.
(** flag.Value.String at definition time: Flag.DefValue.  The numbers among the defaults are 0. *)
Definition def_value (v : flag_value) : bytes :=
  match v with
  | Bool b => if b then bs "true" else bs "false"
  | Uint n => if n =? 0 then bs "0" else []
  | Str s => s
  end.
(** %q, for the printable ASCII text without quotes and backslashes that the defaults are *)
Definition quote_plain (s : bytes) : bytes := 34 :: s ++ [34].
(** command.go:63-72 *)
Definition default_note (v : flag_value) : bytes :=
  let text := match v with Str [] => [] | Str s => quote_plain s | _ => def_value v end in
  match text with
  | [] => []
  | _ => cyan (bs " (default " ++ bold text ++ bs ")")
  end.

(** flag.(FlagSet).VisitAll: options in the order of their names (sort.Slice with <) *)
Fixpoint bytes_ltb (a b : bytes) : bool :=
  match a, b with
  | _, [] => false
  | [], _ :: _ => true
  | x :: a', y :: b' => (x <? y) || ((x =? y) && bytes_ltb a' b')
  end.
Definition option_doc := (bytes * (flag_value * bytes))%type.
Fixpoint insert_doc (d : option_doc) (l : list option_doc) : list option_doc :=
  match l with
  | [] => [d]
  | x :: l' => if bytes_ltb (fst d) (fst x) then d :: l else x :: insert_doc d l'
  end.
Definition visit_all (l : list option_doc) : list option_doc := fold_right insert_doc [] l.

(** command.go:19-25; the options as AddFlags registers them *)
Record command_doc := mk_doc {
  cd_name : bytes; cd_description : bytes; cd_examples : list bytes; cd_options : list option_doc
}.
(** the usage texts as written, with back quotes *)
Definition raw_ttl := bs "Set a time-to-live validity `period` on the exported key. Can be a number denominated in days (d) weeks (w) months (m) or years (y) relative to the key creation time, such as ""24d"" or ""2y"" after key creation.".
Definition raw_only := bs "Only output a subset key containing the given key `types` as PGP packets. A comma-delimited list of the following possible values:  master | encryption | signing | authentication".
Definition raw_in_word_file := bs "Read the words of the mnemonic from this `file`. Words should be separated by whitespace and the file should contain the exact words. Useful for debugging.".
Definition raw_out_word_file := bs "Write the words of the recovery phrase to this `file` in PLAIN TEXT. Useful for debugging. Do not use this if you care about keeping your keys safe. Words will be separated by a single space. The file will contain the exact words and nothing else.".
(** common_opts.go:17-24 *)
Definition common_docs : list option_doc := [(bs "verbose", (Bool false, text_verbose))].
(** common_opts.go:36-74 *)
Definition generate_recover_docs : list option_doc :=
  [(bs "name", (Str (bs "anonymous"), text_name)); (bs "email", (Str [], text_email)); (bs "ttl", (Str [], raw_ttl));
   (bs "encrypt-keys", (Bool false, text_encrypt_keys)); (bs "only", (Str [], raw_only))].
(** common_opts.go:113-130 *)
Definition recover_convert_docs : list option_doc :=
  [(bs "simple", (Bool false, text_simple)); (bs "in-word-file", (Str [], raw_in_word_file))].
(** common_opts.go:138-147 *)
Definition generate_convert_docs : list option_doc := [(bs "out-word-file", (Str [], raw_out_word_file))].
(** main.go:18-26 *)
Definition root_doc : command_doc :=
  mk_doc (bs "mnemonikey - https://github.com/kklash/mnemonikey") (ct_description root_text)
    [bs "mnemonikey <COMMAND> [help | --help | -h] [OPTIONS]" ++ [10];
     bs "mnemonikey generate  - Generate a new OpenPGP private key and display its recovery phrase.";
     bs "mnemonikey recover   - Recover an OpenPGP private key from a mnemonic recovery phrase.";
     bs "mnemonikey convert   - Convert between mnemonic recovery phrase formats."] [].
(** generate.go:28-58 *)
Definition generate_doc : command_doc :=
  mk_doc (bs "mnemonikey generate") (ct_description generate_text)
    [bs "mnemonikey generate";
     bs "mnemonikey generate -name username";
     bs "mnemonikey generate -name username -email bob@hotmail.com";
     bs "mnemonikey generate -name username -only master,encryption";
     bs "mnemonikey generate -ttl 2y";
     bs "mnemonikey generate -ttl 17w"]
    (common_docs ++ generate_recover_docs ++ generate_convert_docs ++
     [(bs "encrypt-phrase", (Bool false, bs "Encrypt the exported recovery phrase with a password. The resulting phrase will require the same password for later recovery."));
      (bs "unsafe-entropy", (Str [], bold (bs "(UNSAFE)") ++ bs " Generate the key using seed entropy drawn directly from the given `file`. Specify '-' to read entropy from standard input. "
       ++ bold (bs "You probably shouldn't use this flag.")))]).
(** recover.go:29-76 *)
Definition recover_doc : command_doc :=
  mk_doc (bs "mnemonikey recover") (ct_description recover_text)
    [bs "mnemonikey recover";
     bs "mnemonikey recover -name myuser";
     bs "mnemonikey recover -name=myuser -email someone@someplace.com";
     bs "mnemonikey recover -name myuser -enc-index 3 -auth-index=2";
     bs "mnemonikey recover -name myuser -only master";
     bs "mnemonikey recover -name myuser -enc-index 3 -only master,encryption";
     bs "mnemonikey recover -name myuser -auth-index 12 -only authentication -self-cert=false";
     bs "mnemonikey recover -ttl 2y";
     bs "mnemonikey recover -ttl=17w";
     bs "mnemonikey recover -simple -name myuser"]
    (common_docs ++ generate_recover_docs ++ recover_convert_docs ++
     [(bs "self-cert", (Bool true, bs "This flag decides if mnemonikey will output the master key's self-certification signature or not. Set "
       ++ magenta (bs "-self-cert=false") ++
       bs " if you are importing keys into a keyring which already has the master key, to avoid adding extra signatures to the key."));
      (bs "enc-index", (Uint 0, bs "The `index` of the encryption subkey which will be recovered."));
      (bs "auth-index", (Uint 0, bs "The `index` of the authentication subkey which will be recovered."));
      (bs "sig-index", (Uint 0, bs "The `index` of the signing subkey which will be recovered."))]).
(** convert.go:20-42 *)
Definition convert_doc : command_doc :=
  mk_doc (bs "mnemonikey convert") (ct_description convert_text)
    [bs "mnemonikey convert";
     bs "mnemonikey convert -encrypt";
     bs "mnemonikey convert -simple";
     bs "mnemonikey convert -in-word-file /etc/words";
     bs "mnemonikey convert -in-word-file /etc/words -out-word-file /etc/new-words"]
    (common_docs ++ recover_convert_docs ++ generate_convert_docs ++
     [(bs "encrypt-phrase", (Bool false, bs "If true, encrypt the recovery phrase with a new password. The resulting phrase will require the same password for later recovery. If false, output a plaintext phrase."))]).

(** command.go:58-73: the section of one option, the header line and what is wrapped *)
Fixpoint show_options (size : option Z) (l : list option_doc) : justified :=
  match l with
  | [] => Text []
  | (name, (v, usage)) :: l' =>
      let (arg, usage) := unquote_usage v usage in
      match justify_option_description size (faint usage) with
      | Text d =>
          match show_options size l' with
          | Text rest => Text (bs "  " ++ bold (magenta (45 :: name)) ++ [32] ++ green arg ++ [10]
                               ++ d ++ default_note v ++ [10; 10] ++ rest)
          | j => j
          end
      | j => j
      end
  end.
(** command.go:35-74.  If wrapping a text never ends or panics, what was written before it is left
    out; every command has a description and examples. *)
Definition help_output (d : command_doc) (size : option Z) : justified :=
  match justify_terminal_width size 2 (cd_description d) with
  | Text t =>
      match show_options size (visit_all (cd_options d)) with
      | Text o =>
          Text (bold (cd_name d) ++ [10; 10] ++ t ++ [10; 10] ++ bold (bs "Usage:") ++ [10]
                ++ flat_map (fun line => bs "  " ++ line ++ [10]) (cd_examples d) ++ [10]
                ++ (match cd_options d with [] => [] | _ => bold (bs "Options:") ++ [10] end) ++ o)
      | j => j
      end
  | j => j
  end.
