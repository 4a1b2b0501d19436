(** Model of the command-line options of /repo/cmd/mnemonikey (common_opts.go and the AddFlags of
    generate.go, recover.go, convert.go) and of the part of Go's package flag that parses them. *)
From Verif.Model Require Import GoBase Env CliText.

(** strconv.ParseBool *)
Definition parse_bool (s : bytes) : option bool :=
  if existsb (bytes_eqb s) [bs "1"; bs "t"; bs "T"; bs "true"; bs "TRUE"; bs "True"] then Some true
  else if existsb (bytes_eqb s) [bs "0"; bs "f"; bs "F"; bs "false"; bs "FALSE"; bs "False"] then Some false
  else None.

(** strconv.lower: c | 0x20 *)
Definition lower_bit (c : Z) : Z := Z.lor c 32.
(** strconv.underscoreOK: [saw] is the class of the last character: 0 start, 1 digit, 2
    underscore, 3 other. *)
Fixpoint underscore_loop (hex : bool) (saw : Z) (s : bytes) : bool :=
  match s with
  | [] => negb (saw =? 2)
  | c :: s' =>
      if ((48 <=? c) && (c <=? 57)) || (hex && (97 <=? lower_bit c) && (lower_bit c <=? 102)) then underscore_loop hex 1 s'
      else if c =? 95 then (if negb (saw =? 1) then false else underscore_loop hex 2 s')
      else if saw =? 2 then false
      else underscore_loop hex 3 s'
  end.
Definition underscore_ok (s : bytes) : bool :=
  let s := match s with c :: s' => if (c =? 45) || (c =? 43) then s' else s | [] => s end in
  match s with
  | z :: p :: s' =>
      if (z =? 48) && ((lower_bit p =? 98) || (lower_bit p =? 111) || (lower_bit p =? 120))
      then underscore_loop (lower_bit p =? 120) 1 s'
      else underscore_loop false 0 s
  | _ => underscore_loop false 0 s
  end.
(** the digit loop of strconv.ParseUint for base argument 0: value and whether there were
    underscores *)
Fixpoint base_digits (base n : Z) (under : bool) (s : bytes) : option (Z * bool) :=
  match s with
  | [] => Some (n, under)
  | c :: s' =>
      if c =? 95 then base_digits base n true s'
      else
        let digit :=
          if (48 <=? c) && (c <=? 57) then Some (c - 48)
          else if (97 <=? lower_bit c) && (lower_bit c <=? 122) then Some (lower_bit c - 97 + 10)
          else None in
        match digit with
        | None => None
        | Some d =>
            if d >=? base then None
            else if n >=? max_uint64 / base + 1 then None
            else let n1 := n * base + d in
                 if n1 >? max_uint64 then None else base_digits base n1 under s'
        end
  end.
(** strconv.ParseUint(s, 0, 64) *)
Definition parse_uint0 (s : bytes) : option Z :=
  let (base, digits) :=
    match s with
    | z :: r =>
        if z =? 48 then
          match r with
          | p :: ((_ :: _) as r') =>
              if lower_bit p =? 98 then (2, r')
              else if lower_bit p =? 111 then (8, r')
              else if lower_bit p =? 120 then (16, r')
              else (8, r)
          | _ => (8, r)
          end
        else (10, s)
    | [] => (10, s)
    end in
  match s with
  | [] => None
  | _ =>
      match base_digits base 0 false digits with
      | None => None
      | Some (n, under) => if under && negb (underscore_ok s) then None else Some n
      end
  end.

(** Options and their values *)
Inductive flag_value := Bool (b : bool) | Uint (n : Z) | Str (s : bytes).
Definition flag_set := list (bytes * flag_value).
Fixpoint flag_get (fs : flag_set) (name : bytes) : option flag_value :=
  match fs with
  | [] => None
  | (n, v) :: fs' => if bytes_eqb n name then Some v else flag_get fs' name
  end.
Fixpoint flag_put (fs : flag_set) (name : bytes) (v : flag_value) : flag_set :=
  match fs with
  | [] => []
  | (n, w) :: fs' => if bytes_eqb n name then (n, v) :: fs' else (n, w) :: flag_put fs' name v
  end.
(** flag.Value.Set: the kind of the option decides how the text is read *)
Definition flag_parse_value (old : flag_value) (text : bytes) : option flag_value :=
  match old with
  | Bool _ => option_map Bool (parse_bool text)
  | Uint _ => option_map Uint (parse_uint0 text)
  | Str _ => Some (Str text)
  end.

(** the search for '=' in parseOne, from the second character on *)
Fixpoint cut_equals (name : bytes) : bytes * option bytes :=
  match name with
  | [] => ([], None)
  | c :: r => if c =? 61 then ([], Some r) else let (n, v) := cut_equals r in (c :: n, v)
  end.
Definition split_flag (name : bytes) : bytes * option bytes :=
  match name with
  | [] => ([], None)
  | c :: r => let (n, v) := cut_equals r in (c :: n, v)
  end.

(** The outcome of FlagSet.Parse with ExitOnError: the options and the remaining arguments, the
    help text and exit status 0, or an error message with the usage text and exit status 2. *)
Inductive parsed := Parsed (fs : flag_set) (args : list bytes) | Help | Bad_flags.

(** flag.(FlagSet).parseOne and the loop in Parse (Go 1.20).  Every turn takes an argument. *)
Fixpoint flag_parse (fuel : nat) (fs : flag_set) (args : list bytes) : parsed :=
  match fuel with
  | O => Parsed fs args
  | S f =>
      match args with
      | [] => Parsed fs []
      | s :: rest =>
          match s with
          | m :: ((c :: s') as after) =>
              if negb (m =? 45) then Parsed fs args
              else
                let double := c =? 45 in
                if double && (match s' with [] => true | _ => false end) then Parsed fs rest
                else
                  let name := if double then s' else after in
                  match name with
                  | [] => Bad_flags
                  | c0 :: _ =>
                      if (c0 =? 45) || (c0 =? 61) then Bad_flags
                      else
                        let (name, value) := split_flag name in
                        match flag_get fs name with
                        | None => if bytes_eqb name (bs "help") || bytes_eqb name (bs "h") then Help else Bad_flags
                        | Some old =>
                            match old, value, rest with
                            | Bool _, None, _ => flag_parse f (flag_put fs name (Bool true)) rest
                            | _, Some text, _ =>
                                match flag_parse_value old text with
                                | Some v => flag_parse f (flag_put fs name v) rest
                                | None => Bad_flags
                                end
                            | _, None, text :: rest' =>
                                match flag_parse_value old text with
                                | Some v => flag_parse f (flag_put fs name v) rest'
                                | None => Bad_flags
                                end
                            | _, None, [] => Bad_flags
                            end
                        end
                  end
          | _ => Parsed fs args
          end
      end
  end.
Definition parse_flags (fs : flag_set) (args : list bytes) : parsed := flag_parse (S (length args)) fs args.

(** cmd/mnemonikey/common_opts.go:17-24 *)
Definition common_flags : flag_set := [(bs "verbose", Bool false)].
(** cmd/mnemonikey/common_opts.go:36-74; DefaultName is at generate.go:17 *)
Definition generate_recover_flags : flag_set :=
  [(bs "name", Str (bs "anonymous")); (bs "email", Str []); (bs "ttl", Str []);
   (bs "encrypt-keys", Bool false); (bs "only", Str [])].
(** cmd/mnemonikey/common_opts.go:113-130 *)
Definition recover_convert_flags : flag_set := [(bs "simple", Bool false); (bs "in-word-file", Str [])].
(** cmd/mnemonikey/common_opts.go:138-147 *)
Definition generate_convert_flags : flag_set := [(bs "out-word-file", Str [])].
(** cmd/mnemonikey/generate.go:39-58 *)
Definition generate_flags : flag_set :=
  common_flags ++ generate_recover_flags ++ generate_convert_flags ++
  [(bs "encrypt-phrase", Bool false); (bs "unsafe-entropy", Str [])].
(** cmd/mnemonikey/recover.go:44-76 *)
Definition recover_flags : flag_set :=
  common_flags ++ generate_recover_flags ++ recover_convert_flags ++
  [(bs "self-cert", Bool true); (bs "enc-index", Uint 0); (bs "auth-index", Uint 0); (bs "sig-index", Uint 0)].
(** cmd/mnemonikey/convert.go:30-42.  The structure has a second field OutputWordFile (line 17)
    that no flag sets and nothing reads. *)
Definition convert_flags : flag_set :=
  common_flags ++ recover_convert_flags ++ generate_convert_flags ++ [(bs "encrypt-phrase", Bool false)].

Definition flag_bool (fs : flag_set) (name : bytes) : bool :=
  match flag_get fs name with Some (Bool b) => b | _ => false end.
Definition flag_str (fs : flag_set) (name : bytes) : bytes :=
  match flag_get fs name with Some (Str s) => s | _ => [] end.
Definition flag_uint (fs : flag_set) (name : bytes) : Z :=
  match flag_get fs name with Some (Uint n) => n | _ => 0 end.

(** cmd/mnemonikey/common_opts.go:12-14, 27-33, 107-110, 133-135; generate.go:19-26,
    recover.go:18-27, convert.go:11-18: the option structures as flags.Parse fills them *)
Record generate_options := mk_gen {
  go_name : bytes; go_email : bytes; go_ttl : bytes; go_encrypt_keys : bool; go_only : bytes;
  go_out_file : bytes; go_encrypt_phrase : bool; go_entropy : bytes
}.
Definition generate_options_of (fs : flag_set) : generate_options :=
  mk_gen (flag_str fs (bs "name")) (flag_str fs (bs "email")) (flag_str fs (bs "ttl"))
    (flag_bool fs (bs "encrypt-keys")) (flag_str fs (bs "only")) (flag_str fs (bs "out-word-file"))
    (flag_bool fs (bs "encrypt-phrase")) (flag_str fs (bs "unsafe-entropy")).
Record input_options := mk_in { io_simple : bool; io_in_file : bytes }.
Definition input_options_of (fs : flag_set) : input_options :=
  mk_in (flag_bool fs (bs "simple")) (flag_str fs (bs "in-word-file")).
Record recover_options := mk_rec {
  ro_name : bytes; ro_email : bytes; ro_ttl : bytes; ro_encrypt_keys : bool; ro_only : bytes;
  ro_input : input_options; ro_self_cert : bool; ro_enc_index : Z; ro_auth_index : Z; ro_sign_index : Z
}.
Definition recover_options_of (fs : flag_set) : recover_options :=
  mk_rec (flag_str fs (bs "name")) (flag_str fs (bs "email")) (flag_str fs (bs "ttl"))
    (flag_bool fs (bs "encrypt-keys")) (flag_str fs (bs "only")) (input_options_of fs)
    (flag_bool fs (bs "self-cert")) (flag_uint fs (bs "enc-index")) (flag_uint fs (bs "auth-index"))
    (flag_uint fs (bs "sig-index")).
Record convert_options := mk_conv { co_input : input_options; co_encrypt : bool; co_out_file : bytes }.
Definition convert_options_of (fs : flag_set) : convert_options :=
  mk_conv (input_options_of fs) (flag_bool fs (bs "encrypt-phrase")) (flag_str fs (bs "out-word-file")).
