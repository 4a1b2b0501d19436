(** Sessions with the whole program, by their command lines. *)
From Coq Require Import Relation_Operators.
From Verif.Model Require Import GoBase Env CliInput CliFlags CliMain.
From Verif.Spec Require Import EnvSpec EndSpec FlagSpec ChainSpec.

(** how the settings of recover and convert say the phrase is entered *)
Definition input_of (s : list (bytes * setting)) : input_options :=
  mk_in (switch_of s "simple" false) (text_of s "in-word-file" []).
(** the program, called with the command and its settings in any spelling, ends with status [c] *)
Definition session (E : Env) (name : bytes) (tab : table) (s : list (bytes * setting)) (w : world) (c : option Z) (w' : world) : Prop :=
  exists args rest, command_line tab s args rest /\ args <> [bs "help"] /\ mnemonikey_main E (name :: args) w = (c, w').
(** the same user ID, TTL and selection of keys on both command lines; keys not encrypted; first
    generation of subkeys; the self-certification is part of the output *)
Record same_settings (g r : list (bytes * setting)) : Prop := {
  ss_same : forall n, In n [bs "name"; bs "email"; bs "ttl"; bs "only"] -> last_setting g n = last_setting r n;
  ss_plain : switch_of g "encrypt-keys" false = false /\ switch_of r "encrypt-keys" false = false;
  ss_cert : switch_of r "self-cert" true = true;
  ss_indices : number_of r "enc-index" 0 = 0 /\ number_of r "auth-index" 0 = 0 /\ number_of r "sig-index" 0 = 0
}.
(** the bytes of standard input that are left when the seed has been drawn *)
Definition seed_drawn (s : list (bytes * setting)) (stdin : bytes) : bytes :=
  if list_eq_dec Z.eq_dec (text_of s "unsafe-entropy" []) (bs "-") then skipn 16 stdin else stdin.
(** the password of the phrase, if -encrypt-phrase is set: the one the prompt gives in the end *)
Definition phrase_password (s : list (bytes * setting)) (tty : bool) (stdin : bytes) (pw : option bytes) : Prop :=
  if switch_of s "encrypt-phrase" false
  then exists p, fst (user_input_password tty true stdin) = Ok p /\ pw = Some p else pw = None.
(** a session of convert in which the phrase is entered, and the new phrase is shown *)
Inductive convert_program (E : Env) : held -> held -> Prop :=
| Convert_program : forall s w c w' v x old new pw,
    Forall byte (w_random w) -> session E (bs "convert") convert_table s w c w' -> enters_held E (input_of s) w old ->
    decode_mnemonic_from_input E (input_of s) w = (Ret x, v) ->
    phrase_password s (w_tty v) (w_stdin v) pw -> w_shown w' = w_shown w ++ [new] ->
    convert_program E old (new, pw).
Definition convert_programs (E : Env) : held -> held -> Prop := clos_refl_trans held (convert_program E).
