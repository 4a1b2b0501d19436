(** Two sessions with one phrase, by their command lines (C105). *)
From Verif.Model Require Import GoBase Env CliInput CliFlags CliMain.
From Verif.Spec Require Import FlagSpec ProgramSpec.

(** the option has the same value on both command lines, or is on neither *)
Definition same_option (s1 s2 : list (bytes * setting)) (n : bytes) : Prop := last_setting s1 n = last_setting s2 n.
Definition same_identity_options (s1 s2 : list (bytes * setting)) : Prop :=
  same_option s1 s2 (bs "name") /\ same_option s1 s2 (bs "email") /\ same_option s1 s2 (bs "ttl").
Definition same_index_options (s1 s2 : list (bytes * setting)) : Prop :=
  number_of s1 "enc-index" 0 = number_of s2 "enc-index" 0 /\ number_of s1 "auth-index" 0 = number_of s2 "auth-index" 0 /\
  number_of s1 "sig-index" 0 = number_of s2 "sig-index" 0.
(** the user ID on a command line has bytes and is not too long *)
Definition name_of (s : list (bytes * setting)) : bytes := text_of s "name" (bs "anonymous").
Definition email_of (s : list (bytes * setting)) : bytes := text_of s "email" [].
(** where generate asks for the password of the phrase: after that of the keys *)
Definition before_phrase_password (s : list (bytes * setting)) (tty : bool) (stdin : bytes) : bytes :=
  if switch_of s "encrypt-keys" false then snd (user_input_password tty true (seed_drawn s stdin)) else seed_drawn s stdin.
