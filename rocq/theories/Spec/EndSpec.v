(** Two sessions, one generating a key and one recovering it. *)
From Verif.Model Require Import GoBase Env Recovery Mnemonikey CliInput CliFlags CliMain.
From Verif.Spec Require Import EnvSpec InputSpec.

(** a world made of bytes *)
Definition world_ok (w : world) : Prop :=
  Forall byte (w_random w) /\ Forall byte (w_stdin w) /\ forall p c, w_files w p = File c -> Forall byte c.
(** what is left of standard input when the seed has been drawn *)
Definition after_seed (o : generate_options) (stdin : bytes) : bytes :=
  if bytes_eqb (go_entropy o) (bs "-") then skipn 16 stdin else stdin.
(** the same user ID, TTL and selection of keys; indices 0; keys not encrypted *)
Record same_request (g : generate_options) (r : recover_options) : Prop := {
  sr_name : ro_name r = go_name g;
  sr_email : ro_email r = go_email g;
  sr_ttl : ro_ttl r = go_ttl g;
  sr_only : ro_only r = go_only g;
  sr_plain : go_encrypt_keys g = false /\ ro_encrypt_keys r = false;
  sr_cert : ro_self_cert r = true;
  sr_indices : ro_enc_index r = 0 /\ ro_auth_index r = 0 /\ ro_sign_index r = 0
}.
(** the world [v], after the phrase has been entered, answers the password prompts: blank lines and
    wrong passwords, then the password [pw] *)
Definition answers (E : Env) (words : list bytes) (pw : bytes) (v : world) : Prop :=
  w_tty v = true /\ exists ls l rest, w_stdin v = password_lines ls ++ l ++ [10] ++ rest /\
    Forall (fun l => ~ In 10 l) (l :: ls) /\ pass_text l = pw /\
    forall dm, decode_mnemonic E words = Ok dm ->
      Forall (fun l => pass_text l = [] \/ dm_decrypt_seed E dm (pass_text l) = Err ErrMnemonicDecryption) ls.
