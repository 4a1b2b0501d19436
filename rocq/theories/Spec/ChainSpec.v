(** Phrases that pass through several sessions of convert (C93). *)
From Coq Require Import Relations.
From Verif.Model Require Import GoBase Env Version Seed Recovery Mnemonikey CliInput CliFlags CliMain.
From Verif.Spec Require Import EnvSpec InputSpec EndSpec.

(** what the user holds: a phrase, and its password if it is encrypted *)
Definition held : Type := (list bytes * option bytes)%type.
(** a seed and a creation time, in seconds since the epoch, as the phrase and the password give them *)
Definition opens (E : Env) (h : held) (s : seed) (offset : Z) : Prop :=
  exists dm, decode_mnemonic E (fst h) = Ok dm /\ dm_offset dm = offset /\
    match snd h with
    | None => dm_encrypted dm = false /\ dm_seed dm = Ok s
    | Some pw => dm_encrypted dm = true /\ pw <> [] /\ dm_decrypt_seed E dm pw = Ok s
    end.
(** the session enters what the user holds, in any of the ways there are; wrong passwords may come first *)
Definition enters_held (E : Env) (o : input_options) (v : world) (h : held) : Prop :=
  exists v1, read_phrase E o v = (Ret (fst h), v1) /\ match snd h with None => True | Some pw => answers E (fst h) pw v1 end.
(** one session of convert that shows a phrase; the password is the one it asks for *)
Inductive convert_session (E : Env) : held -> held -> Prop :=
| Converted : forall o w r w' old new pw,
    Forall byte (w_random w) -> enters_held E (co_input o) w old -> decode_and_convert E o w = (r, w') -> w_shown w' = w_shown w ++ [new] ->
    (if co_encrypt o
     then exists s dm v p, decode_mnemonic_from_input E (co_input o) w = (Ret (s, dm), v) /\
            fst (user_input_password (w_tty v) true (w_stdin v)) = Ok p /\ pw = Some p
     else pw = None) ->
    convert_session E old (new, pw).
Definition convert_sessions (E : Env) : held -> held -> Prop := clos_refl_trans held (convert_session E).
(** the same options but for the way the phrase is entered *)
Definition other_input (o : recover_options) (i : input_options) : recover_options :=
  mk_rec (ro_name o) (ro_email o) (ro_ttl o) (ro_encrypt_keys o) (ro_only o) i (ro_self_cert o) (ro_enc_index o) (ro_auth_index o) (ro_sign_index o).
