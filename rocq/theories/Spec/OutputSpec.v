(** What a printed key has to be for its reader. *)
From Coq Require Import Permutation.
From Verif.Model Require Import GoBase Env Recovery PgpWire PgpKeys Mnemonikey CliText CliInput CliFlags CliMain.
From Verif.Spec Require Import EnvSpec KeySpec PgpSpec ExportSpec ArmorSpec.

(** the kinds of subkeys a list of names (or no list: all) asks for *)
Definition selected (types : option (list bytes)) : list subkey_kind :=
  filter (fun k => match types with None => true | Some l => existsb (bytes_eqb (kind_name k)) l end) all_kinds.
(** the text of a user ID *)
Definition user_id_text (name email : bytes) : bytes :=
  match name, email with
  | [], _ => email
  | _, [] => name
  | _, _ => name ++ bs " <" ++ email ++ bs ">"
  end.
(** the lifetime, in seconds, a key with this TTL has to announce: none for 0 and for fractions of a second *)
Definition announced (ttl : Z) : option Z := if ttl <? 10 ^ 9 then None else Some (ttl / 10 ^ 9).
(** [packets] are a transferable secret key: the fingerprint and the subkeys [m] reports for each of
    [kinds], with the usage of the kind, the given user ID, a certification if the form has one, the master
    secret or a stub, secrets stored under [pw] and unlocked by it, and the lifetime of the TTL *)
Definition key_block (E : Env) (f : form) (pw : bytes) (m : mnemonikey) (uid : bytes) (kinds : list subkey_kind) (ttl : Z)
    (packets : bytes) : Prop :=
  exists t, read_transferable packets = Some t /\
    fingerprint E (tk_key t) = mnk_fingerprint E m /\ tk_uid t = uid /\
    (tk_cert t <> None <-> has_certification f = true) /\
    match f with
    | Full => stored_as pw (tk_secret t) /\ unlock E pw (tk_secret t) <> None
    | Subkeys_only _ => tk_secret t = Stub
    end /\
    Permutation
      (map (fun b => (find_sub 27 (sp_hashed (sb_binding b)), Some (fingerprint E (sb_key b)))) (tk_subkeys t))
      (map (fun k => (Some [usage k], mnk_subkey_fingerprint E m (kind_name k))) kinds) /\
    Forall (fun b => stored_as pw (sb_secret b) /\ unlock E pw (sb_secret b) <> None) (tk_subkeys t) /\
    (ttl < 2 ^ 32 * 10 ^ 9 ->
       (forall c, tk_cert t = Some c -> lifetime c = announced ttl) /\
       Forall (fun b => lifetime (sb_binding b) = announced ttl) (tk_subkeys t)).
Definition block_type : bytes := bs "PGP PRIVATE KEY BLOCK".

(** the methods of Mnemonikey for the forms of export, binary and armored *)
Definition api_packets (E : Env) (f : form) (m : mnemonikey) (pw tape : bytes) : res (bytes * bytes) :=
  match f with
  | Full => mnk_encode_pgp E m pw tape
  | Subkeys_only c => mnk_encode_subkeys_pgp E m pw c tape
  end.
Definition api_armor (E : Env) (f : form) (m : mnemonikey) (pw tape : bytes) : res (bytes * bytes) :=
  match f with
  | Full => mnk_encode_pgp_armor E m pw tape
  | Subkeys_only c => mnk_encode_subkeys_pgp_armor E m pw c tape
  end.

(** a user ID text of bytes, short enough for a packet *)
Definition user_id_ok (name email : bytes) : Prop :=
  Forall byte name /\ Forall byte email /\ zlen name + zlen email < 2 ^ 31.
(** standard output holds this text after the newlines of prompts, or followed by them *)
Definition printed (before : list bytes) (after : list bytes) (packets : bytes) : Prop :=
  exists text, after = before ++ [text ++ [10]] /\
    forall a b, dearmor (repeat 10 a ++ text ++ [10] ++ repeat 10 b) = Some (block_type, packets).
(** the key password: entered twice at the prompt if asked for, otherwise empty *)
Definition key_password (asked tty : bool) (stdin pw : bytes) : Prop :=
  if asked then pw <> [] /\ fst (user_input_password tty true stdin) = Ok pw else pw = [].
(** the TTL a value of the option asks for *)
Definition ttl_asked (E : Env) (text : bytes) (ttl : Z) : Prop :=
  match text with [] => ttl = 0 | _ => parse_ttl E text = Ok ttl end.
