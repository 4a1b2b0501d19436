(** What a key is, written from the README ("Key derivation"): every secret is expanded from one
    root key under a label naming its role. *)
From Verif.Model Require Import GoBase Env Seed GoTime Recovery Encoding PgpKeys Mnemonikey.
From Verif.Spec Require Import PhraseSpec.

Inductive subkey_kind := Encryption | Authentication | Signing.
Inductive role := Master | Subkey (k : subkey_kind) (index : Z).

Definition kind_name (k : subkey_kind) : bytes :=
  match k with
  | Encryption => bs "encryption"
  | Authentication => bs "authentication"
  | Signing => bs "signing"
  end.
Definition label (r : role) : bytes :=
  match r with
  | Master => bs "mnemonikey master key"
  | Subkey k i => bs "mnemonikey " ++ kind_name k ++ bs " subkey" ++ [i / 256; i mod 256]
  end.
(** subkey indices are 16-bit *)
Definition role_ok (r : role) : Prop := match r with Master => True | Subkey _ i => 0 <= i < 65536 end.

(** root key: Argon2id over the 128-bit seed, salted with the 32-bit creation second *)
Definition root (E : Env) (entropy second : Z) : bytes :=
  argon2id E (bytes_of_bits 128 entropy) (bytes_of_bits 32 second) 4 (512 * 1024) 2 32.
Definition secret (E : Env) (entropy second : Z) (r : role) : bytes :=
  hkdf_expand_sha256 E (root E entropy second) (label r) 32.

(** the creation window: whole seconds 0 .. 2^31-1 after 2023-01-01T00:00:00Z *)
Definition first_second : Z := 1672531200.
Definition last_second : Z := 3820014847.   (* 1672531200 + 2^31 - 1 *)
Definition ns : Z := 1000000000.
(** the time.Time without a value: the start of the year 1 in UTC *)
Definition year_one : Z := -62135596800 * 1000000000.

(** one conversion step: decode a phrase with a password (ignored for plaintext phrases), encode the
    seed and creation offset again, without or with a new password *)
Inductive converts (E : Env) : list bytes * bytes -> list bytes * bytes -> Prop :=
| To_plaintext : forall ws pw dm s ws' pw',
    decode_mnemonic E ws = Ok dm -> dm_decrypt_seed E dm pw = Ok s ->
    encode_mnemonic_plaintext E s (dm_offset dm) = Ok ws' ->
    converts E (ws, pw) (ws', pw')
| To_encrypted : forall ws pw dm s pw' src ws',
    decode_mnemonic E ws = Ok dm -> dm_decrypt_seed E dm pw = Ok s ->
    Forall (fun b => 0 <= b < 256) src ->
    encode_mnemonic_encrypted E s (dm_offset dm) pw' src = Ok ws' ->
    converts E (ws, pw) (ws', pw').
Inductive converts_many (E : Env) : list bytes * bytes -> list bytes * bytes -> Prop :=
| Convert_none : forall p, converts_many E p p
| Convert_more : forall p q r, converts E p q -> converts_many E q r -> converts_many E p r.

(** nil options mean: no name, no email, no expiry, index 0, all subkeys *)
Definition opts_of (opts : option key_options) : key_options :=
  match opts with None => mk_opts [] [] 0 0 0 0 None | Some o => o end.
(** subkey indices are uint16 *)
Definition opts_ok (o : key_options) : Prop :=
  0 <= ko_enc_index o < 65536 /\ 0 <= ko_auth_index o < 65536 /\ 0 <= ko_sign_index o < 65536.

(** the options ask for this kind of subkey *)
Definition requested (o : key_options) (k : subkey_kind) : Prop :=
  match ko_subkeys o with None => True | Some l => In (kind_name k) l end.
Definition index_of (o : key_options) (k : subkey_kind) : Z :=
  match k with Encryption => ko_enc_index o | Authentication => ko_auth_index o | Signing => ko_sign_index o end.

(** the base key of a subkey of a Mnemonikey *)
Definition subkey_base (m : mnemonikey) (k : subkey_kind) : option ecc_key :=
  match k with
  | Encryption => option_map cv_base (ks_enc (mnk_keys m))
  | Authentication => option_map ed_base (ks_auth (mnk_keys m))
  | Signing => option_map ed_base (ks_sign (mnk_keys m))
  end.
(** its 32-byte secret as derived: for encryption keys the stored private key is the clamped one *)
Definition master_base (m : mnemonikey) : ecc_key := ed_base (ks_master (mnk_keys m)).
