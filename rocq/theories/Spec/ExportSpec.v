(** Vocabulary for statements about exported keys: key sets as the constructors build them, what an
    export is, and what its parts have to be. *)
From Coq Require Import Permutation.
From Verif.Model Require Import GoBase Env GoTime PgpWire PgpKeys.
From Verif.Spec Require Import EnvSpec PhraseSpec KeySpec PgpSpec.

(** what exports assume of the external functions *)
Definition env_ok (E : Env) (edv : bytes -> bytes -> bytes -> bool) : Prop :=
  hash_ok E /\ aes256_ok E /\ ed25519_ok E edv /\ x25519_ok E /\ rand_ok E.

(** keys made by NewED25519MasterKey / NewED25519Subkey / NewCurve25519Subkey from 32 seed bytes, with a
    creation time OpenPGP can express (32-bit seconds) *)
Definition built_ed (E : Env) (k : ed_key) : Prop :=
  exists sd c x, block32 sd /\ 0 <= c / ns < 2 ^ 32 /\ new_ed_key E sd c x = Ok k.
Definition built_curve (E : Env) (k : curve_key) : Prop :=
  exists sd c x, block32 sd /\ 0 <= c / ns < 2 ^ 32 /\ new_curve_key E sd c x None = Ok k.
Record built (E : Env) (ks : key_set) : Prop := {
  built_master : built_ed E (ks_master ks);
  built_enc : forall k, ks_enc ks = Some k -> built_curve E k;
  built_auth : forall k, ks_auth ks = Some k -> built_ed E k;
  built_sign : forall k, ks_sign ks = Some k -> built_ed E k;
  built_uid : zlen (uid_encode (ks_uid ks)) < 2 ^ 32
}.

(** the two export functions: everything, or the subkeys with or without the self-certification *)
Inductive form := Full | Subkeys_only (with_certification : bool).
Definition export (E : Env) (f : form) (ks : key_set) (pw tape : bytes) : res (bytes * bytes) :=
  match f with
  | Full => encode_packets E ks pw tape
  | Subkeys_only c => encode_subkey_packets E ks pw c tape
  end.
Definition has_certification (f : form) : bool := match f with Full => true | Subkeys_only c => c end.

(** S2K can only use passwords up to this length; see C39 *)
Definition password_ok (pw : bytes) : Prop := zlen pw <= 65011704.

(** the export succeeds and reads as the transferable key [t] *)
Definition exports (E : Env) (f : form) (ks : key_set) (pw tape : bytes) (t : transferable) : Prop :=
  exists out rest, export E f ks pw tape = Ok (out, rest) /\ read_transferable out = Some t.

(** subkeys of a key set: key material and expiry *)
Definition subkey (ks : key_set) (k : subkey_kind) : option (ecc_key * Z) :=
  match k with
  | Encryption => option_map (fun k => (cv_base k, cv_expiry k)) (ks_enc ks)
  | Authentication => option_map (fun k => (ed_base k, ed_expiry k)) (ks_auth ks)
  | Signing => option_map (fun k => (ed_base k, ed_expiry k)) (ks_sign ks)
  end.
Definition all_kinds : list subkey_kind := [Encryption; Authentication; Signing].
(** those present, in a given order of kinds *)
Definition subkeys_along (ks : key_set) (order : list subkey_kind) : list (subkey_kind * (ecc_key * Z)) :=
  flat_map (fun k => match subkey ks k with Some p => [(k, p)] | None => [] end) order.

(** a public key OpenPGP can express: 32-bit creation second, 32-byte point, short OID, and KDF
    parameters exactly for ECDH *)
Definition expressible (k : ecc_key) : Prop :=
  0 <= ec_creation k / ns < 2 ^ 32 /\ block32 (ec_public k) /\ zlen (ec_oid k) < 256 /\ 0 <= ec_alg k < 256 /\
  (ec_alg k = 18 /\ (exists p, ec_extra k = kdf_encode p) \/ ec_alg k <> 18 /\ ec_extra k = []).

(** the public key packet read is this key *)
Definition is_key (k : ecc_key) (pk : public_key) : Prop :=
  pk_time pk = ec_creation k / ns /\ pk_alg pk = ec_alg k /\ pk_oid pk = ec_oid k /\ pk_point pk = ec_public k.

(** how a secret is stored: in the clear without password, otherwise AES-256 under an iterated and
    salted SHA-256 key *)
Definition stored_as (pw : bytes) (s : secret_part) : Prop :=
  match pw with
  | [] => exists body, s = Cleartext body
  | _ => exists salt iv body, s = Protected 9 8 salt 255 iv body /\ zlen salt = 8 /\ zlen iv = 16
  end.
Definition salt_of (s : secret_part) : bytes :=
  match s with Protected _ _ salt _ iv _ => salt ++ iv | _ => [] end.

(** key usage flags of the roles *)
Definition usage (k : subkey_kind) : Z :=
  match k with Encryption => 0x0C | Authentication => 0x20 | Signing => 0x02 end.

(** a subpacket 9 in the hashed area gives the key lifetime in seconds; none means no expiry, and so
    does 0 (RFC 4880 5.2.3.6) *)
Definition lifetime (s : sig_packet) : option Z :=
  match find_sub 9 (sp_hashed s) with
  | None => None
  | Some b => if number b =? 0 then None else Some (number b)
  end.

(** who signed and when: issuer fingerprint, issuer key ID, signature creation time *)
Definition signed_by (E : Env) (pk : public_key) (time : Z) (s : sig_packet) : Prop :=
  find_sub 33 (sp_hashed s) = Some (4 :: fingerprint E pk) /\
  find_sub 16 (sp_unhashed s) = Some (skipn 12 (fingerprint E pk)) /\
  option_map number (find_sub 2 (sp_hashed s)) = Some time.

(** the generator seed for the order of the subkeys: the leading 63 bits after the sign bit of SHA-256 of
    the 64-byte master secret, negated when the sign bit is set *)
Definition order_seed (E : Env) (private : bytes) : Z :=
  let n := number (firstn 8 (sha256 E private)) in
  if n <? 2 ^ 63 then n else - (n - 2 ^ 63).

(** number of secret keys stored in an export, and how many bytes of randomness it takes: 8 of salt and
    16 of IV for each, if there is a password *)
Definition secrets_in (f : form) (ks : key_set) : nat :=
  (match f with Full => 1 | Subkeys_only _ => 0 end) + length (subkeys_along ks all_kinds).
Definition randomness (f : form) (ks : key_set) (pw : bytes) : nat :=
  match pw with [] => 0 | _ => 24 * secrets_in f ks end.

(** the exported subkeys are those of the key set in some order, and [P] holds of each *)
Definition subkeys_match (ks : key_set) (t : transferable)
    (P : subkey_kind -> ecc_key -> Z -> subkey_block -> Prop) : Prop :=
  exists order, Permutation all_kinds order /\
    Forall2 (fun q b => is_key (fst (snd q)) (sb_key b) /\ P (fst q) (fst (snd q)) (snd (snd q)) b)
      (subkeys_along ks order) (tk_subkeys t).

(** position of a subkey in the sequence encryption, authentication, signing of those present *)
Definition rank (ks : key_set) (k : subkey_kind) : nat :=
  length (subkeys_along ks (match k with
                            | Encryption => []
                            | Authentication => [Encryption]
                            | Signing => [Encryption; Authentication]
                            end)).
