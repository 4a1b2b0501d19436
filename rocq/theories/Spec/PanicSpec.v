(** When the package mnemonikey panics (C96), told by what a program knows about the pointers it holds: how each was
    obtained and whether that call failed. *)
From Verif.Model Require Import GoBase Env GoTime Mnemonikey ZeroValues.
From Verif.Spec Require Import EnvSpec PhraseSpec KeySpec.

Inductive known :=
| K_nil                                  (* a nil pointer, or no pointer *)
| K_zero_seed                            (* new(Seed) *)
| K_seed (negative : bool)               (* made by the package; of a negative integer? *)
| K_phrase (decoded sealed : bool) (version : Z)  (* from DecodeMnemonic or a literal; 16 words?; the Version it has now *)
| K_zero_key                             (* new(Mnemonikey) *)
| K_key (negative : bool).               (* made by the package; of a seed of a negative integer? *)

(** what a successful call adds to what is known *)
Definition learn (ks : list known) (c : n_call) : known :=
  match c with
  | N_zero_seed => K_zero_seed
  | N_new_seed _ (Some v) => K_seed (v <? 0)
  | N_generate _ | N_dm_seed _ | N_decrypt _ _ => K_seed false
  | N_zero_decoded v => K_phrase false false v
  | N_decode ws => if Nat.eqb (length ws) 16 then K_phrase true true 1 else K_phrase true false 0
  | N_zero_key => K_zero_key
  | N_new s _ _ => match nth s ks K_nil with K_seed negative => K_key negative | _ => K_key false end
  | N_recover_plaintext _ _ | N_recover_encrypted _ _ _ => K_key false
  | _ => K_nil
  end.
Definition with_version (k : known) (v : Z) : known :=
  match k with K_phrase decoded sealed _ => K_phrase decoded sealed v | k => k end.
Fixpoint change_at (ks : list known) (i : nat) (v : Z) : list known :=
  match ks, i with
  | [], _ => []
  | k :: ks, O => with_version k v :: ks
  | k :: ks, S i => k :: change_at ks i v
  end.
Definition know (ks : list known) (event : n_call * n_seen) : list known :=
  match event with
  | (_, N_failed _) => ks ++ [K_nil]
  | (N_set_version d v, _) => change_at ks d v ++ [K_nil]
  | (c, _) => ks ++ [learn ks c]
  end.
Definition known_after (history : list (n_call * n_seen)) : list known := fold_left know history [].

(** the three subkey types there are *)
Definition subkey_names : list bytes := [bs "encryption"; bs "authentication"; bs "signing"].
(** creation times New accepts: EpochStart to MaxCreationTime, in nanoseconds since 1970 *)
Definition creation_accepted (t : Z) : bool := (1672531200 * 10 ^ 9 <=? t) && (t <=? (1672531200 + 2 ^ 31 - 1) * 10 ^ 9).

(** The table of panics. *)
Definition panics (ks : list known) (c : n_call) : bool :=
  match c with
  | N_zero_seed | N_zero_decoded _ | N_zero_key => false
  (* a nil *big.Int, unless the era is refused first *)
  | N_new_seed era v => (era =? 0) && match v with None => true | Some _ => false end
  | N_generate random => match random with None => true | Some _ => false end
  | N_era s => match nth s ks K_nil with K_zero_seed | K_seed _ => false | _ => true end
  | N_int s | N_bytes s => match nth s ks K_nil with K_seed _ => false | _ => true end
  | N_plaintext s off => match nth s ks K_nil with K_seed negative => negative || (2 ^ 31 <=? off) | _ => true end
  (* an empty password is refused before anything else but a nil seed; then the random source is read, 3 bytes *)
  | N_encrypted s off pw random =>
      let later := match random with None => fun _ => true | Some src => fun late => Nat.leb 3 (length src) && late end in
      match nth s ks K_nil with
      | K_seed _ => negb (zlen pw =? 0) && later (2 ^ 31 <=? off)
      | K_zero_seed => negb (zlen pw =? 0) && later true
      | _ => true
      end
  | N_new s t opts =>
      match nth s ks K_nil with
      | K_seed _ => false
      | K_zero_seed => (match opts with Some o => 0 <=? ko_ttl o | None => true end) && creation_accepted t
      | _ => true
      end
  | N_decode _ | N_recover_plaintext _ _ | N_recover_encrypted _ _ _ => false
  | N_set_version d _ | N_is_encrypted d | N_creation d | N_offset d =>
      match nth d ks K_nil with K_phrase _ _ _ => false | _ => true end
  | N_dm_seed d => match nth d ks K_nil with K_phrase decoded _ v => negb decoded && (v =? 0) | _ => true end
  | N_decrypt d _ =>
      match nth d ks K_nil with
      | K_phrase decoded sealed v => negb decoded && (v =? 0) || negb sealed && (v =? 1)
      | _ => true
      end
  | N_created k => match nth k ks K_nil with K_zero_key | K_key _ => false | _ => true end
  | N_expiry k | N_user_id k | N_fingerprint k | N_types k | N_export k _ _ _ _ =>
      match nth k ks K_nil with K_key _ => false | _ => true end
  | N_subkey_fingerprint k t =>
      existsb (bytes_eqb t) subkey_names && match nth k ks K_nil with K_key _ => false | _ => true end
  | N_key_plaintext k => match nth k ks K_nil with K_key negative => negative | _ => true end
  | N_key_encrypted k pw random =>
      match nth k ks K_nil with
      | K_key _ => negb (zlen pw =? 0) && match random with None => true | Some _ => false end
      | _ => true
      end
  end.

(** values of the types the arguments have: uint32 offsets, uint versions, uint16 indices, bytes *)
Definition typed_options (o : option key_options) : Prop := match o with Some o => opts_ok o | None => True end.
Definition typed_random (r : option bytes) : Prop := match r with Some src => Forall byte src | None => True end.
Definition n_typed (c : n_call) : Prop :=
  match c with
  | N_generate r => typed_random r
  | N_plaintext _ off => 0 <= off < 2 ^ 32
  | N_encrypted _ off _ r => 0 <= off < 2 ^ 32 /\ typed_random r
  | N_new _ _ o | N_recover_plaintext _ o | N_recover_encrypted _ _ o => typed_options o
  | N_zero_decoded v | N_set_version _ v => 0 <= v
  | N_key_encrypted _ _ r => typed_random r
  | _ => True
  end.

(** A program that keeps to the constructors: no literals of the structures, no nil arguments, no assignment to Version,
    only non-negative integers and 31-bit offsets, and every pointer it uses comes from a call that did not fail. *)
Definition proper (ks : list known) (c : n_call) : Prop :=
  let seed s := exists b, nth s ks K_nil = K_seed b in
  let phrase d := exists a b v, nth d ks K_nil = K_phrase a b v in
  let key k := exists b, nth k ks K_nil = K_key b in
  match c with
  | N_zero_seed | N_zero_decoded _ | N_zero_key | N_set_version _ _ => False
  | N_new_seed _ v => match v with Some v => 0 <= v | None => False end
  | N_generate r => r <> None
  | N_era s | N_int s | N_bytes s | N_new s _ _ => seed s
  | N_plaintext s off => seed s /\ off < 2 ^ 31
  | N_encrypted s off _ r => seed s /\ off < 2 ^ 31 /\ r <> None
  | N_decode _ | N_recover_plaintext _ _ | N_recover_encrypted _ _ _ => True
  | N_is_encrypted d | N_creation d | N_offset d | N_dm_seed d | N_decrypt d _ => phrase d
  | N_created k | N_expiry k | N_user_id k | N_fingerprint k | N_types k | N_export k _ _ _ _ | N_subkey_fingerprint k _
  | N_key_plaintext k => key k
  | N_key_encrypted k _ r => key k /\ r <> None
  end.
