(** Which calls of the package pgp panic or fail (C98), told by what a program knows of the pointers it holds: how each was
    obtained and what was assigned since. *)
From Verif.Model Require Import GoBase Env PgpWire PgpKeys PgpFields.

Inductive note :=
| D_nil                                (* a nil pointer, or no pointer *)
| D_master (made signs : bool)         (* by the constructor?  Private of 64 bytes now? *)
| D_subkey (made : bool)
| D_curve (made : bool)
| D_user
| D_keys (s : f_set)                   (* the pointers it holds now *)
| D_sub
| D_sig (uses : list nat) (complete : bool).  (* the program's subpackets in it; a digest of two bytes or more, R and S set? *)
Record notes := mk_notes { n_objects : list note; n_kdf : bool (* DefaultKDFParameters is not nil *); n_hash : Z }.
Definition first_notes : notes := mk_notes [] true 8.

Definition complete_sig (digest : bytes) (r s : option Z) : bool :=
  Nat.leb 2 (length digest) && match r, s with Some _, Some _ => true | _, _ => false end.
(** what a successful call adds *)
Definition noted (c : f_call) : note :=
  match c with
  | F_new_master _ _ _ => D_master true true
  | F_new_subkey _ _ _ => D_subkey true
  | F_new_encryption _ _ _ _ => D_curve true
  | F_lit_master p _ _ _ => D_master false (Nat.eqb (length p) 64)
  | F_lit_subkey _ _ _ _ => D_subkey false
  | F_lit_encryption _ _ _ _ _ => D_curve false
  | F_lit_user _ => D_user
  | F_lit_keys s => D_keys s
  | F_lit_sub _ => D_sub
  | F_lit_sig hs us _ _ d r s => D_sig (hs ++ us) (complete_sig d r s)
  | F_self_certify _ _ => D_sig [] true
  | F_sign _ (Some (_, _, _, _, hs, us, _)) => D_sig (hs ++ us) true
  | _ => D_nil
  end.
Fixpoint note_at (l : list note) (i : nat) (f : note -> note) : list note :=
  match l, i with
  | [], _ => []
  | d :: l, O => f d :: l
  | d :: l, S i => d :: note_at l i f
  end.
Definition take_note (n : notes) (event : f_call * f_seen) : notes :=
  let l := n_objects n in
  match event with
  | (_, F_failed _) => mk_notes (l ++ [D_nil]) (n_kdf n) (n_hash n)
  | (F_set_private k b, _) =>
      mk_notes (note_at l k (fun d => match d with D_master made _ => D_master made (Nat.eqb (length b) 64) | d => d end) ++ [D_nil]) (n_kdf n) (n_hash n)
  | (F_set_keys s v, _) => mk_notes (note_at l s (fun _ => D_keys v) ++ [D_nil]) (n_kdf n) (n_hash n)
  | (F_set_sig s hs us _ _ d r v, _) => mk_notes (note_at l s (fun _ => D_sig (hs ++ us) (complete_sig d r v)) ++ [D_nil]) (n_kdf n) (n_hash n)
  | (F_set_default_kdf p, _) => mk_notes (l ++ [D_nil]) (match p with Some _ => true | None => false end) (n_hash n)
  | (F_set_default_hash id, _) => mk_notes (l ++ [D_nil]) (n_kdf n) id
  | (c, _) => mk_notes (l ++ [noted c]) (n_kdf n) (n_hash n)
  end.
Definition notes_after (history : list (f_call * f_seen)) : notes := fold_left take_note history first_notes.

(** ** What a call asks for, in order *)
Inductive ask :=
| Must (b : bool)     (* panics if not *)
| Should (b : bool)   (* fails if not *)
| Secret (hash : Z).  (* reads 24 random bytes and encrypts with a key made by this hash function *)
Inductive verdict := Fine (random_left : nat) | Fails | Panics.
Definition known_hash (id : Z) : bool := (id =? 8) || (id =? 9) || (id =? 10).
(** with this many random bytes to read *)
Fixpoint judge (l : list ask) (random : nat) : verdict :=
  match l with
  | [] => Fine random
  | Must b :: l => if b then judge l random else Panics
  | Should b :: l => if b then judge l random else Fails
  | Secret hash :: l =>
      if Nat.ltb random 24 then Fails
      else if negb (known_hash hash) then Panics
      else if negb (hash =? 8) then Fails  (* the keys of SHA-384 and SHA-512 are too long for AES *)
      else judge l (random - 24)
  end.

Definition any_key (d : note) : bool := match d with D_master _ _ | D_subkey _ | D_curve _ => true | _ => false end.
Definition made_key (d : note) : bool := match d with D_master b _ | D_subkey b | D_curve b => b | _ => false end.
Definition made_master (d : note) : bool := match d with D_master b _ => b | _ => false end.
Definition signing_master (d : note) : bool := match d with D_master _ b => b | _ => false end.
Definition is_user (d : note) : bool := match d with D_user => true | _ => false end.
Definition is_sub (d : note) : bool := match d with D_sub => true | _ => false end.
Definition is_curve (d : note) : bool := match d with D_curve _ => true | _ => false end.
Definition is_keys (d : note) : bool := match d with D_keys _ => true | _ => false end.
Definition is_sig (d : note) : bool := match d with D_sig _ _ => true | _ => false end.

Definition secret_asks (n : notes) (password : bytes) : list ask := match password with [] => [] | _ => [Secret (n_hash n)] end.
(** a subkey that is there: its packet and then its binding signature by the master key *)
Definition subkey_asks (n : notes) (master : note) (password : bytes) (made : bool) : list ask :=
  [Must made] ++ secret_asks n password ++ [Must (signing_master master)].
Definition subkeys_asks (n : notes) (s : f_set) (password : bytes) : list ask :=
  let at_ p := nth p (n_objects n) D_nil in
  let m := at_ (fs_master s) in
  (match at_ (fs_enc s) with D_curve made => subkey_asks n m password made | _ => [] end) ++
  (match at_ (fs_auth s) with D_subkey made => subkey_asks n m password made | _ => [] end) ++
  (match at_ (fs_sign s) with D_subkey made => subkey_asks n m password made | _ => [] end).
Definition asks (n : notes) (c : f_call) : list ask :=
  let at_ p := nth p (n_objects n) D_nil in
  match c with
  | F_new_master s _ _ | F_new_subkey s _ _ => [Should (Nat.eqb (length s) 32)]
  | F_new_encryption s _ _ kdf => [Should (Nat.eqb (length s) 32); Must (n_kdf n || match kdf with Some _ => true | None => false end)]
  | F_lit_master _ _ _ _ | F_lit_subkey _ _ _ _ | F_lit_encryption _ _ _ _ _ | F_lit_user _ | F_lit_keys _ | F_lit_sub _ | F_lit_sig _ _ _ _ _ _ _ => []
  | F_set_private k _ | F_set_public k _ | F_set_creation k _ | F_set_expiry k _ => [Must (any_key (at_ k))]
  | F_set_kdf k _ => [Must (is_curve (at_ k))]
  | F_set_user u _ => [Must (is_user (at_ u))]
  | F_set_keys s _ => [Must (is_keys (at_ s))]
  | F_set_sub s _ => [Must (is_sub (at_ s))]
  | F_set_sig s _ _ _ _ _ _ _ => [Must (is_sig (at_ s))]
  | F_set_default_kdf _ | F_set_default_hash _ => []
  | F_fingerprint k | F_public_packet k => [Must (made_key (at_ k))]
  | F_private_packet k pw _ => [Must (made_key (at_ k))] ++ secret_asks n pw
  | F_dummy_packet k => [Must (made_master (at_ k))]
  | F_self_certify k u => [Must (made_master (at_ k)); Must (is_user (at_ u)); Must (signing_master (at_ k))]
  | F_bind_nil _ _ _ => [Must false]
  | F_sign _ None => [Must false]
  | F_sign private (Some (fp, hash, _, _, hs, _, _)) =>
      [Must (Nat.leb 8 (length fp)); Must (known_hash hash); Must (forallb (fun p => is_sub (at_ p)) hs); Must (Nat.eqb (length private) 64)]
  | F_sig_encode s | F_sig_packet s =>
      match at_ s with
      | D_sig uses complete => [Must (forallb (fun p => is_sub (at_ p)) uses); Must complete]
      | _ => [Must false]
      end
  | F_sub_encode s => [Must (is_sub (at_ s))]
  | F_uid u | F_uid_packet u => [Must (is_user (at_ u))]
  | F_packets s pw _ =>
      match at_ s with
      | D_keys ks =>
          [Must (made_master (at_ (fs_master ks)))] ++ secret_asks n pw ++
          [Must (is_user (at_ (fs_uid ks))); Must (signing_master (at_ (fs_master ks)))] ++ subkeys_asks n ks pw
      | _ => [Must false]
      end
  | F_subkey_packets s pw with_cert _ =>
      match at_ s with
      | D_keys ks =>
          [Must (made_master (at_ (fs_master ks))); Must (is_user (at_ (fs_uid ks)))] ++
          (if with_cert then [Must (signing_master (at_ (fs_master ks)))] else []) ++ subkeys_asks n ks pw
      | _ => [Must false]
      end
  | F_packet _ _ => []
  | F_mpi v => [Must (match v with Some _ => true | None => false end)]
  | F_s2k hash _ _ _ => [Secret hash]
  | F_kdf_encode p => [Must (match p with Some _ => true | None => false end)]
  end.
(** the random bytes that a call can read *)
Definition random_of (c : f_call) : nat :=
  match c with
  | F_private_packet _ _ t | F_packets _ _ t | F_subkey_packets _ _ _ t | F_s2k _ _ _ t => length t
  | _ => O
  end.
Definition judged (n : notes) (c : f_call) : verdict := judge (asks n c) (random_of c).

(** ** Fields that nothing reads *)
Definition makes_subkey (c : f_call) : Prop :=
  match c with F_new_subkey _ _ _ | F_lit_subkey _ _ _ _ | F_new_encryption _ _ _ _ | F_lit_encryption _ _ _ _ _ => True | _ => False end.
(** c and c' of a program: the same call, or the same field assigned, one that the package does not read: Public and KDF of
    every key; Private and Creation of subkeys *)
Definition same_but_unread (calls : list f_call) (c c' : f_call) : Prop :=
  c = c' \/
  match c, c' with
  | F_set_public k _, F_set_public k' _ => k = k'
  | F_set_kdf k _, F_set_kdf k' _ => k = k'
  | F_set_private k _, F_set_private k' _ | F_set_creation k _, F_set_creation k' _ => k = k' /\ makes_subkey (nth k calls (F_packet 0 []))
  | _, _ => False
  end.

(** ** What the fields of an object hold, told by the calls *)
Inductive kind_of_key := Master_key | Ed_subkey | Curve_subkey.
Inductive held :=
| Held_key (kind : kind_of_key) (private : bytes) (creation expiry : Z)
| Held_user (u : user_id)
| Held_keys (s : f_set)
| Held_else.
(** after the call that makes the object *)
Definition held_first (E : Env) (c : f_call) : held :=
  match c with
  | F_new_master s cr ex => if Nat.eqb (length s) 32 then Held_key Master_key (s ++ ed25519_public E s) cr ex else Held_else
  | F_new_subkey s cr ex => if Nat.eqb (length s) 32 then Held_key Ed_subkey (s ++ ed25519_public E s) cr ex else Held_else
  | F_new_encryption s cr ex kdf => if Nat.eqb (length s) 32 then Held_key Curve_subkey (clamp s) cr ex else Held_else
  | F_lit_master p _ cr ex => Held_key Master_key p cr ex
  | F_lit_subkey p _ cr ex => Held_key Ed_subkey p cr ex
  | F_lit_encryption p _ cr ex _ => Held_key Curve_subkey p cr ex
  | F_lit_user u => Held_user u
  | F_lit_keys s => Held_keys s
  | _ => Held_else
  end.
(** and after one more call *)
Definition held_next (k : nat) (v : held) (c : f_call) : held :=
  match c, v with
  | F_set_private k' b, Held_key kind _ cr ex => if Nat.eqb k' k then Held_key kind b cr ex else v
  | F_set_creation k' t, Held_key kind p _ ex => if Nat.eqb k' k then Held_key kind p t ex else v
  | F_set_expiry k' t, Held_key kind p cr _ => if Nat.eqb k' k then Held_key kind p cr t else v
  | F_set_user k' u, Held_user _ => if Nat.eqb k' k then Held_user u else v
  | F_set_keys k' s, Held_keys _ => if Nat.eqb k' k then Held_keys s else v
  | _, _ => v
  end.
(** the object that call number k made, after all calls *)
Definition held_after (E : Env) (calls : list f_call) (k : nat) : held :=
  match skipn k calls with
  | [] => Held_else
  | c :: rest => fold_left (held_next k) rest (held_first E c)
  end.
