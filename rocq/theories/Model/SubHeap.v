(** Subpackets, slices of pointers to them and signatures of the package pgp in memory (C104).  The fields HashedSubpackets
    and UnhashedSubpackets of a signature are exported, so a program can take the subpackets of a signature out of it, also
    those that Sign made itself, and change them, the slices and the fields.
    Simplifications: the bodies of subpackets are values (SliceHeap.v has the sharing of bytes); slices of pointers are whole
    arrays (the program does not cut them and does not append); a pointer of another type than is wanted counts as nil (such
    programs do not compile). *)
From Verif.Model Require Import GoBase Env GoTime PgpWire PgpS2k PgpKeys ZeroValues.

(** signature.go:36-43.  A slice is the number of its array; None is the nil slice.  A signature is only made by Sign, so R and
    S are there. *)
Record p_sig := mk_psig {
  pg_hashed : option nat; pg_unhashed : option nat; pg_type : Z; pg_hash : Z; pg_digest : bytes; pg_r : Z; pg_s : Z
}.
Inductive cell := C_sub (s : subpacket) | C_list (l : list (option nat)) | C_sig (s : p_sig).
Definition alloc (c : cell) (m : list cell) : nat * list cell := (length m, m ++ [c]).
Definition cell_at (m : list cell) (p : option nat) : option cell := match p with Some i => nth_error m i | None => None end.
Definition items (m : list cell) (a : option nat) : list (option nat) := match cell_at m a with Some (C_list l) => l | _ => [] end.
Definition update (m : list cell) (i : nat) (c : cell) : list cell := firstn i m ++ c :: skipn (S i) m.
Fixpoint put {A} (l : list A) (i : nat) (x : A) : list A :=
  match l, i with
  | [], _ => []
  | _ :: l, O => x :: l
  | y :: l, S i => y :: put l i x
  end.

(** signature.go:26-33: following a nil pointer panics *)
Fixpoint read_subs (m : list cell) (l : list (option nat)) : res (list subpacket) :=
  match l with
  | [] => Ok []
  | p :: l =>
      match cell_at m p with
      | Some (C_sub s) => let* l := read_subs m l in Ok (s :: l)
      | _ => Panic
      end
  end.
(** lines 71-88; SigHash[:2] of fewer than two bytes panics *)
Definition p_encode (m : list cell) (s : p_sig) : res bytes :=
  let* hashed := read_subs m (items m (pg_hashed s)) in
  let* unhashed := read_subs m (items m (pg_unhashed s)) in
  if Nat.ltb (length (pg_digest s)) 2 then Panic
  else Ok (sig_preimage (pg_type s) (pg_hash s) hashed ++ encode_subpackets unhashed ++ firstn 2 (pg_digest s) ++
           encode_mpi (pg_r s) ++ encode_mpi (pg_s s)).
(** append(a, l...) for a slice that fills its array: without elements to append it is a itself, otherwise a new array *)
Definition p_append (a : nat) (l : list (option nat)) (m : list cell) : nat * list cell :=
  match l with
  | [] => (a, m)
  | _ => alloc (C_list (items m (Some a) ++ l)) m
  end.
(** sign.go:39-84.  The signature is put into memory at the end rather than at line 64, where nobody else can see it yet.
    ed25519.Sign panics if the private key does not have 64 bytes; New of an unknown hash function gives a nil interface. *)
Definition p_sign (E : Env) (private fp : bytes) (hash : Z) (data : bytes) (type : Z) (hs us : option nat) (t : Z) (m : list cell)
  : res (nat * list cell) :=
  let stamp := be_bytes 4 (u32 (t_unix t)) in
  let (p0, m) := alloc (C_sub (mk_sub sub_issuer_fingerprint (key_packet_version :: fp))) m in
  let (p1, m) := alloc (C_sub (mk_sub sub_creation_time stamp)) m in
  let (a, m) := alloc (C_list [Some p0; Some p1]) m in
  let (a, m) := p_append a (items m hs) m in
  if Nat.ltb (length fp) 8 then Panic
  else
    let (p2, m) := alloc (C_sub (mk_sub sub_issuer (skipn (length fp - 8) fp))) m in
    let (b, m) := alloc (C_list [Some p2]) m in
    let (b, m) := p_append b (items m us) m in
    let* h := deref (hash_new E hash) in
    let* subs := read_subs m (items m (Some a)) in
    let pre := sig_preimage type hash subs in
    let digest := h (data ++ pre ++ signature_trailer ++ be_bytes 4 (u32 (zlen pre))) in
    if negb (Nat.eqb (length private) 64) then Panic
    else
      let sg := ed25519_sign E private digest in
      Ok (alloc (C_sig (mk_psig (Some a) (Some b) type hash digest (be_uint (firstn 32 sg)) (be_uint (skipn 32 sg)))) m).

(** ** Programs.  Every call gives a pointer, nil if it has none to give; later calls name it by the number of the call. *)
Inductive p_call :=
| P_sub (v : subpacket)                                (* &Subpacket{...} *)
| P_list (l : list nat)                                (* []*Subpacket{x, y} *)
| P_sign (private fp : bytes) (hash : Z) (data : bytes) (type : Z) (hashed unhashed : nat) (t : Z)
| P_part (s : nat) (hashed : bool)                     (* s.HashedSubpackets, s.UnhashedSubpackets *)
| P_item (l i : nat)                                   (* l[i] *)
| P_set (x : nat) (v : subpacket)                      (* *x = v: one or both fields *)
| P_put (l i x : nat)                                  (* l[i] = x *)
| P_assign (s : nat) (hashed : bool) (l : nat)         (* s.HashedSubpackets = l *)
| P_encode (s : nat).                                  (* s.Encode() *)
Inductive p_seen := P_done | P_bytes (b : bytes) | P_panicked.
Record p_state := mk_pst { p_mem : list cell; p_vals : list (option nat) }.

Section Run.
Variable E : Env.
Definition p_step (st : p_state) (c : p_call) : p_seen * p_state :=
  let m := p_mem st in
  let value x := nth x (p_vals st) None in
  let gives (m : list cell) (v : option nat) := mk_pst m (p_vals st ++ [v]) in
  match c with
  | P_sub v => let (p, m) := alloc (C_sub v) m in (P_done, gives m (Some p))
  | P_list l => let (p, m) := alloc (C_list (map value l)) m in (P_done, gives m (Some p))
  | P_sign private fp hash data type hs us t =>
      match p_sign E private fp hash data type (value hs) (value us) t m with
      | Ok (p, m) => (P_done, gives m (Some p))
      | _ => (P_panicked, st)
      end
  | P_part s hashed =>
      match cell_at m (value s) with
      | Some (C_sig g) => (P_done, gives m (if hashed then pg_hashed g else pg_unhashed g))
      | _ => (P_panicked, st)
      end
  | P_item l i =>
      match nth_error (items m (value l)) i with
      | Some p => (P_done, gives m p)
      | None => (P_panicked, st)
      end
  | P_set x v =>
      match value x, cell_at m (value x) with
      | Some i, Some (C_sub _) => (P_done, gives (update m i (C_sub v)) None)
      | _, _ => (P_panicked, st)
      end
  | P_put l i x =>
      match value l, cell_at m (value l) with
      | Some a, Some (C_list its) =>
          if Nat.ltb i (length its) then (P_done, gives (update m a (C_list (put its i (value x)))) None) else (P_panicked, st)
      | _, _ => (P_panicked, st)
      end
  | P_assign s hashed l =>
      match value s, cell_at m (value s) with
      | Some i, Some (C_sig g) =>
          let g := if hashed then mk_psig (value l) (pg_unhashed g) (pg_type g) (pg_hash g) (pg_digest g) (pg_r g) (pg_s g)
                   else mk_psig (pg_hashed g) (value l) (pg_type g) (pg_hash g) (pg_digest g) (pg_r g) (pg_s g) in
          (P_done, gives (update m i (C_sig g)) None)
      | _, _ => (P_panicked, st)
      end
  | P_encode s =>
      match cell_at m (value s) with
      | Some (C_sig g) => match p_encode m g with Ok b => (P_bytes b, gives m None) | _ => (P_panicked, st) end
      | _ => (P_panicked, st)
      end
  end.
(** A panic ends the program. *)
Fixpoint p_run (st : p_state) (calls : list p_call) : list p_seen :=
  match calls with
  | [] => []
  | c :: rest =>
      let (o, st) := p_step st c in
      match o with
      | P_panicked => [P_panicked]
      | _ => o :: p_run st rest
      end
  end.
End Run.
Definition p_init : p_state := mk_pst [] [].
