(** What a program sees of subpackets and signatures, told by what was last written to things with names (C104). *)
From Verif.Model Require Import GoBase Env GoTime PgpWire PgpKeys SubHeap.

(** What call number j made; of Sign this is the signature.  Every Sign makes three subpackets and two lists of its own. *)
Inductive name := Made (j : nat) | Own_sub (j i : nat) | Own_list (j : nat) (hashed : bool).
Definition name_dec : forall a b : name, {a = b} + {a <> b}.
Proof. decide equality; apply Nat.eq_dec || apply Bool.bool_dec. Defined.
(** a signature as Sign made it: digest, R and S never change; the two lists can be assigned *)
Inductive thing :=
| Sub (v : subpacket)
| List (l : list (option name))
| Sig (hashed unhashed : option name) (made : signature).
(** all that was written, the last first *)
Definition log := list (name * thing).
Fixpoint now (w : log) (n : name) : option thing :=
  match w with
  | [] => None
  | (n', t) :: w => if name_dec n n' then Some t else now w n
  end.
Definition now_at (w : log) (x : option name) : option thing := match x with Some n => now w n | None => None end.
Definition list_now (w : log) (x : option name) : list (option name) := match now_at w x with Some (List l) => l | _ => [] end.
(** the subpackets of a list, if none is nil *)
Fixpoint subs_now (w : log) (l : list (option name)) : option (list subpacket) :=
  match l with
  | [] => Some []
  | x :: l =>
      match now_at w x, subs_now w l with
      | Some (Sub v), Some l => Some (v :: l)
      | _, _ => None
      end
  end.
Record tale := mk_tale { t_log : log; t_vals : list (option name) }.
Definition known (id : Z) : bool := (id =? 8) || (id =? 9) || (id =? 10).
(** what the next call shows, and the tale after it; None is a panic *)
Definition told (E : Env) (t : tale) (c : p_call) : option (p_seen * tale) :=
  let w := t_log t in
  let j := length (t_vals t) in
  let value x := nth x (t_vals t) None in
  let gives (w : log) (v : option name) := mk_tale w (t_vals t ++ [v]) in
  match c with
  | P_sub v => Some (P_done, gives ((Made j, Sub v) :: w) (Some (Made j)))
  | P_list l => Some (P_done, gives ((Made j, List (map value l)) :: w) (Some (Made j)))
  | P_sign private fp hash data type hs us time =>
      match subs_now w (list_now w (value hs)) with
      | Some hashed =>
          if Nat.leb 8 (length fp) && known hash && Nat.eqb (length private) 64 then
            match sign E private (mk_req fp hash data type hashed [] time) with
            | Ok g =>
                Some (P_done, gives
                  ((Made j, Sig (Some (Own_list j true)) (Some (Own_list j false)) g) ::
                   (Own_list j false, List (Some (Own_sub j 2) :: list_now w (value us))) ::
                   (Own_sub j 2, Sub (mk_sub 16 (skipn (length fp - 8) fp))) ::
                   (Own_list j true, List (Some (Own_sub j 0) :: Some (Own_sub j 1) :: list_now w (value hs))) ::
                   (Own_sub j 1, Sub (mk_sub 2 (be_bytes 4 (u32 (t_unix time))))) ::
                   (Own_sub j 0, Sub (mk_sub 33 (4 :: fp))) :: w)
                  (Some (Made j)))
            | _ => None
            end
          else None
      | None => None
      end
  | P_part s hashed =>
      match now_at w (value s) with
      | Some (Sig a b _) => Some (P_done, gives w (if hashed then a else b))
      | _ => None
      end
  | P_item l i =>
      match nth_error (list_now w (value l)) i with
      | Some x => Some (P_done, gives w x)
      | None => None
      end
  | P_set x v =>
      match value x, now_at w (value x) with
      | Some n, Some (Sub _) => Some (P_done, gives ((n, Sub v) :: w) None)
      | _, _ => None
      end
  | P_put l i x =>
      match value l, now_at w (value l) with
      | Some n, Some (List its) => if Nat.ltb i (length its) then Some (P_done, gives ((n, List (put its i (value x))) :: w) None) else None
      | _, _ => None
      end
  | P_assign s hashed l =>
      match value s, now_at w (value s) with
      | Some n, Some (Sig a b g) => Some (P_done, gives ((n, if hashed then Sig (value l) b g else Sig a (value l) g) :: w) None)
      | _, _ => None
      end
  | P_encode s =>
      match now_at w (value s) with
      | Some (Sig a b g) =>
          match subs_now w (list_now w a), subs_now w (list_now w b) with
          | Some hashed, Some unhashed =>
              Some (P_bytes (sig_encode (mk_sig hashed unhashed (sg_type g) (sg_hash g) (sg_digest g) (sg_r g) (sg_s g))), gives w None)
          | _, _ => None
          end
      | _ => None
      end
  end.
Fixpoint tell (E : Env) (t : tale) (calls : list p_call) : list p_seen :=
  match calls with
  | [] => []
  | c :: rest =>
      match told E t c with
      | Some (o, t) => o :: tell E t rest
      | None => [P_panicked]
      end
  end.
Definition no_tale : tale := mk_tale [] [].
(** the tale after calls that do not panic *)
Fixpoint after (E : Env) (t : tale) (calls : list p_call) : option tale :=
  match calls with
  | [] => Some t
  | c :: rest => match told E t c with Some (_, t) => after E t rest | None => None end
  end.

(** A program that goes on from a tale leaves signature j alone: nothing is taken out of it or assigned to it, and no subpacket
    behind the pointers given to Sign is changed. *)
Fixpoint spares (E : Env) (j : nat) (given : list (option name)) (t : tale) (calls : list p_call) : Prop :=
  match calls with
  | [] => True
  | c :: rest =>
      match c with
      | P_part s _ | P_assign s _ _ => nth s (t_vals t) None <> Some (Made j)
      | P_set x _ => ~ In (nth x (t_vals t) None) given
      | _ => True
      end /\
      match told E t c with Some (_, t) => spares E j given t rest | None => True end
  end.
(** the subpackets of signature j now: hashed, unhashed, and the signature as Sign made it *)
Definition signature_now (t : tale) (j : nat) : option (list subpacket * list subpacket * signature) :=
  match now (t_log t) (Made j) with
  | Some (Sig a b g) =>
      match subs_now (t_log t) (list_now (t_log t) a), subs_now (t_log t) (list_now (t_log t) b) with
      | Some hashed, Some unhashed => Some (hashed, unhashed, g)
      | _, _ => None
      end
  | _ => None
  end.
