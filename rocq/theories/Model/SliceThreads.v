(** Goroutines that use /repo/pgp at the same time (C97).  The functions are those of SliceHeap.v, which are sequences of
    accesses to memory; here the accesses of several goroutines come in any order.

    The package starts no goroutines, has no locks and keeps no state but the variables of SliceHeap.v.  crypto/rand may
    be used by several goroutines; what it delivers to a call comes with the call.  A goroutine makes its calls one after
    the other, on objects that were there when it was started and on those it made itself; goroutines do not hand
    objects to each other.  One step reads or writes all of a slice; the accesses are recorded, so that it can be said
    that no other goroutine was in the way.  A panic in one goroutine ends the process. *)
From Verif.Model Require Import GoBase Env GoTime Seed Encoding PgpWire PgpS2k PgpKeys SliceHeap.

(** the objects a goroutine can name, and what crypto/rand delivers during a call *)
Record t_objects := mk_objs { to_slices : list slice; to_keys : list h_ed; to_curves : list h_curve; to_sigs : list h_sig }.
Definition objects_of (st : p_state) : t_objects := mk_objs (pst_slices st) (pst_keys st) (pst_curves st) (pst_sigs st).
Definition with_objects (m : arrays) (o : t_objects) : p_state := mk_pst m (to_slices o) (to_keys o) (to_curves o) (to_sigs o).
Definition tape_of (c : p_call) : bytes :=
  match c with
  | P_private_packet _ _ t | P_private_subkey _ _ t | P_curve_private_subkey _ _ t
  | P_packets _ _ _ _ _ _ t | P_subkey_packets _ _ _ _ _ _ _ t | P_s2k _ _ _ t => t
  | _ => []
  end.

Section Code.
Variable E : Env.
Variable G : nat -> nat -> nat.

Definition t_result : Type := (p_seen * t_objects)%type.
Definition t_quiet (o : t_objects) (f : sm unit) : sm t_result := sdo _ <- f; s_ret (Q_nothing, o).
Definition t_show (o : t_objects) (f : sm bytes) : sm t_result := sdo b <- f; s_ret (Q_bytes b, o).
Definition t_slice (o : t_objects) (f : sm slice) : sm t_result :=
  sdo s <- f; sdo b <- s_read s; s_ret (Q_bytes b, mk_objs (to_slices o ++ [s]) (to_keys o) (to_curves o) (to_sigs o)).
Definition t_key (o : t_objects) (f : sm h_ed) : sm t_result :=
  sdo k <- f; s_ret (Q_nothing, mk_objs (to_slices o) (to_keys o ++ [k]) (to_curves o) (to_sigs o)).
Definition t_curve (o : t_objects) (f : sm h_curve) : sm t_result :=
  sdo c <- f; s_ret (Q_nothing, mk_objs (to_slices o) (to_keys o) (to_curves o ++ [c]) (to_sigs o)).
Definition t_sig (o : t_objects) (f : sm h_sig) : sm t_result :=
  sdo s <- f; s_ret (Q_nothing, mk_objs (to_slices o) (to_keys o) (to_curves o) (to_sigs o ++ [s])).
Definition t_with {A} (l : list A) (n : nat) (o : t_objects) (f : A -> sm t_result) : sm t_result :=
  match nth_error l n with Some a => f a | None => s_ret (Q_nothing, o) end.
Definition t_maybe {A} (l : list A) (n : option nat) (o : t_objects) (f : option A -> sm t_result) : sm t_result :=
  match n with None => f None | Some n => t_with l n o (fun a => f (Some a)) end.
Fixpoint t_all {A} (l : list A) (ns : list (Z * nat)) (o : t_objects) (f : list (Z * A) -> sm t_result) : sm t_result :=
  match ns with
  | [] => f []
  | (t, n) :: ns => t_with l n o (fun a => t_all l ns o (fun r => f ((t, a) :: r)))
  end.
(** the accesses of a call, as [p_step] of SliceHeap.v makes them in one go *)
Definition t_code (c : p_call) (o : t_objects) : sm t_result :=
  let xs := to_slices o in
  let ks := to_keys o in
  let cs := to_curves o in
  let sgs := to_sigs o in
  match c with
  | P_make b => t_slice o (s_lit b)
  | P_set x i v => t_with xs x o (fun s => t_quiet o (s_set s i v))
  | P_read x => t_with xs x o (fun s => t_show o (s_read s))
  | P_new_key x cr ex => t_with xs x o (fun s => t_key o (h_new_ed_key E s cr ex))
  | P_new_curve x cr ex kdf => t_with xs x o (fun s => t_curve o (h_new_curve_key E G s cr ex kdf))
  | P_private k => t_with ks k o (fun k => t_show o (s_read (hd_private k)))
  | P_public k => t_with ks k o (fun k => t_show o (s_read (he_public (hd_base k))))
  | P_set_private k i v => t_with ks k o (fun k => t_quiet o (s_set (hd_private k) i v))
  | P_set_public k i v => t_with ks k o (fun k => t_quiet o (s_set (he_public (hd_base k)) i v))
  | P_curve_private c => t_with cs c o (fun c => t_show o (s_read (hc_private c)))
  | P_set_curve_private c i v => t_with cs c o (fun c => t_quiet o (s_set (hc_private c) i v))
  | P_fingerprint k => t_with ks k o (fun k => t_slice o (h_fingerprint_v4 E G (hd_base k)))
  | P_curve_fingerprint c => t_with cs c o (fun c => t_slice o (h_fingerprint_v4 E G (hc_base c)))
  | P_public_packet k => t_with ks k o (fun k => t_slice o (h_public_packet G tag_public_key (hd_base k)))
  | P_public_subkey k => t_with ks k o (fun k => t_slice o (h_public_packet G tag_public_subkey (hd_base k)))
  | P_curve_public_subkey c => t_with cs c o (fun c => t_slice o (h_public_packet G tag_public_subkey (hc_base c)))
  | P_private_packet k pw _ =>
      t_with ks k o (fun k => t_with xs pw o (fun pw => t_slice o (h_private_packet E G tag_secret_key (hd_base k) pw)))
  | P_private_subkey k pw _ =>
      t_with ks k o (fun k => t_with xs pw o (fun pw => t_slice o (h_private_packet E G tag_secret_subkey (hd_base k) pw)))
  | P_curve_private_subkey c pw _ =>
      t_with cs c o (fun c => t_with xs pw o (fun pw => t_slice o (h_private_packet E G tag_secret_subkey (hc_base c) pw)))
  | P_dummy_packet k => t_with ks k o (fun k => t_slice o (h_dummy_packet G (hd_base k)))
  | P_self_certify k u => t_with ks k o (fun k => t_sig o (h_self_certify E G k u))
  | P_sign b fp hash data type hs us t =>
      t_with xs fp o (fun fp => t_with xs data o (fun data => t_all xs hs o (fun hs => t_all xs us o (fun us =>
        let rq := mk_hreq fp hash data type (h_subs hs) (h_subs us) t in
        match b with
        | By_key k => t_with ks k o (fun k => t_sig o (h_sign E G (hd_private k) rq))
        | By_slice x => t_with xs x o (fun x => t_sig o (h_sign E G x rq))
        end))))
  | P_sig_encode s => t_with sgs s o (fun s => t_slice o (h_sig_encode G s))
  | P_sig_packet s => t_with sgs s o (fun s => t_slice o (h_sig_packet G s))
  | P_sig_digest s => t_with sgs s o (fun s => t_show o (s_read (hg_digest s)))
  | P_packets u m enc auth sign pw _ =>
      t_with ks m o (fun m => t_maybe cs enc o (fun enc => t_maybe ks auth o (fun auth => t_maybe ks sign o (fun sign =>
        t_with xs pw o (fun pw => t_slice o (h_encode_packets E G (mk_hset u m enc auth sign) pw))))))
  | P_subkey_packets u m enc auth sign pw cert _ =>
      t_with ks m o (fun m => t_maybe cs enc o (fun enc => t_maybe ks auth o (fun auth => t_maybe ks sign o (fun sign =>
        t_with xs pw o (fun pw => t_slice o (h_encode_subkey_packets E G (mk_hset u m enc auth sign) pw cert))))))
  | P_packet tag x => t_with xs x o (fun x => t_slice o (h_encode_packet tag x))
  | P_mpi n => t_slice o (h_encode_mpi n)
  | P_s2k hash x pw _ => t_with xs x o (fun x => t_with xs pw o (fun pw => t_slice o (h_encrypt_s2k E G hash x pw)))
  | P_uid u => t_slice o (h_uid_encode G u)
  | P_uid_packet u => t_slice o (h_uid_packet G u)
  | P_sub t x => t_with xs x o (fun x => t_slice o (h_sub_encode G (mk_hsub t x)))
  end.

(** A goroutine: the objects it has, the call it is in with what crypto/rand has left for it, the calls to come, and what
    it has seen. *)
Record goroutine := mk_go {
  go_objects : t_objects; go_now : option (sm t_result * bytes); go_calls : list p_call; go_seen : list p_seen
}.
(** goroutine number [ac_by] has read, or written, the array number [ac_array] *)
Record access := mk_access { ac_by : nat; ac_array : nat; ac_writes : bool }.
Record process := mk_proc { pr_mem : arrays; pr_gos : list goroutine; pr_log : list access; pr_dead : bool }.

(** one step of goroutine number [i] *)
Definition go_step (i : nat) (m : arrays) (g : goroutine) : arrays * goroutine * list access * bool :=
  let objs := go_objects g in
  let calls := go_calls g in
  let seen := go_seen g in
  match go_now g with
  | None =>
      match calls with
      | [] => (m, g, [], false)
      | c :: rest => (m, mk_go objs (Some (t_code c objs, tape_of c)) rest seen, [], false)
      end
  | Some (f, tape) =>
      match f with
      | S_done (Ok (o, objs)) => (m, mk_go objs None calls (seen ++ [o]), [], false)
      | S_done (Err e) => (m, mk_go objs None calls (seen ++ [Q_failed e]), [], false)
      | S_done Panic => (m, mk_go objs None [] (seen ++ [Q_panicked]), [], true)
      | S_read s k => (m, mk_go objs (Some (k (content m s), tape)) calls seen, [mk_access i (sl_at s) false], false)
      | S_new b room k =>
          (snd (m_new m b room), mk_go objs (Some (k (fst (m_new m b room)), tape)) calls seen, [mk_access i (length m) true], false)
      | S_put s n b k => (m_put m s n b, mk_go objs (Some (k, tape)) calls seen, [mk_access i (sl_at s) true], false)
      | S_take n k => (m, mk_go objs (Some (k (fst (m_take tape n)), snd (m_take tape n))) calls seen, [], false)
      end
  end.
Definition pr_step (p : process) (i : nat) : process :=
  if pr_dead p then p
  else
    match nth_error (pr_gos p) i with
    | None => p
    | Some g =>
        let '(m, g', log, dead) := go_step i (pr_mem p) g in
        mk_proc m (firstn i (pr_gos p) ++ g' :: skipn (S i) (pr_gos p)) (pr_log p ++ log) dead
    end.
(** a schedule says whose turn it is *)
Definition pr_run (p : process) (schedule : list nat) : process := fold_left pr_step schedule p.
(** a goroutine for each list of calls, started when memory and objects are as in [st] *)
Definition pr_start (st : p_state) (programs : list (list p_call)) : process :=
  mk_proc (pst_mem st) (map (fun calls => mk_go (objects_of st) None calls []) programs) [] false.
Definition go_finished (g : goroutine) : bool :=
  match go_now g, go_calls g with None, [] => true | _, _ => false end.
End Code.
