(** Goroutines that use the root package and /repo/mnemonic at the same time (C101).  The functions are those of
    BigHeap.v, which are sequences of accesses to integers; here the accesses of several goroutines come in any order.

    These packages start no goroutines, have no locks and keep no state but the two integers of BigHeap.v; the word list is
    only read (recovery.go:258, mnemonic/encode.go:56, mnemonic/decode.go:41).  The random bytes a call gets come with the call.
    A goroutine makes its calls one after the other, on objects that were there when it was started and on those it made
    itself; goroutines do not hand objects to each other.  One step reads or writes all of an integer; the accesses are
    recorded.  Fields of seeds, decoded phrases and keys other than integers are never written after the object was made;
    they are part of the objects here.  A panic in one goroutine ends the process.  Exported variables are not assigned
    to (Variables.v). *)
From Verif.Model Require Import GoBase Env Version Seed Encoding Recovery MnemonicPkg PgpKeys Mnemonikey BigHeap SliceThreads.

(** the objects a goroutine can name *)
Record b_objects := mk_bobjs { bo_ints : list ptr; bo_seeds : list h_seed; bo_phrases : list h_decoded; bo_keys : list h_key }.
Definition b_objects_of (st : h_state) : b_objects := mk_bobjs (hst_ints st) (hst_seeds st) (hst_phrases st) (hst_keys st).
Definition b_with_objects (h : heap) (o : b_objects) : h_state := mk_hst h (bo_ints o) (bo_seeds o) (bo_phrases o) (bo_keys o).

Section Code.
Variable E : Env.

Definition b_result : Type := (seen * b_objects)%type.
Definition b_show {A} (o : b_objects) (f : mem A) (g : A -> seen) : mem b_result := mdo a <- f; m_ret (g a, o).
Definition b_int (o : b_objects) (f : mem ptr) : mem b_result :=
  mdo p <- f; m_ret (Nothing, mk_bobjs (bo_ints o ++ [p]) (bo_seeds o) (bo_phrases o) (bo_keys o)).
Definition b_seed (o : b_objects) (f : mem h_seed) : mem b_result :=
  mdo s <- f; m_ret (Nothing, mk_bobjs (bo_ints o) (bo_seeds o ++ [s]) (bo_phrases o) (bo_keys o)).
Definition b_phrase (o : b_objects) (f : mem h_decoded) : mem b_result :=
  mdo d <- f; m_ret (Nothing, mk_bobjs (bo_ints o) (bo_seeds o) (bo_phrases o ++ [d]) (bo_keys o)).
Definition b_key (o : b_objects) (f : mem h_key) : mem b_result :=
  mdo k <- f; m_ret (Key (mnk_keys (hk_key k)) (mnk_creation (hk_key k)), mk_bobjs (bo_ints o) (bo_seeds o) (bo_phrases o) (bo_keys o ++ [k])).
Definition b_with {A} (l : list A) (n : nat) (o : b_objects) (f : A -> mem b_result) : mem b_result :=
  match nth_error l n with Some a => f a | None => m_ret (Nothing, o) end.
(** the accesses of a call, as [h_step] of BigHeap.v makes them in one go *)
Definition b_code (c : call) (o : b_objects) : mem b_result :=
  let xs := bo_ints o in
  let ss := bo_seeds o in
  let ds := bo_phrases o in
  let ks := bo_keys o in
  match c with
  | C_int v => b_int o (new_int v)
  | C_set x v => b_with xs x o (fun p => b_show o (store p v) (fun _ => Nothing))
  | C_read x => b_with xs x o (fun p => b_show o (load p) An_int)
  | C_to_indices x n => b_with xs x o (fun p => b_show o (h_encode_to_indices p n) Indices)
  | C_from_indices l => b_int o (h_decode_indices l)
  | C_new_seed era x => b_with xs x o (fun p => b_seed o (h_new_seed era p))
  | C_generate_seed src => b_seed o (mdo (s, _) <- h_generate_seed src; m_ret s)
  | C_seed_int s => b_with ss s o (fun s => b_int o (h_seed_int s))
  | C_seed_bytes s => b_with ss s o (fun s => b_show o (h_seed_bytes s) Bytes)
  | C_plaintext s t => b_with ss s o (fun s => b_show o (h_encode_plaintext E s t) Words)
  | C_encrypted s t pw src => b_with ss s o (fun s => b_show o (h_encode_encrypted E s t pw src) Words)
  | C_decode ws => b_phrase o (h_decode_mnemonic E ws)
  | C_dm_seed d => b_with ds d o (fun d => b_seed o (h_dm_seed d))
  | C_decrypt d pw => b_with ds d o (fun d => b_seed o (h_decrypt_seed E d pw))
  | C_new_key s t opts => b_with ss s o (fun s => b_key o (h_new_key E s t opts))
  | C_key_plaintext k => b_with ks k o (fun k => b_show o (h_key_plaintext E k) Words)
  | C_key_encrypted k pw src => b_with ks k o (fun k => b_show o (h_key_encrypted E k pw src) Words)
  end.

(** A goroutine: the objects it has, the call it is in, the calls to come, and what it has seen. *)
Record b_goroutine := mk_bgo { bg_objects : b_objects; bg_now : option (mem b_result); bg_calls : list call; bg_seen : list seen }.
(** in an [access] of SliceThreads.v the number is here that of an integer *)
Record b_process := mk_bproc { bp_mem : heap; bp_gos : list b_goroutine; bp_log : list access; bp_dead : bool }.

(** one step of goroutine number [i] *)
Definition bg_step (i : nat) (h : heap) (g : b_goroutine) : heap * b_goroutine * list access * bool :=
  let objs := bg_objects g in
  let calls := bg_calls g in
  let past := bg_seen g in
  let panics := (h, mk_bgo objs None [] (past ++ [Panicked]), [], true) in
  match bg_now g with
  | None =>
      match calls with
      | [] => (h, g, [], false)
      | c :: rest => (h, mk_bgo objs (Some (b_code c objs)) rest past, [], false)
      end
  | Some (M_done (Ok (o, objs))) => (h, mk_bgo objs None calls (past ++ [o]), [], false)
  | Some (M_done (Err e)) => (h, mk_bgo objs None calls (past ++ [Failed e]), [], false)
  | Some (M_done Panic) => panics
  | Some (M_load p k) =>
      match nth_error h p with Some v => (h, mk_bgo objs (Some (k v)) calls past, [mk_access i p false], false) | None => panics end
  | Some (M_store p v k) =>
      match nth_error h p with Some _ => (put h p v, mk_bgo objs (Some k) calls past, [mk_access i p true], false) | None => panics end
  | Some (M_new v k) => (h ++ [v], mk_bgo objs (Some (k (length h))) calls past, [mk_access i (length h) true], false)
  end.
Definition bp_step (p : b_process) (i : nat) : b_process :=
  if bp_dead p then p
  else
    match nth_error (bp_gos p) i with
    | None => p
    | Some g =>
        let '(h, g', log, dead) := bg_step i (bp_mem p) g in
        mk_bproc h (firstn i (bp_gos p) ++ g' :: skipn (S i) (bp_gos p)) (bp_log p ++ log) dead
    end.
(** a schedule says whose turn it is *)
Definition bp_run (p : b_process) (schedule : list nat) : b_process := fold_left bp_step schedule p.
(** a goroutine for each list of calls, started when memory and objects are as in [st] *)
Definition bp_start (st : h_state) (programs : list (list call)) : b_process :=
  mk_bproc (hst_heap st) (map (fun calls => mk_bgo (b_objects_of st) None calls []) programs) [] false.
Definition bg_finished (g : b_goroutine) : bool :=
  match bg_now g, bg_calls g with None, [] => true | _, _ => false end.
End Code.
