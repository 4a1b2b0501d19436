(** Sharing of big integers (C92): the package hands out and takes *big.Int, which are addresses.  Only NewSeed keeps
    one that its caller can still change. *)
From Coq Require Import Lia.
From Verif.Model Require Import GoBase GoTime BitBuffer Env Version Seed Encoding MnemonicPkg Recovery PgpWire PgpKeys Mnemonikey BigHeap.
From Verif.Spec Require Import ShareSpec.
From Verif.Proofs Require Import BitsP EnvInst ShareP.

(** ** C92 *)
(** A program that leaves alone the integers it has made seeds of sees what it would see if everything were a value:
    the package changes no integer but the argument of EncodeToIndices, keeps none but the argument of NewSeed, and
    hands out none that it uses itself. *)
Theorem sharing_invisible E calls : careful [] calls -> fst (h_run E calls h_init) = v_run E calls v_init.
Proof. intros C. apply (run_same E calls [] h_init v_init rel_init); [apply sep_init|exact C]. Qed.
Print Assumptions sharing_invisible.

(** an integer at this address is part of a seed, a decoded phrase or a key *)
Definition in_use (st : h_state) (p : ptr) : Prop :=
  (exists s, In s (hst_seeds st) /\ hs_value s = p) \/
  (exists d, In d (hst_phrases st) /\ (hd_entropy d = p \/ hd_salt d = Some p)) \/
  (exists k, In k (hst_keys st) /\ hs_value (hk_seed k) = p).
(** Whatever a program has called: if one of its integers is in use, it was given to NewSeed. *)
Theorem only_new_seed_shares E calls x p : let st := snd (h_run E calls h_init) in
  nth_error (hst_ints st) x = Some p -> in_use st p -> exists era, In (C_new_seed era x) calls.
Proof.
  intros st X U. destruct (run_rel E calls h_init v_init (fun _ => False) rel_init (sep_init _)) as [_ S].
  destruct (S x p X U) as [[]|(c & I & era & ->)]. exists era. exact I.
Qed.
Print Assumptions only_new_seed_shares.

(** Whatever a program has called and calls next: no integer that exists changes, except the argument of
    EncodeToIndices (or of the assignment); the two that the package keeps for itself never change; two integers of the
    program are never the same one. *)
Theorem memory_kept E calls c : let st := snd (h_run E calls h_init) in let h' := hst_heap (snd (h_step E c st)) in
  (forall q v, nth_error (hst_heap st) q = Some v -> (forall x, writes c = Some x -> nth_error (hst_ints st) x <> Some q) -> nth_error h' q = Some v) /\
  nth_error h' big_one = Some 1 /\ nth_error h' big_mask = Some 4095 /\ NoDup (hst_ints st) /\ ~ In big_one (hst_ints st) /\ ~ In big_mask (hst_ints st).
Proof.
  intros st h'. destruct (run_rel E calls h_init v_init (fun _ => False) rel_init (sep_init _)) as [(v & R) _]. fold st in R.
  split; [|split; [|split; [|split; [apply (rel_distinct _ _ R)|]]]].
  - intros q n Q N. unfold h'. destruct (writes c) as [x|] eqn:W.
    + destruct (nth_error (hst_ints st) x) as [p|] eqn:X.
      * destruct (write_step E c st v x p R W X) as (o & h1 & A & B & _). rewrite A. cbn [snd set_heap hst_heap]. apply (proj2 B); [|exact Q].
        intros ->. exact (N x eq_refl X).
      * destruct (write_nothing E c st v x R W X) as [A _]. rewrite A. exact Q.
    + destruct (step_good E c st v R W) as (o & st' & v' & A & _ & O & _). rewrite A. apply O. exact Q.
  - destruct (rel_step E c st v R) as (v' & R'). apply (rel_globals _ _ R').
  - destruct (rel_step E c st v R) as (v' & R'). exact (proj2 (rel_globals _ _ R')).
  - pose proof (rel_own _ _ R) as F. rewrite Forall_forall in F. split; intros I; apply F in I; unfold big_one, big_mask in I; inversion I; subst.
    match goal with H : (_ <= 0)%nat |- _ => inversion H end.
Qed.
Print Assumptions memory_kept.

(** Inside the package: a bit buffer with its integer at [p] does to that integer what the bit buffer of values does
    (C21), changes no other integer, and hands out new ones; making one copies. *)
Definition same_but (p : option ptr) (h h' : heap) : Prop := forall q v, p <> Some q -> nth_error h q = Some v -> nth_error h' q = Some v.
Theorem buffer_memory h p v nb x u n : nth_error h big_one = Some 1 -> nth_error h big_mask = Some 4095 -> p <> big_one -> p <> big_mask ->
  nth_error h p = Some v -> nth_error h x = Some u -> x <> p ->
  (forall b, new_bitbuf u n = Ok b -> exists q h', h_new_bitbuf x n h = (Ok (mk_hb q n), h') /\ nth_error h q = None /\ nth_error h' q = Some u /\ same_but None h h') /\
  (forall bits b, pop_trailing (mk_bb v nb) n = Ok (bits, b) -> exists q h', h_pop_trailing (mk_hb p nb) n h = (Ok (q, mk_hb p (bb_nbits b)), h') /\
     nth_error h' p = Some (bb_value b) /\ nth_error h q = None /\ nth_error h' q = Some bits /\ same_but (Some p) h h') /\
  (forall bits b, pop_leading (mk_bb v nb) n = Ok (bits, b) -> exists q h', h_pop_leading (mk_hb p nb) n h = (Ok (q, mk_hb p (bb_nbits b)), h') /\
     nth_error h' p = Some (bb_value b) /\ nth_error h q = None /\ nth_error h' q = Some bits /\ same_but (Some p) h h') /\
  (forall b, append_trailing (mk_bb v nb) u n = Ok b -> exists h', h_append_trailing (mk_hb p nb) x n h = (Ok (mk_hb p (bb_nbits b)), h') /\
     nth_error h' p = Some (bb_value b) /\ same_but (Some p) h h') /\
  (forall b, append_leading (mk_bb v nb) u n = Ok b -> exists h', h_append_leading (mk_hb p nb) x n h = (Ok (mk_hb p (bb_nbits b)), h') /\
     nth_error h' p = Some (bb_value b) /\ same_but (Some p) h h') /\
  (h_bytes (mk_hb p nb) h = (bb_bytes (mk_bb v nb), h)) /\
  (exists q h', h_int (mk_hb p nb) h = (Ok q, h') /\ nth_error h q = None /\ nth_error h' q = Some v /\ same_but None h h').
Proof.
  intros G1 G2 N1 N2 P X XP. assert (G : globals h) by (split; assumption). assert (P2 : (2 <= p)%nat) by (unfold big_one, big_mask, ptr in *; lia).
  assert (NEW : forall q, (length h <= q)%nat -> nth_error h q = None) by (intros q Q; apply nth_error_None; exact Q).
  assert (SB : forall h', but p h h' -> same_but (Some p) h h') by (intros h' [_ B] q w N Q; apply B; [congruence|exact Q]).
  assert (SA : forall l, same_but None h (h ++ l)) by (intros l q w _ Q; apply (proj2 (old_app h l)); exact Q).
  split; [|split; [|split; [|split; [|split; [|split]]]]].
  - intros b B. pose proof (new_bitbuf_ok h x u n X) as H. rewrite B in H. exists (length h), (h ++ [u]). split; [exact H|]. split; [apply NEW; lia|]. split; [apply end0|apply SA].
  - intros bits b B. pose proof (pop_trailing_ok h p v nb n G P P2) as H. rewrite B in H. destruct H as (q & h' & H1 & H2 & H3 & H4 & H5). exists q, h'. auto 8.
  - intros bits b B. pose proof (pop_leading_ok h p v nb n G P P2) as H. rewrite B in H. destruct H as (q & h' & H1 & H2 & H3 & H4 & H5). exists q, h'. auto 8.
  - intros b B. pose proof (append_trailing_ok h p x v u nb n P X XP) as H. rewrite B in H. destruct H as (h' & H1 & H2 & H3). exists h'. auto.
  - intros b B. pose proof (append_leading_ok h p x v u nb n P X) as H. rewrite B in H. destruct H as (h' & H1 & H2 & H3). exists h'. auto.
  - apply bytes_ok. exact P.
  - exists (length h), (h ++ [v]). split; [apply int_ok; exact P|]. split; [apply NEW; lia|]. split; [apply end0|apply SA].
Qed.
Print Assumptions buffer_memory.
(** 4 bits 1011, the first two of which are popped, and two bits of another integer appended at the other side *)
Example buffer_case : let h := heap_start ++ [11; 2] in
  exists q h1 h2, h_pop_leading (mk_hb 2%nat 4) 2 h = (Ok (q, mk_hb 2%nat 2), h1) /\ nth_error h1 q = Some 2 /\ nth_error h1 2%nat = Some 3 /\
    h_append_leading (mk_hb 2%nat 2) 3%nat 2 h1 = (Ok (mk_hb 2%nat 4), h2) /\ nth_error h2 2%nat = Some 11 /\ nth_error h2 3%nat = Some 2 /\ nth_error h2 q = Some 2.
Proof. vm_compute. do 3 eexists. repeat split. Qed.

(** *** A program *)
Definition the_offset : Z := 7.
Definition the_time : Z := epoch_start + the_offset * epoch_increment.
Definition the_words (n : Z) : list bytes :=
  match encode_mnemonic_plaintext toy_env (mk_seed 0 n) the_offset with Ok ws => ws | _ => [] end.
(** it looks at the integer of a seed, changes that copy, encodes other integers, recovers the seed from the phrase and
    makes the same key of it *)
Definition careful_program : list call :=
  [C_int 12345; C_new_seed 0 0; C_seed_int 0; C_to_indices 1 128; C_read 1; C_read 0; C_new_key 0 the_time None;
   C_key_plaintext 0; C_decode (the_words 12345); C_dm_seed 0; C_new_key 1 the_time None].
Ltac next_seen H :=
  repeat match type of H with match ?x with _ => _ end => destruct x; try contradiction end.
Example careful_case : careful [] careful_program /\
  exists l ks t, l <> [] /\ fst (h_run toy_env careful_program h_init) =
    [Nothing; Nothing; Nothing; Indices l; An_int 0; An_int 12345; Key ks t; Words (the_words 12345); Nothing; Nothing; Key ks t].
Proof.
  split; [cbn; intuition congruence|]. rewrite sharing_invisible by (cbn; intuition congruence).
  assert (H : match v_run toy_env careful_program v_init with
              | [Nothing; Nothing; Nothing; Indices l; An_int a; An_int b; Key ks t; Words ws; Nothing; Nothing; Key ks' t'] =>
                  length l = 11%nat /\ a = 0 /\ b = 12345 /\ ws = the_words 12345 /\ ks = ks' /\ t = t'
              | _ => False end) by (vm_compute; auto 12).
  revert H. generalize (v_run toy_env careful_program v_init). intros seen1 H.
  next_seen H.
  destruct H as (L & -> & -> & -> & <- & <-). do 3 eexists. split; [|reflexivity]. intros ->. discriminate L.
Qed.

(** Without that care the key and its phrase part: the integer given to NewSeed is zero after EncodeToIndices, and with
    it the seed of the key that was made before; the phrase of the key is that of seed zero, and recovers another key. *)
Definition careless_program : list call :=
  [C_int 12345; C_new_seed 0 0; C_new_key 0 the_time None; C_to_indices 0 128; C_key_plaintext 0;
   C_decode (the_words 0); C_dm_seed 0; C_new_key 1 the_time None].
Theorem shared_seed_refuted : exists ks ks' t l, ks <> ks' /\
  fst (h_run toy_env careless_program h_init) = [Nothing; Nothing; Key ks t; Indices l; Words (the_words 0); Nothing; Nothing; Key ks' t] /\
  fst (h_run toy_env careless_program h_init) <> v_run toy_env careless_program v_init.
Proof.
  assert (H : match fst (h_run toy_env careless_program h_init), v_run toy_env careless_program v_init with
              | [Nothing; Nothing; Key ks t; Indices l; Words ws; Nothing; Nothing; Key ks' t'], [_; _; _; _; Words ws'; _; _; _] =>
                  ws = the_words 0 /\ t = t' /\ bytes_eqb (uid_encode (ks_uid ks)) (uid_encode (ks_uid ks')) = true /\
                  bytes_eqb (fingerprint_v4 toy_env (ed_base (ks_master ks))) (fingerprint_v4 toy_env (ed_base (ks_master ks'))) = false /\ ws' = the_words 12345
              | _, _ => False end) by (vm_compute; auto 12).
  revert H. generalize (fst (h_run toy_env careless_program h_init)) (v_run toy_env careless_program v_init). intros seen1 seen2 H.
  next_seen H.
  destruct H as (-> & <- & _ & F & ->). do 4 eexists. split; [|split; [reflexivity|]]; [intros EQ; rewrite EQ, bytes_eqb_refl in F; discriminate F|].
  intros X. apply (f_equal (fun l => nth_error l 4)) in X. cbn [nth_error] in X.
  cbn beta iota in X. assert (D : the_words 0 <> the_words 12345) by (vm_compute; discriminate). apply D. congruence.
Qed.
Print Assumptions shared_seed_refuted.
