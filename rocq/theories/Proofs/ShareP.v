(** Functions on integers in memory against the functions on values: same results, and nothing that was in memory
    before is written, except by EncodeToIndices. *)
From Coq Require Import Lia ZifyBool ZifyNat.
From Verif.Model Require Import GoBase Env BitBuffer Crc32 MnemonicPkg Version Seed Encoding GoTime Recovery.
From Verif.Model Require Import PgpKeys Mnemonikey BigHeap.
From Verif.Spec Require Import ShareSpec.

(** ** Memory *)
Lemma put_length h p v : (p < length h)%nat -> length (put h p v) = length h.
Proof. intros L. unfold put. rewrite app_length, firstn_length. cbn [length]. rewrite skipn_length. lia. Qed.
Lemma put_nth h p v q : (p < length h)%nat -> nth_error (put h p v) q = if Nat.eqb q p then Some v else nth_error h q.
Proof.
  unfold put. revert h q. induction p as [|p IH]; intros [|a h] [|q] L; cbn [length] in L; try lia; try reflexivity.
  cbn [firstn skipn app nth_error Nat.eqb]. apply IH. lia.
Qed.
Lemma put_put h p v u : (p < length h)%nat -> put (put h p v) p u = put h p u.
Proof. unfold put. revert h. induction p as [|p IH]; intros [|a h] L; cbn [length] in L; try lia; [reflexivity|]. cbn [firstn skipn app]. f_equal. apply IH. lia. Qed.
Lemma put_app h l p v : (p < length h)%nat -> put (h ++ l) p v = put h p v ++ l.
Proof. unfold put. revert h. induction p as [|p IH]; intros [|a h] L; cbn [length] in L; try lia; [reflexivity|]. cbn [firstn skipn app]. f_equal. apply IH. lia. Qed.
Lemma put_tail h l k v : put (h ++ l) (length h + k)%nat v = h ++ put l k v.
Proof. unfold put. induction h as [|a h IH]; [reflexivity|]. cbn [length Nat.add app firstn skipn]. f_equal. exact IH. Qed.
Lemma nth_tail {A} (h l : list A) k : nth_error (h ++ l) (length h + k)%nat = nth_error l k.
Proof. induction h as [|a h IH]; [reflexivity|]. exact IH. Qed.
Lemma nth_head {A} (h l : list A) p v : nth_error h p = Some v -> nth_error (h ++ l) p = Some v.
Proof. intros H. rewrite nth_error_app1; [exact H|]. apply nth_error_Some. congruence. Qed.
Lemma nth_lt {A} (h : list A) p v : nth_error h p = Some v -> (p < length h)%nat.
Proof. intros H. apply nth_error_Some. congruence. Qed.
Lemma put_id h p v : nth_error h p = Some v -> put h p v = h.
Proof. unfold put. revert h. induction p as [|p IH]; intros [|a h] H; try discriminate; [injection H as ->; reflexivity|]. cbn [firstn skipn app]. f_equal. apply IH. exact H. Qed.

Definition globals (h : heap) : Prop := nth_error h big_one = Some 1 /\ nth_error h big_mask = Some word_mask.
(** everything but [p] is as it was *)
Definition but (p : ptr) (h h' : heap) : Prop :=
  (length h <= length h')%nat /\ forall q v, q <> p -> nth_error h q = Some v -> nth_error h' q = Some v.
Definition old (h h' : heap) : Prop := (length h <= length h')%nat /\ forall q v, nth_error h q = Some v -> nth_error h' q = Some v.
Lemma old_refl h : old h h. Proof. split; [lia|auto]. Qed.
Lemma old_trans a b c : old a b -> old b c -> old a c.
Proof. intros [L H] [L' H']. split; [lia|auto]. Qed.
Lemma old_app h l : old h (h ++ l).
Proof. split; [rewrite app_length; lia|]. intros q v H. apply nth_head. exact H. Qed.
Lemma but_put h p v l : (p < length h)%nat -> but p h (put h p v ++ l).
Proof.
  intros L. split; [rewrite app_length, put_length; lia|]. intros q u N H. apply nth_head. rewrite put_nth by exact L.
  destruct (Nat.eqb_spec q p); [contradiction|exact H].
Qed.
Lemma but_old h h' p g : old g h -> but p h h' -> (length g <= p)%nat -> old g h'.
Proof. intros [L H] [L' H'] P. split; [lia|]. intros q v Q. apply H'; [|apply H; exact Q]. apply nth_lt in Q. lia. Qed.
Lemma globals_old h h' : globals h -> old h h' -> globals h'.
Proof. intros [A B] [_ H]. split; apply H; assumption. Qed.
Lemma globals_len h : globals h -> (2 <= length h)%nat.
Proof. intros [_ B]. apply nth_lt in B. unfold big_mask in B. lia. Qed.

(** ** Steps *)
Lemma m_bind_run {A B} (m : mem A) (f : A -> mem B) h :
  m_bind m f h = match m h with (Ok a, h') => f a h' | (Err e, h') => (Err e, h') | (Panic, h') => (Panic, h') end.
Proof. revert h. induction m as [[a|e|]|p k IH|p v k IH|v k IH]; intros h; cbn [m_bind m_run]; auto; destruct (nth_error h p); auto. Qed.
Lemma m_bind_ok {A B} (m : mem A) (f : A -> mem B) h a h' : m h = (Ok a, h') -> m_bind m f h = f a h'.
Proof. intros H. rewrite m_bind_run, H. reflexivity. Qed.
Lemma load_ok h p v : nth_error h p = Some v -> load p h = (Ok v, h).
Proof. intros H. unfold load. cbn [m_run]. rewrite H. reflexivity. Qed.
Lemma store_ok h p v u : nth_error h p = Some u -> store p v h = (Ok tt, put h p v).
Proof. intros H. unfold store. cbn [m_run]. rewrite H. reflexivity. Qed.
Lemma new_ok h v : new_int v h = (Ok (length h), h ++ [v]).
Proof. reflexivity. Qed.
Lemma big1_ok f h z x v u : nth_error h x = Some v -> nth_error h z = Some u -> big1 f z x h = (Ok tt, put h z (f v)).
Proof. intros X Z. unfold big1. rewrite (m_bind_ok _ _ _ _ _ (load_ok _ _ _ X)). exact (store_ok _ _ _ _ Z). Qed.
Lemma big2_ok f h z x y v w u : nth_error h x = Some v -> nth_error h y = Some w -> nth_error h z = Some u -> big2 f z x y h = (Ok tt, put h z (f v w)).
Proof.
  intros X Y Z. unfold big2. rewrite (m_bind_ok _ _ _ _ _ (load_ok _ _ _ X)). rewrite (m_bind_ok _ _ _ _ _ (load_ok _ _ _ Y)). exact (store_ok _ _ _ _ Z).
Qed.
(** fresh integers at the end of memory *)
Lemma end0 (h : heap) a l : nth_error (h ++ a :: l) (length h) = Some a.
Proof. rewrite <- (Nat.add_0_r (length h)) at 1. rewrite nth_tail. reflexivity. Qed.
Lemma end1 (h : heap) a b l : nth_error (h ++ a :: b :: l) (S (length h)) = Some b.
Proof. replace (S (length h)) with (length h + 1)%nat by lia. rewrite nth_tail. reflexivity. Qed.
Lemma put0 (h : heap) a l v : put (h ++ a :: l) (length h) v = h ++ v :: l.
Proof. rewrite <- (Nat.add_0_r (length h)) at 1. rewrite put_tail. reflexivity. Qed.
Lemma put1 (h : heap) a b l v : put (h ++ a :: b :: l) (S (length h)) v = h ++ a :: v :: l.
Proof. replace (S (length h)) with (length h + 1)%nat by lia. rewrite put_tail. reflexivity. Qed.
Lemma new1 (h : heap) a v : new_int v (h ++ [a]) = (Ok (S (length h)), h ++ [a; v]).
Proof. unfold new_int, m_ret. cbn [m_run]. rewrite app_length, <- app_assoc. cbn [length]. rewrite Nat.add_1_r. reflexivity. Qed.
Lemma copy_ok h x v : nth_error h x = Some v -> (mdo p <- new_int 0; mdo _ <- big_set p x; m_ret p) h = (Ok (length h), h ++ [v]).
Proof.
  intros X. rewrite (m_bind_ok _ _ _ _ _ (new_ok h 0)).
  rewrite (m_bind_ok _ _ _ _ _ (big1_ok (fun v => v) _ _ _ v 0 (nth_head _ _ _ _ X) (end0 h 0 []))). rewrite put0. reflexivity.
Qed.

Lemma new_bitbuf_ok h x v nb : nth_error h x = Some v ->
  h_new_bitbuf x nb h = match new_bitbuf v nb with Ok _ => (Ok (mk_hb (length h) nb), h ++ [v]) | _ => (Panic, h) end.
Proof.
  intros X. unfold h_new_bitbuf, new_bitbuf. rewrite (m_bind_ok _ _ _ _ _ (load_ok _ _ _ X)). destruct (bit_len v >? nb); [reflexivity|].
  rewrite (m_bind_ok _ _ _ _ _ (new_ok h 0)).
  unfold big_set. rewrite (m_bind_ok _ _ _ _ _ (big1_ok (fun v => v) _ _ _ v 0 (nth_head _ _ _ _ X) (end0 h 0 []))). rewrite put0. reflexivity.
Qed.
Lemma pop_trailing_ok h p v nb n : globals h -> nth_error h p = Some v -> (2 <= p)%nat ->
  match pop_trailing (mk_bb v nb) n with
  | Ok (bits, b) => exists b' h', h_pop_trailing (mk_hb p nb) n h = (Ok (b', mk_hb p (bb_nbits b)), h') /\ but p h h' /\
      nth_error h' p = Some (bb_value b) /\ (length h <= b')%nat /\ nth_error h' b' = Some bits
  | _ => h_pop_trailing (mk_hb p nb) n h = (Panic, h)
  end.
Proof.
  intros [G _] P P2. unfold pop_trailing, h_pop_trailing. cbn [bb_nbits bb_value hb_nbits hb_value]. destruct (n >? nb); [reflexivity|].
  pose proof (nth_lt _ _ _ P) as L. exists (S (length h)). eexists. split.
  - rewrite (m_bind_ok _ _ _ _ _ (new_ok h 0)). unfold big_lsh.
    rewrite (m_bind_ok _ _ _ _ _ (big1_ok _ _ _ _ _ _ (nth_head _ _ _ _ G) (end0 h 0 []))). rewrite put0.
    unfold big_sub. rewrite (m_bind_ok _ _ _ _ _ (big2_ok _ _ _ _ _ _ _ _ (end0 h _ []) (nth_head _ _ _ _ G) (end0 h _ []))). rewrite put0.
    rewrite (m_bind_ok _ _ _ _ _ (new1 h _ 0)).
    unfold big_and. rewrite (m_bind_ok _ _ _ _ _ (big2_ok _ _ _ _ _ _ _ _ (end0 h _ [_]) (nth_head _ _ _ _ P) (end1 h _ _ []))). rewrite put1.
    unfold big_rsh. rewrite (m_bind_ok _ _ _ _ _ (big1_ok _ _ _ _ _ _ (nth_head _ _ _ _ P) (nth_head _ _ _ _ P))). rewrite put_app by exact L. reflexivity.
  - split; [apply but_put; exact L|]. split; [apply nth_head; rewrite put_nth by exact L; rewrite Nat.eqb_refl; reflexivity|].
    split; [lia|]. rewrite <- (put_length h p (Z.shiftr v n) L). apply end1.
Qed.
Lemma pop_leading_ok h p v nb n : globals h -> nth_error h p = Some v -> (2 <= p)%nat ->
  match pop_leading (mk_bb v nb) n with
  | Ok (bits, b) => exists b' h', h_pop_leading (mk_hb p nb) n h = (Ok (b', mk_hb p (bb_nbits b)), h') /\ but p h h' /\
      nth_error h' p = Some (bb_value b) /\ (length h <= b')%nat /\ nth_error h' b' = Some bits
  | _ => h_pop_leading (mk_hb p nb) n h = (Panic, h)
  end.
Proof.
  intros [G _] P P2. unfold pop_leading, h_pop_leading. cbn [bb_nbits bb_value hb_nbits hb_value]. destruct (n >? nb); [reflexivity|].
  pose proof (nth_lt _ _ _ P) as L. exists (S (length h)). eexists. split.
  - rewrite (m_bind_ok _ _ _ _ _ (new_ok h 0)). unfold big_lsh.
    rewrite (m_bind_ok _ _ _ _ _ (big1_ok _ _ _ _ _ _ (nth_head _ _ _ _ G) (end0 h 0 []))). rewrite put0.
    unfold big_sub. rewrite (m_bind_ok _ _ _ _ _ (big2_ok _ _ _ _ _ _ _ _ (end0 h _ []) (nth_head _ _ _ _ G) (end0 h _ []))). rewrite put0.
    rewrite (m_bind_ok _ _ _ _ _ (new1 h _ 0)).
    unfold big_rsh. rewrite (m_bind_ok _ _ _ _ _ (big1_ok _ _ _ _ _ _ (nth_head _ _ _ _ P) (end1 h _ _ []))). rewrite put1.
    unfold big_and. rewrite (m_bind_ok _ _ _ _ _ (big2_ok _ _ _ _ _ _ _ _ (end0 h _ [_]) (end1 h _ _ []) (end1 h _ _ []))). rewrite put1.
    rewrite (m_bind_ok _ _ _ _ _ (big1_ok _ _ _ _ _ _ (end1 h _ _ []) (end0 h _ [_]))). rewrite put0.
    unfold big_xor. rewrite (m_bind_ok _ _ _ _ _ (big2_ok _ _ _ _ _ _ _ _ (nth_head _ _ _ _ P) (end0 h _ [_]) (nth_head _ _ _ _ P))). rewrite put_app by exact L. reflexivity.
  - split; [apply but_put; exact L|]. split; [apply nth_head; rewrite put_nth by exact L; rewrite Nat.eqb_refl; reflexivity|].
    split; [lia|]. match goal with |- nth_error (put h p ?u ++ _) _ = _ => rewrite <- (put_length h p u L) end. apply end1.
Qed.
Lemma append_trailing_ok h p x v u nb n : nth_error h p = Some v -> nth_error h x = Some u -> x <> p ->
  match append_trailing (mk_bb v nb) u n with
  | Ok b => exists h', h_append_trailing (mk_hb p nb) x n h = (Ok (mk_hb p (bb_nbits b)), h') /\ but p h h' /\ nth_error h' p = Some (bb_value b)
  | _ => h_append_trailing (mk_hb p nb) x n h = (Panic, h)
  end.
Proof.
  intros P X N. unfold append_trailing, h_append_trailing. cbn [bb_nbits bb_value hb_nbits hb_value].
  rewrite (m_bind_ok _ _ _ _ _ (load_ok _ _ _ X)). destruct (bit_len u >? n); [reflexivity|].
  pose proof (nth_lt _ _ _ P) as L. eexists. split.
  - unfold big_lsh. rewrite (m_bind_ok _ _ _ _ _ (big1_ok _ _ _ _ _ _ P P)). unfold big_or.
    assert (P' : nth_error (put h p (Z.shiftl v n)) p = Some (Z.shiftl v n)) by (rewrite put_nth by exact L; rewrite Nat.eqb_refl; reflexivity).
    assert (X' : nth_error (put h p (Z.shiftl v n)) x = Some u) by (rewrite put_nth by exact L; destruct (Nat.eqb_spec x p); [contradiction|exact X]).
    rewrite (m_bind_ok _ _ _ _ _ (big2_ok _ _ _ _ _ _ _ _ P' X' P')). rewrite put_put by exact L. reflexivity.
  - split; [|rewrite put_nth by exact L; rewrite Nat.eqb_refl; reflexivity]. rewrite <- (app_nil_r (put h p _)). apply but_put. exact L.
Qed.
Lemma append_leading_ok h p x v u nb n : nth_error h p = Some v -> nth_error h x = Some u ->
  match append_leading (mk_bb v nb) u n with
  | Ok b => exists h', h_append_leading (mk_hb p nb) x n h = (Ok (mk_hb p (bb_nbits b)), h') /\ but p h h' /\ nth_error h' p = Some (bb_value b)
  | _ => h_append_leading (mk_hb p nb) x n h = (Panic, h)
  end.
Proof.
  intros P X. unfold append_leading, h_append_leading. cbn [bb_nbits bb_value hb_nbits hb_value].
  rewrite (m_bind_ok _ _ _ _ _ (load_ok _ _ _ X)). destruct (bit_len u >? n); [reflexivity|].
  pose proof (nth_lt _ _ _ P) as L. eexists. split.
  - rewrite (m_bind_ok _ _ _ _ _ (new_ok h 0)). unfold big_lsh.
    rewrite (m_bind_ok _ _ _ _ _ (big1_ok _ _ _ _ _ _ (nth_head _ _ _ _ X) (end0 h 0 []))). rewrite put0. unfold big_or.
    rewrite (m_bind_ok _ _ _ _ _ (big2_ok _ _ _ _ _ _ _ _ (nth_head _ _ _ _ P) (end0 h _ []) (nth_head _ _ _ _ P))). rewrite put_app by exact L. reflexivity.
  - split; [apply but_put; exact L|]. apply nth_head. rewrite put_nth by exact L. rewrite Nat.eqb_refl. reflexivity.
Qed.
Lemma bytes_ok h p v nb : nth_error h p = Some v -> h_bytes (mk_hb p nb) h = (bb_bytes (mk_bb v nb), h).
Proof. intros P. unfold h_bytes. cbn [hb_value]. rewrite (m_bind_ok _ _ _ _ _ (load_ok _ _ _ P)). reflexivity. Qed.
Lemma int_ok h p v nb : nth_error h p = Some v -> h_int (mk_hb p nb) h = (Ok (length h), h ++ [v]).
Proof. intros P. exact (copy_ok h p v P). Qed.

(** ** The word indices *)
Lemma encode_loop_ok : forall k h p v acc, globals h -> nth_error h p = Some v -> (2 <= p)%nat ->
  match encode_loop k v acc with
  | Ok (l, rem) => exists h', h_encode_loop k p acc h = (Ok l, h') /\ but p h h' /\ nth_error h' p = Some rem
  | Err e => False
  | Panic => exists h', h_encode_loop k p acc h = (Panic, h') /\ but p h h'
  end.
Proof.
  induction k as [|k IH]; intros h p v acc G P P2; cbn [encode_loop h_encode_loop]; rewrite (m_bind_ok _ _ _ _ _ (load_ok _ _ _ P)).
  - destruct (bit_len v >? 0); [|]; exists h; (split; [reflexivity|]); [|split; [|exact P]]; (split; [lia|auto]).
  - destruct (bit_len v >? 0).
    + pose proof (nth_lt _ _ _ P) as L. rewrite (m_bind_ok _ _ _ _ _ (new_ok h 0)).
      unfold big_and. rewrite (m_bind_ok _ _ _ _ _ (big2_ok _ _ _ _ _ _ _ _ (nth_head _ _ _ _ P) (nth_head _ _ _ _ (proj2 G)) (end0 h _ []))). rewrite put0.
      rewrite (m_bind_ok _ _ _ _ _ (load_ok _ _ _ (end0 h _ []))).
      unfold big_rsh. rewrite (m_bind_ok _ _ _ _ _ (big1_ok _ _ _ _ _ _ (nth_head _ _ _ _ P) (nth_head _ _ _ _ P))). rewrite put_app by exact L.
      set (h1 := put h p (Z.shiftr v bits_per_word) ++ [Z.land v word_mask]).
      assert (B : but p h h1) by (apply but_put; exact L).
      assert (P1 : nth_error h1 p = Some (Z.shiftr v bits_per_word)) by (apply nth_head; rewrite put_nth by exact L; rewrite Nat.eqb_refl; reflexivity).
      assert (G1 : globals h1).
      { destruct G as [G0 G1']. destruct B as [_ B]. split; apply B; try assumption; unfold big_one, big_mask; lia. }
      specialize (IH h1 p _ (u16 (big_uint64 (Z.land v word_mask)) :: acc) G1 P1 P2).
      assert (T : forall h', but p h1 h' -> but p h h').
      { intros h' [L1 B1]. destruct B as [L0 B0]. split; [lia|]. intros q w N Q. apply B1; [exact N|]. apply B0; assumption. }
      destruct (encode_loop k (Z.shiftr v bits_per_word) (u16 (big_uint64 (Z.land v word_mask)) :: acc)) as [[l rem]|e|].
      * destruct IH as (h' & E & B' & P'). exists h'. split; [exact E|]. split; [apply T; exact B'|exact P'].
      * exact IH.
      * destruct IH as (h' & E & B'). exists h'. split; [exact E|apply T; exact B'].
    + exists h. split; [reflexivity|]. split; [split; [lia|auto]|exact P].
Qed.
Lemma to_indices_ok h p v n : globals h -> nth_error h p = Some v -> (2 <= p)%nat ->
  match encode_to_indices v n with
  | Ok (l, rem) => exists h', h_encode_to_indices p n h = (Ok l, h') /\ but p h h' /\ nth_error h' p = Some rem
  | Err e => h_encode_to_indices p n h = (Err e, h)
  | Panic => exists h', h_encode_to_indices p n h = (Panic, h') /\ but p h h'
  end.
Proof.
  intros G P P2. unfold encode_to_indices, h_encode_to_indices. rewrite (m_bind_ok _ _ _ _ _ (load_ok _ _ _ P)).
  destruct (bit_len v >? n); [reflexivity|].
  destruct (make_uint16_ok (word_count n)); cbn [negb]; [|exists h; split; [reflexivity|split; [lia|auto]]].
  pose proof (encode_loop_ok (Z.to_nat (word_count n)) h p v [] G P P2) as H.
  destruct (encode_loop _ v []) as [[l rem]|e|]; [exact H|contradiction|exact H].
Qed.
Lemma decode_loop_ok : forall l h p a, nth_error h p = Some a ->
  exists h', h_decode_loop p l h = (match decode_indices_from a l with Ok _ => Ok p | Err e => Err e | Panic => Panic end, h') /\ but p h h' /\
    match decode_indices_from a l with Ok r => nth_error h' p = Some r | _ => True end.
Proof.
  induction l as [|i l IH]; intros h p a P; cbn [decode_indices_from h_decode_loop].
  - exists h. split; [reflexivity|]. split; [split; [lia|auto]|exact P].
  - destruct (bit_len i >? bits_per_word); [exists h; split; [reflexivity|]; split; [split; [lia|auto]|exact I]|].
    pose proof (nth_lt _ _ _ P) as L.
    unfold big_lsh. rewrite (m_bind_ok _ _ _ _ _ (big1_ok _ _ _ _ _ _ P P)). set (h1 := put h p (Z.shiftl a bits_per_word)).
    assert (L1 : (p < length h1)%nat) by (unfold h1; rewrite put_length; assumption).
    assert (P1 : nth_error h1 p = Some (Z.shiftl a bits_per_word)) by (unfold h1; rewrite put_nth by exact L; rewrite Nat.eqb_refl; reflexivity).
    rewrite (m_bind_ok _ _ _ _ _ (new_ok h1 i)).
    unfold big_or. rewrite (m_bind_ok _ _ _ _ _ (big2_ok _ _ _ _ _ _ _ _ (nth_head _ _ _ _ P1) (end0 h1 _ []) (nth_head _ _ _ _ P1))).
    rewrite put_app by exact L1. unfold h1. rewrite put_put by exact L. fold h1.
    destruct (IH (put h p (Z.lor (Z.shiftl a bits_per_word) i) ++ [i]) p (Z.lor (Z.shiftl a bits_per_word) i)) as (h' & E & B & R).
    { apply nth_head. rewrite put_nth by exact L. rewrite Nat.eqb_refl. reflexivity. }
    exists h'. split; [exact E|]. split; [|exact R]. destruct B as [LB B]. destruct (but_put h p (Z.lor (Z.shiftl a bits_per_word) i) [i] L) as [LC C].
    split; [lia|]. intros q v N Q. apply B; [exact N|]. apply C; assumption.
Qed.

(** ** The functions of the package.  [g] is memory before the call; what is beyond it belongs to the call.
    [does]: the function in memory returns what the function on values returns, and [F] holds of the memory. *)
Definition does {A B} (m : mem A) (h : heap) (r : res B) (Q : A -> B -> heap -> Prop) (F : heap -> Prop) : Prop :=
  match r with
  | Ok b => exists a h', m h = (Ok a, h') /\ Q a b h' /\ F h'
  | Err e => exists h', m h = (Err e, h') /\ F h'
  | Panic => exists h', m h = (Panic, h') /\ F h'
  end.
Lemma does_bind {A B C D} (m : mem A) (r : res B) (f : A -> mem C) (k : B -> res D) h Q Q' F :
  does m h r Q F -> (forall a b h', Q a b h' -> F h' -> does (f a) h' (k b) Q' F) -> does (m_bind m f) h (bind r k) Q' F.
Proof.
  unfold does, bind. rewrite m_bind_run. intros H K. destruct r as [b|e|].
  - destruct H as (a & h' & E & H & FH). rewrite E. exact (K a b h' H FH).
  - destruct H as (h' & E & FH). exists h'. rewrite E. auto.
  - destruct H as (h' & E & FH). exists h'. rewrite E. auto.
Qed.
(** a step of the memory alone *)
Lemma does_step {A C D} (m : mem A) (f : A -> mem C) (r : res D) h a h' Q F : m h = (Ok a, h') -> does (f a) h' r Q F -> does (m_bind m f) h r Q F.
Proof. unfold does. rewrite m_bind_run. intros ->. auto. Qed.
Definition is {A} (h : heap) (a b : A) (h' : heap) : Prop := a = b /\ h' = h.
Lemma does_lift {A} (r : res A) h (F : heap -> Prop) : F h -> does (m_lift r) h r (is h) F.
Proof. intros H. destruct r; [exists a, h|exists h|exists h]; repeat split; auto. Qed.
Lemma does_ret {A B} (a : A) (b : B) h (Q : A -> B -> heap -> Prop) (F : heap -> Prop) : Q a b h -> F h -> does (m_ret a) h (Ok b) Q F.
Proof. intros H K. exists a, h. auto. Qed.
Lemma does_panic {A B} h (Q : A -> B -> heap -> Prop) (F : heap -> Prop) : F h -> does (m_lift Panic) h Panic Q F.
Proof. intros H. exists h. auto. Qed.
Lemma does_err {A B} e h (Q : A -> B -> heap -> Prop) (F : heap -> Prop) : F h -> does (m_lift (Err e)) h (Err e) Q F.
Proof. intros H. exists h. auto. Qed.
Lemma does_weaken {A B} (m : mem A) h (r : res B) (Q Q' : A -> B -> heap -> Prop) (F F' : heap -> Prop) :
  does m h r Q F -> (forall a b h', Q a b h' -> F h' -> Q' a b h') -> (forall h', F h' -> F' h') -> does m h r Q' F'.
Proof.
  unfold does. destruct r as [b|e|]; intros H K L.
  - destruct H as (a & h' & E & H & FH). exists a, h'. auto.
  - destruct H as (h' & E & FH). exists h'. auto.
  - destruct H as (h' & E & FH). exists h'. auto.
Qed.

Lemma old_new g h v : old g h -> old g (h ++ [v]).
Proof. intros O. eapply old_trans; [exact O|apply old_app]. Qed.
Lemma old_len g h : old g h -> (length g <= length h)%nat.
Proof. intros [L _]. exact L. Qed.
Lemma but_at p h h' q v : but p h h' -> q <> p -> nth_error h q = Some v -> nth_error h' q = Some v.
Proof. intros [_ B] N H. exact (B q v N H). Qed.

Lemma new_bitbuf_does g h x v nb : old g h -> nth_error h x = Some v ->
  does (h_new_bitbuf x nb) h (new_bitbuf v nb) (fun hb b h' => hb = mk_hb (length h) nb /\ b = mk_bb v nb /\ h' = h ++ [v]) (old g).
Proof.
  intros O X. pose proof (new_bitbuf_ok h x v nb X) as H. unfold new_bitbuf in *. destruct (bit_len v >? nb); cbn [does].
  - exists h. auto.
  - eexists. exists (h ++ [v]). split; [exact H|]. split; [auto|apply old_new; exact O].
Qed.
Lemma append_does g h p x v u nb n : old g h -> (length g <= p)%nat -> nth_error h p = Some v -> nth_error h x = Some u -> x <> p ->
  does (h_append_trailing (mk_hb p nb) x n) h (append_trailing (mk_bb v nb) u n)
    (fun hb b h' => hb = mk_hb p (bb_nbits b) /\ nth_error h' p = Some (bb_value b) /\ but p h h') (old g).
Proof.
  intros O LP P X N. pose proof (append_trailing_ok h p x v u nb n P X N) as H. unfold append_trailing in *. destruct (bit_len u >? n); cbn [does].
  - exists h. auto.
  - destruct H as (h' & E & B & P'). eexists. exists h'. split; [exact E|]. split; [auto|]. eapply but_old; eauto.
Qed.
Definition popped (h : heap) (p : ptr) (r : ptr * hbuf) (s : Z * bitbuf) (h' : heap) : Prop :=
  (length h <= fst r)%nat /\ snd r = mk_hb p (bb_nbits (snd s)) /\ nth_error h' (fst r) = Some (fst s) /\ nth_error h' p = Some (bb_value (snd s)) /\ but p h h'.
Lemma pop_trailing_does g h p v nb n : globals g -> old g h -> (length g <= p)%nat -> nth_error h p = Some v ->
  does (h_pop_trailing (mk_hb p nb) n) h (pop_trailing (mk_bb v nb) n) (popped h p) (old g).
Proof.
  intros G O LP P. pose proof (globals_len _ G). pose proof (pop_trailing_ok h p v nb n (globals_old _ _ G O) P ltac:(lia)) as H'.
  unfold pop_trailing in *. destruct (n >? bb_nbits (mk_bb v nb)); cbn [does].
  - exists h. auto.
  - destruct H' as (b' & h' & E & B & P' & L & V). eexists. exists h'. split; [exact E|]. split; [unfold popped; cbn [fst snd]; auto|]. eapply but_old; eauto.
Qed.
Lemma pop_leading_does g h p v nb n : globals g -> old g h -> (length g <= p)%nat -> nth_error h p = Some v ->
  does (h_pop_leading (mk_hb p nb) n) h (pop_leading (mk_bb v nb) n) (popped h p) (old g).
Proof.
  intros G O LP P. pose proof (globals_len _ G). pose proof (pop_leading_ok h p v nb n (globals_old _ _ G O) P ltac:(lia)) as H'.
  unfold pop_leading in *. destruct (n >? bb_nbits (mk_bb v nb)); cbn [does].
  - exists h. auto.
  - destruct H' as (b' & h' & E & B & P' & L & V). eexists. exists h'. split; [exact E|]. split; [unfold popped; cbn [fst snd]; auto|]. eapply but_old; eauto.
Qed.
Lemma bytes_does g h p v nb : old g h -> nth_error h p = Some v -> does (h_bytes (mk_hb p nb)) h (bb_bytes (mk_bb v nb)) (is h) (old g).
Proof. intros O P. pose proof (does_lift (bb_bytes (mk_bb v nb)) h (old g) O) as H. unfold does, m_lift in *. rewrite (bytes_ok _ _ _ _ P). exact H. Qed.
Lemma to_indices_does g h p v n : globals g -> old g h -> (length g <= p)%nat -> nth_error h p = Some v ->
  does (h_encode_to_indices p n) h (encode_to_indices v n) (fun l r h' => l = fst r /\ nth_error h' p = Some (snd r) /\ but p h h') (old g).
Proof.
  intros G O LP P. pose proof (globals_len _ G). pose proof (to_indices_ok h p v n (globals_old _ _ G O) P ltac:(lia)) as H'.
  destruct (encode_to_indices v n) as [[l rem]|e|]; cbn [does].
  - destruct H' as (h' & E & B & R). exists l, h'. split; [exact E|]. split; [auto|]. eapply but_old; eauto.
  - exists h. auto.
  - destruct H' as (h' & E & B). exists h'. split; [exact E|]. eapply but_old; eauto.
Qed.
Lemma decode_indices_does g h l : old g h ->
  does (h_decode_indices l) h (decode_indices l) (fun p v h' => (length h <= p)%nat /\ nth_error h' p = Some v /\ old h h') (old g).
Proof.
  intros O. unfold h_decode_indices, decode_indices. eapply does_step; [apply new_ok|].
  destruct (decode_loop_ok l (h ++ [0]) (length h) 0 (end0 h 0 [])) as (h' & E & B & R).
  assert (OH : old h h') by (eapply but_old; [apply old_app|exact B|lia]). pose proof (old_trans _ _ _ O OH) as OG.
  destruct (decode_indices_from 0 l) as [r|e|]; cbn [does]; [exists (length h), h'|exists h'|exists h']; auto 6.
Qed.

Lemma encode_mnemonic_does E version g h p v nb : globals g -> old g h -> (length g <= p)%nat -> nth_error h p = Some v ->
  does (h_encode_mnemonic E version (mk_hb p nb)) h (encode_mnemonic E version (mk_bb v nb)) (fun a b _ => a = b) (old g).
Proof.
  intros G O LP P. pose proof (nth_lt _ _ _ P) as L. eapply does_bind; [apply (bytes_does g _ _ _ _ O P)|]. intros payload ? ? [-> ->] _.
  eapply does_step; [apply new_ok|]. pose proof (old_new g h (Z.land checksum_mask (crc32 b)) O) as O1.
  eapply does_bind; [apply (append_does g _ p (length h) v _ nb checksum_bits O1 LP (nth_head _ _ _ _ P) (end0 _ _ _)); lia|].
  intros hb b' h' (-> & P' & _) O'. cbn [hb_nbits]. destruct (negb (bb_nbits b' =? payload_bit_count version)); [apply does_err; exact O'|].
  eapply does_step; [apply (int_ok h' p _ _ P')|].
  eapply does_bind; [apply (to_indices_does g _ (length h') (bb_value b') (bb_nbits b') G (old_new _ _ _ O'))|].
  - apply old_len. exact O'.
  - apply end0.
  - intros l [l' rem] h2 (-> & _) O2. cbn [fst]. eapply does_weaken; [apply (does_lift _ _ (old g) O2)|intros ? ? ? [-> _] _; reflexivity|auto].
Qed.
Lemma plaintext_does E g h s v offset : globals g -> old g h -> nth_error h (hs_value s) = Some v ->
  does (h_encode_plaintext E s offset) h (encode_mnemonic_plaintext E (mk_seed (hs_era s) v) offset) (fun a b _ => a = b) (old g).
Proof.
  intros G O V. unfold h_encode_plaintext, encode_mnemonic_plaintext. cbn [seed_era seed_int seed_value].
  eapply does_bind; [apply does_lift; exact O|]. intros _ _ ? [_ ->] _. cbv zeta. eapply does_step; [apply new_ok|].
  set (h1 := h ++ [0]). assert (O1 : old g h1) by (apply old_new; exact O).
  eapply does_bind; [apply (new_bitbuf_does g h1 (length h) 0 version_bits O1 (end0 _ _ _))|]. intros hb b ? (-> & -> & ->) O2.
  set (h2 := h1 ++ [0]) in *. assert (V2 : nth_error h2 (hs_value s) = Some v) by (do 2 apply nth_head; exact V).
  eapply does_step; [apply (copy_ok h2 _ _ V2)|].
  assert (P2 : nth_error h2 (length h1) = Some 0) by apply end0.
  assert (L1 : (length g <= length h1)%nat) by (apply old_len; exact O1).
  assert (N2 : length h2 <> length h1) by (unfold h2; rewrite app_length; cbn [length]; lia).
  eapply does_bind; [apply (append_does g _ (length h1) (length h2) 0 v version_bits entropy_bits (old_new _ _ _ O2) L1 (nth_head _ _ _ _ P2) (end0 _ _ _) N2)|].
  intros hb b h3 (-> & P3 & _) O3. eapply does_step; [apply new_ok|].
  assert (N3 : length h3 <> length h1) by (apply nth_lt in P3; lia).
  eapply does_bind.
  - destruct b as [bv bn]. exact (append_does g _ (length h1) (length h3) bv offset bn offset_bits (old_new _ _ _ O3) L1 (nth_head _ _ _ _ P3) (end0 _ _ _) N3).
  - intros hb [bv bn] h4 (-> & P4 & _) O4. apply encode_mnemonic_does; assumption.
Qed.
Lemma seed_key_does E g h password salt v offset : globals g -> old g h -> nth_error h salt = Some v ->
  does (h_seed_key E password salt offset) h (enc_seed_key E password v offset) (fun a b h' => a = b /\ old h h') (old g).
Proof.
  intros G O V.
  enough (K : does (h_seed_key E password salt offset) h (enc_seed_key E password v offset) (fun a b h' => a = b) (old h)).
  { eapply does_weaken; [exact K|auto|]. intros h' X. eapply old_trans; eassumption. }
  unfold h_seed_key, enc_seed_key. eapply does_bind; [apply (new_bitbuf_does h h salt v salt_bits (old_refl _) V)|]. intros hb b ? (-> & -> & ->) O1.
  eapply does_step; [apply new_ok|]. set (h1 := h ++ [v]) in *. assert (P1 : nth_error h1 (length h) = Some v) by apply end0.
  assert (N1 : length h1 <> length h) by (unfold h1; rewrite app_length; cbn [length]; lia).
  eapply does_bind; [apply (append_does h _ (length h) (length h1) v offset salt_bits offset_bits (old_new _ _ _ O1) (le_n _) (nth_head _ _ _ _ P1) (end0 _ _ _) N1)|].
  intros hb [bv bn] h2 (-> & P2 & _) O2. eapply does_bind; [apply (bytes_does h _ _ _ _ O2 P2)|]. intros sb ? ? [-> ->] O3.
  apply does_ret; [reflexivity|exact O3].
Qed.
Lemma new_seed_does g h era p v : old g h -> nth_error h p = Some v ->
  does (h_new_seed era p) h (new_seed era v) (fun s t h' => s = mk_hseed (seed_era t) p /\ seed_value t = v /\ h' = h) (old g).
Proof.
  intros O P. unfold h_new_seed, new_seed. eapply does_bind; [apply does_lift; exact O|]. intros _ _ ? [_ ->] _.
  eapply does_step; [apply (load_ok _ _ _ P)|]. destruct (bit_len v >? entropy_bits); [apply does_err; exact O|apply does_ret; [auto|exact O]].
Qed.
Lemma rand_int_does g h src p m : old g h -> nth_error h p = Some m ->
  does (h_rand_int src p) h (rand_int src m) (fun r t h' => r = (length h, snd t) /\ h' = h ++ [fst t]) (old g).
Proof.
  intros O P. unfold h_rand_int. eapply does_step; [apply (load_ok _ _ _ P)|].
  destruct (rand_int src m) as [[n rest]|e|]; cbn [does]; [|exists h; auto..].
  exists (length h, rest), (h ++ [n]). split; [reflexivity|]. split; [auto|]. apply old_new. exact O.
Qed.
Lemma generate_seed_does g h src : globals g -> old g h ->
  does (h_generate_seed src) h (generate_seed src)
    (fun s t h' => snd s = snd t /\ hs_era (fst s) = seed_era (fst t) /\ (length h <= hs_value (fst s))%nat /\ nth_error h' (hs_value (fst s)) = Some (seed_value (fst t)) /\ old h h') (old g).
Proof.
  intros G O. pose proof (globals_old _ _ G O) as GH. unfold h_generate_seed, generate_seed. eapply does_step; [apply new_ok|]. unfold big_lsh.
  eapply does_step; [apply (big1_ok _ _ _ _ _ _ (nth_head _ _ _ _ (proj1 GH)) (end0 h 0 []))|]. rewrite put0.
  set (h1 := h ++ [Z.shiftl 1 entropy_bits]). assert (O1 : old g h1) by (apply old_new; exact O).
  eapply does_bind; [apply (rand_int_does g h1 src (length h) _ O1 (end0 _ _ _))|]. intros r [n rest] ? (-> & ->) O2. cbn [fst snd].
  eapply does_bind; [apply (new_seed_does g _ era_latest (length h1) n O2 (end0 _ _ _))|]. intros s t h' (-> & V & ->) O3.
  apply does_ret; [cbn [fst snd hs_era hs_value]|exact O3]. split; [reflexivity|]. split; [reflexivity|].
  split; [unfold h1; rewrite app_length; lia|]. split; [rewrite V; apply end0|]. unfold h1. eapply old_trans; apply old_app.
Qed.
Lemma seed_bytes_does g h s v : old g h -> nth_error h (hs_value s) = Some v -> does (h_seed_bytes s) h (seed_bytes (mk_seed (hs_era s) v)) (is h) (old g).
Proof. intros O V. unfold h_seed_bytes. eapply does_step; [apply (load_ok _ _ _ V)|]. apply does_lift. exact O. Qed.
Lemma encrypted_does E g h s v offset password src : globals g -> old g h -> nth_error h (hs_value s) = Some v ->
  does (h_encode_encrypted E s offset password src) h (encode_mnemonic_encrypted E (mk_seed (hs_era s) v) offset password src) (fun a b _ => a = b) (old g).
Proof.
  intros G O V. unfold h_encode_encrypted, encode_mnemonic_encrypted. cbn [seed_era].
  eapply does_bind; [apply does_lift; exact O|]. intros _ _ ? [_ ->] _. destruct (zlen password =? 0); [apply does_err; exact O|]. cbv zeta.
  eapply does_step; [apply new_ok|]. set (h1 := h ++ [1]). assert (O1 : old g h1) by (apply old_new; exact O).
  eapply does_bind; [apply (new_bitbuf_does g h1 (length h) 1 version_bits O1 (end0 _ _ _))|]. intros hb b ? (-> & -> & ->) O2.
  set (h2 := h1 ++ [1]) in *. set (p := length h1) in *. assert (P2 : nth_error h2 p = Some 1) by apply end0.
  assert (LP : (length g <= p)%nat) by (apply old_len; exact O1).
  assert (V2 : nth_error h2 (hs_value s) = Some v) by (do 2 apply nth_head; exact V).
  assert (VN : hs_value s <> p) by (apply nth_lt in V; unfold p, h1; rewrite app_length; lia).
  eapply does_step; [apply new_ok|]. set (h3 := h2 ++ [Z.shiftl 1 salt_bits]).
  eapply does_bind; [apply (rand_int_does g h3 src (length h2) _ (old_new _ _ _ O2) (end0 _ _ _))|]. intros r [salt rest] ? (-> & ->) O4. cbn [fst snd] in O4 |- *.
  set (sp := length h3) in *. set (h4 := h3 ++ [salt]) in *. assert (S4 : nth_error h4 sp = Some salt) by apply end0.
  assert (P4 : nth_error h4 p = Some 1) by (do 2 apply nth_head; exact P2). assert (V4 : nth_error h4 (hs_value s) = Some v) by (do 2 apply nth_head; exact V2).
  assert (SN : sp <> p) by (apply nth_lt in P2; unfold sp, h3; rewrite app_length; lia). clearbody h4 sp p. clear dependent h3. clear dependent h2. clear dependent h1.
  eapply does_bind; [apply (seed_key_does E g h4 password sp salt offset G O4 S4)|]. intros key ? h5 (-> & OO) O5.
  destruct OO as [_ OO]. apply OO in S4, P4, V4. clear OO O4 h4. rename b into key'.
  destruct (negb (aes_key_ok (firstn 16 key'))); [apply does_err; exact O5|].
  eapply does_bind; [apply (seed_bytes_does g h5 s v O5 V4)|]. intros sb ? ? [-> ->] _.
  eapply does_bind; [apply does_lift; exact O5|]. intros last ? ? [-> ->] _.
  eapply does_step; [apply new_ok|]. eapply does_step; [apply new_ok|].
  set (verify := Z.land _ verify_mask). set (enc := be_uint _).
  set (h6 := (h5 ++ [verify]) ++ [enc]). assert (O6 : old g h6) by (do 2 apply old_new; exact O5).
  assert (S6 : nth_error h6 sp = Some salt) by (do 2 apply nth_head; exact S4). assert (P6 : nth_error h6 p = Some 1) by (do 2 apply nth_head; exact P4).
  assert (T6 : nth_error h6 (length h5) = Some verify) by (apply nth_head; apply end0). assert (E6 : nth_error h6 (length (h5 ++ [verify])) = Some enc) by apply end0.
  assert (LN : (p < length h5)%nat) by (apply nth_lt in P4; exact P4).
  assert (EN : length (h5 ++ [verify]) <> p) by (rewrite app_length; lia). assert (TN : length h5 <> p) by lia.
  clearbody h6. eapply does_bind; [apply (append_does g h6 p _ 1 enc version_bits entropy_bits O6 LP P6 E6 EN)|]. intros hb [bv bn] h7 (-> & P7 & B7) O7.
  apply (but_at _ _ _ _ _ B7 SN) in S6. apply (but_at _ _ _ _ _ B7 TN) in T6.
  eapply does_bind; [apply (append_does g h7 p sp bv salt bn salt_bits O7 LP P7 S6 SN)|]. intros hb [bv' bn'] h8 (-> & P8 & B8) O8.
  apply (but_at _ _ _ _ _ B8 TN) in T6.
  eapply does_bind; [apply (append_does g h8 p (length h5) bv' verify bn' verify_bits O8 LP P8 T6 TN)|]. intros hb [bv2 bn2] h9 (-> & P9 & B9) O9.
  eapply does_step; [apply new_ok|]. assert (N9 : length h9 <> p) by (apply nth_lt in P9; lia).
  eapply does_bind; [apply (append_does g _ p (length h9) bv2 offset bn2 offset_bits (old_new _ _ _ O9) LP (nth_head _ _ _ _ P9) (end0 _ _ _) N9)|].
  intros hb [bv3 bn3] h10 (-> & P10 & _) O10. apply encode_mnemonic_does; assumption.
Qed.

Definition phrase_at (h : heap) (d : h_decoded) (v : decoded) : Prop :=
  hd_version d = dm_version v /\ nth_error h (hd_entropy d) = Some (dm_entropy v) /\ hd_verify d = dm_verify v /\ hd_offset d = dm_offset v /\
  match hd_salt d with Some p => nth_error h p = Some (dm_salt v) | None => version_encrypted (dm_version v) = false end.
Definition fresh_phrase (n : nat) (d : h_decoded) : Prop := (n <= hd_entropy d)%nat /\ forall p, hd_salt d = Some p -> (n <= p)%nat.
Lemma decode_does E h ws : globals h ->
  does (h_decode_mnemonic E ws) h (decode_mnemonic E ws) (fun d v h' => phrase_at h' d v /\ fresh_phrase (length h) d) (old h).
Proof.
  intros G. unfold h_decode_mnemonic, decode_mnemonic. destruct ws as [|w0 ws0]; [apply does_err; apply old_refl|]. set (ws := w0 :: ws0).
  eapply does_bind; [apply does_lift; apply old_refl|]. intros version ? ? [-> ->] _. rename b into version.
  eapply does_bind; [apply does_lift; apply old_refl|]. intros _ _ ? [_ ->] _.
  destruct (negb (zlen ws =? mnemonic_size version)); [apply does_err; apply old_refl|].
  eapply does_bind; [apply does_lift; apply old_refl|]. intros indices ? ? [-> ->] _. rename b into indices.
  eapply does_bind; [apply (decode_indices_does h h indices (old_refl h))|]. intros pp payload h1 (_ & P1 & _) O1.
  eapply does_bind; [apply (new_bitbuf_does h h1 pp payload (zlen ws * bits_per_word) O1 P1)|]. intros hb b ? (-> & -> & ->) O2.
  set (p := length h1) in *. set (h2 := h1 ++ [payload]) in *. assert (P2 : nth_error h2 p = Some payload) by apply end0.
  assert (LP : (length h <= p)%nat) by (apply old_len; exact O1). clearbody h2 p. clear P1 O1 h1.
  eapply does_bind; [apply (pop_trailing_does h h2 p payload _ checksum_bits G O2 LP P2)|]. intros [sp hb] [sum [bv bn]] h3 (L3 & E3 & S3 & P3 & B3) O3.
  cbn [fst snd bb_value bb_nbits] in *. subst hb. eapply does_step; [apply (load_ok _ _ _ S3)|].
  eapply does_bind; [apply (bytes_does h h3 p bv bn O3 P3)|]. intros pb ? ? [-> ->] _. rename b into pb.
  destruct (negb (Z.land checksum_mask (crc32 pb) =? u32 (big_uint64 sum))); [apply does_err; exact O3|].
  eapply does_bind; [apply (pop_leading_does h h3 p bv bn version_bits G O3 LP P3)|]. intros [vp hb] [vv [bv4 bn4]] h4 (_ & E4 & _ & P4 & _) O4.
  cbn [fst snd bb_value bb_nbits] in *. subst hb.
  eapply does_bind; [apply (pop_leading_does h h4 p bv4 bn4 entropy_bits G O4 LP P4)|]. intros [ep hb] [entropy [bv5 bn5]] h5 (L5 & E5 & V5 & P5 & _) O5.
  cbn [fst snd bb_value bb_nbits] in *. subst hb. assert (EN : ep <> p) by (apply nth_lt in P4; lia). assert (EL : (length h <= ep)%nat) by (apply old_len in O4; lia).
  eapply (does_bind _ _ _ _ _ (fun r t h' => exists bv' bn', snd r = mk_hb p bn' /\ snd t = mk_bb bv' bn' /\ nth_error h' p = Some bv' /\ nth_error h' ep = Some entropy /\
     snd (fst r) = snd (fst t) /\ match fst (fst r) with Some q => nth_error h' q = Some (fst (fst t)) /\ q <> p /\ (length h <= q)%nat | None => version_encrypted version = false end)).
  - destruct (version =? 1) eqn:V1.
    + eapply does_bind; [apply (pop_leading_does h h5 p bv5 bn5 salt_bits G O5 LP P5)|]. intros [qp hb] [salt [bv6 bn6]] h6 (L6 & E6 & V6 & P6 & B6) O6.
      cbn [fst snd bb_value bb_nbits] in *. subst hb. apply (but_at _ _ _ _ _ B6 EN) in V5.
      assert (QN : qp <> p) by (apply nth_lt in P5; lia). assert (QL : (length h <= qp)%nat) by (apply old_len in O5; lia).
      eapply does_bind; [apply (pop_leading_does h h6 p bv6 bn6 verify_bits G O6 LP P6)|]. intros [yp hb] [verify [bv7 bn7]] h7 (L7 & E7 & V7 & P7 & B7) O7.
      cbn [fst snd bb_value bb_nbits] in *. subst hb. apply (but_at _ _ _ _ _ B7 EN) in V5. apply (but_at _ _ _ _ _ B7 QN) in V6.
      eapply does_step; [apply (load_ok _ _ _ V7)|]. apply does_ret; [|exact O7]. exists bv7, bn7. cbn [fst snd]. auto 10.
    + apply does_ret; [|exact O5]. exists bv5, bn5. cbn [fst snd]. unfold version_encrypted. auto 10.
  - intros [[qs verify] hb] [[salt verify'] b] h6 (bv6 & bn6 & H1 & H2 & P6 & V6 & Y & S6) O6. cbn [fst snd] in H1, H2, Y, S6. subst verify' hb b.
    eapply does_bind; [apply (pop_leading_does h h6 p bv6 bn6 offset_bits G O6 LP P6)|]. intros [op hb] [offset [bv8 bn8]] h8 (L8 & E8 & V8 & P8 & B8) O8.
    cbn [fst snd bb_value bb_nbits] in *. subst hb. apply (but_at _ _ _ _ _ B8 EN) in V6.
    eapply does_step; [apply (load_ok _ _ _ V8)|]. cbn [hb_nbits]. destruct (negb (bn8 =? 0)); [apply does_err; exact O8|].
    apply does_ret; [|exact O8]. unfold phrase_at, fresh_phrase. cbn [hd_version hd_entropy hd_verify hd_offset hd_salt dm_version dm_entropy dm_verify dm_offset dm_salt].
    split; [|split; [exact EL|]].
    + split; [reflexivity|]. split; [exact V6|]. split; [reflexivity|]. split; [reflexivity|]. destruct qs as [q|]; [|exact S6]. destruct S6 as (S6 & QN & _). apply (but_at _ _ _ _ _ B8 QN). exact S6.
    + intros q ->. apply S6.
Qed.
Lemma dm_seed_does h d v : phrase_at h d v ->
  does (h_dm_seed d) h (dm_seed v) (fun s t h' => s = mk_hseed (seed_era t) (hd_entropy d) /\ nth_error h' (hd_entropy d) = Some (seed_value t)) (old h).
Proof.
  intros (V & En & _). unfold h_dm_seed, dm_seed, dm_encrypted. rewrite V. destruct (version_encrypted (dm_version v)); [apply does_err; apply old_refl|].
  eapply does_weaken; [apply (new_seed_does h h _ _ _ (old_refl h) En)| |auto]. intros s t ? (-> & Q & ->) _. rewrite Q. auto.
Qed.
Lemma decrypt_does E h d v password : globals h -> phrase_at h d v ->
  does (h_decrypt_seed E d password) h (dm_decrypt_seed E v password)
    (fun s t h' => hs_era s = seed_era t /\ nth_error h' (hs_value s) = Some (seed_value t) /\ (hs_value s = hd_entropy d \/ (length h <= hs_value s)%nat)) (old h).
Proof.
  intros G PH. pose proof PH as (V & En & Y & Of & S). unfold h_decrypt_seed, dm_decrypt_seed, dm_encrypted. rewrite V.
  destruct (version_encrypted (dm_version v)) eqn:EV; cbn [negb].
  2:{ eapply does_weaken; [apply (dm_seed_does h d v PH)| |auto]. intros s t h' (-> & X) _. cbn [hs_era hs_value]. auto. }
  destruct (hd_salt d) as [sp|]; [|congruence]. rewrite Of, Y. eapply does_step; [reflexivity|].
  eapply does_bind; [apply (seed_key_does E h h password sp _ (dm_offset v) G (old_refl h) S)|]. intros key ? h1 (-> & O1) _. rename b into key.
  eapply does_bind; [apply does_lift; exact O1|]. intros last ? ? [-> ->] _. rename b into last.
  destruct (negb (Z.land last verify_mask =? dm_verify v)); [apply does_err; exact O1|].
  destruct (negb (aes_key_ok (firstn 16 key))); [apply does_err; exact O1|].
  eapply does_step; [apply (load_ok _ _ _ (proj2 O1 _ _ En))|].
  eapply does_bind; [apply does_lift; exact O1|]. intros enc ? ? [-> ->] _. rename b into enc.
  eapply does_step; [apply new_ok|].
  eapply does_weaken; [apply (new_seed_does h _ _ (length h1) _ (old_new _ _ _ O1) (end0 _ _ _))| |auto].
  intros s t h' (-> & Q & ->) _. cbn [hs_era hs_value]. rewrite Q. split; [reflexivity|]. split; [apply end0|]. right. apply old_len. exact O1.
Qed.
Lemma new_key_does E h s v t o : nth_error h (hs_value s) = Some v ->
  does (h_new_key E s t o) h (mnk_new E (mk_seed (hs_era s) v) t o) (fun k m h' => k = mk_hk s m /\ mnk_seed m = mk_seed (hs_era s) v /\ h' = h) (old h).
Proof.
  intros V. unfold h_new_key. eapply does_step; [apply (load_ok _ _ _ V)|].
  assert (K : forall m, mnk_new E (mk_seed (hs_era s) v) t o = Ok m -> mnk_seed m = mk_seed (hs_era s) v).
  { intros m. unfold mnk_new. destruct (era_check _); cbn [bind]; try discriminate. destruct (_ <? 0); [discriminate|]. destruct (t_after _ _); [discriminate|].
    destruct (t_before _ _); [discriminate|]. cbv zeta. destruct (derive_key_set _ _ _ _) as [ks|e|]; cbn [bind]; try discriminate. intros Q.
    assert (X : forall x y : mnemonikey, Ok x = Ok y -> x = y) by (intros x y [=]; assumption). apply X in Q. subst m. reflexivity. }
  destruct (mnk_new E (mk_seed (hs_era s) v) t o) as [m|e|]; cbn [does]; [|exists h; split; [reflexivity|apply old_refl]..].
  exists (mk_hk s m), h. split; [reflexivity|]. split; [auto|apply old_refl].
Qed.

(** ** States *)
Definition seed_at (h : heap) (s : h_seed) (t : seed) : Prop := hs_era s = seed_era t /\ nth_error h (hs_value s) = Some (seed_value t).
Definition key_at (h : heap) (k : h_key) (m : mnemonikey) : Prop :=
  seed_at h (hk_seed k) (mnk_seed m) /\ mnk_keys (hk_key k) = mnk_keys m /\ mnk_creation (hk_key k) = mnk_creation m.
Record rel (st : h_state) (v : values) : Prop := {
  rel_globals : globals (hst_heap st);
  rel_own : Forall (fun p => (2 <= p)%nat) (hst_ints st);
  rel_distinct : NoDup (hst_ints st);
  rel_ints : Forall2 (fun (p : ptr) (n : Z) => nth_error (hst_heap st) p = Some n) (hst_ints st) (v_ints v);
  rel_seeds : Forall2 (seed_at (hst_heap st)) (hst_seeds st) (v_seeds v);
  rel_phrases : Forall2 (phrase_at (hst_heap st)) (hst_phrases st) (v_phrases v);
  rel_keys : Forall2 (key_at (hst_heap st)) (hst_keys st) (v_keys v)
}.
Definition set_heap (st : h_state) (h : heap) : h_state := mk_hst h (hst_ints st) (hst_seeds st) (hst_phrases st) (hst_keys st).

Lemma forall2_impl {A B} (P Q : A -> B -> Prop) l m : (forall a b, In a l -> P a b -> Q a b) -> Forall2 P l m -> Forall2 Q l m.
Proof. intros H F. induction F; constructor; [apply H; [left; reflexivity|assumption]|]. apply IHF. intros a b I. apply H. right. exact I. Qed.
Lemma forall2_nth {A B} (P : A -> B -> Prop) l m : Forall2 P l m -> forall n,
  match nth_error l n, nth_error m n with Some a, Some b => P a b | None, None => True | _, _ => False end.
Proof. intros F. induction F as [|a b l m H F IH]; intros [|n]; cbn; auto. apply IH. Qed.
Lemma forall2_in {A B} (P : A -> B -> Prop) l m a : Forall2 P l m -> In a l -> exists b, P a b.
Proof. intros F. induction F as [|x y l m H F IH]; intros I; [contradiction|]. destruct I as [->|I]; [exists y; exact H|auto]. Qed.
Lemma forall2_snoc {A B} (P : A -> B -> Prop) l m a b : Forall2 P l m -> P a b -> Forall2 P (l ++ [a]) (m ++ [b]).
Proof. intros F H. induction F; cbn; constructor; auto. Qed.
Lemma seed_at_keeps (h h' : heap) s t : (forall n, nth_error h (hs_value s) = Some n -> nth_error h' (hs_value s) = Some n) -> seed_at h s t -> seed_at h' s t.
Proof. intros H [A B]. split; [exact A|apply H; exact B]. Qed.
Lemma phrase_at_keeps (h h' : heap) d v : (forall q n, q = hd_entropy d \/ hd_salt d = Some q -> nth_error h q = Some n -> nth_error h' q = Some n) -> phrase_at h d v -> phrase_at h' d v.
Proof.
  intros H (A & B & C & D & S). split; [exact A|]. split; [apply H; auto|]. split; [exact C|]. split; [exact D|].
  destruct (hd_salt d) as [q|]; [apply H; auto|exact S].
Qed.
Lemma rel_old st v h' : rel st v -> old (hst_heap st) h' -> rel (set_heap st h') v.
Proof.
  intros [G W N I S P K] O. pose proof (proj2 O) as H. constructor; cbn [set_heap hst_heap hst_ints hst_seeds hst_phrases hst_keys]; auto.
  - eapply globals_old; eauto.
  - eapply forall2_impl; [|exact I]. intros p n _. apply H.
  - eapply forall2_impl; [|exact S]. intros s t _. apply seed_at_keeps. apply H.
  - eapply forall2_impl; [|exact P]. intros d u _. apply phrase_at_keeps. auto.
  - eapply forall2_impl; [|exact K]. intros k m _ (A & B). split; [|exact B]. revert A. apply seed_at_keeps. apply H.
Qed.
Lemma set_heap_same st : set_heap st (hst_heap st) = st.
Proof. destruct st; reflexivity. Qed.

Lemma call_does {A B} (m : mem A) st v (r : res B) Q f : rel st v -> does m (hst_heap st) r Q (old (hst_heap st)) ->
  exists h', old (hst_heap st) h' /\ rel (set_heap st h') v /\
    match r with
    | Ok b => exists a, Q a b h' /\ h_call m st f = f a (set_heap st h')
    | Err e => h_call m st f = (Failed e, set_heap st h')
    | Panic => h_call m st f = (Panicked, set_heap st h')
    end.
Proof.
  intros R D. unfold does, h_call in *. destruct r as [b|e|].
  - destruct D as (a & h' & E & H & O). exists h'. split; [exact O|]. split; [apply rel_old; assumption|]. exists a. rewrite E. auto.
  - destruct D as (h' & E & O). exists h'. split; [exact O|]. split; [apply rel_old; assumption|]. rewrite E. reflexivity.
  - destruct D as (h' & E & O). exists h'. split; [exact O|]. split; [apply rel_old; assumption|]. rewrite E. reflexivity.
Qed.

(** addresses that seeds and phrases use *)
Definition used (st : h_state) (p : ptr) : Prop :=
  (exists s, In s (hst_seeds st) /\ hs_value s = p) \/
  (exists d, In d (hst_phrases st) /\ (hd_entropy d = p \/ hd_salt d = Some p)) \/
  (exists k, In k (hst_keys st) /\ hs_value (hk_seed k) = p).
(** a call that does not write: what is seen is what values would show; old memory stays; new addresses in use are
    new, in use already, or the argument of NewSeed *)
Definition good_step (E : Env) (c : call) (st : h_state) (v : values) : Prop :=
  exists o st' v', h_step E c st = (o, st') /\ v_step E c v = (o, v') /\ old (hst_heap st) (hst_heap st') /\ rel st' v' /\
    (forall x, (exists p, nth_error (hst_ints st) x = Some p) -> nth_error (hst_ints st') x = nth_error (hst_ints st) x) /\
    (forall x p, nth_error (hst_ints st) x = None -> nth_error (hst_ints st') x = Some p -> (length (hst_heap st) <= p)%nat) /\
    (forall p, used st' p -> used st p \/ (length (hst_heap st) <= p)%nat /\ hst_ints st' = hst_ints st \/
       exists era x, c = C_new_seed era x /\ nth_error (hst_ints st) x = Some p).
Lemma good_simple E c st v o h' : rel (set_heap st h') v -> old (hst_heap st) h' -> h_step E c st = (o, set_heap st h') -> v_step E c v = (o, v) -> good_step E c st v.
Proof.
  intros R O A B. exists o, (set_heap st h'), v. split; [exact A|]. split; [exact B|]. split; [exact O|]. split; [exact R|]. cbn [set_heap hst_ints].
  split; [reflexivity|]. split; [intros x p N Q; congruence|]. intros p U. left. exact U.
Qed.
Lemma ints_bound st v q : rel st v -> In q (hst_ints st) -> (q < length (hst_heap st))%nat.
Proof.
  intros R I. destruct (forall2_in _ _ _ q (rel_ints _ _ R) I) as (n & H). apply nth_error_Some. congruence.
Qed.
Lemma good_int E c st v h' p n : rel st v -> rel (set_heap st h') v -> old (hst_heap st) h' -> nth_error h' p = Some n -> (length (hst_heap st) <= p)%nat ->
  h_step E c st = add_int p (set_heap st h') -> v_step E c v = (Nothing, v_int n v) -> good_step E c st v.
Proof.
  intros R0 R O P L A B. exists Nothing, (snd (add_int p (set_heap st h'))), (v_int n v). unfold add_int in *. cbn [set_heap snd hst_heap hst_ints hst_seeds hst_phrases hst_keys] in *.
  split; [exact A|]. split; [exact B|]. split; [exact O|]. pose proof R as [G W N I S PH K]. cbn [set_heap hst_heap hst_ints hst_seeds hst_phrases hst_keys] in *.
  assert (F : forall q, In q (hst_ints st) -> (q < p)%nat) by (intros q Q; apply (ints_bound st v q R0) in Q; lia).
  split; [constructor; cbn [hst_heap hst_ints hst_seeds hst_phrases hst_keys v_int v_ints v_seeds v_phrases v_keys]; auto|].
  - apply Forall_app. split; [exact W|]. constructor; [|constructor]. pose proof (globals_len _ (rel_globals _ _ R0)). lia.
  - clear - N F. induction (hst_ints st) as [|a l IH]; cbn; [constructor; [intros []|constructor]|]. inversion N; subst. constructor.
    + intros Q. apply in_app_or in Q as [Q|[Q|[]]]; [contradiction|]. subst a. specialize (F p (or_introl eq_refl)). lia.
    + apply IH; [assumption|]. intros q Q. apply F. right. exact Q.
  - apply forall2_snoc; assumption.
  - split; [|split].
    + intros x (q & Q). apply nth_error_app1. apply nth_error_Some. congruence.
    + intros x q Q X. apply nth_error_None in Q. rewrite nth_error_app2 in X by exact Q. destruct (x - length (hst_ints st))%nat as [|k]; [injection X as <-; exact L|destruct k; discriminate].
    + intros q U. left. exact U.
Qed.
Lemma good_seed E c st v h' s t : rel (set_heap st h') v -> old (hst_heap st) h' -> seed_at h' s t ->
  used st (hs_value s) \/ (length (hst_heap st) <= hs_value s)%nat \/ (exists era x, c = C_new_seed era x /\ nth_error (hst_ints st) x = Some (hs_value s)) ->
  h_step E c st = add_seed s (set_heap st h') -> v_step E c v = (Nothing, v_seed t v) -> good_step E c st v.
Proof.
  intros R O P U A B. exists Nothing, (snd (add_seed s (set_heap st h'))), (v_seed t v). unfold add_seed in *. cbn [set_heap snd hst_heap hst_ints hst_seeds hst_phrases hst_keys] in *.
  split; [exact A|]. split; [exact B|]. split; [exact O|]. pose proof R as [G W N I S PH K]. cbn [set_heap hst_heap hst_ints hst_seeds hst_phrases hst_keys] in *.
  split; [constructor; cbn [hst_heap hst_ints hst_seeds hst_phrases hst_keys v_seed v_ints v_seeds v_phrases v_keys]; auto; apply forall2_snoc; assumption|].
  split; [reflexivity|]. split; [intros x p Q X; congruence|]. intros p [(s' & Q & E')|[X|X]]; [|left; right; left; exact X|left; right; right; exact X].
  cbn [hst_seeds] in Q. apply in_app_or in Q as [Q|[Q|[]]]; [left; left; exists s'; auto|]. subst s' p. destruct U as [U|[U|U]]; auto.
Qed.
Lemma good_phrase E c st v h' d t : rel (set_heap st h') v -> old (hst_heap st) h' -> phrase_at h' d t -> fresh_phrase (length (hst_heap st)) d ->
  h_step E c st = add_phrase d (set_heap st h') -> v_step E c v = (Nothing, v_phrase t v) -> good_step E c st v.
Proof.
  intros R O P [F1 F2] A B. exists Nothing, (snd (add_phrase d (set_heap st h'))), (v_phrase t v). unfold add_phrase in *. cbn [set_heap snd hst_heap hst_ints hst_seeds hst_phrases hst_keys] in *.
  split; [exact A|]. split; [exact B|]. split; [exact O|]. pose proof R as [G W N I S PH K]. cbn [set_heap hst_heap hst_ints hst_seeds hst_phrases hst_keys] in *.
  split; [constructor; cbn [hst_heap hst_ints hst_seeds hst_phrases hst_keys v_phrase v_ints v_seeds v_phrases v_keys]; auto; apply forall2_snoc; assumption|].
  split; [reflexivity|]. split; [intros x p Q X; congruence|]. intros p [X|[(d' & Q & E')|X]]; [left; left; exact X| |left; right; right; exact X].
  cbn [hst_phrases] in Q. apply in_app_or in Q as [Q|[Q|[]]]; [left; right; left; exists d'; auto|]. subst d'. right. left. split; [|reflexivity].
  destruct E' as [<-|E']; auto.
Qed.
Lemma good_key E c st v h' k m : rel (set_heap st h') v -> old (hst_heap st) h' -> key_at h' k m -> used st (hs_value (hk_seed k)) ->
  h_step E c st = add_key k (set_heap st h') -> v_step E c v = (Key (mnk_keys m) (mnk_creation m), v_key m v) -> good_step E c st v.
Proof.
  intros R O P U A B. exists (Key (mnk_keys m) (mnk_creation m)), (snd (add_key k (set_heap st h'))), (v_key m v). unfold add_key in *. cbn [set_heap snd hst_heap hst_ints hst_seeds hst_phrases hst_keys] in *.
  pose proof P as (_ & P1 & P2). split; [rewrite A, P1, P2; reflexivity|]. split; [exact B|]. split; [exact O|]. pose proof R as [G W N I S PH K]. cbn [set_heap hst_heap hst_ints hst_seeds hst_phrases hst_keys] in *.
  split; [constructor; cbn [hst_heap hst_ints hst_seeds hst_phrases hst_keys v_key v_ints v_seeds v_phrases v_keys]; auto; apply forall2_snoc; assumption|].
  split; [reflexivity|]. split; [intros x p Q X; congruence|]. intros p [X|[X|(k' & Q & E')]]; [left; left; exact X|left; right; left; exact X|].
  cbn [hst_keys] in Q. apply in_app_or in Q as [Q|[Q|[]]]; [left; right; right; exists k'; auto|]. subst k' p. left. exact U.
Qed.

Lemma having_rel {A B} (P : A -> B -> Prop) l m n : Forall2 P l m ->
  (exists a b, nth_error l n = Some a /\ nth_error m n = Some b /\ In a l /\ P a b) \/ (nth_error l n = None /\ nth_error m n = None).
Proof.
  intros F. pose proof (forall2_nth _ _ _ F n) as H. destruct (nth_error l n) as [a|] eqn:L, (nth_error m n) as [b|]; try contradiction; [left|right; auto].
  exists a, b. split; [reflexivity|]. split; [reflexivity|]. split; [eapply nth_error_In; exact L|exact H].
Qed.
Lemma seed_eta s : mk_seed (seed_era s) (seed_value s) = s. Proof. destruct s; reflexivity. Qed.
Theorem step_good E c st v : rel st v -> writes c = None -> good_step E c st v.
Proof.
  intros R W. pose proof (rel_globals _ _ R) as G.
  assert (RS : rel (set_heap st (hst_heap st)) v) by (rewrite set_heap_same; exact R).
  assert (NOTHING : h_step E c st = (Nothing, st) -> v_step E c v = (Nothing, v) -> good_step E c st v).
  { intros A B. apply (good_simple E c st v Nothing (hst_heap st) RS (old_refl _)); [rewrite set_heap_same; exact A|exact B]. }
  destruct c as [n|x n|x|x n|l|era x|src|s|s|s o|s o pw src|ws|d|d pw|s t o|k|k pw src]; try discriminate W; cbn [h_step v_step] in *; unfold having, with_the in *.
  - (* C_int *)
    apply (good_int E (C_int n) st v (hst_heap st ++ [n]) (length (hst_heap st)) n R); [apply rel_old; [exact R|apply old_app]|apply old_app|apply end0|lia|reflexivity|reflexivity].
  - (* C_read *)
    destruct (having_rel _ _ _ x (rel_ints _ _ R)) as [(p & m & P & M & _ & H)|[P M]]; [|apply NOTHING; [rewrite P|rewrite M]; reflexivity].
    apply (good_simple E (C_read x) st v (An_int m) (hst_heap st) RS (old_refl _)); cbn [h_step v_step]; unfold having, with_the, h_call; rewrite ?P, ?M, ?(load_ok _ _ _ H); reflexivity.
  - (* C_from_indices *)
    destruct (call_does _ st v _ _ add_int R (decode_indices_does (hst_heap st) (hst_heap st) l (old_refl _))) as (h' & O & R' & K).
    destruct (decode_indices l) as [n|e|] eqn:D.
    + destruct K as (p & (L & P & _) & K). apply (good_int E (C_from_indices l) st v h' p n R R' O P L K). cbn [v_step]. rewrite D. reflexivity.
    + apply (good_simple E (C_from_indices l) st v _ h' R' O K). cbn [v_step]. rewrite D. reflexivity.
    + apply (good_simple E (C_from_indices l) st v _ h' R' O K). cbn [v_step]. rewrite D. reflexivity.
  - (* C_new_seed *)
    destruct (having_rel _ _ _ x (rel_ints _ _ R)) as [(p & m & P & M & _ & H)|[P M]]; [|apply NOTHING; [rewrite P|rewrite M]; reflexivity].
    destruct (call_does _ st v _ _ add_seed R (new_seed_does (hst_heap st) (hst_heap st) era p m (old_refl _) H)) as (h' & O & R' & K).
    assert (HS : forall X, h_call (h_new_seed era p) st add_seed = X -> h_step E (C_new_seed era x) st = X) by (intros X <-; cbn [h_step]; unfold having; rewrite P; reflexivity).
    assert (VS : forall X, gives (new_seed era m) v (fun s => (Nothing, v_seed s v)) = X -> v_step E (C_new_seed era x) v = X) by (intros X <-; cbn [v_step]; unfold with_the; rewrite M; reflexivity).
    destruct (new_seed era m) as [t|e|].
    + destruct K as (s & (-> & Q & ->) & K). apply (good_seed E (C_new_seed era x) st v _ (mk_hseed (seed_era t) p) t R' O); [split; [reflexivity|cbn [hs_value]; rewrite Q; exact H]| |apply HS; exact K|apply VS; reflexivity].
      right. right. exists era, x. auto.
    + apply (good_simple E _ st v _ h' R' O (HS _ K)). apply VS. reflexivity.
    + apply (good_simple E _ st v _ h' R' O (HS _ K)). apply VS. reflexivity.
  - (* C_generate_seed *)
    destruct (call_does _ st v _ _ (fun r => add_seed (fst r)) R (generate_seed_does (hst_heap st) (hst_heap st) src G (old_refl _))) as (h' & O & R' & K).
    destruct (generate_seed src) as [[t rest]|e|] eqn:D.
    + destruct K as ([s rest'] & (_ & Q1 & Q2 & Q3 & _) & K). cbn [fst snd] in *. apply (good_seed E (C_generate_seed src) st v h' s t R' O); [split; assumption|auto|exact K|]. cbn [v_step]. rewrite D. reflexivity.
    + apply (good_simple E (C_generate_seed src) st v _ h' R' O K). cbn [v_step]. rewrite D. reflexivity.
    + apply (good_simple E (C_generate_seed src) st v _ h' R' O K). cbn [v_step]. rewrite D. reflexivity.
  - (* C_seed_int *)
    destruct (having_rel _ _ _ s (rel_seeds _ _ R)) as [(hs & t & P & M & _ & [_ H])|[P M]]; [|apply NOTHING; [rewrite P|rewrite M]; reflexivity].
    apply (good_int E (C_seed_int s) st v (hst_heap st ++ [seed_value t]) (length (hst_heap st)) (seed_value t) R); [apply rel_old; [exact R|apply old_app]|apply old_app|apply end0|lia| |].
    + cbn [h_step]. unfold having, h_call. rewrite P. unfold h_seed_int. rewrite (copy_ok _ _ _ H). reflexivity.
    + cbn [v_step]. unfold with_the. rewrite M. reflexivity.
  - (* C_seed_bytes *)
    destruct (having_rel _ _ _ s (rel_seeds _ _ R)) as [(hs & t & P & M & _ & [Er H])|[P M]]; [|apply NOTHING; [rewrite P|rewrite M]; reflexivity].
    destruct (call_does _ st v _ _ (fun b st => (Bytes b, st)) R (seed_bytes_does (hst_heap st) (hst_heap st) hs _ (old_refl _) H)) as (h' & O & R' & K). rewrite Er, seed_eta in K.
    assert (HS : forall X, h_call (h_seed_bytes hs) st (fun b st => (Bytes b, st)) = X -> h_step E (C_seed_bytes s) st = X) by (intros X <-; cbn [h_step]; unfold having; rewrite P; reflexivity).
    assert (VS : forall X, gives (seed_bytes t) v (fun b => (Bytes b, v)) = X -> v_step E (C_seed_bytes s) v = X) by (intros X <-; cbn [v_step]; unfold with_the; rewrite M; reflexivity).
    destruct (seed_bytes t) as [b|e|]; [destruct K as (b' & (-> & _) & K)|..]; apply (good_simple E _ st v _ h' R' O (HS _ K)); apply VS; reflexivity.
  - (* C_plaintext *)
    destruct (having_rel _ _ _ s (rel_seeds _ _ R)) as [(hs & t & P & M & _ & [Er H])|[P M]]; [|apply NOTHING; [rewrite P|rewrite M]; reflexivity].
    destruct (call_does _ st v _ _ (fun b st => (Words b, st)) R (plaintext_does E (hst_heap st) (hst_heap st) hs _ o G (old_refl _) H)) as (h' & O & R' & K). rewrite Er, seed_eta in K.
    assert (HS : forall X, h_call (h_encode_plaintext E hs o) st (fun b st => (Words b, st)) = X -> h_step E (C_plaintext s o) st = X) by (intros X <-; cbn [h_step]; unfold having; rewrite P; reflexivity).
    assert (VS : forall X, gives (encode_mnemonic_plaintext E t o) v (fun b => (Words b, v)) = X -> v_step E (C_plaintext s o) v = X) by (intros X <-; cbn [v_step]; unfold with_the; rewrite M; reflexivity).
    destruct (encode_mnemonic_plaintext E t o) as [b|e|]; [destruct K as (b' & -> & K)|..]; apply (good_simple E _ st v _ h' R' O (HS _ K)); apply VS; reflexivity.
  - (* C_encrypted *)
    destruct (having_rel _ _ _ s (rel_seeds _ _ R)) as [(hs & t & P & M & _ & [Er H])|[P M]]; [|apply NOTHING; [rewrite P|rewrite M]; reflexivity].
    destruct (call_does _ st v _ _ (fun b st => (Words b, st)) R (encrypted_does E (hst_heap st) (hst_heap st) hs _ o pw src G (old_refl _) H)) as (h' & O & R' & K). rewrite Er, seed_eta in K.
    assert (HS : forall X, h_call (h_encode_encrypted E hs o pw src) st (fun b st => (Words b, st)) = X -> h_step E (C_encrypted s o pw src) st = X) by (intros X <-; cbn [h_step]; unfold having; rewrite P; reflexivity).
    assert (VS : forall X, gives (encode_mnemonic_encrypted E t o pw src) v (fun b => (Words b, v)) = X -> v_step E (C_encrypted s o pw src) v = X) by (intros X <-; cbn [v_step]; unfold with_the; rewrite M; reflexivity).
    destruct (encode_mnemonic_encrypted E t o pw src) as [b|e|]; [destruct K as (b' & -> & K)|..]; apply (good_simple E _ st v _ h' R' O (HS _ K)); apply VS; reflexivity.
  - (* C_decode *)
    destruct (call_does _ st v _ _ add_phrase R (decode_does E (hst_heap st) ws G)) as (h' & O & R' & K).
    destruct (decode_mnemonic E ws) as [t|e|] eqn:D.
    + destruct K as (d & (Q1 & Q2) & K). apply (good_phrase E (C_decode ws) st v h' d t R' O Q1 Q2 K). cbn [v_step]. rewrite D. reflexivity.
    + apply (good_simple E (C_decode ws) st v _ h' R' O K). cbn [v_step]. rewrite D. reflexivity.
    + apply (good_simple E (C_decode ws) st v _ h' R' O K). cbn [v_step]. rewrite D. reflexivity.
  - (* C_dm_seed *)
    destruct (having_rel _ _ _ d (rel_phrases _ _ R)) as [(hd & t & P & M & IN & H)|[P M]]; [|apply NOTHING; [rewrite P|rewrite M]; reflexivity].
    destruct (call_does _ st v _ _ add_seed R (dm_seed_does (hst_heap st) hd t H)) as (h' & O & R' & K).
    assert (HS : forall X, h_call (h_dm_seed hd) st add_seed = X -> h_step E (C_dm_seed d) st = X) by (intros X <-; cbn [h_step]; unfold having; rewrite P; reflexivity).
    assert (VS : forall X, gives (dm_seed t) v (fun s => (Nothing, v_seed s v)) = X -> v_step E (C_dm_seed d) v = X) by (intros X <-; cbn [v_step]; unfold with_the; rewrite M; reflexivity).
    destruct (dm_seed t) as [s|e|].
    + destruct K as (s' & (-> & Q) & K). apply (good_seed E (C_dm_seed d) st v h' (mk_hseed (seed_era s) (hd_entropy hd)) s R' O); [split; [reflexivity|exact Q]| |apply HS; exact K|apply VS; reflexivity].
      left. right. left. exists hd. auto.
    + apply (good_simple E _ st v _ h' R' O (HS _ K)). apply VS. reflexivity.
    + apply (good_simple E _ st v _ h' R' O (HS _ K)). apply VS. reflexivity.
  - (* C_decrypt *)
    destruct (having_rel _ _ _ d (rel_phrases _ _ R)) as [(hd & t & P & M & IN & H)|[P M]]; [|apply NOTHING; [rewrite P|rewrite M]; reflexivity].
    destruct (call_does _ st v _ _ add_seed R (decrypt_does E (hst_heap st) hd t pw G H)) as (h' & O & R' & K).
    assert (HS : forall X, h_call (h_decrypt_seed E hd pw) st add_seed = X -> h_step E (C_decrypt d pw) st = X) by (intros X <-; cbn [h_step]; unfold having; rewrite P; reflexivity).
    assert (VS : forall X, gives (dm_decrypt_seed E t pw) v (fun s => (Nothing, v_seed s v)) = X -> v_step E (C_decrypt d pw) v = X) by (intros X <-; cbn [v_step]; unfold with_the; rewrite M; reflexivity).
    destruct (dm_decrypt_seed E t pw) as [s|e|].
    + destruct K as (s' & (Q1 & Q2 & Q3) & K). apply (good_seed E (C_decrypt d pw) st v h' s' s R' O); [split; assumption| |apply HS; exact K|apply VS; reflexivity].
      destruct Q3 as [Q3|Q3]; [|auto]. left. right. left. exists hd. auto.
    + apply (good_simple E _ st v _ h' R' O (HS _ K)). apply VS. reflexivity.
    + apply (good_simple E _ st v _ h' R' O (HS _ K)). apply VS. reflexivity.
  - (* C_new_key *)
    destruct (having_rel _ _ _ s (rel_seeds _ _ R)) as [(hs & u & P & M & IN & [Er H])|[P M]]; [|apply NOTHING; [rewrite P|rewrite M]; reflexivity].
    destruct (call_does _ st v _ _ add_key R (new_key_does E (hst_heap st) hs _ t o H)) as (h' & O & R' & K). rewrite Er, seed_eta in K.
    assert (HS : forall X, h_call (h_new_key E hs t o) st add_key = X -> h_step E (C_new_key s t o) st = X) by (intros X <-; cbn [h_step]; unfold having; rewrite P; reflexivity).
    assert (VS : forall X, gives (mnk_new E u t o) v (fun k => (Key (mnk_keys k) (mnk_creation k), v_key k v)) = X -> v_step E (C_new_key s t o) v = X) by (intros X <-; cbn [v_step]; unfold with_the; rewrite M; reflexivity).
    destruct (mnk_new E u t o) as [k|e|].
    + destruct K as (k' & (-> & Q & ->) & K). apply (good_key E (C_new_key s t o) st v _ (mk_hk hs k) k R' O); [|left; exists hs; auto|apply HS; exact K|apply VS; reflexivity].
      split; [|auto]. rewrite Q. split; assumption.
    + apply (good_simple E _ st v _ h' R' O (HS _ K)). apply VS. reflexivity.
    + apply (good_simple E _ st v _ h' R' O (HS _ K)). apply VS. reflexivity.
  - (* C_key_plaintext *)
    destruct (having_rel _ _ _ k (rel_keys _ _ R)) as [(hk & m & P & M & IN & ([Er H] & KK & KC))|[P M]]; [|apply NOTHING; [rewrite P|rewrite M]; reflexivity].
    destruct (call_does _ st v _ _ (fun b st => (Words b, st)) R (plaintext_does E (hst_heap st) (hst_heap st) (hk_seed hk) _ (mnk_creation_offset (hk_key hk)) G (old_refl _) H)) as (h' & O & R' & K).
    rewrite Er, seed_eta in K. assert (OF : mnk_creation_offset (hk_key hk) = mnk_creation_offset m) by (unfold mnk_creation_offset; rewrite KC; reflexivity). rewrite OF in K.
    assert (HS : forall X, h_call (h_encode_plaintext E (hk_seed hk) (mnk_creation_offset (hk_key hk))) st (fun b st => (Words b, st)) = X -> h_step E (C_key_plaintext k) st = X) by (intros X <-; cbn [h_step]; unfold having; rewrite P; reflexivity).
    assert (VS : forall X, gives (mnk_encode_plaintext E m) v (fun b => (Words b, v)) = X -> v_step E (C_key_plaintext k) v = X) by (intros X <-; cbn [v_step]; unfold with_the; rewrite M; reflexivity).
    unfold mnk_encode_plaintext in VS. rewrite OF in HS.
    destruct (encode_mnemonic_plaintext E (mnk_seed m) (mnk_creation_offset m)) as [b|e|]; [destruct K as (b' & -> & K)|..]; apply (good_simple E _ st v _ h' R' O (HS _ K)); apply VS; reflexivity.
  - (* C_key_encrypted *)
    destruct (having_rel _ _ _ k (rel_keys _ _ R)) as [(hk & m & P & M & IN & ([Er H] & KK & KC))|[P M]]; [|apply NOTHING; [rewrite P|rewrite M]; reflexivity].
    destruct (call_does _ st v _ _ (fun b st => (Words b, st)) R (encrypted_does E (hst_heap st) (hst_heap st) (hk_seed hk) _ (mnk_creation_offset (hk_key hk)) pw src G (old_refl _) H)) as (h' & O & R' & K).
    rewrite Er, seed_eta in K. assert (OF : mnk_creation_offset (hk_key hk) = mnk_creation_offset m) by (unfold mnk_creation_offset; rewrite KC; reflexivity). rewrite OF in K.
    assert (HS : forall X, h_call (h_encode_encrypted E (hk_seed hk) (mnk_creation_offset (hk_key hk)) pw src) st (fun b st => (Words b, st)) = X -> h_step E (C_key_encrypted k pw src) st = X) by (intros X <-; cbn [h_step]; unfold having; rewrite P; reflexivity).
    assert (VS : forall X, gives (mnk_encode_encrypted E m pw src) v (fun b => (Words b, v)) = X -> v_step E (C_key_encrypted k pw src) v = X) by (intros X <-; cbn [v_step]; unfold with_the; rewrite M; reflexivity).
    unfold mnk_encode_encrypted in VS. rewrite OF in HS.
    destruct (encode_mnemonic_encrypted E (mnk_seed m) (mnk_creation_offset m) pw src) as [b|e|]; [destruct K as (b' & -> & K)|..]; apply (good_simple E _ st v _ h' R' O (HS _ K)); apply VS; reflexivity.
Qed.

(** ** Calls that write *)
Lemma used_bound st v p : rel st v -> used st p -> (p < length (hst_heap st))%nat.
Proof.
  intros R [(s & I & <-)|[(d & I & E)|(k & I & <-)]].
  - destruct (forall2_in _ _ _ s (rel_seeds _ _ R) I) as (t & _ & H). exact (nth_lt _ _ _ H).
  - destruct (forall2_in _ _ _ d (rel_phrases _ _ R) I) as (t & _ & H & _ & _ & S). destruct E as [<-|E]; [exact (nth_lt _ _ _ H)|].
    rewrite E in S. exact (nth_lt _ _ _ S).
  - destruct (forall2_in _ _ _ k (rel_keys _ _ R) I) as (t & (_ & H) & _). exact (nth_lt _ _ _ H).
Qed.
Lemma forall2_ex {A B} (P : A -> B -> Prop) l : (forall a, In a l -> exists b, P a b) -> exists m, Forall2 P l m.
Proof.
  induction l as [|a l IH]; intros H; [exists []; constructor|]. destruct (H a (or_introl eq_refl)) as (b & B'). destruct IH as (m & M); [intros x X; apply H; right; exact X|].
  exists (b :: m). constructor; assumption.
Qed.
Lemma nth_ex {A} (l : list A) p : (p < length l)%nat -> exists v, nth_error l p = Some v.
Proof. intros L. destruct (nth_error l p) as [v|] eqn:E; [exists v; reflexivity|]. apply nth_error_None in E. lia. Qed.
(** with any other contents of memory there are other values *)
Lemma reread st v h' : rel st v -> globals h' -> (length (hst_heap st) <= length h')%nat -> exists v', rel (set_heap st h') v'.
Proof.
  intros R G L. pose proof R as [_ W N I S P K].
  destruct (forall2_ex (fun (p : ptr) (n : Z) => nth_error h' p = Some n) (hst_ints st)) as (vi & VI).
  { intros p Q. apply (ints_bound _ _ _ R) in Q. apply nth_ex. lia. }
  destruct (forall2_ex (seed_at h') (hst_seeds st)) as (vs & VS).
  { intros s Q. destruct (nth_ex h' (hs_value s)) as (n & X); [|exists (mk_seed (hs_era s) n); split; [reflexivity|exact X]].
    enough (hs_value s < length (hst_heap st))%nat by lia. apply (used_bound _ _ _ R). left. exists s. auto. }
  destruct (forall2_ex (phrase_at h') (hst_phrases st)) as (vp & VP).
  { intros d Q. destruct (nth_ex h' (hd_entropy d)) as (n & X).
    { enough (hd_entropy d < length (hst_heap st))%nat by lia. apply (used_bound _ _ _ R). right. left. exists d. auto. }
    destruct (hd_salt d) as [q|] eqn:HS.
    - destruct (nth_ex h' q) as (u & Y).
      { enough (q < length (hst_heap st))%nat by lia. apply (used_bound _ _ _ R). right. left. exists d. auto. }
      destruct (forall2_in _ _ _ d P Q) as (t & V & _ & A & B & C). rewrite HS in C.
      exists (mk_decoded (dm_version t) n u (dm_verify t) (dm_offset t)). unfold phrase_at. cbn [dm_version dm_entropy dm_verify dm_offset dm_salt]. rewrite HS. auto 10.
    - destruct (forall2_in _ _ _ d P Q) as (t & V & _ & A & B & C). rewrite HS in C.
      exists (mk_decoded (dm_version t) n (dm_salt t) (dm_verify t) (dm_offset t)). unfold phrase_at. cbn [dm_version dm_entropy dm_verify dm_offset dm_salt]. rewrite HS. auto 10. }
  destruct (forall2_ex (key_at h') (hst_keys st)) as (vk & VK).
  { intros k Q. destruct (nth_ex h' (hs_value (hk_seed k))) as (n & X).
    { enough (hs_value (hk_seed k) < length (hst_heap st))%nat by lia. apply (used_bound _ _ _ R). right. right. exists k. auto. }
    exists (mk_mnk (mnk_keys (hk_key k)) (mk_seed (hs_era (hk_seed k)) n) (mnk_creation (hk_key k))). split; [split; [reflexivity|exact X]|split; reflexivity]. }
  exists (mk_values vi vs vp vk). constructor; cbn [set_heap hst_heap hst_ints hst_seeds hst_phrases hst_keys v_ints v_seeds v_phrases v_keys]; assumption.
Qed.

Lemma but_refl p h : but p h h. Proof. split; [lia|auto]. Qed.
Lemma globals_but h h' p : globals h -> but p h h' -> (2 <= p)%nat -> globals h'.
Proof. intros [A B] [_ H] L. split; apply H; try assumption; unfold big_one, big_mask; lia. Qed.
Lemma rel_change st v h' x p n : rel st v -> nth_error (hst_ints st) x = Some p -> ~ used st p -> but p (hst_heap st) h' -> nth_error h' p = Some n ->
  rel (set_heap st h') (v_change x n v).
Proof.
  intros R X U B P. pose proof R as [G W N I S PH K]. assert (P2 : (2 <= p)%nat) by (rewrite Forall_forall in W; apply W; eapply nth_error_In; exact X).
  constructor; cbn [set_heap hst_heap hst_ints hst_seeds hst_phrases hst_keys v_change v_ints v_seeds v_phrases v_keys]; auto.
  - eapply globals_but; eauto.
  - clear - N I X B P. revert x X. induction I as [|q m l vs H I IH]; intros [|x] X; try discriminate; inversion N as [|? ? NI N']; subst.
    + injection X as ->. cbn [firstn skipn app]. constructor; [exact P|]. eapply forall2_impl; [|exact I]. intros q u Q. apply (but_at _ _ _ _ _ B). intros ->. contradiction.
    + cbn [firstn skipn app]. constructor; [|apply IH; [exact N'|exact X]]. apply (but_at _ _ _ _ _ B); [|exact H]. intros ->. apply NI. cbn in X. eapply nth_error_In. exact X.
  - eapply forall2_impl; [|exact S]. intros s t Q. apply seed_at_keeps. intros u. apply (but_at _ _ _ _ _ B). intros E. apply U. left. exists s. auto.
  - eapply forall2_impl; [|exact PH]. intros d t Q. apply phrase_at_keeps. intros q u [->|E]; apply (but_at _ _ _ _ _ B); intros E'; apply U; right; left; exists d; subst; auto.
  - eapply forall2_impl; [|exact K]. intros k m Q (A & A'). split; [|exact A']. revert A. apply seed_at_keeps. intros u. apply (but_at _ _ _ _ _ B). intros E. apply U. right. right. exists k. auto.
Qed.
Lemma rel_no_change st v x m : nth_error (v_ints v) x = Some m -> rel st v -> rel st (v_change x m v).
Proof.
  intros X R. assert (E : v_change x m v = v); [|rewrite E; exact R]. destruct v as [vi vs vp vk]. unfold v_change. cbn [v_ints v_seeds v_phrases v_keys] in *. f_equal.
  exact (put_id vi x m X).
Qed.

(** what a writing call does *)
Lemma write_step E c st v x p : rel st v -> writes c = Some x -> nth_error (hst_ints st) x = Some p ->
  exists o h', h_step E c st = (o, set_heap st h') /\ but p (hst_heap st) h' /\
    (~ used st p -> exists v', v_step E c v = (o, v') /\ (o = Panicked \/ rel (set_heap st h') v')).
Proof.
  intros R W X. destruct (having_rel _ _ _ x (rel_ints _ _ R)) as [(q & m & Q & M & _ & H)|[Q M]]; [|congruence]. rewrite X in Q. injection Q as <-.
  assert (P2 : (2 <= p)%nat) by (pose proof (rel_own _ _ R) as F; rewrite Forall_forall in F; apply F; eapply nth_error_In; exact X).
  pose proof (nth_lt _ _ _ H) as L.
  destruct c; try discriminate W; cbn [writes] in W; injection W as ->; cbn [h_step v_step]; unfold having, with_the, h_call; rewrite X, M.
  - rewrite (store_ok _ _ _ _ H). exists Nothing, (put (hst_heap st) p v0). split; [reflexivity|].
    assert (B : but p (hst_heap st) (put (hst_heap st) p v0)) by (rewrite <- (app_nil_r (put _ _ _)); apply but_put; exact L).
    split; [exact B|]. intros U. eexists. split; [reflexivity|]. right. eapply rel_change; eauto. rewrite put_nth by exact L. rewrite Nat.eqb_refl. reflexivity.
  - pose proof (to_indices_ok (hst_heap st) p m bit_size (rel_globals _ _ R) H P2) as T. destruct (encode_to_indices m bit_size) as [[l rem]|e|]; cbn [gives fst snd].
    + destruct T as (h' & T & B & P). rewrite T. exists (Indices l), h'. split; [reflexivity|]. split; [exact B|]. intros U. eexists. split; [reflexivity|]. right. eapply rel_change; eauto.
    + rewrite T. exists (Failed e), (hst_heap st). split; [reflexivity|]. split; [apply but_refl|]. intros U. exists v. split; [reflexivity|]. right. rewrite set_heap_same. exact R.
    + destruct T as (h' & T & B). rewrite T. exists Panicked, h'. split; [reflexivity|]. split; [exact B|]. intros U. exists v. split; [reflexivity|]. left. reflexivity.
Qed.
Lemma write_nothing E c st v x : rel st v -> writes c = Some x -> nth_error (hst_ints st) x = None -> h_step E c st = (Nothing, st) /\ v_step E c v = (Nothing, v).
Proof.
  intros R W X. destruct (having_rel _ _ _ x (rel_ints _ _ R)) as [(q & m & Q & M & _ & H)|[Q M]]; [congruence|].
  destruct c; try discriminate W; cbn [writes] in W; injection W as ->; cbn [h_step v_step]; unfold having, with_the; rewrite X, M; auto.
Qed.

(** ** Runs *)
(** an integer of the program that a seed, a phrase or a key uses is in [G] *)
Definition sep (G : nat -> Prop) (st : h_state) : Prop := forall x p, nth_error (hst_ints st) x = Some p -> used st p -> G x.
Definition gives_away (c : call) (x : nat) : Prop := exists era, c = C_new_seed era x.
Lemma sep_step E c st v (G : nat -> Prop) : rel st v -> sep G st -> sep (fun x => G x \/ gives_away c x) (snd (h_step E c st)).
Proof.
  intros R S. destruct (writes c) as [x|] eqn:W.
  - destruct (nth_error (hst_ints st) x) as [p|] eqn:X.
    + destruct (write_step E c st v x p R W X) as (o & h' & A & _). rewrite A. cbn [snd]. intros y q Y U. left. exact (S y q Y U).
    + destruct (write_nothing E c st v x R W X) as [A _]. rewrite A. intros y q Y U. left. exact (S y q Y U).
  - destruct (step_good E c st v R W) as (o & st' & v' & A & _ & O & R' & I1 & I2 & U'). rewrite A. cbn [snd]. intros y q Y U.
    assert (KEY : (q < length (hst_heap st))%nat -> nth_error (hst_ints st) y = Some q).
    { intros L. destruct (nth_error (hst_ints st) y) as [q'|] eqn:N; [|pose proof (I2 _ _ N Y); lia]. rewrite <- Y, I1 by (exists q'; exact N). congruence. }
    destruct (U' q U) as [U0|[[L EQ]|(era & z & -> & Z)]].
    + left. apply (S y q); [|exact U0]. apply KEY. exact (used_bound _ _ _ R U0).
    + rewrite EQ in Y. apply nth_error_In in Y. apply (ints_bound _ _ _ R) in Y. lia.
    + right. exists era. f_equal. pose proof (ints_bound _ _ _ R (nth_error_In _ _ Z)) as L. specialize (KEY L).
      pose proof (proj1 (NoDup_nth_error (hst_ints st)) (rel_distinct _ _ R) z y) as D. apply D; [apply nth_error_Some; congruence|congruence].
Qed.
Lemma rel_step E c st v : rel st v -> exists v', rel (snd (h_step E c st)) v'.
Proof.
  intros R. destruct (writes c) as [x|] eqn:W.
  - destruct (nth_error (hst_ints st) x) as [p|] eqn:X.
    + destruct (write_step E c st v x p R W X) as (o & h' & A & B & _). rewrite A. apply (reread st v h' R); [|apply B].
      eapply globals_but; [apply R|exact B|]. pose proof (rel_own _ _ R) as F; rewrite Forall_forall in F; apply F; eapply nth_error_In; exact X.
    + destruct (write_nothing E c st v x R W X) as [A _]. rewrite A. exists v. exact R.
  - destruct (step_good E c st v R W) as (o & st' & v' & A & _ & O & R' & _). rewrite A. exists v'. exact R'.
Qed.
Lemma rel_init : rel h_init v_init.
Proof. constructor; cbn [h_init hst_heap hst_ints hst_seeds hst_phrases hst_keys v_init v_ints v_seeds v_phrases v_keys]; constructor; reflexivity. Qed.
Lemma sep_init G : sep G h_init.
Proof. intros x p X. destruct x; discriminate X. Qed.

Lemma run_rel E calls st v G : rel st v -> sep G st ->
  (exists v', rel (snd (h_run E calls st)) v') /\ sep (fun x => G x \/ exists c, In c calls /\ gives_away c x) (snd (h_run E calls st)).
Proof.
  revert st v G. induction calls as [|c calls IH]; intros st v G R S; cbn [h_run].
  - split; [exists v; exact R|]. intros x p X U. left. exact (S x p X U).
  - destruct (rel_step E c st v R) as (v1 & R1). pose proof (sep_step E c st v G R S) as S1. destruct (h_step E c st) as [o st1]. cbn [snd] in R1, S1.
    destruct (IH st1 v1 _ R1 S1) as [R2 S2]. destruct (h_run E calls st1) as [os st2]. cbn [snd] in R2, S2.
    destruct o; cbn [snd]; try (split; [exact R2|intros x p X U; destruct (S2 x p X U) as [[A|A]|(d & D & A)]; [left; exact A|right; exists c; split; [left; reflexivity|exact A]|right; exists d; split; [right; exact D|exact A]]]).
    split; [exists v1; exact R1|]. intros x p X U. destruct (S1 x p X U) as [A|A]; [left; exact A|right; exists c; split; [left; reflexivity|exact A]].
Qed.
Lemma run_same E calls given st v : rel st v -> sep (fun x => In x given) st -> careful given calls -> fst (h_run E calls st) = v_run E calls v.
Proof.
  revert given st v. induction calls as [|c calls IH]; intros given st v R S C; [reflexivity|]. cbn [h_run v_run].
  assert (NEXT : forall o st' v', h_step E c st = (o, st') -> v_step E c v = (o, v') -> o = Panicked \/ rel st' v' ->
    fst (let (o, st) := h_step E c st in match o with Panicked => ([Panicked], st) | _ => let (os, st) := h_run E calls st in (o :: os, st) end) =
    (let (o, v) := v_step E c v in match o with Panicked => [Panicked] | _ => o :: v_run E calls v end)).
  { intros o st' v' A B R'. pose proof (sep_step E c st v _ R S) as S'. rewrite A, B in *. cbn [snd] in S'.
    assert (T : rel st' v' -> fst (h_run E calls st') = v_run E calls v').
    { intros R''. destruct c; cbn [careful] in C;
        try (apply (IH given st' v' R''); [intros y p Y U; destruct (S' y p Y U) as [K|(era' & K)]; [exact K|discriminate K]|first [exact C|exact (proj2 C)]]).
      apply (IH (x :: given) st' v' R''); [|exact C]. intros y p Y U. destruct (S' y p Y U) as [K|(era' & K)]; [right; exact K|injection K as -> ->; left; reflexivity]. }
    destruct (h_run E calls st') as [os st'']. cbn [fst] in T.
    destruct o; cbn [fst]; try reflexivity; (destruct R' as [R'|R']; [discriminate R'|]; rewrite (T R'); reflexivity). }
  destruct (writes c) as [x|] eqn:W.
  - assert (CX : ~ In x given) by (destruct c; try discriminate W; injection W as ->; exact (proj1 C)).
    destruct (nth_error (hst_ints st) x) as [p|] eqn:X.
    + destruct (write_step E c st v x p R W X) as (o & h' & A & _ & K). destruct K as (v' & B & R'); [intros U; apply CX; exact (S x p X U)|]. exact (NEXT _ _ _ A B R').
    + destruct (write_nothing E c st v x R W X) as [A B]. exact (NEXT _ _ _ A B (or_intror R)).
  - destruct (step_good E c st v R W) as (o & st' & v' & A & B & _ & R' & _). exact (NEXT _ _ _ A B (or_intror R')).
Qed.
