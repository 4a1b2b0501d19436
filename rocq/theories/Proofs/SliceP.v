(** Functions on slices in memory against the functions on lists of bytes: same results, in new arrays, and no array
    that was there before is written. *)
From Coq Require Import Lia ZifyBool ZifyNat.
From Verif.Model Require Import GoBase Env GoTime Seed Encoding PgpWire PgpS2k PgpKeys SliceHeap.
From Verif.Spec Require Import SliceSpec.
From Verif.Proofs Require Import BitsP.

(** ** Memory *)
Lemma ext_refl m : extends m m. Proof. exists []. rewrite app_nil_r. reflexivity. Qed.
Lemma ext_app m l : extends m (m ++ l). Proof. exists l. reflexivity. Qed.
Lemma ext_trans a b c : extends a b -> extends b c -> extends a c.
Proof. intros [l ->] [l' ->]. exists (l ++ l'). symmetry. apply app_assoc. Qed.
Lemma ext_len a b : extends a b -> (length a <= length b)%nat.
Proof. intros [l ->]. rewrite app_length. lia. Qed.
Lemma array_ext m m' i : extends m m' -> (i < length m)%nat -> array m' i = array m i.
Proof. intros [l ->] L. unfold array. apply app_nth1. exact L. Qed.
Lemma in_ext m m' s : extends m m' -> in_memory m s -> in_memory m' s.
Proof. intros X (A & B & C). pose proof (ext_len _ _ X). unfold in_memory. rewrite (array_ext _ _ _ X A). lia. Qed.
Lemma content_ext m m' s : extends m m' -> in_memory m s -> content m' s = content m s.
Proof. intros X (A & _). unfold content. rewrite (array_ext _ _ _ X A). reflexivity. Qed.
Lemma content_len m s : in_memory m s -> length (content m s) = sl_len s.
Proof. intros (A & B & C). unfold content. rewrite firstn_length, skipn_length. lia. Qed.

Lemma array_end (m : arrays) (a : bytes) : array (m ++ [a]) (length m) = a.
Proof. unfold array. rewrite app_nth2, Nat.sub_diag by lia. reflexivity. Qed.
Lemma content_end (m : arrays) (a : bytes) n c : content (m ++ [a]) (mk_slice (length m) 0 n c) = firstn n a.
Proof. unfold content. cbn [sl_at sl_off sl_len]. rewrite array_end. reflexivity. Qed.
Lemma in_end (m : arrays) (a : bytes) n c : (n <= c)%nat -> (c <= length a)%nat -> in_memory (m ++ [a]) (mk_slice (length m) 0 n c).
Proof. intros L K. unfold in_memory. cbn [sl_at sl_off sl_len sl_cap]. rewrite array_end, app_length. cbn [length]. lia. Qed.

Lemma splice_len a i b : (i + length b <= length a)%nat -> length (splice a i b) = length a.
Proof. intros L. unfold splice. rewrite !app_length, firstn_length, skipn_length. lia. Qed.
Lemma splice_mid a z c b : length z = length b -> splice (a ++ z ++ c) (length a) b = a ++ b ++ c.
Proof.
  intros L. unfold splice. rewrite firstn_app, Nat.sub_diag, firstn_all, firstn_O, app_nil_r. f_equal. f_equal.
  rewrite app_assoc, skipn_app, skipn_all2 by (rewrite app_length; lia). rewrite app_length, L, Nat.sub_diag. reflexivity.
Qed.
Lemma set_array_len m i a : (i < length m)%nat -> length (set_array m i a) = length m.
Proof. intros L. unfold set_array. rewrite app_length, firstn_length. cbn [length]. rewrite skipn_length. lia. Qed.
Lemma set_array_nth m i a j : (i < length m)%nat -> array (set_array m i a) j = if Nat.eqb j i then a else array m j.
Proof.
  unfold set_array, array. revert m j. induction i as [|i IH]; intros [|x m] [|j] L; cbn [length] in L; try lia; try reflexivity.
  cbn [firstn skipn app nth Nat.eqb]. apply IH. lia.
Qed.
Lemma set_array_tail m e i a : set_array (m ++ e) (length m + i) a = m ++ set_array e i a.
Proof. unfold set_array. induction m as [|x m IH]; [reflexivity|]. cbn [length Nat.add app firstn skipn]. f_equal. exact IH. Qed.
Lemma set_array_end m a b : set_array (m ++ [a]) (length m) b = m ++ [b].
Proof. rewrite <- (Nat.add_0_r (length m)) at 1. rewrite set_array_tail. reflexivity. Qed.
Lemma set_array_ext m0 m i a : extends m0 m -> (length m0 <= i)%nat -> extends m0 (set_array m i a).
Proof. intros [e ->] L. replace i with (length m0 + (i - length m0))%nat by lia. rewrite set_array_tail. apply ext_app. Qed.

Lemma bind_eq {A B} (f : sm A) (g : A -> sm B) : forall h,
  s_bind f g h = match f h with (Ok a, h') => g a h' | (Err e, h') => (Err e, h') | (Panic, h') => (Panic, h') end.
Proof. induction f as [[a|e|]|s k IH|b room k IH|s i b k IH|n k IH]; intros h; cbn [s_bind s_run]; try reflexivity; apply IH. Qed.
Lemma bind_ret {A B} (a : A) (g : A -> sm B) h : s_bind (s_ret a) g h = g a h.
Proof. reflexivity. Qed.
Lemma put_end (m : arrays) (a : bytes) n c i b t : s_put (mk_slice (length m) 0 n c) i b (m ++ [a], t) = (Ok tt, (m ++ [splice a i b], t)).
Proof. unfold s_put. cbn [s_run fst snd s_ret]. unfold m_put. cbn [sl_at sl_off Nat.add]. rewrite array_end, set_array_end. reflexivity. Qed.

(** writing into an array *)
Lemma put_other m k p b u : (k < length m)%nat -> (p + length b <= length (array m k))%nat -> in_memory m u ->
  sl_at u <> k \/ (sl_off u + sl_len u <= p)%nat ->
  in_memory (set_array m k (splice (array m k) p b)) u /\ content (set_array m k (splice (array m k) p b)) u = content m u.
Proof.
  intros K P (A & B & C) D. unfold in_memory, content. rewrite set_array_len, set_array_nth by exact K.
  destruct (Nat.eqb_spec (sl_at u) k) as [<-|N]; [|split; [lia|reflexivity]].
  rewrite splice_len by exact P. split; [lia|]. destruct D as [D|D]; [congruence|]. unfold splice.
  rewrite skipn_app, firstn_app, !skipn_length, !firstn_length.
  replace (sl_len u - _)%nat with 0%nat by lia. rewrite firstn_O, app_nil_r, skipn_firstn_comm, firstn_firstn. f_equal. lia.
Qed.

Lemma skipn_plus {A} i j (l : list A) : skipn i (skipn j l) = skipn (j + i) l.
Proof. revert l. induction j as [|j IH]; intros [|a l]; cbn [skipn Nat.add]; rewrite ?skipn_nil; auto. Qed.

Lemma subs_ext m m' l : extends m m' -> Forall (in_memory m) (map hb_body l) -> Forall (in_memory m') (map hb_body l) /\ map (see_sub m') l = map (see_sub m) l.
Proof.
  intros X. induction l as [|s l IH]; intros F; [split; [constructor|reflexivity]|]. cbn [map] in *. inversion F as [|? ? A B]; subst.
  destruct (IH B) as [P Q]. split; [constructor; [apply (in_ext m); assumption|exact P]|]. f_equal; [|exact Q]. unfold see_sub. rewrite (content_ext m) by assumption. reflexivity.
Qed.
Lemma forall_in_ext m m' l : extends m m' -> Forall (in_memory m) l -> Forall (in_memory m') l.
Proof. intros X. apply Forall_impl. intros s. apply in_ext. exact X. Qed.
(** what is known of memory [a] is so in memory [b] *)
Ltac advance X := lazymatch type of X with extends ?a ?b =>
  repeat match goal with C : content a ?u = ?v, H : in_memory a ?u |- _ => rewrite <- (content_ext a b u X H) in C end;
  repeat match goal with S : map (see_sub a) ?l = _, F : Forall (in_memory a) (map hb_body ?l) |- _ => rewrite <- (proj2 (subs_ext a b l X F)) in S end;
  repeat match goal with H : in_memory a ?u |- _ => apply (in_ext a b u X) in H end;
  repeat match goal with H : Forall (in_memory a) ?l |- _ => apply (forall_in_ext a b l X) in H end;
  lazymatch goal with H : extends ?m a |- _ =>
    let L := fresh in pose proof (ext_len _ _ H) as L;
    repeat match goal with N : (length a <= sl_at ?u)%nat |- _ => apply (Nat.le_trans _ _ _ L) in N end;
    clear L; apply (fun H => ext_trans m a b H X) in H; clear X
  end end.

Section Code.
Variable E : Env.
Variable G : nat -> nat -> nat.

(** [f], called with memory [m], puts [b] into a new array *)
Definition makes (f : sm slice) (m : arrays) (b : bytes) : Prop :=
  forall t, exists s m1, f (m, t) = (Ok s, (m1, t)) /\ extends m m1 /\ (length m <= sl_at s)%nat /\ in_memory m1 s /\ content m1 s = b.
Lemma bind_ok {A B} (f : sm A) (g : A -> sm B) h a h' : f h = (Ok a, h') -> s_bind f g h = g a h'.
Proof. intros H. rewrite bind_eq, H. reflexivity. Qed.
Lemma bind_read {B} s (g : bytes -> sm B) m t : s_bind (s_read s) g (m, t) = g (content m s) (m, t).
Proof. reflexivity. Qed.
Lemma new_eq b room m t : s_new b room (m, t) = (Ok (mk_slice (length m) 0 (length b) (length b + room)), (m ++ [b ++ repeat 0 room], t)).
Proof. reflexivity. Qed.
Lemma lit_eq b m t : s_lit b (m, t) = (Ok (mk_slice (length m) 0 (length b) (length b)), (m ++ [b], t)).
Proof. unfold s_lit. rewrite new_eq. cbn [repeat]. rewrite app_nil_r, Nat.add_0_r. reflexivity. Qed.
Lemma make_eq n m t : s_make n (m, t) = (Ok (mk_slice (length m) 0 n n), (m ++ [repeat 0 n], t)).
Proof. unfold s_make. change (s_new (repeat 0 n) 0) with (s_lit (repeat 0 n)). rewrite lit_eq, repeat_length. reflexivity. Qed.
Lemma new_makes b room m : makes (s_new b room) m b.
Proof.
  intros t. rewrite new_eq. do 2 eexists. split; [reflexivity|]. split; [apply ext_app|]. split; [cbn [sl_at]; lia|].
  split; [apply in_end; rewrite ?app_length, ?repeat_length; lia|]. rewrite content_end, firstn_app, Nat.sub_diag, firstn_O, app_nil_r. apply firstn_all.
Qed.
Lemma lit_makes b m : makes (s_lit b) m b. Proof. apply new_makes. Qed.
Lemma fresh_makes b m : makes (s_fresh G b) m b. Proof. apply new_makes. Qed.
(** an array that has been filled *)
Lemma end_makes (m : arrays) (a : bytes) n t : n = length a -> exists s m1, s_ret (mk_slice (length m) 0 n n) (m ++ [a], t) = (Ok s, (m1, t)) /\ extends m m1 /\ (length m <= sl_at s)%nat /\ in_memory m1 s /\ content m1 s = a.
Proof.
  intros ->. do 2 eexists. split; [reflexivity|]. split; [apply ext_app|]. split; [cbn [sl_at]; lia|]. split; [apply in_end; lia|].
  rewrite content_end. apply firstn_all.
Qed.
(** what is made in a later memory is new in the earlier one *)
Lemma makes_later f m m1 b t : extends m m1 -> makes f m1 b ->
  exists s m2, f (m1, t) = (Ok s, (m2, t)) /\ extends m m2 /\ (length m <= sl_at s)%nat /\ in_memory m2 s /\ content m2 s = b.
Proof.
  intros X H. destruct (H t) as (s & m2 & F & Y & N & I & C). pose proof (ext_len _ _ X). exists s, m2.
  split; [exact F|]. split; [exact (ext_trans _ _ _ X Y)|]. split; [lia|]. split; assumption.
Qed.

Lemma append_ok m0 m s b t : extends m0 m -> (length m0 <= sl_at s)%nat -> in_memory m s ->
  exists s' m', s_append G s b (m, t) = (Ok s', (m', t)) /\ extends m0 m' /\ (length m0 <= sl_at s')%nat /\ in_memory m' s' /\
    content m' s' = content m s ++ b /\
    forall u, in_memory m u -> sl_at u <> sl_at s \/ (sl_off u + sl_len u <= sl_off s + sl_len s)%nat -> in_memory m' u /\ content m' u = content m u.
Proof.
  intros X N I. pose proof I as (A & B & C). unfold s_append. destruct (Nat.leb_spec (sl_len s + length b) (sl_cap s)) as [L|L].
  - rewrite bind_eq. cbn [s_put s_run s_ret fst snd]. unfold m_put. do 2 eexists. split; [reflexivity|].
    assert (P : (sl_off s + sl_len s + length b <= length (array m (sl_at s)))%nat) by lia.
    split; [apply set_array_ext; assumption|]. split; [exact N|]. split; [|split].
    + unfold in_memory. cbn [sl_at sl_off sl_len sl_cap]. rewrite set_array_len, set_array_nth, Nat.eqb_refl, splice_len by assumption. lia.
    + unfold content. cbn [sl_at sl_off sl_len sl_cap]. rewrite set_array_nth, Nat.eqb_refl by exact A. unfold splice.
      set (a := array m (sl_at s)) in *. rewrite skipn_app, firstn_length, skipn_firstn_comm.
      replace (sl_off s - Nat.min _ _)%nat with 0%nat by lia. cbn [skipn]. replace (sl_off s + sl_len s - sl_off s)%nat with (sl_len s) by lia.
      rewrite app_assoc, firstn_app, app_length, firstn_length, skipn_length.
      replace (sl_len s + length b - _)%nat with 0%nat by lia. rewrite firstn_O, app_nil_r. apply firstn_all2.
      rewrite app_length, firstn_length, skipn_length. lia.
    + intros u U D. apply put_other; assumption.
  - rewrite bind_read, new_eq. do 2 eexists. split; [reflexivity|]. split; [apply (ext_trans _ _ _ X), ext_app|].
    pose proof (ext_len _ _ X). split; [cbn [sl_at]; lia|].
    split; [apply in_end; rewrite ?app_length, ?repeat_length; lia|]. split.
    + rewrite content_end, firstn_app, Nat.sub_diag, firstn_O, app_nil_r. apply firstn_all.
    + intros u U _. split; [apply (in_ext m); [apply ext_app|exact U]|apply content_ext; [apply ext_app|exact U]].
Qed.

(** ** Packets and numbers *)
Lemma packet_length_makes size m : makes (h_packet_length size) m (packet_length_encode size).
Proof.
  unfold h_packet_length, packet_length_encode. destruct (size <=? 191); [apply lit_makes|]. destruct (size <=? 8383); [apply lit_makes|].
  intros t. rewrite (bind_ok _ _ _ _ _ (lit_eq _ m t)). unfold s_cut. cbn [sl_cap length Nat.leb andb sl_at sl_off Nat.add Nat.sub].
  rewrite bind_ret. unfold s_put_uint. cbn [sl_len]. rewrite be_bytes_length. cbn [Nat.ltb Nat.leb].
  rewrite bind_eq. cbn [s_put s_run s_ret fst snd]. unfold m_put. cbn [sl_at sl_off Nat.add]. rewrite array_end, set_array_end.
  change (splice _ _ _) with (255 :: be_bytes 4 (u32 size)). apply end_makes. reflexivity.
Qed.
Lemma packet_makes tag p m : in_memory m p -> makes (h_encode_packet tag p) m (encode_packet tag (content m p)).
Proof.
  intros P t. unfold h_encode_packet. destruct (packet_length_makes (Z.of_nat (sl_len p)) m t) as (l & m1 & F & X & N & I & C).
  rewrite (bind_ok _ _ _ _ _ F). rewrite (bind_ok _ _ _ _ _ (make_eq _ m1 t)). unfold encode_packet, zlen. rewrite (content_len _ _ P), <- C.
  set (n := (1 + sl_len l + sl_len p)%nat). assert (K : s_set (mk_slice (length m1) 0 n n) 0 (Z.lor 192 (u8 tag)) (m1 ++ [repeat 0 n], t) =
    (Ok tt, (m1 ++ [[Z.lor 192 (u8 tag)] ++ repeat 0 (sl_len l) ++ repeat 0 (sl_len p)], t))).
  { unfold s_set. cbn [sl_len]. unfold n at 1. cbn [Nat.add Nat.ltb Nat.leb]. rewrite put_end. do 4 f_equal. unfold n. cbn [Nat.add repeat]. rewrite repeat_app. reflexivity. }
  rewrite (bind_ok _ _ _ _ _ K). rewrite bind_read. rewrite (content_ext m1) by (try apply ext_app; exact I).
  assert (LC : length (content m1 l) = sl_len l) by (apply content_len; exact I).
  assert (K2 : s_copy (mk_slice (length m1) 0 n n) 1 (content m1 l) (m1 ++ [[Z.lor 192 (u8 tag)] ++ repeat 0 (sl_len l) ++ repeat 0 (sl_len p)], t) =
    (Ok tt, (m1 ++ [([Z.lor 192 (u8 tag)] ++ content m1 l) ++ repeat 0 (sl_len p) ++ []], t))).
  { unfold s_copy. cbn [sl_len]. unfold n at 1. cbn [Nat.add Nat.ltb Nat.leb]. rewrite put_end. rewrite firstn_all2 by (unfold n; lia).
    change 1%nat with (length [Z.lor 192 (u8 tag)]). rewrite splice_mid by (rewrite repeat_length; lia). rewrite app_nil_r, app_assoc. reflexivity. }
  rewrite (bind_ok _ _ _ _ _ K2). rewrite bind_read. rewrite (content_ext m) by (try exact P; apply (ext_trans _ _ _ X), ext_app).
  assert (PC : length (content m p) = sl_len p) by (apply content_len; exact P).
  assert (K3 : s_copy (mk_slice (length m1) 0 n n) (1 + sl_len l) (content m p) (m1 ++ [([Z.lor 192 (u8 tag)] ++ content m1 l) ++ repeat 0 (sl_len p) ++ []], t) =
    (Ok tt, (m1 ++ [([Z.lor 192 (u8 tag)] ++ content m1 l) ++ content m p ++ []], t))).
  { unfold s_copy. cbn [sl_len]. destruct (Nat.ltb_spec n (1 + sl_len l)) as [Q|_]; [unfold n in Q; lia|]. rewrite put_end. rewrite firstn_all2 by (unfold n; lia).
    replace (1 + sl_len l)%nat with (length ([Z.lor 192 (u8 tag)] ++ content m1 l)) by (rewrite app_length; cbn [length]; lia).
    rewrite splice_mid by (rewrite repeat_length; lia). reflexivity. }
  rewrite (bind_ok _ _ _ _ _ K3). rewrite app_nil_r. destruct (end_makes m1 (([Z.lor 192 (u8 tag)] ++ content m1 l) ++ content m p) n t) as (s & m2 & S & Y & W & J & D).
  { rewrite !app_length. cbn [length]. unfold n. lia. }
  exists s, m2. split; [exact S|]. split; [exact (ext_trans _ _ _ X Y)|]. pose proof (ext_len _ _ X). split; [lia|]. split; [exact J|]. rewrite D, <- app_assoc. reflexivity.
Qed.
Lemma mpi_makes n m : makes (h_encode_mpi n) m (encode_mpi n).
Proof.
  intros t. unfold h_encode_mpi. assert (H : 0 <= bit_len n) by (unfold bit_len; destruct (n =? 0); [lia|]; pose proof (Z.log2_nonneg (Z.abs n)); lia).
  set (k := Z.to_nat ((bit_len n + 7) / 8)). assert (Q : 0 <= (bit_len n + 7) / 8) by (apply Z.div_pos; lia).
  assert (D : Z.to_nat ((bit_len n + 7) / 8 + 2) = (2 + k)%nat) by (unfold k; lia). rewrite D.
  rewrite (bind_ok _ _ _ _ _ (make_eq _ m t)). assert (BL : length (big_bytes n) = k) by apply be_bytes_length.
  assert (K : s_put_uint (mk_slice (length m) 0 (2 + k) (2 + k)) (be_bytes 2 (u16 (bit_len n))) (m ++ [repeat 0 (2 + k)], t) =
    (Ok tt, (m ++ [be_bytes 2 (u16 (bit_len n)) ++ repeat 0 k ++ []], t))).
  { unfold s_put_uint. cbn [sl_len]. rewrite be_bytes_length. cbn [Nat.add Nat.ltb Nat.leb]. rewrite put_end. do 4 f_equal. rewrite app_nil_r. reflexivity. }
  rewrite (bind_ok _ _ _ _ _ K).
  assert (K2 : s_copy (mk_slice (length m) 0 (2 + k) (2 + k)) 2 (big_bytes n) (m ++ [be_bytes 2 (u16 (bit_len n)) ++ repeat 0 k ++ []], t) =
    (Ok tt, (m ++ [be_bytes 2 (u16 (bit_len n)) ++ big_bytes n ++ []], t))).
  { unfold s_copy. cbn [sl_len]. cbn [Nat.add Nat.ltb Nat.leb]. rewrite put_end. rewrite firstn_all2 by lia.
    rewrite <- (be_bytes_length 2 (u16 (bit_len n))) at 1. rewrite splice_mid by (rewrite repeat_length; lia). reflexivity. }
  rewrite (bind_ok _ _ _ _ _ K2). rewrite app_nil_r. apply end_makes. unfold encode_mpi; rewrite app_length, be_bytes_length. lia.
Qed.
(** PutUint into a whole new slice *)
Lemma put_uint_new b m t : s_put_uint (mk_slice (length m) 0 (length b) (length b)) b (m ++ [repeat 0 (length b)], t) = (Ok tt, (m ++ [b], t)).
Proof.
  unfold s_put_uint. cbn [sl_len]. rewrite Nat.ltb_irrefl, put_end. do 4 f_equal. unfold splice. cbn [firstn app Nat.add].
  rewrite skipn_all2 by (rewrite repeat_length; lia). apply app_nil_r.
Qed.
Lemma stamp_makes n x m : makes (sdo s <- s_make n; sdo _ <- s_put_uint s (be_bytes n x); s_ret s) m (be_bytes n x).
Proof.
  intros t. rewrite (bind_ok _ _ _ _ _ (make_eq _ m t)). pose proof (put_uint_new (be_bytes n x) m t) as H. rewrite be_bytes_length in H.
  rewrite (bind_ok _ _ _ _ _ H). apply end_makes. symmetry. apply be_bytes_length.
Qed.
Lemma checksum_makes s m : in_memory m s -> makes (h_checksum_mpi s) m (checksum_mpi (content m s)).
Proof. intros _ t. unfold h_checksum_mpi. rewrite bind_read. apply stamp_makes. Qed.
Lemma uid_makes u m : makes (h_uid_encode G u) m (uid_encode u). Proof. apply fresh_makes. Qed.
Ltac go H := rewrite (bind_ok _ _ _ _ _ H); clear H.
(** a step that makes a slice, in memory [m]: new slice, new memory and what is known of them *)
Tactic Notation "makes_step" constr(L) ident(s) ident(m1) ident(X) ident(N) ident(I) ident(C) :=
  let F := fresh in
  lazymatch goal with |- context [s_run (s_bind ?f _) (?m, ?t)] => destruct (L m t) as (s & m1 & F & X & N & I & C); go F end.
Lemma uid_packet_makes u m : makes (h_uid_packet G u) m (uid_packet u).
Proof.
  intros t. unfold h_uid_packet. makes_step (uid_makes u) s m1 X N I C.
  destruct (makes_later _ m m1 _ t X (packet_makes tag_user_id s m1 I)) as (s2 & m2 & F & R). rewrite C in R. exists s2, m2. split; [exact F|exact R].
Qed.

(** ** Subpackets *)
Lemma sub_makes s m : in_memory m (hb_body s) -> makes (h_sub_encode G s) m (sub_encode (see_sub m s)).
Proof.
  intros B t. unfold h_sub_encode. makes_step (packet_length_makes (Z.of_nat (sl_len (hb_body s)) + 1)) l m1 X N I C.
  rewrite !bind_read, C. rewrite (content_ext m m1) by assumption. unfold sub_encode, see_sub. cbn [sub_type sub_body]. unfold zlen. rewrite (content_len m) by exact B.
  apply makes_later; [exact X|]. apply fresh_makes.
Qed.
Lemma sub_loop_ok m0 l : Forall (in_memory m0) (map hb_body l) -> forall m e t, extends m0 m -> (length m0 <= sl_at e)%nat -> in_memory m e ->
  exists s m1, h_sub_loop G e l (m, t) = (Ok s, (m1, t)) /\ extends m0 m1 /\ (length m0 <= sl_at s)%nat /\ in_memory m1 s /\
    content m1 s = content m e ++ concat (map sub_encode (map (see_sub m0) l)).
Proof.
  induction l as [|sp l IH]; intros F m e t X N I.
  - cbn [h_sub_loop map concat]. rewrite app_nil_r. exists e, m. auto 6.
  - cbn [map] in F. inversion F as [|? ? A B]; subst. cbn [h_sub_loop].
    assert (A' : in_memory m (hb_body sp)) by (apply (in_ext m0); assumption).
    destruct (sub_makes sp m A' t) as (u & m1 & H & Y & N1 & I1 & C1). go H. rewrite bind_read, C1.
    destruct (append_ok m0 m1 e (sub_encode (see_sub m sp)) t (ext_trans _ _ _ X Y) N (in_ext _ _ _ Y I)) as (e2 & m2 & H & X2 & N2 & I2 & C2 & _). go H.
    destruct (IH B m2 e2 t X2 N2 I2) as (s & m3 & H & R1 & R2 & R3 & R4). exists s, m3. split; [exact H|]. split; [exact R1|]. split; [exact R2|]. split; [exact R3|].
    rewrite R4, C2, (content_ext m m1) by assumption. cbn [map concat]. rewrite <- app_assoc. do 3 f_equal. unfold see_sub. rewrite (content_ext m0 m) by assumption. reflexivity.
Qed.
Lemma subs_makes l m : Forall (in_memory m) (map hb_body l) -> makes (h_encode_subpackets G l) m (encode_subpackets (map (see_sub m) l)).
Proof.
  intros F t. unfold h_encode_subpackets. rewrite (bind_ok _ _ _ _ _ (make_eq _ m t)).
  destruct (sub_loop_ok m l F (m ++ [repeat 0 2]) (mk_slice (length m) 0 2 2) t) as (s & m1 & H & X & N & I & C); [apply ext_app|cbn [sl_at]; lia|apply in_end; cbn; lia|].
  go H. rewrite content_end in C. change (firstn 2 (repeat 0 2)) with [0; 0] in C. set (body := concat (map sub_encode (map (see_sub m) l))) in *.
  assert (L : sl_len s = (2 + length body)%nat) by (rewrite <- (content_len _ _ I), C; reflexivity).
  assert (Z2 : Z.of_nat (sl_len s) - 2 = zlen body) by (unfold zlen; lia). rewrite Z2. unfold encode_subpackets. fold body.
  set (hd := be_bytes 2 (u16 (zlen body))). assert (LH : length hd = 2%nat) by apply be_bytes_length.
  unfold s_put_uint. rewrite LH. destruct (Nat.ltb_spec (sl_len s) 2) as [Q|_]; [lia|]. rewrite bind_eq. cbn [s_put s_run s_ret fst snd]. unfold m_put. rewrite Nat.add_0_r.
  pose proof I as (A & B & D). do 2 eexists. split; [reflexivity|]. split; [apply set_array_ext; assumption|]. split; [exact N|].
  assert (P : (sl_off s + length hd <= length (array m1 (sl_at s)))%nat) by lia. split.
  - unfold in_memory. rewrite set_array_len, set_array_nth, Nat.eqb_refl, splice_len by assumption. lia.
  - unfold content. rewrite set_array_nth, Nat.eqb_refl by exact A. unfold splice, content in *. set (a := array m1 (sl_at s)) in *.
    rewrite skipn_app, firstn_length, skipn_firstn_comm, Nat.sub_diag, firstn_O.
    replace (sl_off s - Nat.min _ _)%nat with 0%nat by lia. cbn [skipn app]. rewrite firstn_app, LH, firstn_all2 by lia. f_equal.
    replace (sl_len s - 2)%nat with (length body) by lia. rewrite L in C. change (2 + length body)%nat with (S (S (length body))) in C.
    replace (skipn (sl_off s + 2) a) with (skipn 2 (skipn (sl_off s) a)) by apply skipn_plus. destruct (skipn (sl_off s) a) as [|x [|y r]]; cbn [firstn] in C; try discriminate. cbn [skipn]. injection C as _ _ C. exact C.
Qed.

(** ** Signatures *)
Lemma preimage_makes type hash l m : Forall (in_memory m) (map hb_body l) -> makes (h_sig_preimage G type hash l) m (sig_preimage type hash (map (see_sub m) l)).
Proof.
  intros F t. unfold h_sig_preimage. destruct (subs_makes l m F t) as (s & m1 & H & X & N & I & C). go H. rewrite bind_read, C.
  apply makes_later; [exact X|]. apply fresh_makes.
Qed.
Lemma sig_makes s m : Forall (in_memory m) (slices_sig s) -> (2 <= sl_len (hg_digest s))%nat -> makes (h_sig_encode G s) m (sig_encode (see_sig m s)).
Proof.
  intros F L t. unfold slices_sig in F. inversion F as [|? ? D F']; subst. apply Forall_app in F'. destruct F' as [F1 F2]. unfold h_sig_encode.
  destruct (preimage_makes (hg_type s) (hg_hash s) (hg_hashed s) m F1 t) as (p & m1 & H & X1 & N1 & I1 & C1). go H. rewrite bind_read, C1.
  destruct (subs_ext m m1 (hg_unhashed s) X1 F2) as [F3 S3].
  destruct (subs_makes (hg_unhashed s) m1 F3 t) as (u & m2 & H & X2 & N2 & I2 & C2). go H. rewrite bind_read, C2, S3.
  assert (X02 := ext_trans _ _ _ X1 X2). assert (D2 := in_ext _ _ _ X02 D). pose proof D2 as (D3 & D4 & D5).
  unfold s_cut. destruct (Nat.leb_spec 2 (sl_cap (hg_digest s))) as [_|Q]; [|lia]. cbn [Nat.leb andb]. rewrite bind_ret. rewrite bind_read.
  assert (DC : content m2 (mk_slice (sl_at (hg_digest s)) (sl_off (hg_digest s) + 0) (2 - 0) (sl_cap (hg_digest s) - 0)) = firstn 2 (content m (hg_digest s))).
  { rewrite <- (content_ext m m2) by assumption. unfold content. cbn [sl_at sl_off sl_len]. rewrite Nat.add_0_r, firstn_firstn. f_equal. lia. }
  rewrite DC. makes_step (mpi_makes (hg_r s)) r m3 X3 N3 I3 C3. rewrite bind_read, C3. makes_step (mpi_makes (hg_s s)) v m4 X4 N4 I4 C4. rewrite bind_read, C4.
  apply makes_later; [|apply fresh_makes]. exact (ext_trans _ _ _ (ext_trans _ _ _ X02 X3) X4).
Qed.
Lemma sig_packet_makes s m : Forall (in_memory m) (slices_sig s) -> (2 <= sl_len (hg_digest s))%nat -> makes (h_sig_packet G s) m (sig_packet (see_sig m s)).
Proof.
  intros F L t. unfold h_sig_packet. destruct (sig_makes s m F L t) as (p & m1 & H & X & N & I & C). go H. unfold sig_packet. rewrite <- C.
  apply makes_later; [exact X|]. apply packet_makes. exact I.
Qed.

(** ** Calls that may fail *)
(** a call with memory [m] ends with [o], as [r] says *)
Definition sim {A B} (R : arrays -> A -> B -> Prop) (m : arrays) (o : res A * memory) (r : res (B * bytes)) : Prop :=
  match r with
  | Ok (b, t') => exists a m', o = (Ok a, (m', t')) /\ extends m m' /\ R m' a b
  | Err e => exists m' t', o = (Err e, (m', t')) /\ extends m m'
  | Panic => exists m' t', o = (Panic, (m', t')) /\ extends m m'
  end.
Definition new_slice (lo : nat) (m : arrays) (s : slice) (b : bytes) : Prop := (lo <= sl_at s)%nat /\ in_memory m s /\ content m s = b.
Definition keep (m m' : arrays) (u : slice) : Prop := in_memory m' u /\ content m' u = content m u.
Lemma keep_ext m m' u : extends m m' -> in_memory m u -> keep m m' u.
Proof. intros X I. split; [exact (in_ext _ _ _ X I)|exact (content_ext _ _ _ X I)]. Qed.
Lemma keep_trans a b c u : keep a b u -> keep b c u -> keep a c u.
Proof. intros [_ H] [I H']. split; [exact I|congruence]. Qed.
Lemma bind_err {A B} (f : sm A) (g : A -> sm B) h e h' : f h = (Err e, h') -> s_bind f g h = (Err e, h').
Proof. intros H. rewrite bind_eq, H. reflexivity. Qed.
Lemma bind_panic {A B} (f : sm A) (g : A -> sm B) h h' : f h = (Panic, h') -> s_bind f g h = (Panic, h').
Proof. intros H. rewrite bind_eq, H. reflexivity. Qed.
Lemma sim_makes f m t b : makes f m b -> sim (new_slice (length m)) m (f (m, t)) (Ok (b, t)).
Proof. intros H. destruct (H t) as (s & m1 & F & X & N & I & C). exists s, m1. unfold new_slice. auto 6. Qed.

Lemma random_new n m t : s_random (mk_slice (length m) 0 n n) (m ++ [repeat 0 n], t) =
  match read_full t n with Ok (b, r) => (Ok tt, (m ++ [b], r)) | Err e => (Err e, (m ++ [repeat 0 n], t)) | Panic => (Panic, (m ++ [repeat 0 n], t)) end.
Proof.
  unfold s_random. cbn [s_run fst snd sl_len]. unfold m_take, read_full. destruct (Nat.ltb_spec (length t) n) as [L|L]; [reflexivity|]. cbn [fst snd]. rewrite put_end. do 4 f_equal.
  unfold splice. cbn [firstn app Nat.add]. rewrite firstn_length, skipn_all2 by (rewrite repeat_length; lia). apply app_nil_r.
Qed.

Lemma string_to_key_ok hash pw salt count m0 m t : extends m0 m -> (length m0 <= sl_at salt)%nat -> in_memory m salt -> in_memory m pw ->
  match string_to_key E hash (content m pw) (content m salt) count with
  | Ok k => exists s m1, h_string_to_key E G hash pw salt count (m, t) = (Ok s, (m1, t)) /\ extends m0 m1 /\ new_slice (length m0) m1 s k /\
      forall u, in_memory m u -> sl_at u <> sl_at salt \/ (sl_off u + sl_len u <= sl_off salt + sl_len salt)%nat -> keep m m1 u
  | Err _ => False
  | Panic => exists m1 t1, h_string_to_key E G hash pw salt count (m, t) = (Panic, (m1, t1)) /\ extends m0 m1
  end.
Proof.
  intros X N I P. unfold string_to_key, h_string_to_key. rewrite bind_read.
  destruct (append_ok m0 m salt (content m pw) t X N I) as (p & m1 & H & X1 & N1 & I1 & C1 & K). go H.
  destruct (hash_new E hash) as [h|]; [|unfold s_lift; cbn [s_run]; eauto]. unfold zlen. rewrite <- C1, (content_len _ _ I1).
  destruct (Z.of_nat (sl_len p) =? 0) eqn:Z0; [unfold s_lift; cbn [s_run]; eauto|]. rewrite bind_read.
  assert (M : 0 <= count mod Z.of_nat (sl_len p) < Z.of_nat (sl_len p)) by (apply Z.mod_pos_bound; lia). set (j := Z.to_nat (count mod Z.of_nat (sl_len p))) in *.
  pose proof I1 as (A & B & D). unfold s_cut. destruct (Nat.leb_spec j (sl_cap p)) as [_|Q]; [|lia]. cbn [Nat.leb andb]. rewrite bind_ret. rewrite bind_read.
  assert (CC : content m1 (mk_slice (sl_at p) (sl_off p + 0) (j - 0) (sl_cap p - 0)) = firstn j (content m1 p)).
  { unfold content. cbn [sl_at sl_off sl_len]. rewrite Nat.add_0_r, Nat.sub_0_r, firstn_firstn. f_equal. lia. }
  rewrite CC. destruct (fresh_makes (h (concat (repeat (content m1 p) (Z.to_nat (count / Z.of_nat (sl_len p)))) ++ firstn j (content m1 p))) m1 t) as (s & m2 & F & X2 & N2 & I2 & C2).
  exists s, m2. split; [exact F|]. split; [exact (ext_trans _ _ _ X1 X2)|]. pose proof (ext_len _ _ X1). split; [split; [lia|split; [exact I2|]]|].
  - rewrite C2. unfold s2k_preimage, zlen. rewrite <- C1, (content_len _ _ I1). reflexivity.
  - intros u U W. destruct (K u U W) as [K1 K2]. split; [exact (in_ext _ _ _ X2 K1)|]. rewrite (content_ext m1 m2) by assumption. exact K2.
Qed.
Lemma read_full_len t n b r : read_full t n = Ok (b, r) -> length b = n.
Proof. unfold read_full. destruct (Nat.ltb_spec (length t) n) as [L|L]; [discriminate|]. intros H. injection H as <- <-. rewrite firstn_length. lia. Qed.
Lemma lit_at b m t : exists s, s_lit b (m, t) = (Ok s, (m ++ [b], t)) /\ new_slice (length m) (m ++ [b]) s b.
Proof.
  exists (mk_slice (length m) 0 (length b) (length b)). split; [apply lit_eq|]. split; [cbn [sl_at]; lia|]. split; [apply in_end; lia|]. rewrite content_end. apply firstn_all.
Qed.

Lemma encrypt_ok hash text pw m t : in_memory m text -> in_memory m pw ->
  sim (new_slice (length m)) m (h_encrypt_s2k E G hash text pw (m, t)) (encrypt_s2k E hash (content m text) (content m pw) t).
Proof.
  intros T P. unfold encrypt_s2k, h_encrypt_s2k. rewrite (bind_ok _ _ _ _ _ (make_eq 8 m t)).
  pose proof (random_new 8 m t) as H. destruct (read_full t 8) as [[salt t1]|e|] eqn:R1.
  2:{ cbn [bind]. unfold sim. rewrite (bind_err _ _ _ _ _ H). do 2 eexists. split; [reflexivity|apply ext_app]. }
  2:{ unfold read_full in R1. destruct (Nat.ltb _ _); discriminate. }
  go H. cbn [bind]. apply read_full_len in R1. set (m1 := m ++ [salt]). set (hsalt := mk_slice (length m) 0 8 8).
  rewrite (bind_ok _ _ _ _ _ (make_eq 16 m1 t1)). pose proof (random_new 16 m1 t1) as H. destruct (read_full t1 16) as [[iv t2]|e|] eqn:R2.
  2:{ cbn [bind]. unfold sim. rewrite (bind_err _ _ _ _ _ H). do 2 eexists. split; [reflexivity|]. unfold m1. rewrite <- app_assoc. apply ext_app. }
  2:{ unfold read_full in R2. destruct (Nat.ltb _ _); discriminate. }
  go H. cbn [bind]. apply read_full_len in R2. set (m2 := m1 ++ [iv]). set (hiv := mk_slice (length m1) 0 16 16).
  assert (X1 : extends m m1) by apply ext_app. assert (X12 : extends m1 m2) by apply ext_app. assert (X2 := ext_trans _ _ _ X1 X12).
  assert (IS1 : in_memory m1 hsalt) by (apply in_end; lia). assert (IS : in_memory m2 hsalt) by exact (in_ext _ _ _ X12 IS1).
  assert (CS : content m2 hsalt = salt). { rewrite (content_ext m1) by assumption. unfold m1, hsalt. rewrite content_end. apply firstn_all2. lia. }
  assert (IV : in_memory m2 hiv) by (apply in_end; lia). assert (CV : content m2 hiv = iv) by (unfold m2, hiv; rewrite content_end; apply firstn_all2; lia).
  assert (NV : sl_at hiv <> sl_at hsalt) by (cbn [sl_at hiv hsalt]; unfold m1; rewrite app_length; cbn [length]; lia).
  pose proof (string_to_key_ok hash pw hsalt (s2k_count_decode s2k_count_maximum) m m2 t2 X2 (le_n _) IS (in_ext _ _ _ X2 P)) as K.
  rewrite CS, (content_ext m m2) in K by assumption. destruct (string_to_key E hash (content m pw) salt (s2k_count_decode s2k_count_maximum)) as [key|e|].
  2: contradiction. 2:{ destruct K as (m3 & t3 & H & X3). cbn [bind]. unfold sim. rewrite (bind_panic _ _ _ _ H). eauto. }
  destruct K as (hkey & m3 & H & X3 & (NK & IK & CK) & KEEP). go H. cbn [bind].
  destruct (KEEP hsalt IS) as [IS3 CS3]; [right; lia|]. destruct (KEEP hiv IV) as [IV3 CV3]; [left; exact NV|]. rewrite CS in CS3. rewrite CV in CV3. clear KEEP.
  rewrite bind_read. rewrite (content_ext m m3) by assumption. makes_step (mpi_makes (be_uint (content m text))) mpi m4 X4 N4 I4 C4. rewrite bind_read, C4.
  set (mb := encode_mpi (be_uint (content m text))) in *. assert (N4' : (length m <= sl_at mpi)%nat) by (pose proof (ext_len _ _ X3); lia).
  destruct (append_ok m m4 mpi (sha1 E mb) t2 (ext_trans _ _ _ X3 X4) N4' I4) as (tx & m5 & H & X5 & N5 & I5 & C5 & KEEP). go H. rewrite C4 in C5.
  assert (STAY : forall u b, in_memory m3 u -> content m3 u = b -> in_memory m5 u /\ content m5 u = b).
  { intros u b U UC. destruct (KEEP u (in_ext _ _ _ X4 U)) as [K1 K2]; [left; pose proof (proj1 U); lia|]. split; [exact K1|]. rewrite K2, (content_ext m3 m4) by assumption. exact UC. }
  destruct (STAY _ _ IK CK) as [IK5 CK5]. destruct (STAY _ _ IS3 CS3) as [IS5 CS5]. destruct (STAY _ _ IV3 CV3) as [IV5 CV5]. clear STAY KEEP.
  rewrite bind_read, CK5. destruct (negb (aes_key_ok key)); [unfold sim, s_lift; cbn [s_run]; eauto|]. rewrite !bind_read, C5, CV5.
  destruct (lit_at (cfb_encrypt E key (length (mb ++ sha1 E mb)) iv (mb ++ sha1 E mb)) m5 t2) as (ct & H & N6 & I6 & C6). go H.
  assert (X6 := ext_trans _ _ _ X5 (ext_app m5 [cfb_encrypt E key (length (mb ++ sha1 E mb)) iv (mb ++ sha1 E mb)])). set (m6 := m5 ++ _) in *.
  match goal with |- sim _ _ (s_run (s_bind (s_lift ?c) _) _) _ => destruct c as [cipher|e|] end; [|unfold sim; cbn [bind]; unfold s_lift; cbn [s_bind s_run]; eauto|unfold sim; cbn [bind]; unfold s_lift; cbn [s_bind s_run]; eauto].
  cbn [bind]. change (s_lift (Ok cipher)) with (s_ret cipher). rewrite bind_ret. rewrite !bind_read, C6. rewrite (content_ext m5 m6) by (try apply ext_app; assumption). rewrite CS5. unfold sim.
  destruct (makes_later (s_fresh G ([s2k_specifier; cipher; s2k_usage_iterated; u8 hash] ++ salt ++ [s2k_count_maximum] ++ iv ++ cfb_encrypt E key (length (mb ++ sha1 E mb)) iv (mb ++ sha1 E mb))) m m6 _ t2 X6 (fresh_makes _ _)) as (s & m7 & F & X7 & N7 & I7 & C7).
  exists s, m7. split; [exact F|]. split; [exact X7|]. split; [exact N7|]. split; assumption.
Qed.

(** ** Keys *)
Lemma ecc_in m k : Forall (in_memory m) (slices_ecc k) ->
  in_memory m (he_private k) /\ in_memory m (he_public k) /\ in_memory m (he_oid k) /\ in_memory m (he_extra k) /\ forall s, he_signing k = Some s -> in_memory m s.
Proof.
  unfold slices_ecc. intros F. apply Forall_app in F. destruct F as [F F']. inversion F as [|? ? A F1]; subst. inversion F1 as [|? ? B F2]; subst. inversion F2 as [|? ? C F3]; subst. inversion F3 as [|? ? D _]; subst.
  repeat (split; [assumption|]). intros s S. rewrite S in F'. inversion F'; assumption.
Qed.
(** a value is the same in another memory if the contents of its slices are *)
Definition same_content (m m' : arrays) (s : slice) : Prop := content m' s = content m s.
Lemma forall_content_ext m m' l : extends m m' -> Forall (in_memory m) l -> Forall (same_content m m') l.
Proof. intros X. apply Forall_impl. intros s I. apply content_ext; assumption. Qed.
Lemma see_ecc_same m m' k : Forall (same_content m m') (slices_ecc k) -> see_ecc m' k = see_ecc m k.
Proof.
  unfold slices_ecc, same_content. intros F. apply Forall_app in F. destruct F as [F F']. inversion F as [|? ? A F1]; subst. inversion F1 as [|? ? B F2]; subst. inversion F2 as [|? ? C F3]; subst. inversion F3 as [|? ? D _]; subst.
  unfold see_ecc. rewrite A, B, C, D. destruct (he_signing k) as [s|]; [|reflexivity]. inversion F' as [|? ? Q _]; subst. cbn [option_map]. rewrite Q. reflexivity.
Qed.
Lemma see_ed_same m m' k : Forall (same_content m m') (slices_ed k) -> see_ed m' k = see_ed m k.
Proof. unfold slices_ed. intros F. inversion F as [|? ? A B]; subst. unfold see_ed. rewrite (see_ecc_same m m') by exact B. rewrite A. reflexivity. Qed.
Lemma see_curve_same m m' k : Forall (same_content m m') (slices_curve k) -> see_curve m' k = see_curve m k.
Proof. unfold slices_curve. intros F. inversion F as [|? ? A B]; subst. unfold see_curve. rewrite (see_ecc_same m m') by exact B. rewrite A. reflexivity. Qed.
Lemma see_subs_same m m' l : Forall (same_content m m') (map hb_body l) -> map (see_sub m') l = map (see_sub m) l.
Proof. induction l as [|s l IH]; intros F; [reflexivity|]. cbn [map] in *. inversion F as [|? ? A B]; subst. f_equal; [unfold see_sub; rewrite A; reflexivity|apply IH; exact B]. Qed.
Lemma see_sig_same m m' s : Forall (same_content m m') (slices_sig s) -> see_sig m' s = see_sig m s.
Proof.
  unfold slices_sig. intros F. inversion F as [|? ? A B]; subst. apply Forall_app in B. destruct B as [B C]. unfold see_sig.
  rewrite (see_subs_same m m'), (see_subs_same m m' (hg_unhashed s)) by assumption. rewrite A. reflexivity.
Qed.
Lemma see_ecc_ext m m' k : extends m m' -> Forall (in_memory m) (slices_ecc k) -> see_ecc m' k = see_ecc m k.
Proof. intros X F. apply see_ecc_same. apply forall_content_ext; assumption. Qed.
Lemma see_ed_ext m m' k : extends m m' -> Forall (in_memory m) (slices_ed k) -> see_ed m' k = see_ed m k.
Proof. intros X F. apply see_ed_same. apply forall_content_ext; assumption. Qed.
Lemma see_sig_ext m m' k : extends m m' -> Forall (in_memory m) (slices_sig k) -> see_sig m' k = see_sig m k.
Proof. intros X F. apply see_sig_same. apply forall_content_ext; assumption. Qed.

Lemma public_makes k m : Forall (in_memory m) (slices_ecc k) -> makes (h_encode_public G k) m (encode_public (see_ecc m k)).
Proof.
  intros F t. destruct (ecc_in _ _ F) as (_ & IP & IO & IX & _). unfold h_encode_public. rewrite bind_read.
  destruct (lit_at [mpi_prefix_eddsa] m t) as (pf & H & N1 & I1 & C1). go H. rewrite bind_read. set (m1 := m ++ _) in *. assert (X1 : extends m m1) by apply ext_app.
  rewrite (content_ext m m1 (he_public k)) by assumption.
  destruct (append_ok m m1 pf (content m (he_public k)) t X1 N1 I1) as (pt & m2 & H & X2 & N2 & I2 & C2 & _). go H. rewrite C1 in C2. rewrite bind_read, C2.
  makes_step (mpi_makes (be_uint ([mpi_prefix_eddsa] ++ content m (he_public k)))) mpi m3 X3 N3 I3 C3. rewrite !bind_read, C3. assert (X03 := ext_trans _ _ _ X2 X3).
  rewrite (content_ext m m3 (he_extra k)) by assumption. apply makes_later; [exact X03|]. unfold encode_public, see_ecc. cbn [ec_creation ec_alg ec_oid ec_public ec_extra]. unfold zlen.
  rewrite (content_len m (he_oid k)) by exact IO. apply fresh_makes.
Qed.
Lemma fingerprint_makes k m : Forall (in_memory m) (slices_ecc k) -> makes (h_fingerprint_v4 E G k) m (fingerprint_v4 E (see_ecc m k)).
Proof.
  intros F t. unfold h_fingerprint_v4. destruct (public_makes k m F t) as (p & m1 & H & X & N & I & C). go H. rewrite bind_read, C.
  apply makes_later; [exact X|]. apply fresh_makes.
Qed.
Lemma fingerprint_v5_makes k m : Forall (in_memory m) (slices_ecc k) -> makes (h_fingerprint_v5 E G k) m (fingerprint_v5 E (see_ecc m k)).
Proof.
  intros F t. unfold h_fingerprint_v5. destruct (public_makes k m F t) as (p & m1 & H & X & N & I & C). go H. rewrite bind_read, C.
  apply makes_later; [exact X|]. apply fresh_makes.
Qed.
Lemma dummy_makes k m : Forall (in_memory m) (slices_ecc k) -> makes (h_encode_private_dummy G k) m (encode_private_dummy (see_ecc m k)).
Proof.
  intros F t. unfold h_encode_private_dummy. destruct (public_makes k m F t) as (p & m1 & H & X & N & I & C). go H. rewrite bind_read, C.
  apply makes_later; [exact X|]. apply fresh_makes.
Qed.
Lemma dummy_packet_makes k m : Forall (in_memory m) (slices_ecc k) -> makes (h_dummy_packet G k) m (encode_packet tag_secret_key (encode_private_dummy (see_ecc m k))).
Proof.
  intros F t. unfold h_dummy_packet. destruct (dummy_makes k m F t) as (p & m1 & H & X & N & I & C). go H. rewrite <- C. apply makes_later; [exact X|]. apply packet_makes. exact I.
Qed.
Lemma public_packet_makes tag k m : Forall (in_memory m) (slices_ecc k) -> makes (h_public_packet G tag k) m (encode_packet tag (encode_public (see_ecc m k))).
Proof.
  intros F t. unfold h_public_packet. destruct (public_makes k m F t) as (p & m1 & H & X & N & I & C). go H. rewrite <- C. apply makes_later; [exact X|]. apply packet_makes. exact I.
Qed.
(** a last step that makes a slice *)
Lemma sim_end f m m1 t b : extends m m1 -> makes f m1 b -> exists a m', f (m1, t) = (Ok a, (m', t)) /\ extends m m' /\ new_slice (length m) m' a b.
Proof. intros X H. destruct (makes_later f m m1 b t X H) as (s & m2 & F & Y & R). exists s, m2. split; [exact F|]. split; [exact Y|exact R]. Qed.
Lemma private_ok k pw m t : Forall (in_memory m) (slices_ecc k) -> in_memory m pw ->
  sim (new_slice (length m)) m (h_encode_private E G k pw (m, t)) (encode_private E (see_ecc m k) (content m pw) t).
Proof.
  intros F P. destruct (ecc_in _ _ F) as (IK & _). unfold h_encode_private, encode_private. destruct (public_makes k m F t) as (p & m1 & H & X & N & I & C). go H. rewrite bind_read, C.
  unfold zlen. rewrite (content_len m pw P). destruct (Z.of_nat (sl_len pw) >? 0).
  - pose proof (encrypt_ok default_s2k_hash (he_private k) pw m1 t (in_ext _ _ _ X IK) (in_ext _ _ _ X P)) as K. rewrite !(content_ext m m1) in K by assumption.
    cbn [see_ecc ec_private]. change (ec_private (see_ecc m k)) with (content m (he_private k)).
    destruct (encrypt_s2k E default_s2k_hash (content m (he_private k)) (content m pw) t) as [[enc t1]|e|]; unfold sim in K; cbn [bind]; unfold sim.
    + destruct K as (s & m2 & H & X2 & N2 & I2 & C2). rewrite (bind_ok _ _ _ _ _ H), bind_read, C2. apply sim_end; [exact (ext_trans _ _ _ X X2)|apply fresh_makes].
    + destruct K as (m2 & t2 & H & X2). rewrite (bind_err _ _ _ _ _ H). exists m2, t2. split; [reflexivity|exact (ext_trans _ _ _ X X2)].
    + destruct K as (m2 & t2 & H & X2). rewrite (bind_panic _ _ _ _ H). exists m2, t2. split; [reflexivity|exact (ext_trans _ _ _ X X2)].
  - rewrite bind_read, (content_ext m m1) by assumption. unfold sim. change (ec_private (see_ecc m k)) with (content m (he_private k)).
    makes_step (mpi_makes (be_uint (content m (he_private k)))) mpi m2 X2 N2 I2 C2. rewrite bind_read, C2.
    destruct (checksum_makes mpi m2 I2 t) as (cs & m3 & H & X3 & N3 & I3 & C3). go H. rewrite bind_read, C3, C2.
    apply sim_end; [exact (ext_trans _ _ _ (ext_trans _ _ _ X X2) X3)|apply fresh_makes].
Qed.
Lemma private_packet_ok tag k pw m t : Forall (in_memory m) (slices_ecc k) -> in_memory m pw ->
  sim (new_slice (length m)) m (h_private_packet E G tag k pw (m, t)) (private_packet E tag (see_ecc m k) (content m pw) t).
Proof.
  intros F P. unfold h_private_packet, private_packet. pose proof (private_ok k pw m t F P) as K.
  destruct (encode_private E (see_ecc m k) (content m pw) t) as [[b t1]|e|]; unfold sim in K; cbn [bind]; unfold sim.
  - destruct K as (s & m2 & H & X2 & N2 & I2 & C2). rewrite (bind_ok _ _ _ _ _ H). rewrite <- C2. apply sim_end; [exact X2|]. apply packet_makes. exact I2.
  - destruct K as (m2 & t2 & H & X2). rewrite (bind_err _ _ _ _ _ H). eauto.
  - destruct K as (m2 & t2 & H & X2). rewrite (bind_panic _ _ _ _ H). eauto.
Qed.

(** ** Sign *)
Hypothesis sizes : sizes_ok E.
Definition plain {B} (r : res B) (t : bytes) : res (B * bytes) := let* b := r in Ok (b, t).
Definition sig_made (P : nat -> Prop) (m' : arrays) (hs : h_sig) (s : signature) : Prop :=
  see_sig m' hs = s /\ Forall (in_memory m') (slices_sig hs) /\ Forall (fun u => P (sl_at u)) (slices_sig hs) /\ (2 <= sl_len (hg_digest hs))%nat.
Lemma hash_len id h x : hash_new E id = Some h -> (2 <= length (h x))%nat.
Proof.
  unfold hash_new. destruct (id =? hash_sha256); [intros Q; injection Q as <-; rewrite (size_sha256 E sizes); lia|].
  destruct (id =? hash_sha384); [intros Q; injection Q as <-; rewrite (size_sha384 E sizes); lia|].
  destruct (id =? hash_sha512); [intros Q; injection Q as <-; rewrite (size_sha512 E sizes); lia|discriminate].
Qed.
Lemma skip_content m s j : in_memory m s -> content m (mk_slice (sl_at s) (sl_off s + j) (sl_len s - j) (sl_cap s - j)) = skipn j (content m s).
Proof. intros I. unfold content. cbn [sl_at sl_off sl_len]. rewrite skipn_firstn_comm, skipn_plus. reflexivity. Qed.
Lemma sign_ok private rq m t : extends package_arrays m -> in_memory m private -> in_memory m (hr_fingerprint rq) -> in_memory m (hr_data rq) ->
  Forall (in_memory m) (map hb_body (hr_hashed rq)) -> Forall (in_memory m) (map hb_body (hr_unhashed rq)) ->
  sim (sig_made (fun i => (length m <= i)%nat \/ In i (map sl_at (hr_fingerprint rq :: map hb_body (hr_hashed rq) ++ map hb_body (hr_unhashed rq)))))
      m (h_sign E G private rq (m, t)) (plain (sign_of E (content m private) (see_request m rq)) t).
Proof.
  intros G0 IP IF ID FH FU. unfold h_sign, sign_of, sign, plain. cbn [see_request rq_fingerprint rq_hash rq_data rq_type rq_hashed rq_unhashed rq_time].
  rewrite (content_len m private IP), (content_len m (hr_fingerprint rq) IF).
  destruct (stamp_makes 4 (u32 (t_unix (hr_time rq))) m t) as (stamp & m1 & H & X & N1 & I1 & C1).
  assert (H' : forall B (g : slice -> sm B), (sdo stamp <- s_make 4; sdo _ <- s_put_uint stamp (be_bytes 4 (u32 (t_unix (hr_time rq)))); g stamp) (m, t) = g stamp (m1, t)).
  { intros B g. revert H. rewrite !bind_eq. destruct (s_run (s_make 4) (m, t)) as [[a|?|] h]; try discriminate. rewrite !bind_eq. destruct (s_run (s_put_uint _ _) _) as [[?|?|] h']; try discriminate. cbn. intros Q. injection Q as -> ->. reflexivity. }
  rewrite H'. clear H H'. destruct (lit_makes [key_packet_version] m1 t) as (ver & m2 & H & X2 & N2 & I2 & C2). go H. rewrite bind_read. rewrite (content_ext m m2) by (try exact IF; exact (ext_trans _ _ _ X X2)).
  assert (N2' : (length m <= sl_at ver)%nat) by (pose proof (ext_len _ _ X); lia).
  destruct (append_ok m m2 ver (content m (hr_fingerprint rq)) t (ext_trans _ _ _ X X2) N2' I2) as (iss & m3 & H & X3 & N3 & I3 & C3 & KEEP). go H. rewrite C2 in C3.
  destruct (KEEP stamp (in_ext _ _ _ X2 I1)) as [I1' C1']; [left; pose proof (proj1 I1); lia|]. rewrite (content_ext m1 m2), C1 in C1' by assumption. clear KEEP C2 I2 N2 N2' X2 X I1 C1 ver m2.
  destruct (Nat.ltb_spec (sl_len (hr_fingerprint rq)) 8) as [L|L].
  { cbn [orb bind]. unfold sim, s_lift. cbn [s_bind s_run]. eauto. }
  cbn [orb]. assert (IF3 := in_ext _ _ _ X3 IF). pose proof IF3 as (A & B & D). set (n := sl_len (hr_fingerprint rq)) in *.
  unfold s_cut. destruct (Nat.leb_spec (n - 8) n) as [_|Q]; [|lia]. destruct (Nat.leb_spec n (sl_cap (hr_fingerprint rq))) as [_|Q]; [|lia]. cbn [andb].
  set (id := mk_slice _ _ _ _). rewrite (bind_ok (s_ret id) _ (m3, t) id (m3, t) eq_refl).
  assert (ICUT : in_memory m3 id /\ content m3 id = skipn (n - 8) (content m (hr_fingerprint rq))).
  { split; [unfold in_memory, id; cbn [sl_at sl_off sl_len sl_cap]; lia|]. unfold id, n. rewrite skip_content by exact IF3. rewrite (content_ext m m3) by assumption. reflexivity. }
  destruct ICUT as [I4 C4].
  set (hashed := [mk_hsub sub_issuer_fingerprint iss; mk_hsub sub_creation_time stamp] ++ hr_hashed rq). set (unhashed := [mk_hsub sub_issuer id] ++ hr_unhashed rq).
  destruct (subs_ext m m3 _ X3 FH) as [FH3 SH3]. destruct (subs_ext m m3 _ X3 FU) as [FU3 SU3].
  assert (FHH : Forall (in_memory m3) (map hb_body hashed)) by (unfold hashed; cbn [map app]; constructor; [exact I3|]; constructor; [exact I1'|exact FH3]).
  assert (FUU : Forall (in_memory m3) (map hb_body unhashed)) by (unfold unhashed; cbn [map app]; constructor; [exact I4|exact FU3]).
  set (vhashed := [mk_sub sub_issuer_fingerprint (key_packet_version :: content m (hr_fingerprint rq)); mk_sub sub_creation_time (be_bytes 4 (u32 (t_unix (hr_time rq))))] ++ map (see_sub m) (hr_hashed rq)).
  set (vunhashed := [mk_sub sub_issuer (skipn (n - 8) (content m (hr_fingerprint rq)))] ++ map (see_sub m) (hr_unhashed rq)).
  assert (VH : map (see_sub m3) hashed = vhashed) by (unfold hashed, vhashed; cbn [map app]; rewrite SH3; unfold see_sub at 1 2; cbn [hb_type hb_body]; rewrite C3, C1'; reflexivity).
  assert (VU : map (see_sub m3) unhashed = vunhashed) by (unfold unhashed, vunhashed; cbn [map app]; rewrite SU3; unfold see_sub at 1; cbn [hb_type hb_body]; rewrite C4; reflexivity).
  destruct (hash_new E (hr_hash rq)) as [h|] eqn:HN; [|destruct (negb (sl_len private =? 64)%nat); cbn [bind]; unfold sim, s_lift; cbn [s_run]; eauto].
  rewrite bind_read, (content_ext m m3) by assumption.
  destruct (preimage_makes (hr_type rq) (hr_hash rq) hashed m3 FHH t) as (pre & m4 & H & X4 & N5 & I5 & C5). go H. rewrite !bind_read, C5, VH.
  assert (X04 := ext_trans _ _ _ X3 X4). assert (TR : content m4 var_trailer = signature_trailer).
  { rewrite (content_ext package_arrays) ; [reflexivity|exact (ext_trans _ _ _ G0 X04)|]. unfold in_memory. cbn. lia. }
  rewrite TR. set (dg := h _). destruct (fresh_makes dg m4 t) as (dgs & m5 & H & X5 & N6 & I6 & C6). go H. rewrite bind_read, C6. assert (X05 := ext_trans _ _ _ X04 X5).
  destruct (negb (Nat.eqb (sl_len private) 64)); [cbn [bind]; unfold sim, s_lift; cbn [s_run]; eauto|]. rewrite bind_read, (content_ext m m5) by assumption. cbn [bind]. unfold sim.
  do 2 eexists. split; [reflexivity|]. split; [exact X05|]. assert (X35 := ext_trans _ _ _ X4 X5).
  split; [|split; [|split]].
  - unfold see_sig. cbn [hg_hashed hg_unhashed hg_type hg_hash hg_digest hg_r hg_s]. destruct (subs_ext m3 m5 hashed X35 FHH) as [_ ->]. destruct (subs_ext m3 m5 unhashed X35 FUU) as [_ ->]. rewrite VH, VU, C6. reflexivity.
  - unfold slices_sig. cbn [hg_hashed hg_unhashed hg_digest]. constructor; [exact I6|]. apply Forall_app. split; apply (forall_in_ext m3); assumption.
  - pose proof (ext_len _ _ X04). unfold slices_sig. cbn [hg_hashed hg_unhashed hg_digest]. constructor; [left; lia|]. rewrite Forall_forall. intros u U. apply in_app_or in U.
    unfold hashed, unhashed in U. cbn [map app hb_body] in U. cbn [map In]. rewrite map_app. destruct U as [[<-|[<-|U]]|[<-|U]].
    + left. exact N3. + left. exact N1. + right. right. apply in_or_app. left. apply in_map. exact U.
    + right. left. reflexivity. + right. right. apply in_or_app. right. apply in_map. exact U.
  - cbn [hg_digest]. rewrite <- (content_len _ _ I6), C6. exact (hash_len _ _ _ HN).
Qed.

(** ** Assignments *)
Lemma set_eq s i v m t : (i < sl_len s)%nat -> s_set s i v (m, t) = (Ok tt, (set_array m (sl_at s) (splice (array m (sl_at s)) (sl_off s + i) [v]), t)).
Proof. intros L. unfold s_set. destruct (Nat.ltb_spec i (sl_len s)) as [_|Q]; [reflexivity|lia]. Qed.
Lemma splice_replace (a : bytes) o n i v : (i < n)%nat -> (o + n <= length a)%nat -> firstn n (skipn o (splice a (o + i) [v])) = replace_at (firstn n (skipn o a)) i v.
Proof.
  intros L K. rewrite <- (firstn_skipn o a) at 1. assert (LO : length (firstn o a) = o) by (rewrite firstn_length; lia). set (x := firstn o a) in *. set (y := skipn o a).
  assert (LY : (n <= length y)%nat) by (unfold y; rewrite skipn_length; lia). unfold splice. rewrite firstn_app, LO. replace (o + i - o)%nat with i by lia. rewrite (firstn_all2 x) by lia.
  rewrite <- app_assoc, skipn_app, LO, Nat.sub_diag, skipn_all2 by lia. cbn [app skipn]. rewrite skipn_app, LO, skipn_all2 by (cbn [length]; lia). cbn [app length]. replace (o + i + 1 - o)%nat with (S i) by lia.
  unfold replace_at. rewrite firstn_app, firstn_length, (firstn_all2 (firstn i y)) by (rewrite firstn_length; lia). rewrite firstn_firstn. replace (Nat.min i n) with i by lia. f_equal.
  replace (n - Nat.min i (length y))%nat with (S (n - S i)) by lia. cbn [firstn]. f_equal. rewrite skipn_firstn_comm. reflexivity.
Qed.
Lemma set_ok s i v m t : in_memory m s -> (i < sl_len s)%nat -> exists m', s_set s i v (m, t) = (Ok tt, (m', t)) /\
  length m' = length m /\ (forall m0, extends m0 m -> (length m0 <= sl_at s)%nat -> extends m0 m') /\ in_memory m' s /\ content m' s = replace_at (content m s) i v /\
  (forall u, in_memory m u -> in_memory m' u) /\ forall u, in_memory m u -> sl_at u <> sl_at s -> content m' u = content m u.
Proof.
  intros (A & B & C) L. rewrite set_eq by exact L. eexists. split; [reflexivity|]. split; [apply set_array_len; exact A|]. split; [intros m0 X N; apply set_array_ext; assumption|].
  assert (P : (sl_off s + i + length [v] <= length (array m (sl_at s)))%nat) by (cbn [length]; lia).
  assert (IM : forall u, in_memory m u -> in_memory (set_array m (sl_at s) (splice (array m (sl_at s)) (sl_off s + i) [v])) u).
  { intros u (U & V & W). unfold in_memory. rewrite set_array_len, set_array_nth by exact A. destruct (Nat.eqb_spec (sl_at u) (sl_at s)) as [Q|_]; [|lia]. rewrite splice_len by exact P. rewrite <- Q. lia. }
  split; [apply IM; repeat split; assumption|]. split; [|split; [exact IM|intros u U N; exact (proj2 (put_other m (sl_at s) _ _ u A P U (or_introl N)))]].
  unfold content. rewrite set_array_nth, Nat.eqb_refl by exact A. apply splice_replace; lia.
Qed.
Lemma replace_len {A} (l : list A) i a : (i < length l)%nat -> length (replace_at l i a) = length l.
Proof. intros L. unfold replace_at. rewrite app_length, firstn_length. cbn [length]. rewrite skipn_length. lia. Qed.

(** ** New keys *)
Definition new_at (lo : nat) (u : slice) : Prop := (sl_at u < 3)%nat \/ (lo <= sl_at u)%nat.
Definition ed_made (lo : nat) (m' : arrays) (hk : h_ed) (k : ed_key) : Prop :=
  see_ed m' hk = k /\ Forall (in_memory m') (slices_ed hk) /\ Forall (new_at lo) (slices_ed hk) /\ can_sign hk /\
  (lo <= sl_at (hd_private hk))%nat /\ (lo <= sl_at (he_public (hd_base hk)))%nat.
Definition curve_made (lo : nat) (m' : arrays) (hk : h_curve) (k : curve_key) : Prop :=
  see_curve m' hk = k /\ Forall (in_memory m') (slices_curve hk) /\ Forall (new_at lo) (slices_curve hk) /\
  (lo <= sl_at (hc_private hk))%nat /\ Forall (fun u => sl_at u <> sl_at (hc_private hk)) (slices_ecc (hc_base hk)) /\ he_signing (hc_base hk) = None.
Lemma global_content m s b : extends package_arrays m -> in_memory package_arrays s -> content package_arrays s = b -> in_memory m s /\ content m s = b.
Proof. intros X I C. split; [exact (in_ext _ _ _ X I)|]. rewrite (content_ext package_arrays) by assumption. exact C. Qed.
Lemma new_ed_ok seed cr ex m t : extends package_arrays m -> in_memory m seed ->
  sim (ed_made (length m)) m (h_new_ed_key E seed cr ex (m, t)) (plain (new_ed_key E (content m seed) cr ex) t).
Proof.
  intros G0 S. unfold h_new_ed_key, new_ed_key, zlen. rewrite (content_len m seed S). destruct (Z.of_nat (sl_len seed) =? 32) eqn:L; cbn [negb].
  2:{ cbn [plain bind]. unfold sim, s_lift. cbn [s_run]. exists m, t. split; [reflexivity|apply ext_refl]. }
  set (s := content m seed). assert (LS : length s = 32%nat) by (unfold s; rewrite content_len by exact S; lia). pose proof (size_public E sizes s LS) as LP.
  rewrite bind_read. fold s. rewrite (bind_ok _ _ _ _ _ (lit_eq (s ++ ed25519_public E s) m t)). set (m1 := m ++ _). rewrite (bind_ok _ _ _ _ _ (lit_eq (ed25519_public E s) m1 t)). set (m2 := m1 ++ _).
  assert (LSP : length (s ++ ed25519_public E s) = 64%nat) by (rewrite app_length; lia). rewrite LSP, LP. unfold s_cut. cbn [sl_cap Nat.leb andb sl_at sl_off Nat.add Nat.sub]. unfold s_bind. cbn [s_ret]. unfold plain. cbn [bind]. unfold sim.
  do 2 eexists. split; [reflexivity|]. assert (X1 : extends m m1) by apply ext_app. assert (X12 : extends m1 m2) by apply ext_app. assert (X2 := ext_trans _ _ _ X1 X12). split; [exact X2|].
  destruct (global_content m2 var_oid_ed25519 oid_ed25519 (ext_trans _ _ _ G0 X2)) as [IO CO]; [unfold in_memory; cbn; lia|reflexivity|].
  destruct (global_content m2 s_nil [] (ext_trans _ _ _ G0 X2)) as [IN CN]; [unfold in_memory; cbn; lia|reflexivity|].
  assert (P64 : in_memory m2 (mk_slice (length m) 0 64 64) /\ content m2 (mk_slice (length m) 0 64 64) = s ++ ed25519_public E s).
  { split; [apply (in_ext m1); [exact X12|]; apply in_end; lia|]. rewrite (content_ext m1) by (try exact X12; apply in_end; lia). unfold m1. rewrite content_end. apply firstn_all2. lia. }
  assert (P32 : in_memory m2 (mk_slice (length m) 0 32 64) /\ content m2 (mk_slice (length m) 0 32 64) = firstn 32 (s ++ ed25519_public E s)).
  { split; [apply (in_ext m1); [exact X12|]; apply in_end; lia|]. rewrite (content_ext m1) by (try exact X12; apply in_end; lia). unfold m1. rewrite content_end. reflexivity. }
  assert (PP : in_memory m2 (mk_slice (length m1) 0 32 32) /\ content m2 (mk_slice (length m1) 0 32 32) = ed25519_public E s).
  { split; [apply in_end; lia|]. unfold m2. rewrite content_end. apply firstn_all2. lia. }
  destruct P64 as [I64 C64], P32 as [I32 C32], PP as [IP CP]. split; [|split; [|split; [|split]]].
  - unfold see_ed, see_ecc. cbn [hd_base hd_private hd_expiry he_private he_public he_signing he_creation he_alg he_oid he_extra option_map]. rewrite C64, C32, CP, CO, CN. reflexivity.
  - unfold slices_ed, slices_ecc. cbn [hd_base hd_private he_private he_public he_signing he_oid he_extra app]. repeat (constructor; [assumption|]). constructor.
  - unfold slices_ed, slices_ecc, new_at. cbn [hd_base hd_private he_private he_public he_signing he_oid he_extra app]. pose proof (ext_len _ _ X1). repeat (constructor; [cbn [sl_at var_oid_ed25519 global s_nil]; lia|]). constructor.
  - split; [reflexivity|]. cbn [hd_base he_signing]. eexists. split; reflexivity.
  - cbn [hd_base hd_private he_public sl_at]. pose proof (ext_len _ _ X1). split; lia.
Qed.
Lemma clamp_sets (s : bytes) : length s = 32%nat -> let a := replace_at s 0 (Z.land (nth 0 s 0) 248) in let b := replace_at a 31 (Z.land (nth 31 a 0) 127) in replace_at b 31 (Z.lor (nth 31 b 0) 64) = clamp s.
Proof. intros L. do 32 (destruct s as [|? s]; [discriminate L|]). destruct s; [|discriminate L]. reflexivity. Qed.
Lemma new_curve_ok seed cr ex kdf m t : extends package_arrays m -> in_memory m seed ->
  sim (curve_made (length m)) m (h_new_curve_key E G seed cr ex kdf (m, t)) (plain (new_curve_key E (content m seed) cr ex kdf) t).
Proof.
  intros G0 S. unfold h_new_curve_key, new_curve_key, zlen. rewrite (content_len m seed S). destruct (Z.of_nat (sl_len seed) =? 32) eqn:L; cbn [negb].
  2:{ cbn [plain bind]. unfold sim, s_lift. cbn [s_run]. exists m, t. split; [reflexivity|apply ext_refl]. }
  set (s := content m seed). assert (LS : length s = 32%nat) by (unfold s; rewrite content_len by exact S; lia).
  destruct (lit_makes [] m t) as (em & m1 & H & X1 & N1 & I1 & C1). go H.
  rewrite bind_read, (content_ext m m1) by assumption. fold s. destruct (append_ok m m1 em s t X1 N1 I1) as (pr & m2 & H & X2 & N2 & I2 & C2 & _). go H. rewrite C1 in C2. cbn [app] in C2.
  assert (L32 : sl_len pr = 32%nat) by (rewrite <- (content_len _ _ I2), C2; exact LS). rewrite bind_read, C2.
  destruct (set_ok pr 0 (Z.land (nth 0 s 0) 248) m2 t I2) as (m3 & H & _ & X3 & I3 & C3 & _); [lia|]. go H. specialize (X3 m X2 N2). rewrite C2 in C3. rewrite bind_read, C3.
  match goal with |- context [s_set pr 31 ?v] => destruct (set_ok pr 31 v m3 t I3) as (m4 & H & _ & X4 & I4 & C4 & _); [lia|] end. go H. specialize (X4 m X3 N2). rewrite C3 in C4. rewrite bind_read, C4.
  match goal with |- context [s_set pr 31 ?v] => destruct (set_ok pr 31 v m4 t I4) as (m5 & H & _ & X5 & I5 & C5 & _); [lia|] end. go H. specialize (X5 m X4 N2). rewrite C4, (clamp_sets s LS) in C5.
  clear C4 C3 C2 I4 I3 I2 X4 X3 X2 X1 N1 I1 C1 em. rewrite bind_read, (content_ext m m5) by assumption. fold s.
  destruct (lit_makes (x25519_base E s) m5 t) as (pub & m6 & H & X6 & N6 & I6 & C6). go H.
  set (kd := match kdf with None => default_kdf | Some k => k end). unfold h_reverse.
  assert (AS : forall B (g : slice -> sm B) h, s_bind (s_bind (s_read pr) (fun b => s_lit (rev b))) g h = s_bind (s_lit (rev (content (fst h) pr))) g h) by (intros B g [? ?]; reflexivity).
  rewrite AS. clear AS. cbn [fst]. rewrite (content_ext m5 m6), C5 by assumption.
  destruct (lit_makes (rev (clamp s)) m6 t) as (ser & m7 & H & X7 & N7 & I7 & C7). go H. unfold h_kdf_encode.
  destruct (lit_makes (kdf_encode kd) m7 t) as (kx & m8 & H & X8 & N8 & I8 & C8). go H.
  unfold plain, s_ret. cbn [bind]. unfold sim. do 2 eexists. split; [reflexivity|]. assert (X78 := X8). assert (X68 := ext_trans _ _ _ X7 X8). assert (X58 := ext_trans _ _ _ X6 X68). assert (X08 := ext_trans _ _ _ X5 X58). split; [exact X08|].
  destruct (global_content m8 var_oid_curve25519 oid_curve25519 (ext_trans _ _ _ G0 X08)) as [IO CO]; [unfold in_memory; cbn; lia|reflexivity|].
  pose proof (ext_len _ _ X5). pose proof (ext_len _ _ X6). pose proof (ext_len _ _ X7). pose proof (proj1 I5) as Q5. pose proof (ext_len _ _ G0) as QG. cbn [length package_arrays] in QG.
  assert (J5 : in_memory m8 pr) by (apply (in_ext m5); assumption). assert (J6 : in_memory m8 pub) by (apply (in_ext m6); assumption). assert (J7 : in_memory m8 ser) by (apply (in_ext m7); assumption).
  split; [|split; [|split; [|split; [|split]]]].
  - unfold see_curve, see_ecc. cbn [hc_base hc_private hc_expiry hc_kdf he_private he_public he_signing he_creation he_alg he_oid he_extra option_map].
    rewrite (content_ext m5 m8 pr), (content_ext m6 m8 pub), (content_ext m7 m8 ser), C5, C6, C7, C8, CO by assumption. reflexivity.
  - unfold slices_curve, slices_ecc. cbn [hc_base hc_private he_private he_public he_signing he_oid he_extra app]. repeat (constructor; [assumption|]). constructor.
  - unfold slices_curve, slices_ecc, new_at. cbn [hc_base hc_private he_private he_public he_signing he_oid he_extra app]. repeat (constructor; [first [right; lia|left; cbn; lia]|]). constructor.
  - exact N2.
  - unfold slices_ecc. cbn [hc_base hc_private he_private he_public he_signing he_oid he_extra app]. repeat (constructor; [cbn [sl_at var_oid_curve25519 global]; lia|]). constructor.
  - reflexivity.
Qed.

(** ** Certifications and bindings *)
Lemma expiry_ok cr ex m t : exists l m1, h_expiry E cr ex (m, t) = (Ok l, (m1, t)) /\ extends m m1 /\ map (see_sub m1) l = expiry_subpackets E cr ex /\
  Forall (in_memory m1) (map hb_body l) /\ Forall (fun u => (length m <= sl_at u)%nat) (map hb_body l).
Proof.
  unfold h_expiry, expiry_subpackets. destruct (is_zero_time ex); [exists [], m; split; [reflexivity|]; split; [apply ext_refl|]; split; [reflexivity|]; split; constructor|].
  destruct (stamp_makes 4 (seconds_u32 E (t_sub ex cr)) m t) as (s & m1 & H & X & N & I & C). revert H. rewrite !bind_eq. destruct (s_run (s_make 4) (m, t)) as [[a|?|] h]; try discriminate.
  rewrite !bind_eq. destruct (s_run (s_put_uint _ _) _) as [[?|?|] h']; try discriminate. unfold s_ret. cbn [s_run]. intros Q. apply pair_equal_spec in Q. destruct Q as [Q ->]. assert (a = s) by congruence. subst a.
  do 2 eexists. split; [reflexivity|]. split; [exact X|]. cbn [map hb_body]. unfold see_sub. cbn [hb_type hb_body]. rewrite C. split; [reflexivity|]. split; (constructor; [assumption|constructor]).
Qed.
Lemma sign_of_ok private rq : length (rq_fingerprint rq) = 20%nat -> length private = 64%nat -> sign_of E private rq = sign E private rq.
Proof. intros F P. unfold sign_of. rewrite F, P. reflexivity. Qed.
Lemma fingerprint_len k : length (fingerprint_v4 E k) = 20%nat. Proof. apply (size_sha1 E sizes). Qed.
(** Sign with arguments that are new since memory [m] *)
Lemma sign_new private rq v m m1 t : extends package_arrays m -> extends m m1 -> in_memory m1 private -> in_memory m1 (hr_fingerprint rq) -> in_memory m1 (hr_data rq) ->
  Forall (in_memory m1) (map hb_body (hr_hashed rq)) -> Forall (in_memory m1) (map hb_body (hr_unhashed rq)) ->
  (length m <= sl_at (hr_fingerprint rq))%nat -> Forall (fun u => (length m <= sl_at u)%nat) (map hb_body (hr_hashed rq)) -> Forall (fun u => (length m <= sl_at u)%nat) (map hb_body (hr_unhashed rq)) ->
  see_request m1 rq = v -> length (rq_fingerprint v) = 20%nat -> sl_len private = 64%nat ->
  sim (sig_made (fun i => (length m <= i)%nat)) m (h_sign E G private rq (m1, t)) (plain (sign E (content m1 private) v) t).
Proof.
  intros G0 X IP IF ID FH FU NF NH NU V LF LP. pose proof (sign_ok private rq m1 t (ext_trans _ _ _ G0 X) IP IF ID FH FU) as K. rewrite V in K.
  rewrite sign_of_ok in K by (try exact LF; rewrite content_len by exact IP; exact LP). destruct (sign E (content m1 private) v) as [sg|e|]; unfold plain, sim in *; cbn [bind] in *.
  - destruct K as (hs & m2 & H & X2 & (S1 & S2 & S3 & S4)). exists hs, m2. split; [exact H|]. split; [exact (ext_trans _ _ _ X X2)|]. split; [exact S1|]. split; [exact S2|]. split; [|exact S4].
    revert S3. apply Forall_impl. intros u [Q|Q]; [pose proof (ext_len _ _ X); lia|]. cbn [map In] in Q. destruct Q as [<-|Q]; [exact NF|]. rewrite map_app in Q. apply in_app_or in Q.
    rewrite Forall_forall in NH, NU. destruct Q as [Q|Q]; apply in_map_iff in Q; destruct Q as (w & <- & Q); auto.
  - destruct K as (m2 & t2 & H & X2). exists m2, t2. split; [exact H|exact (ext_trans _ _ _ X X2)].
  - destruct K as (m2 & t2 & H & X2). exists m2, t2. split; [exact H|exact (ext_trans _ _ _ X X2)].
Qed.
Lemma ed_base_in m k : Forall (in_memory m) (slices_ed k) -> Forall (in_memory m) (slices_ecc (hd_base k)).
Proof. intros F. inversion F; assumption. Qed.
Lemma ed_private_in m k : Forall (in_memory m) (slices_ed k) -> in_memory m (hd_private k).
Proof. intros F. inversion F; assumption. Qed.

Lemma self_certify_ok k u m t : extends package_arrays m -> Forall (in_memory m) (slices_ed k) -> can_sign k ->
  sim (sig_made (fun i => (length m <= i)%nat)) m (h_self_certify E G k u (m, t)) (plain (self_certify E (see_ed m k) u) t).
Proof.
  intros G0 F [LP _]. assert (FB := ed_base_in _ _ F). assert (FP := ed_private_in _ _ F). unfold h_self_certify, self_certify.
  destruct (public_makes (hd_base k) m FB t) as (pb & m1 & H & X & N1 & I1 & C1). go H.
  destruct (uid_makes u m1 t) as (ui & m2 & H & X' & N2 & I2 & C2). go H. advance X'. rewrite !bind_read, C1, C2.
  destruct (lit_makes [flag_certify] m2 t) as (fl & m3 & H & X' & N3 & I3 & C3). go H. advance X'.
  destruct (expiry_ok (he_creation (hd_base k)) (hd_expiry k) m3 t) as (ex & m4 & H & X' & C4 & I4 & N4). go H.
  assert (N4' : Forall (fun u => (length m <= sl_at u)%nat) (map hb_body ex)) by (revert N4; apply Forall_impl; intros w; pose proof (ext_len _ _ X); lia). clear N4. advance X'.
  destruct (lit_makes [cipher_aes256; cipher_aes192; cipher_aes128; cipher_des] m4 t) as (ci & m5 & H & X' & N5 & I5 & C5). go H. advance X'.
  destruct (lit_makes [hash_sha512; hash_sha384; hash_sha256; hash_sha224; hash_sha1] m5 t) as (ha & m6 & H & X' & N6 & I6 & C6). go H. advance X'.
  destruct (lit_makes [compression_zlib; compression_bzip2; compression_zip] m6 t) as (co & m7 & H & X' & N7 & I7 & C7). go H. advance X'.
  destruct (lit_makes [1] m7 t) as (fe & m8 & H & X' & N8 & I8 & C8). go H. advance X'.
  destruct (lit_makes [key_server_no_modify] m8 t) as (se & m9 & H & X' & N9 & I9 & C9). go H. advance X'.
  destruct (fingerprint_makes (hd_base k) m9 (forall_in_ext _ _ _ X FB) t) as (fp & m10 & H & X' & N10 & I10 & C10). go H. rewrite (see_ecc_ext m m9) in C10 by assumption. advance X'.
  match goal with |- context [s_fresh G ?d] => destruct (fresh_makes d m10 t) as (da & m11 & H & X' & N11 & I11 & C11) end. go H. advance X'.
  replace (ed_private (see_ed m k)) with (content m11 (hd_private k)) by (apply content_ext; assumption).
  eapply sign_new; try eassumption; cbn [hr_fingerprint hr_hash hr_data hr_type hr_hashed hr_unhashed hr_time].
  - apply (in_ext m); assumption.
  - rewrite !map_app. cbn [map hb_body app]. constructor; [exact I3|]. apply Forall_app. split; [exact I4|]. repeat (constructor; [assumption|]). constructor.
  - constructor.
  - rewrite !map_app. cbn [map hb_body app]. constructor; [exact N3|]. apply Forall_app. split; [exact N4'|]. repeat (constructor; [assumption|]). constructor.
  - constructor.
  - unfold see_request. cbn [hr_fingerprint hr_hash hr_data hr_type hr_hashed hr_unhashed hr_time]. rewrite C10, C11. rewrite !map_app, C4. cbn [map app].
    unfold see_sub. cbn [hb_type hb_body]. rewrite C3, C5, C6, C7, C8, C9. reflexivity.
  - apply fingerprint_len.
Qed.

Lemma bind_subkey_ok k sub fl exp m t : extends package_arrays m -> Forall (in_memory m) (slices_ed k) -> can_sign k -> Forall (in_memory m) (slices_ecc sub) ->
  (forall s, he_signing sub = Some s -> sl_len s = 64%nat) ->
  sim (sig_made (fun i => (length m <= i)%nat)) m (h_bind_subkey E G k sub fl exp (m, t)) (plain (bind_subkey E (see_ed m k) (see_ecc m sub) fl exp) t).
Proof.
  intros G0 F [LP _] FS LS. assert (FB := ed_base_in _ _ F). assert (FP := ed_private_in _ _ F). unfold h_bind_subkey, bind_subkey.
  destruct (public_makes (hd_base k) m FB t) as (pb & m1 & H & X & N1 & I1 & C1). go H.
  destruct (public_makes sub m1 (forall_in_ext _ _ _ X FS) t) as (sb & m2 & H & X' & N2 & I2 & C2). go H. rewrite (see_ecc_ext m m1) in C2 by assumption. advance X'. rewrite !bind_read, C1, C2.
  destruct (lit_makes [fl] m2 t) as (fs & m3 & H & X' & N3 & I3 & C3). go H. advance X'.
  destruct (expiry_ok (he_creation sub) exp m3 t) as (ex & m4 & H & X' & C4 & I4 & N4). go H.
  assert (N4' : Forall (fun u => (length m <= sl_at u)%nat) (map hb_body ex)) by (revert N4; apply Forall_impl; intros w; pose proof (ext_len _ _ X); lia). clear N4. advance X'.
  match goal with |- context [s_fresh G ?d] => destruct (fresh_makes d m4 t) as (da & m5 & H & X' & N5 & I5 & C5) end. go H. advance X'.
  change ([public_key_prefix_v4] ++ _) with (bind_data (see_ecc m (hd_base k)) (see_ecc m sub)) in C5. change (ed_base (see_ed m k)) with (see_ecc m (hd_base k)).
  set (data := bind_data (see_ecc m (hd_base k)) (see_ecc m sub)) in *.
  set (un := if negb (Z.land fl flag_sign =? 0) then _ else Ok []).
  (* the embedded signature *)
  match goal with |- context [s_run (s_bind (if ?c then ?a else ?b) _) _] => assert (K : sim (fun m' l v => map (see_sub m') l = v /\ Forall (in_memory m') (map hb_body l) /\ Forall (fun u => (length m <= sl_at u)%nat) (map hb_body l)) m5 ((if c then a else b) (m5, t)) (plain un t)) end.
  { unfold un. destruct (negb (Z.land fl flag_sign =? 0)).
    2:{ unfold plain, sim, s_ret. cbn [bind]. do 2 eexists. split; [reflexivity|]. split; [apply ext_refl|]. cbn [map]. auto. }
    change (ec_signing (see_ecc m sub)) with (option_map (content m) (he_signing sub)). destruct (he_signing sub) as [pk|] eqn:SG; cbn [option_map].
    2:{ unfold plain, sim, s_lift. cbn [bind]. exists m5, t. split; [reflexivity|apply ext_refl]. }
    assert (IPK : in_memory m pk) by (apply (ecc_in _ _ FS); exact SG).
    destruct (fingerprint_makes sub m5 (forall_in_ext _ _ _ X FS) t) as (fp & m6 & H & X6 & N6 & I6 & C6). go H. rewrite (see_ecc_ext m m5) in C6 by assumption.
    assert (SN : sim (sig_made (fun i => (length m5 <= i)%nat)) m5 (h_sign E G pk (mk_hreq fp hash_sha256 da sig_primary_key_binding [] [] (he_creation sub)) (m6, t))
      (plain (sign E (content m6 pk) (mk_req (fingerprint_v4 E (see_ecc m sub)) hash_sha256 data sig_primary_key_binding [] [] (ec_creation (see_ecc m sub)))) t)).
    { eapply sign_new; cbn [hr_fingerprint hr_hash hr_data hr_type hr_hashed hr_unhashed hr_time map].
      - exact (ext_trans _ _ _ G0 X). - exact X6. - apply (in_ext m); [exact (ext_trans _ _ _ X X6)|exact IPK]. - exact I6. - exact (in_ext _ _ _ X6 I5). - constructor. - constructor. - exact N6. - constructor. - constructor.
      - unfold see_request. cbn [hr_fingerprint hr_hash hr_data hr_type hr_hashed hr_unhashed hr_time map]. rewrite C6, (content_ext m5 m6), C5 by assumption. reflexivity.
      - apply fingerprint_len. - apply LS. reflexivity. }
    rewrite (content_ext m m6 pk) in SN by (try exact IPK; exact (ext_trans _ _ _ X X6)).
    destruct (sign E (content m pk) _) as [sg|e|]; unfold plain, sim in *; cbn [bind] in *.
    - destruct SN as (hs & m7 & H & X7 & (S1 & S2 & S3 & S4)). go H. destruct (sig_makes hs m7 S2 S4 t) as (bd & m8 & H & X8 & N8 & I8 & C8). go H. rewrite S1 in C8.
      do 2 eexists. split; [reflexivity|]. split; [exact (ext_trans _ _ _ X7 X8)|]. cbn [map hb_body]. unfold see_sub. cbn [hb_type hb_body]. rewrite C8. split; [reflexivity|].
      split; (constructor; [|constructor]); [exact I8|]. pose proof (ext_len _ _ X7). pose proof (ext_len _ _ X). lia.
    - destruct SN as (m7 & t7 & H & X7). rewrite (bind_err _ _ _ _ _ H). eauto.
    - destruct SN as (m7 & t7 & H & X7). rewrite (bind_panic _ _ _ _ H). eauto. }
  destruct un as [uv|e|]; unfold plain in K; unfold sim in K; cbn [bind] in K; cbn [bind].
  2:{ destruct K as (m7 & t7 & H & X7). rewrite (bind_err _ _ _ _ _ H). unfold plain, sim. cbn [bind]. exists m7, t7. split; [reflexivity|exact (ext_trans _ _ _ X X7)]. }
  2:{ destruct K as (m7 & t7 & H & X7). rewrite (bind_panic _ _ _ _ H). unfold plain, sim. cbn [bind]. exists m7, t7. split; [reflexivity|exact (ext_trans _ _ _ X X7)]. }
  destruct K as (ul & m6 & H & X' & SU & IU & NU). go H. advance X'.
  destruct (fingerprint_makes (hd_base k) m6 (forall_in_ext _ _ _ X FB) t) as (fp & m7 & H & X' & N7 & I7 & C7). go H. rewrite (see_ecc_ext m m6) in C7 by assumption. advance X'.
  replace (ed_private (see_ed m k)) with (content m7 (hd_private k)) by (apply content_ext; assumption).
  eapply sign_new; try eassumption; cbn [hr_fingerprint hr_hash hr_data hr_type hr_hashed hr_unhashed hr_time].
  - apply (in_ext m); assumption.
  - cbn [map hb_body app]. constructor; [exact I3|exact I4].
  - cbn [map hb_body app]. constructor; [exact N3|exact N4'].
  - unfold see_request. cbn [hr_fingerprint hr_hash hr_data hr_type hr_hashed hr_unhashed hr_time]. rewrite C7, C5, SU. cbn [map app]. rewrite C4. unfold see_sub at 1. cbn [hb_type hb_body]. rewrite C3. reflexivity.
  - apply fingerprint_len.
Qed.

(** ** Sets of keys *)
Lemma subkey_packets_ok k sub fl exp pw m t : extends package_arrays m -> Forall (in_memory m) (slices_ed k) -> can_sign k -> Forall (in_memory m) (slices_ecc sub) ->
  (forall s, he_signing sub = Some s -> sl_len s = 64%nat) -> in_memory m pw ->
  sim (new_slice (length m)) m (h_subkey_packets E G k sub fl exp pw (m, t)) (subkey_packets E (see_ed m k) (see_ecc m sub) fl exp (content m pw) t).
Proof.
  intros G0 F CS FS LS P. unfold h_subkey_packets, subkey_packets. pose proof (private_packet_ok tag_secret_subkey sub pw m t FS P) as K.
  destruct (private_packet E tag_secret_subkey (see_ecc m sub) (content m pw) t) as [[b t1]|e|]; unfold sim in K; cbn [bind].
  2:{ destruct K as (m2 & t2 & H & X2). rewrite (bind_err _ _ _ _ _ H). unfold sim. eauto. }
  2:{ destruct K as (m2 & t2 & H & X2). rewrite (bind_panic _ _ _ _ H). unfold sim. eauto. }
  destruct K as (pk & m1 & H & X & N1 & I1 & C1). go H.
  pose proof (bind_subkey_ok k sub fl exp m1 t1 (ext_trans _ _ _ G0 X) (forall_in_ext _ _ _ X F) CS (forall_in_ext _ _ _ X FS) LS) as K. rewrite (see_ed_ext m m1), (see_ecc_ext m m1) in K by assumption.
  destruct (bind_subkey E (see_ed m k) (see_ecc m sub) fl exp) as [sg|e|]; unfold plain, sim in K; cbn [bind] in K; cbn [bind].
  2:{ destruct K as (m2 & t2 & H & X2). rewrite (bind_err _ _ _ _ _ H). unfold sim. exists m2, t2. split; [reflexivity|exact (ext_trans _ _ _ X X2)]. }
  2:{ destruct K as (m2 & t2 & H & X2). rewrite (bind_panic _ _ _ _ H). unfold sim. exists m2, t2. split; [reflexivity|exact (ext_trans _ _ _ X X2)]. }
  destruct K as (hs & m2 & H & X' & (S1 & S2 & S3 & S4)). go H. advance X'.
  destruct (sig_packet_makes hs m2 S2 S4 t1) as (sp & m3 & H & X' & N3 & I3 & C3). go H. rewrite S1 in C3. advance X'. rewrite bind_read, C3.
  destruct (append_ok m m3 pk (sig_packet sg) t1 X N1 I1) as (s & m4 & H & X4 & N4 & I4 & C4 & _). unfold sim. exists s, m4. split; [exact H|]. split; [exact X4|]. split; [exact N4|]. split; [exact I4|]. rewrite C4, C1. reflexivity.
Qed.
End Code.

(** ** Shuffling slices as their contents *)
Lemma swap_rel {A B} (R : A -> B -> Prop) l l' i j : Forall2 R l l' ->
  match swap l i j, swap l' i j with Ok a, Ok b => Forall2 R a b | Err e, Err e' => e = e' | Panic, Panic => True | _, _ => False end.
Proof.
  intros F. assert (NTH : forall n, match nth_error l n, nth_error l' n with Some a, Some b => R a b | None, None => True | _, _ => False end).
  { induction F as [|x y l l' H F IH]; intros [|n]; cbn [nth_error]; auto. apply IH. }
  unfold swap. pose proof (NTH i) as HI. pose proof (NTH j) as HJ.
  destruct (nth_error l i) as [a|], (nth_error l' i) as [a'|]; try contradiction; auto.
  destruct (nth_error l j) as [b|], (nth_error l' j) as [b'|]; try contradiction; auto. clear NTH.
  generalize 0%nat. induction F as [|x y l l' H F IH]; intros k; cbn [length seq combine map]; [constructor|]. constructor; [|apply IH].
  cbn [fst snd]. destruct (Nat.eqb k i); [exact HJ|]. destruct (Nat.eqb k j); assumption.
Qed.
Lemma rel_length {A B} (R : A -> B -> Prop) l l' : Forall2 R l l' -> length l = length l'.
Proof. induction 1; cbn [length]; congruence. Qed.
Lemma shuffle_rel {A B} (R : A -> B -> Prop) E seed l l' : Forall2 R l l' ->
  match shuffle E seed l, shuffle E seed l' with Ok a, Ok b => Forall2 R a b | Err e, Err e' => e = e' | Panic, Panic => True | _, _ => False end.
Proof.
  intros F. unfold shuffle. rewrite (rel_length R _ _ F). generalize (length l' - 1)%nat as i. intros i. generalize 0%nat as k. intros k. revert k l l' F.
  induction i as [|i IH]; intros k l l' F; cbn [shuffle_from]; [exact F|].
  pose proof (swap_rel R l l' (S i) (Z.to_nat (rand_int31n E seed k (Z.of_nat (S i) + 1))) F) as H.
  destruct (swap l _ _) as [a|e|], (swap l' _ _) as [b|e'|]; try contradiction; cbn [bind]; [apply IH; exact H|exact H|exact I].
Qed.

Section Sets.
Variable E : Env.
Variable G : nat -> nat -> nat.
Hypothesis sizes : sizes_ok E.

Lemma set_parts m ks : set_in m ks -> Forall (in_memory m) (slices_ed (hk_master ks)) /\ (forall c, hk_enc ks = Some c -> Forall (in_memory m) (slices_curve c)) /\
  (forall k, hk_auth ks = Some k -> Forall (in_memory m) (slices_ed k)) /\ (forall k, hk_sign ks = Some k -> Forall (in_memory m) (slices_ed k)).
Proof.
  intros [F _]. unfold slices_set in F. apply Forall_app in F. destruct F as [A F]. apply Forall_app in F. destruct F as [B F]. apply Forall_app in F. destruct F as [C D].
  split; [exact A|]. split; [|split]; intros k K; rewrite K in *; assumption.
Qed.
Lemma set_ext m m' ks : extends m m' -> set_in m ks -> set_in m' ks /\ see_set m' ks = see_set m ks.
Proof.
  intros X S. split; [destruct S as [F R]; split; [exact (forall_in_ext _ _ _ X F)|exact R]|]. destruct (set_parts m ks S) as (A & B & C & D). unfold see_set. rewrite (see_ed_ext m m') by assumption.
  destruct (hk_enc ks) as [c|]; cbn [option_map]; [rewrite (see_curve_same m m' c) by (apply forall_content_ext; [exact X|apply B; reflexivity])|];
  (destruct (hk_auth ks) as [k|]; cbn [option_map]; [rewrite (see_ed_ext m m' k) by (try exact X; apply C; reflexivity)|]);
  (destruct (hk_sign ks) as [k'|]; cbn [option_map]; [rewrite (see_ed_ext m m' k') by (try exact X; apply D; reflexivity)|]); reflexivity.
Qed.
Lemma can_sign_base k : can_sign k -> forall s, he_signing (hd_base k) = Some s -> sl_len s = 64%nat.
Proof. intros [_ (s & S & L)] u U. congruence. Qed.
Lemma read_all_ok m t l bs : Forall2 (fun s b => content m s = b) l bs -> s_read_all l (m, t) = (Ok (concat bs), (m, t)).
Proof. induction 1 as [|s b l bs H F IH]; [reflexivity|]. cbn [s_read_all]. rewrite bind_read, H. rewrite (bind_ok _ _ _ _ _ IH). reflexivity. Qed.

Lemma all_subkeys_ok ks pw m t : extends package_arrays m -> set_in m ks -> in_memory m pw ->
  sim (new_slice (length m)) m (h_all_subkey_packets E G ks pw (m, t)) (all_subkey_packets E (see_set m ks) (content m pw) t).
Proof.
  intros G0 S P. unfold h_all_subkey_packets, all_subkey_packets. pose proof S as (_ & CM & CA & CSI & CE). destruct (set_parts m ks S) as (FM & FE & FA & FSI).
  destruct (lit_makes G [] m t) as (e0 & m1 & H & X & N0 & I0 & C0). rewrite (bind_ok _ _ _ _ _ H). clear H.
  destruct (lit_makes G [] m1 t) as (e1 & m2 & H & X' & N1 & I1 & C1). rewrite (bind_ok _ _ _ _ _ H). clear H. advance X'.
  destruct (lit_makes G [] m2 t) as (e2 & m3 & H & X' & N2 & I2 & C2). rewrite (bind_ok _ _ _ _ _ H). clear H. advance X'.
  change (ks_master (see_set m ks)) with (see_ed m (hk_master ks)). change (ks_enc (see_set m ks)) with (option_map (see_curve m) (hk_enc ks)).
  change (ks_auth (see_set m ks)) with (option_map (see_ed m) (hk_auth ks)). change (ks_sign (see_set m ks)) with (option_map (see_ed m) (hk_sign ks)).
  (* encryption *)
  match goal with |- sim _ _ (s_run (s_bind ?f _) _) (let* _ := ?r in _) => assert (K : sim (new_slice (length m)) m3 (f (m3, t)) r) end.
  { destruct (hk_enc ks) as [c|] eqn:EQ; cbn [option_map].
    - assert (FC := FE c eq_refl). inversion FC as [|? ? _ FC']; subst. pose proof (subkey_packets_ok E G sizes (hk_master ks) (hc_base c) (Z.lor flag_encrypt_comm flag_encrypt_storage) (hc_expiry c) pw m3 t (ext_trans _ _ _ G0 X) (forall_in_ext _ _ _ X FM) CM (forall_in_ext _ _ _ X FC')) as K.
      rewrite (see_ed_ext m m3), (see_ecc_ext m m3), (content_ext m m3) in K by assumption. change (cv_base (see_curve m c)) with (see_ecc m (hc_base c)). change (cv_expiry (see_curve m c)) with (hc_expiry c).
      pose proof (ext_len _ _ X). assert (K' := K ltac:(intros s Q; rewrite (CE c eq_refl) in Q; discriminate) (in_ext _ _ _ X P)). clear K.
      destruct (subkey_packets E _ _ _ _ _ t) as [[b t1]|x|]; unfold sim in *; [|exact K'|exact K']. destruct K' as (s & m4 & F & X4 & N4 & R). exists s, m4. split; [exact F|]. split; [exact X4|]. split; [lia|exact R].
    - unfold sim, s_ret. cbn [s_run]. exists e0, m3. split; [reflexivity|]. split; [apply ext_refl|]. split; [exact N0|]. split; assumption. }
  match goal with |- sim _ _ _ (let* _ := ?r in _) => destruct r as [[g0 t1]|x|] end; unfold sim in K; cbn [bind].
  2:{ destruct K as (m4 & t4 & H & X4). rewrite (bind_err _ _ _ _ _ H). unfold sim. exists m4, t4. split; [reflexivity|exact (ext_trans _ _ _ X X4)]. }
  2:{ destruct K as (m4 & t4 & H & X4). rewrite (bind_panic _ _ _ _ H). unfold sim. exists m4, t4. split; [reflexivity|exact (ext_trans _ _ _ X X4)]. }
  destruct K as (h0 & m4 & H & X' & NH0 & IH0 & CH0). rewrite (bind_ok _ _ _ _ _ H). clear H. advance X'.
  (* authentication *)
  match goal with |- sim _ _ (s_run (s_bind ?f _) _) (let* _ := ?r in _) => assert (K : sim (new_slice (length m)) m4 (f (m4, t1)) r) end.
  { destruct (hk_auth ks) as [c|] eqn:EQ; cbn [option_map].
    - assert (FC' := ed_base_in _ _ (FA c eq_refl)). pose proof (subkey_packets_ok E G sizes (hk_master ks) (hd_base c) flag_authenticate (hd_expiry c) pw m4 t1 (ext_trans _ _ _ G0 X) (forall_in_ext _ _ _ X FM) CM (forall_in_ext _ _ _ X FC') (can_sign_base _ (CA c eq_refl)) (in_ext _ _ _ X P)) as K'.
      rewrite (see_ed_ext m m4), (see_ecc_ext m m4), (content_ext m m4) in K' by assumption. change (ed_base (see_ed m c)) with (see_ecc m (hd_base c)). change (ed_expiry (see_ed m c)) with (hd_expiry c).
      pose proof (ext_len _ _ X). destruct (subkey_packets E _ _ _ _ _ t1) as [[b t2]|x|]; unfold sim in *; [|exact K'|exact K']. destruct K' as (s & m5 & F & X4 & N4 & R). exists s, m5. split; [exact F|]. split; [exact X4|]. split; [lia|exact R].
    - unfold sim, s_ret. cbn [s_run]. exists e1, m4. split; [reflexivity|]. split; [apply ext_refl|]. split; [exact N1|]. split; assumption. }
  match goal with |- sim _ _ _ (let* _ := ?r in _) => destruct r as [[g1 t2]|x|] end; unfold sim in K; cbn [bind].
  2:{ destruct K as (m5 & t4 & H & X4). rewrite (bind_err _ _ _ _ _ H). unfold sim. exists m5, t4. split; [reflexivity|exact (ext_trans _ _ _ X X4)]. }
  2:{ destruct K as (m5 & t4 & H & X4). rewrite (bind_panic _ _ _ _ H). unfold sim. exists m5, t4. split; [reflexivity|exact (ext_trans _ _ _ X X4)]. }
  destruct K as (h1 & m5 & H & X' & NH1 & IH1 & CH1). rewrite (bind_ok _ _ _ _ _ H). clear H. advance X'.
  (* signing *)
  match goal with |- sim _ _ (s_run (s_bind ?f _) _) (let* _ := ?r in _) => assert (K : sim (new_slice (length m)) m5 (f (m5, t2)) r) end.
  { destruct (hk_sign ks) as [c|] eqn:EQ; cbn [option_map].
    - assert (FC' := ed_base_in _ _ (FSI c eq_refl)). pose proof (subkey_packets_ok E G sizes (hk_master ks) (hd_base c) flag_sign (hd_expiry c) pw m5 t2 (ext_trans _ _ _ G0 X) (forall_in_ext _ _ _ X FM) CM (forall_in_ext _ _ _ X FC') (can_sign_base _ (CSI c eq_refl)) (in_ext _ _ _ X P)) as K'.
      rewrite (see_ed_ext m m5), (see_ecc_ext m m5), (content_ext m m5) in K' by assumption. change (ed_base (see_ed m c)) with (see_ecc m (hd_base c)). change (ed_expiry (see_ed m c)) with (hd_expiry c).
      pose proof (ext_len _ _ X). destruct (subkey_packets E _ _ _ _ _ t2) as [[b t3]|x|]; unfold sim in *; [|exact K'|exact K']. destruct K' as (s & m6 & F & X4 & N4 & R). exists s, m6. split; [exact F|]. split; [exact X4|]. split; [lia|exact R].
    - unfold sim, s_ret. cbn [s_run]. exists e2, m5. split; [reflexivity|]. split; [apply ext_refl|]. split; [exact N2|]. split; assumption. }
  match goal with |- sim _ _ _ (let* _ := ?r in _) => destruct r as [[g2 t3]|x|] end; unfold sim in K; cbn [bind].
  2:{ destruct K as (m6 & t4 & H & X4). rewrite (bind_err _ _ _ _ _ H). unfold sim. exists m6, t4. split; [reflexivity|exact (ext_trans _ _ _ X X4)]. }
  2:{ destruct K as (m6 & t4 & H & X4). rewrite (bind_panic _ _ _ _ H). unfold sim. exists m6, t4. split; [reflexivity|exact (ext_trans _ _ _ X X4)]. }
  destruct K as (h2 & m6 & H & X' & NH2 & IH2 & CH2). rewrite (bind_ok _ _ _ _ _ H). clear H. advance X'.
  rewrite bind_read. rewrite (content_ext m m6) by (try exact X; exact (ed_private_in _ _ FM)). change (content m (hd_private (hk_master ks))) with (ed_private (see_ed m (hk_master ks))).
  assert (R3 : Forall2 (fun s b => content m6 s = b) [h0; h1; h2] [g0; g1; g2]) by (repeat (constructor; [assumption|]); constructor).
  pose proof (shuffle_rel _ E (shuffle_seed E (ed_private (see_ed m (hk_master ks)))) _ _ R3) as SH.
  destruct (shuffle E _ [h0; h1; h2]) as [hl|x|], (shuffle E _ [g0; g1; g2]) as [gl|x'|]; try contradiction; cbn [bind].
  - match goal with |- context [s_lift (Ok ?a)] => change (s_lift (Ok a)) with (s_ret a) end. rewrite bind_ret. rewrite (bind_ok _ _ _ _ _ (read_all_ok m6 t3 hl gl SH)). unfold sim. apply sim_end; [exact X|apply fresh_makes].
  - subst x'. unfold sim, s_lift. cbn [s_bind s_run]. eauto.
  - unfold sim, s_lift. cbn [s_bind s_run]. eauto.
Qed.
Lemma self_certification_ok ks m t : extends package_arrays m -> set_in m ks ->
  sim (new_slice (length m)) m (h_self_certification E G ks (m, t)) (plain (self_certification E (see_set m ks)) t).
Proof.
  intros G0 S. unfold h_self_certification, self_certification. pose proof S as (_ & CM & _). destruct (set_parts m ks S) as (FM & _).
  pose proof (self_certify_ok E G sizes (hk_master ks) (hk_uid ks) m t G0 FM CM) as K. change (ks_master (see_set m ks)) with (see_ed m (hk_master ks)). change (ks_uid (see_set m ks)) with (hk_uid ks).
  destruct (self_certify E _ _) as [sg|e|]; unfold plain, sim in *; cbn [bind] in *.
  - destruct K as (hs & m1 & H & X & (S1 & S2 & S3 & S4)). rewrite (bind_ok _ _ _ _ _ H). clear H. rewrite <- S1. apply sim_end; [exact X|]. apply sig_packet_makes; assumption.
  - destruct K as (m1 & t1 & H & X). rewrite (bind_err _ _ _ _ _ H). eauto.
  - destruct K as (m1 & t1 & H & X). rewrite (bind_panic _ _ _ _ H). eauto.
Qed.
Lemma packets_ok ks pw m t : extends package_arrays m -> set_in m ks -> in_memory m pw ->
  sim (new_slice (length m)) m (h_encode_packets E G ks pw (m, t)) (encode_packets E (see_set m ks) (content m pw) t).
Proof.
  intros G0 S P. unfold h_encode_packets, encode_packets. destruct (set_parts m ks S) as (FM & _).
  pose proof (private_packet_ok E G tag_secret_key (hd_base (hk_master ks)) pw m t (ed_base_in _ _ FM) P) as K. change (ed_base (ks_master (see_set m ks))) with (see_ecc m (hd_base (hk_master ks))).
  destruct (private_packet E _ _ _ t) as [[b t1]|x|]; unfold sim in K; cbn [bind].
  2:{ destruct K as (m4 & t4 & H & X4). rewrite (bind_err _ _ _ _ _ H). unfold sim. eauto. }
  2:{ destruct K as (m4 & t4 & H & X4). rewrite (bind_panic _ _ _ _ H). unfold sim. eauto. }
  destruct K as (pm & m1 & H & X & N1 & I1 & C1). rewrite (bind_ok _ _ _ _ _ H). clear H. rewrite bind_read, C1.
  destruct (uid_packet_makes G (hk_uid ks) m1 t1) as (ui & m2 & H & X' & N2 & I2 & C2). rewrite (bind_ok _ _ _ _ _ H). clear H. advance X'. rewrite bind_read, C2.
  destruct (set_ext m m2 ks X S) as [S2 V2]. pose proof (self_certification_ok ks m2 t1 (ext_trans _ _ _ G0 X) S2) as K. rewrite V2 in K.
  destruct (self_certification E (see_set m ks)) as [c|x|]; unfold plain, sim in K; cbn [bind] in K; cbn [bind].
  2:{ destruct K as (m4 & t4 & H & X4). rewrite (bind_err _ _ _ _ _ H). unfold sim. exists m4, t4. split; [reflexivity|exact (ext_trans _ _ _ X X4)]. }
  2:{ destruct K as (m4 & t4 & H & X4). rewrite (bind_panic _ _ _ _ H). unfold sim. exists m4, t4. split; [reflexivity|exact (ext_trans _ _ _ X X4)]. }
  destruct K as (ce & m3 & H & X' & N3 & I3 & C3). rewrite (bind_ok _ _ _ _ _ H). clear H. advance X'. rewrite bind_read, C3. clear S2 V2.
  destruct (set_ext m m3 ks X S) as [S3 V3]. pose proof (all_subkeys_ok ks pw m3 t1 (ext_trans _ _ _ G0 X) S3 (in_ext _ _ _ X P)) as K. rewrite V3, (content_ext m m3) in K by assumption.
  destruct (all_subkey_packets E (see_set m ks) (content m pw) t1) as [[d t2]|x|]; unfold sim in K; cbn [bind].
  2:{ destruct K as (m4 & t4 & H & X4). rewrite (bind_err _ _ _ _ _ H). unfold sim. exists m4, t4. split; [reflexivity|exact (ext_trans _ _ _ X X4)]. }
  2:{ destruct K as (m4 & t4 & H & X4). rewrite (bind_panic _ _ _ _ H). unfold sim. exists m4, t4. split; [reflexivity|exact (ext_trans _ _ _ X X4)]. }
  destruct K as (su & m4 & H & X' & N4 & I4 & C4). rewrite (bind_ok _ _ _ _ _ H). clear H. advance X'. rewrite bind_read, C4. unfold sim. apply sim_end; [exact X|apply fresh_makes].
Qed.
Lemma subkey_set_ok ks pw cert m t : extends package_arrays m -> set_in m ks -> in_memory m pw ->
  sim (new_slice (length m)) m (h_encode_subkey_packets E G ks pw cert (m, t)) (encode_subkey_packets E (see_set m ks) (content m pw) cert t).
Proof.
  intros G0 S P. unfold h_encode_subkey_packets, encode_subkey_packets. destruct (set_parts m ks S) as (FM & _).
  destruct (dummy_packet_makes G (hd_base (hk_master ks)) m (ed_base_in _ _ FM) t) as (pm & m1 & H & X & N1 & I1 & C1). rewrite (bind_ok _ _ _ _ _ H). clear H. rewrite bind_read, C1.
  change (ed_base (ks_master (see_set m ks))) with (see_ecc m (hd_base (hk_master ks))).
  destruct (uid_packet_makes G (hk_uid ks) m1 t) as (ui & m2 & H & X' & N2 & I2 & C2). rewrite (bind_ok _ _ _ _ _ H). clear H. advance X'. rewrite bind_read, C2.
  destruct (set_ext m m2 ks X S) as [S2 V2].
  assert (K : sim (fun _ b b' => b = b') m2 ((if cert then sdo c <- h_self_certification E G ks; s_read c else s_ret []) (m2, t)) (plain (if cert then self_certification E (see_set m ks) else Ok []) t)).
  { destruct cert.
    - pose proof (self_certification_ok ks m2 t (ext_trans _ _ _ G0 X) S2) as K. rewrite V2 in K. destruct (self_certification E (see_set m ks)) as [c|x|]; unfold plain, sim in *; cbn [bind] in *.
      + destruct K as (ce & m3 & H & X' & N3 & I3 & C3). rewrite (bind_ok _ _ _ _ _ H). cbn [s_read s_run fst s_ret]. eauto.
      + destruct K as (m4 & t4 & H & X4). rewrite (bind_err _ _ _ _ _ H). eauto.
      + destruct K as (m4 & t4 & H & X4). rewrite (bind_panic _ _ _ _ H). eauto.
    - unfold plain, sim, s_ret. cbn [bind]. do 2 eexists. split; [reflexivity|]. split; [apply ext_refl|reflexivity]. }
  destruct (if cert then self_certification E (see_set m ks) else Ok []) as [c|x|]; unfold plain, sim in K; cbn [bind] in K; cbn [bind].
  2:{ destruct K as (m4 & t4 & H & X4). rewrite (bind_err _ _ _ _ _ H). unfold sim. exists m4, t4. split; [reflexivity|exact (ext_trans _ _ _ X X4)]. }
  2:{ destruct K as (m4 & t4 & H & X4). rewrite (bind_panic _ _ _ _ H). unfold sim. exists m4, t4. split; [reflexivity|exact (ext_trans _ _ _ X X4)]. }
  destruct K as (ce & m3 & H & X' & ->). rewrite (bind_ok _ _ _ _ _ H). clear H. advance X'. clear S2 V2.
  destruct (set_ext m m3 ks X S) as [S3 V3]. pose proof (all_subkeys_ok ks pw m3 t (ext_trans _ _ _ G0 X) S3 (in_ext _ _ _ X P)) as K. rewrite V3, (content_ext m m3) in K by assumption.
  destruct (all_subkey_packets E (see_set m ks) (content m pw) t) as [[d t2]|x|]; unfold sim in K; cbn [bind].
  2:{ destruct K as (m4 & t4 & H & X4). rewrite (bind_err _ _ _ _ _ H). unfold sim. exists m4, t4. split; [reflexivity|exact (ext_trans _ _ _ X X4)]. }
  2:{ destruct K as (m4 & t4 & H & X4). rewrite (bind_panic _ _ _ _ H). unfold sim. exists m4, t4. split; [reflexivity|exact (ext_trans _ _ _ X X4)]. }
  destruct K as (su & m4 & H & X' & N4 & I4 & C4). rewrite (bind_ok _ _ _ _ _ H). clear H. advance X'. rewrite bind_read, C4. unfold sim. apply sim_end; [exact X|apply fresh_makes].
Qed.
End Sets.
