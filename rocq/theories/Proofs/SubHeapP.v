(** Memory with subpackets and signatures holds what was last written to the things of the tale. *)
From Coq Require Import Lia ZifyBool ZifyNat.
From Verif.Model Require Import GoBase Env GoTime PgpWire PgpS2k PgpKeys ZeroValues SubHeap.
From Verif.Spec Require Import EnvSpec SliceSpec SubSpec.

(** the names of the cells; a cell without a name is garbage *)
Definition names := list (option name).
Definition called (v : names) (p : option nat) : option name := match p with Some i => nth i v None | None => None end.
Definition live (v : names) (p : option nat) : Prop := match p with Some i => nth i v None <> None | None => True end.
Definition cell_live (v : names) (c : cell) : Prop :=
  match c with
  | C_sub _ => True
  | C_list l => Forall (live v) l
  | C_sig g => live v (pg_hashed g) /\ live v (pg_unhashed g) /\ (2 <= length (pg_digest g))%nat
  end.
Definition same_made (g : p_sig) (s : signature) : Prop :=
  pg_type g = sg_type s /\ pg_hash g = sg_hash s /\ pg_digest g = sg_digest s /\ pg_r g = sg_r s /\ pg_s g = sg_s s.
Definition stands (v : names) (c : cell) (t : thing) : Prop :=
  match c, t with
  | C_sub s, Sub s' => s = s'
  | C_list l, List l' => map (called v) l = l'
  | C_sig g, Sig a b s => called v (pg_hashed g) = a /\ called v (pg_unhashed g) = b /\ same_made g s
  | _, _ => False
  end.
Record inv (m : list cell) (v : names) (w : log) : Prop := mk_inv {
  iv_length : length v = length m;
  iv_inj : forall i j n, nth_error v i = Some (Some n) -> nth_error v j = Some (Some n) -> i = j;
  iv_cell : forall i n, nth_error v i = Some (Some n) -> exists c t, nth_error m i = Some c /\ cell_live v c /\ now w n = Some t /\ stands v c t
}.
Lemma live_app v e p : live v p -> live (v ++ e) p /\ called (v ++ e) p = called v p.
Proof.
  destruct p as [i|]; cbn [live called]; [|auto]. intros L. destruct (Nat.lt_ge_cases i (length v)) as [H|H].
  - rewrite app_nth1 by exact H. auto.
  - rewrite nth_overflow in L by exact H. congruence.
Qed.
Lemma lives_app v e l : Forall (live v) l -> Forall (live (v ++ e)) l /\ map (called (v ++ e)) l = map (called v) l.
Proof.
  induction 1 as [|p l L F [IH1 IH2]]; cbn [map]; [auto|]. destruct (live_app v e p L) as [A B]. split; [constructor; auto|]. congruence.
Qed.
Lemma cell_app v e c t : cell_live v c -> stands v c t -> cell_live (v ++ e) c /\ stands (v ++ e) c t.
Proof.
  destruct c as [s|l|g], t as [s'|l'|a b s']; cbn [cell_live stands]; try tauto.
  - intros L <-. destruct (lives_app v e l L) as [A B]. auto.
  - intros (L1 & L2 & D) (S1 & S2 & S3). destruct (live_app v e _ L1) as [A1 B1]. destruct (live_app v e _ L2) as [A2 B2]. rewrite B1, B2. auto.
Qed.
Lemma nth_error_live (v : names) i n : nth_error v i = Some (Some n) <-> nth i v None = Some n.
Proof.
  revert i. induction v as [|x v IH]; intros [|i]; cbn; try (split; congruence); auto.
Qed.
Definition unnamed (v : names) (n : name) : Prop := forall i, nth_error v i <> Some (Some n).

Lemma inv_alloc m v w c n t : inv m v w -> unnamed v n -> cell_live v c -> stands v c t -> inv (m ++ [c]) (v ++ [Some n]) ((n, t) :: w).
Proof.
  intros I U L S. destruct I as [IL IJ IC]. split.
  - rewrite !app_length, IL. reflexivity.
  - intros i j k A B. destruct (Nat.lt_ge_cases i (length v)) as [Hi|Hi], (Nat.lt_ge_cases j (length v)) as [Hj|Hj].
    + rewrite nth_error_app1 in A, B by assumption. eauto.
    + rewrite nth_error_app1 in A by assumption. rewrite nth_error_app2 in B by assumption. destruct (j - length v)%nat as [|[|]]; cbn in B; try discriminate. injection B as <-. destruct (U _ A).
    + rewrite nth_error_app1 in B by assumption. rewrite nth_error_app2 in A by assumption. destruct (i - length v)%nat as [|[|]]; cbn in A; try discriminate. injection A as <-. destruct (U _ B).
    + rewrite nth_error_app2 in A, B by assumption. destruct (i - length v)%nat as [|[|]] eqn:Q1, (j - length v)%nat as [|[|]] eqn:Q2; cbn in A, B; try discriminate. lia.
  - intros i k A. cbn [now]. destruct (Nat.lt_ge_cases i (length v)) as [Hi|Hi].
    + rewrite nth_error_app1 in A by assumption. destruct (IC i k A) as (c0 & t0 & C1 & C2 & C3 & C4). exists c0, t0.
      split; [rewrite nth_error_app1 by lia; exact C1|]. destruct (cell_app v [Some n] _ _ C2 C4) as [D1 D2]. split; [exact D1|]. split; [|exact D2].
      destruct (name_dec k n) as [-> |]; [destruct (U _ A)|exact C3].
    + rewrite nth_error_app2 in A by assumption. destruct (i - length v)%nat as [|[|]] eqn:Q; cbn in A; try discriminate. injection A as <-.
      exists c, t. split; [rewrite nth_error_app2 by lia; replace (i - length m)%nat with 0%nat by lia; reflexivity|].
      destruct (cell_app v [Some n] _ _ L S) as [D1 D2]. split; [exact D1|]. split; [destruct (name_dec n n); congruence|exact D2].
Qed.
Lemma inv_garbage m v w c : inv m v w -> inv (m ++ [c]) (v ++ [None]) w.
Proof.
  intros [IL IJ IC]. assert (G : forall i n, nth_error (v ++ [None]) i = Some (Some n) -> nth_error v i = Some (Some n)).
  { intros i n A. destruct (Nat.lt_ge_cases i (length v)) as [Hi|Hi]; [rewrite nth_error_app1 in A by assumption; exact A|].
    rewrite nth_error_app2 in A by assumption. destruct (i - length v)%nat as [|[|]]; cbn in A; discriminate. }
  split.
  - rewrite !app_length, IL. reflexivity.
  - intros i j n A B. eauto.
  - intros i n A. apply G in A. destruct (IC i n A) as (c0 & t0 & C1 & C2 & C3 & C4). exists c0, t0.
    assert (Hi : (i < length m)%nat) by (apply nth_error_Some; congruence). split; [rewrite nth_error_app1 by exact Hi; exact C1|].
    destruct (cell_app v [None] _ _ C2 C4) as [D1 D2]. auto.
Qed.
Lemma update_nth m i c j : (i < length m)%nat -> nth_error (update m i c) j = if Nat.eqb j i then Some c else nth_error m j.
Proof.
  intros H. unfold update. assert (L : length (firstn i m) = i) by (apply firstn_length_le; lia).
  destruct (Nat.eqb_spec j i) as [-> |N].
  - rewrite nth_error_app2, L, Nat.sub_diag by lia. reflexivity.
  - destruct (Nat.lt_ge_cases j i) as [Hj|Hj].
    + rewrite nth_error_app1 by lia. clear L N. revert i j H Hj. induction m as [|x m IH]; intros i j H Hj; [cbn in H; lia|].
      destruct i as [|i]; [lia|]. destruct j as [|j]; cbn [firstn nth_error]; [reflexivity|]. cbn [length] in H. apply IH; lia.
    + rewrite nth_error_app2, L by lia. destruct (j - i)%nat as [|k] eqn:Q; [lia|]. cbn [nth_error]. replace j with (S i + k)%nat by lia.
      clear - H. revert i H. induction m as [|x m IH]; intros i H; [cbn in H; lia|]. destruct i as [|i]; cbn [skipn nth_error]; [reflexivity|]. cbn [length] in H.
      specialize (IH i ltac:(lia)). cbn [skipn] in IH. rewrite IH. reflexivity.
Qed.
Lemma update_length m i c : (i < length m)%nat -> length (update m i c) = length m.
Proof. intros H. unfold update. rewrite app_length, firstn_length. cbn [length]. rewrite skipn_length. lia. Qed.
Lemma inv_write m v w i n c t : inv m v w -> nth_error v i = Some (Some n) -> cell_live v c -> stands v c t -> inv (update m i c) v ((n, t) :: w).
Proof.
  intros [IL IJ IC] N L S. assert (Hi : (i < length m)%nat) by (rewrite <- IL; apply nth_error_Some; congruence). split.
  - rewrite update_length by exact Hi. exact IL.
  - exact IJ.
  - intros j k A. rewrite update_nth by exact Hi. cbn [now]. destruct (Nat.eqb_spec j i) as [-> |D].
    + rewrite N in A. injection A as <-. exists c, t. split; [reflexivity|]. split; [exact L|]. split; [destruct (name_dec n n); congruence|exact S].
    + destruct (IC j k A) as (c0 & t0 & C1 & C2 & C3 & C4). exists c0, t0. split; [exact C1|]. split; [exact C2|]. split; [|exact C4].
      destruct (name_dec k n) as [-> |]; [destruct D; eauto|exact C3].
Qed.

(** ** Reading *)
Section reading.
Variables (m : list cell) (v : names) (w : log).
Hypothesis I : inv m v w.
Lemma read_cell p : live v p ->
  match cell_at m p, now_at w (called v p) with
  | Some c, Some t => cell_live v c /\ stands v c t
  | None, None => p = None
  | _, _ => False
  end.
Proof.
  destruct p as [i|]; cbn [live called cell_at now_at]; [|reflexivity]. intros L. destruct (nth i v None) as [n|] eqn:Q; [|congruence].
  apply nth_error_live in Q. destruct (iv_cell _ _ _ I i n Q) as (c & t & C1 & C2 & C3 & C4). cbn [now_at]. rewrite C1, C3. auto.
Qed.
Lemma read_items p : live v p -> Forall (live v) (items m p) /\ list_now w (called v p) = map (called v) (items m p).
Proof.
  intros L. pose proof (read_cell p L) as R. unfold items, list_now. destruct (cell_at m p) as [c|], (now_at w (called v p)) as [t|]; try contradiction; [|auto].
  destruct R as [R1 R2]. destruct c, t; cbn [cell_live stands] in *; try contradiction; auto.
Qed.
Lemma read_all l : Forall (live v) l ->
  match read_subs m l, subs_now w (map (called v) l) with
  | Ok a, Some b => a = b
  | Panic, None => True
  | _, _ => False
  end.
Proof.
  induction 1 as [|p l L F IH]; cbn [read_subs subs_now map]; [reflexivity|]. pose proof (read_cell p L) as R.
  destruct (cell_at m p) as [c|], (now_at w (called v p)) as [t|]; try contradiction; [|exact Logic.I].
  destruct R as [R1 R2]. destruct c, t; cbn [cell_live stands] in *; try contradiction; try exact Logic.I.
  subst. destruct (read_subs m l), (subs_now w (map (called v) l)); cbn [bind]; try contradiction; [congruence|exact Logic.I].
Qed.
End reading.

(** ** Sign *)
Definition call_of (n : name) : nat := match n with Made j | Own_sub j _ | Own_list j _ => j end.
Definition before (j : nat) (v : names) : Prop := forall i n, nth_error v i = Some (Some n) -> (call_of n < j)%nat.
Lemma unnamed_app v e n : unnamed v n -> ~ In (Some n) e -> unnamed (v ++ e) n.
Proof.
  intros U N i A. destruct (Nat.lt_ge_cases i (length v)) as [Hi|Hi]; [rewrite nth_error_app1 in A by assumption; exact (U i A)|].
  rewrite nth_error_app2 in A by assumption. apply nth_error_In in A. contradiction.
Qed.
Lemma before_unnamed j v n : before j v -> call_of n = j -> unnamed v n.
Proof. intros B Q i A. specialize (B i n A). lia. Qed.
Lemma before_app j v e : before j v -> Forall (fun x => match x with Some n => (call_of n < j)%nat | None => True end) e -> before j (v ++ e).
Proof.
  intros B F i n A. destruct (Nat.lt_ge_cases i (length v)) as [Hi|Hi]; [rewrite nth_error_app1 in A by assumption; eauto|].
  rewrite nth_error_app2 in A by assumption. apply nth_error_In in A. rewrite Forall_forall in F. exact (F _ A).
Qed.
Lemma called_new v n : called (v ++ [Some n]) (Some (length v)) = Some n.
Proof. cbn [called]. rewrite nth_middle. reflexivity. Qed.
Lemma live_new v n : live (v ++ [Some n]) (Some (length v)).
Proof. cbn [live]. rewrite nth_middle. discriminate. Qed.

(** a literal of a slice and append to it *)
Lemma append_inv m v w own l n : inv m v w -> unnamed v n -> Forall (live v) own -> Forall (live v) l ->
  let (a0, m1) := alloc (C_list own) m in
  let (a, m2) := p_append a0 l m1 in
  exists e, inv m2 (v ++ e) ((n, List (map (called v) (own ++ l))) :: w) /\ called (v ++ e) (Some a) = Some n /\
            items m2 (Some a) = own ++ l /\ (e = [Some n] \/ e = [None; Some n]).
Proof.
  intros I U L1 L2. unfold alloc, p_append. destruct l as [|x l].
  - exists [Some n]. rewrite app_nil_r. split; [apply inv_alloc; [exact I|exact U|exact L1|reflexivity]|].
    rewrite <- (iv_length _ _ _ I). split; [apply called_new|]. split; [|auto]. unfold items. cbn [cell_at]. rewrite nth_error_app2, (iv_length _ _ _ I), Nat.sub_diag by (rewrite (iv_length _ _ _ I); lia). reflexivity.
  - unfold items at 1. cbn [cell_at]. rewrite nth_error_app2, Nat.sub_diag by lia. cbn [nth_error]. unfold alloc.
    exists [None; Some n]. pose proof (inv_garbage m v w (C_list own) I) as I1. change [None; Some n] with ([None] ++ [Some n]). rewrite app_assoc.
    assert (LL : Forall (live (v ++ [None])) (own ++ x :: l) /\ map (called (v ++ [None])) (own ++ x :: l) = map (called v) (own ++ x :: l)) by (apply lives_app, Forall_app; auto).
    split; [apply inv_alloc; [exact I1|apply unnamed_app; [exact U|intros [|[]]; discriminate]|apply LL|cbn [stands]; apply LL]|].
    rewrite <- (iv_length _ _ _ I1). split; [apply called_new|]. split; [|auto]. unfold items. cbn [cell_at]. rewrite nth_error_app2, (iv_length _ _ _ I1), Nat.sub_diag by (rewrite (iv_length _ _ _ I1); lia). reflexivity.
Qed.
Lemma known_new E hash : sizes_ok E -> match hash_new E hash with
  | Some h => known hash = true /\ forall x, (2 <= length (h x))%nat
  | None => known hash = false
  end.
Proof.
  intros S. unfold hash_new, known. change hash_sha256 with 8. change hash_sha384 with 9. change hash_sha512 with 10.
  destruct (hash =? 8); [split; [reflexivity|intros x; rewrite (size_sha256 E S); lia]|]. destruct (hash =? 9); [split; [reflexivity|intros x; rewrite (size_sha384 E S); lia]|].
  destruct (hash =? 10); [split; [reflexivity|intros x; rewrite (size_sha512 E S); lia]|]. reflexivity.
Qed.
Lemma live_some v e p : live v p -> live (v ++ e) p.
Proof. intros L. exact (proj1 (live_app v e p L)). Qed.
Lemma items_app m c p : (match p with Some i => (i < length m)%nat | None => True end) -> items (m ++ [c]) p = items m p.
Proof. destruct p as [i|]; [|reflexivity]. intros H. unfold items. cbn [cell_at]. rewrite nth_error_app1 by exact H. reflexivity. Qed.
Definition within (m : list cell) (p : option nat) : Prop := match p with Some i => (i < length m)%nat | None => True end.
Lemma cell_ext m x p : within m p -> cell_at (m ++ x) p = cell_at m p.
Proof. destruct p as [i|]; [|reflexivity]. intros H. cbn [cell_at]. apply nth_error_app1, H. Qed.
Lemma items_ext m x p : within m p -> items (m ++ x) p = items m p.
Proof. intros H. unfold items. rewrite cell_ext by exact H. reflexivity. Qed.
Lemma read_ext m x l : Forall (within m) l -> read_subs (m ++ x) l = read_subs m l.
Proof. induction 1 as [|p l H F IH]; [reflexivity|]. cbn [read_subs]. rewrite cell_ext, IH by exact H. reflexivity. Qed.
Lemma live_within m v w p : inv m v w -> live v p -> within m p.
Proof.
  intros I. destruct p as [i|]; [|auto]. cbn [live within]. intros L. rewrite <- (iv_length _ _ _ I). destruct (Nat.lt_ge_cases i (length v)); [assumption|]. rewrite nth_overflow in L by assumption. congruence.
Qed.
Lemma within_ext m x p : within m p -> within (m ++ x) p.
Proof. destruct p; [|auto]. cbn [within]. rewrite app_length. lia. Qed.
Lemma append_ext m own l : let (a0, m1) := alloc (C_list own) m in let (a, m2) := p_append a0 l m1 in exists x, m2 = m ++ x /\ within m2 (Some a).
Proof.
  unfold alloc, p_append. destruct l; unfold alloc.
  - eexists. split; [reflexivity|]. cbn [within]. rewrite app_length. cbn [length]. lia.
  - rewrite <- app_assoc. eexists. split; [reflexivity|]. cbn [within]. rewrite !app_length. cbn [length]. lia.
Qed.

Section sign.
Variable E : Env.
Hypothesis SZ : sizes_ok E.
Definition sign_told (w : log) (j : nat) (private fp : bytes) (hash : Z) (data : bytes) (type : Z) (hs us : option name) (time : Z) : option log :=
  match subs_now w (list_now w hs) with
  | Some hashed =>
      if Nat.leb 8 (length fp) && known hash && Nat.eqb (length private) 64 then
        match sign E private (mk_req fp hash data type hashed [] time) with
        | Ok g =>
            Some ((Made j, Sig (Some (Own_list j true)) (Some (Own_list j false)) g) ::
                  (Own_list j false, List (Some (Own_sub j 2) :: list_now w us)) ::
                  (Own_sub j 2, Sub (mk_sub 16 (skipn (length fp - 8) fp))) ::
                  (Own_list j true, List (Some (Own_sub j 0) :: Some (Own_sub j 1) :: list_now w hs)) ::
                  (Own_sub j 1, Sub (mk_sub 2 (be_bytes 4 (u32 (t_unix time))))) ::
                  (Own_sub j 0, Sub (mk_sub 33 (4 :: fp))) :: w)
        | _ => None
        end
      else None
  | None => None
  end.
Lemma sign_sim private fp hash data type hs us time m v w j : inv m v w -> before j v -> live v hs -> live v us ->
  match p_sign E private fp hash data type hs us time m, sign_told w j private fp hash data type (called v hs) (called v us) time with
  | Ok (p, m'), Some w' => exists e, inv m' (v ++ e) w' /\ called (v ++ e) (Some p) = Some (Made j) /\ before (S j) (v ++ e)
  | Panic, None => True
  | _, _ => False
  end.
Proof.
  intros I0 B LH LU. unfold p_sign. cbv zeta. cbn [alloc].
  set (c0 := C_sub (mk_sub sub_issuer_fingerprint (key_packet_version :: fp))). set (c1 := C_sub (mk_sub sub_creation_time (be_bytes 4 (u32 (t_unix time))))). set (c2 := C_sub (mk_sub sub_issuer (skipn (length fp - 8) fp))).
  pose proof (live_within _ _ _ _ I0 LH) as WH. pose proof (live_within _ _ _ _ I0 LU) as WU.
  destruct (read_items _ _ _ I0 _ LH) as [FH QH]. destruct (read_items _ _ _ I0 _ LU) as [FU QU].
  pose proof (read_all _ _ _ I0 _ FH) as RA. rewrite <- QH in RA. unfold sign_told. rewrite QU.
  (* the two subpackets *)
  pose proof (inv_alloc _ _ _ c0 (Own_sub j 0) (Sub (mk_sub 33 (4 :: fp))) I0 (before_unnamed j v (Own_sub j 0) B eq_refl) Logic.I eq_refl) as I1.
  assert (U1 : unnamed (v ++ [Some (Own_sub j 0)]) (Own_sub j 1)) by (apply unnamed_app; [apply (before_unnamed j); auto|intros [|[]]; discriminate]).
  pose proof (inv_alloc _ _ _ c1 (Own_sub j 1) (Sub (mk_sub 2 (be_bytes 4 (u32 (t_unix time))))) I1 U1 Logic.I eq_refl) as I2.
  set (v2 := (v ++ [Some (Own_sub j 0)]) ++ [Some (Own_sub j 1)]) in *. set (m2 := (m ++ [c0]) ++ [c1]) in *.
  assert (P0 : called v2 (Some (length m)) = Some (Own_sub j 0)).
  { unfold v2. rewrite <- (iv_length _ _ _ I0). rewrite (proj2 (live_app _ _ _ (live_new v _))). apply called_new. }
  assert (P1 : called v2 (Some (length (m ++ [c0]))) = Some (Own_sub j 1)) by (unfold v2; rewrite <- (iv_length _ _ _ I1); apply called_new).
  assert (EH : items (m2 ++ [C_list [Some (length m); Some (length (m ++ [c0]))]]) hs = items m hs) by (unfold m2; rewrite <- !app_assoc; apply items_ext, WH).
  rewrite EH. set (own := [Some (length m); Some (length (m ++ [c0]))]) in *.
  assert (LO : Forall (live v2) own). { repeat constructor; cbn [live]; [change (nth (length m) v2 None) with (called v2 (Some (length m))); rewrite P0|change (nth (length (m ++ [c0])) v2 None) with (called v2 (Some (length (m ++ [c0])))); rewrite P1]; discriminate. }
  assert (EV : exists e, v2 = v ++ e) by (unfold v2; rewrite <- app_assoc; eauto). destruct EV as (ev & EV).
  assert (FH2 : Forall (live v2) (items m hs) /\ map (called v2) (items m hs) = map (called v) (items m hs)) by (rewrite EV; apply lives_app, FH). destruct FH2 as [FH2 MH2].
  assert (U2 : unnamed v2 (Own_list j true)) by (unfold v2; repeat (apply unnamed_app; [|intros [|[]]; discriminate]); apply (before_unnamed j); auto).
  pose proof (append_inv m2 v2 _ own (items m hs) _ I2 U2 LO FH2) as A1. pose proof (append_ext m2 own (items m hs)) as X1. cbn [alloc] in A1, X1.
  destruct (p_append (length m2) (items m hs) (m2 ++ [C_list own])) as [a m4]. destruct A1 as (e4 & I4 & CA & IA & E4). destruct X1 as (x4 & X4 & WA).
  assert (MO : map (called v2) (own ++ items m hs) = Some (Own_sub j 0) :: Some (Own_sub j 1) :: list_now w (called v hs)).
  { unfold own. cbn [app map]. rewrite P0, P1, MH2, QH. reflexivity. } rewrite MO in I4.
  destruct (Nat.ltb (length fp) 8) eqn:LF.
  { replace (Nat.leb 8 (length fp)) with false by lia. cbn [andb]. destruct (subs_now w _); exact Logic.I. }
  replace (Nat.leb 8 (length fp)) with true by lia. cbn [andb].
  (* the third *)
  assert (U4 : unnamed (v2 ++ e4) (Own_sub j 2)).
  { unfold v2. repeat apply unnamed_app; try (intros [|[]]; discriminate); [apply (before_unnamed j); auto|]. destruct E4 as [-> | ->]; cbn [In]; intuition discriminate. }
  pose proof (inv_alloc _ _ _ c2 (Own_sub j 2) (Sub (mk_sub 16 (skipn (length fp - 8) fp))) I4 U4 Logic.I eq_refl) as I5.
  set (v5 := (v2 ++ e4) ++ [Some (Own_sub j 2)]) in *. set (m5 := m4 ++ [c2]) in *.
  assert (P2 : called v5 (Some (length m4)) = Some (Own_sub j 2)) by (unfold v5; rewrite <- (iv_length _ _ _ I4); apply called_new).
  assert (EU : items (m5 ++ [C_list [Some (length m4)]]) us = items m us) by (unfold m5; rewrite X4; unfold m2; rewrite <- !app_assoc; apply items_ext, WU).
  rewrite EU. set (own2 := [Some (length m4)]) in *.
  assert (LO2 : Forall (live v5) own2). { repeat constructor; cbn [live]; change (nth (length m4) v5 None) with (called v5 (Some (length m4))); rewrite P2; discriminate. }
  assert (EV5 : exists e, v5 = v ++ e) by (unfold v5; rewrite EV, <- !app_assoc; eauto). destruct EV5 as (ev5 & EV5).
  assert (FU2 : Forall (live v5) (items m us) /\ map (called v5) (items m us) = map (called v) (items m us)) by (rewrite EV5; apply lives_app, FU). destruct FU2 as [FU2 MU2].
  assert (U5 : unnamed v5 (Own_list j false)).
  { unfold v5, v2. repeat apply unnamed_app; try (intros [|[]]; discriminate); [apply (before_unnamed j); auto|]. destruct E4 as [-> | ->]; cbn [In]; intuition discriminate. }
  pose proof (append_inv m5 v5 _ own2 (items m us) _ I5 U5 LO2 FU2) as A2. pose proof (append_ext m5 own2 (items m us)) as X2. cbn [alloc] in A2, X2.
  destruct (p_append (length m5) (items m us) (m5 ++ [C_list own2])) as [b m7]. destruct A2 as (e7 & I7 & CB & IB & E7). destruct X2 as (x7 & X7 & WB).
  assert (MU : map (called v5) (own2 ++ items m us) = Some (Own_sub j 2) :: map (called v) (items m us)).
  { unfold own2. cbn [app map]. rewrite P2, MU2. reflexivity. } rewrite MU in I7.
  pose proof (known_new E hash SZ) as KN. destruct (hash_new E hash) as [h|] eqn:HN; cbn [deref bind].
  2:{ rewrite KN. cbn [andb]. destruct (subs_now w _); exact Logic.I. }
  destruct KN as [KN KL]. rewrite KN. cbn [andb].
  (* reading what is signed *)
  assert (IA7 : items m7 (Some a) = own ++ items m hs) by (rewrite X7; unfold m5; rewrite <- app_assoc, items_ext by exact WA; exact IA).
  rewrite IA7.
  assert (RS : read_subs m7 (own ++ items m hs) = let* l := read_subs m (items m hs) in
            Ok (mk_sub sub_issuer_fingerprint (key_packet_version :: fp) :: mk_sub sub_creation_time (be_bytes 4 (u32 (t_unix time))) :: l)).
  { assert (X : exists x, m7 = m ++ c0 :: c1 :: x) by (rewrite X7; unfold m5; rewrite X4; unfold m2; rewrite <- !app_assoc; eexists; reflexivity). destruct X as (x & ->).
    unfold own. rewrite app_length. cbn [app read_subs cell_at length]. rewrite nth_error_app2, Nat.sub_diag by lia. cbn [nth_error]. unfold c0.
    rewrite nth_error_app2 by lia. replace (length m + 1 - length m)%nat with 1%nat by lia. cbn [nth_error]. unfold c1.
    rewrite read_ext by (eapply Forall_impl; [|exact FH]; intros p L; exact (live_within _ _ _ _ I0 L)). destruct (read_subs m (items m hs)); reflexivity. }
  rewrite RS. destruct (read_subs m (items m hs)) as [l| |], (subs_now w (list_now w (called v hs))) as [l'|]; cbn [bind]; try contradiction; [|exact Logic.I]. subst l'.
  destruct (Nat.eqb (length private) 64); cbn [negb]; [|exact Logic.I].
  unfold sign. cbn [rq_hash rq_fingerprint rq_data rq_type rq_hashed rq_unhashed rq_time]. rewrite HN. cbv zeta. cbn [app].
  assert (CA7 : live (v5 ++ e7) (Some a) /\ called (v5 ++ e7) (Some a) = Some (Own_list j true)).
  { assert (LA : live (v2 ++ e4) (Some a)) by (cbn [live]; cbn [called] in CA; rewrite CA; discriminate). unfold v5. rewrite <- app_assoc. destruct (live_app (v2 ++ e4) ([Some (Own_sub j 2)] ++ e7) _ LA) as [Y1 Y2]. split; [exact Y1|]. rewrite Y2. exact CA. }
  assert (CB7 : live (v5 ++ e7) (Some b)) by (cbn [live]; cbn [called] in CB; rewrite CB; discriminate).
  assert (U7 : unnamed (v5 ++ e7) (Made j)).
  { unfold v5, v2. repeat apply unnamed_app; try (intros [|[]]; discriminate); [apply (before_unnamed j); auto| |]; [destruct E4 as [-> | ->]|destruct E7 as [-> | ->]]; cbn [In]; intuition discriminate. }
  eexists (ev5 ++ e7 ++ [Some (Made j)]).
  assert (EV7 : v ++ ev5 ++ e7 ++ [Some (Made j)] = (v5 ++ e7) ++ [Some (Made j)]) by (rewrite EV5, <- !app_assoc; reflexivity). rewrite EV7.
  split; [|split].
  - apply inv_alloc; [exact I7|exact U7| |].
    + cbn [cell_live pg_hashed pg_unhashed pg_digest]. split; [apply CA7|]. split; [exact CB7|apply KL].
    + cbn [stands pg_hashed pg_unhashed]. split; [apply CA7|]. split; [exact CB|]. repeat split.
  - rewrite <- (iv_length _ _ _ I7). apply called_new.
  - unfold v5, v2. repeat apply before_app; try (repeat constructor; cbn [call_of]; lia).
    + intros i n A. specialize (B i n A). lia.
    + destruct E4 as [-> | ->]; repeat constructor; cbn [call_of]; lia.
    + destruct E7 as [-> | ->]; repeat constructor; cbn [call_of]; lia.
Qed.
End sign.

(** ** Steps *)
Section steps.
Variable E : Env.
Hypothesis SZ : sizes_ok E.
Definition sim (st : p_state) (t : tale) : Prop := exists v, inv (p_mem st) v (t_log t) /\ before (length (t_vals t)) v /\
  Forall (live v) (p_vals st) /\ map (called v) (p_vals st) = t_vals t.
Lemma value_live v l x : Forall (live v) l -> live v (nth x l None).
Proof. intros F. destruct (Nat.lt_ge_cases x (length l)) as [H|H]; [rewrite Forall_forall in F; apply F, nth_In, H|rewrite nth_overflow by exact H; exact Logic.I]. Qed.
Lemma value_called v l x : nth x (map (called v) l) None = called v (nth x l None).
Proof. change None with (called v None) at 1. apply map_nth. Qed.
Lemma before_next j v : before j v -> before (S j) v.
Proof. intros B i n A. specialize (B i n A). lia. Qed.
Lemma sim_same m m' v vals t p w' : inv m' v w' -> before (length (t_vals t)) v -> Forall (live v) vals -> map (called v) vals = t_vals t -> live v p ->
  m = m' -> sim (mk_pst m (vals ++ [p])) (mk_tale w' (t_vals t ++ [called v p])).
Proof.
  intros I B F Q L ->. exists v. cbn [p_mem p_vals t_log t_vals]. split; [exact I|]. split; [rewrite app_length, Nat.add_comm; apply before_next, B|].
  split; [apply Forall_app; auto|]. rewrite map_app, Q. reflexivity.
Qed.
Lemma sim_more m v e vals t p w' n : inv m (v ++ e) w' -> before (S (length (t_vals t))) (v ++ e) -> Forall (live v) vals -> map (called v) vals = t_vals t ->
  called (v ++ e) (Some p) = Some n -> sim (mk_pst m (vals ++ [Some p])) (mk_tale w' (t_vals t ++ [Some n])).
Proof.
  intros I B F Q C. exists (v ++ e). cbn [p_mem p_vals t_log t_vals]. destruct (lives_app v e _ F) as [F1 F2]. split; [exact I|]. split; [rewrite app_length, Nat.add_comm; exact B|].
  split; [apply Forall_app; split; [exact F1|repeat constructor; cbn [live]; cbn [called] in C; congruence]|]. rewrite map_app, F2, Q. cbn [map]. rewrite C. reflexivity.
Qed.
Lemma put_live v l i x : Forall (live v) l -> live v x -> Forall (live v) (put l i x) /\ map (called v) (put l i x) = put (map (called v) l) i (called v x).
Proof.
  intros F L. revert i. induction F as [|y l Ly F IH]; intros i; [destruct i; cbn; auto|]. destruct i as [|i]; cbn [put map]; [auto|]. destruct (IH i) as [A B]. split; [constructor; auto|]. rewrite B. reflexivity.
Qed.
Lemma encode_sim m v w g s : inv m v w -> cell_live v (C_sig g) -> same_made g s ->
  match p_encode m g, subs_now w (list_now w (called v (pg_hashed g))), subs_now w (list_now w (called v (pg_unhashed g))) with
  | Ok b, Some hashed, Some unhashed => b = sig_encode (mk_sig hashed unhashed (sg_type s) (sg_hash s) (sg_digest s) (sg_r s) (sg_s s))
  | Panic, None, _ | Panic, _, None => True
  | _, _, _ => False
  end.
Proof.
  intros I (L1 & L2 & D) (T1 & T2 & T3 & T4 & T5). destruct (read_items _ _ _ I _ L1) as [F1 Q1]. destruct (read_items _ _ _ I _ L2) as [F2 Q2].
  pose proof (read_all _ _ _ I _ F1) as R1. pose proof (read_all _ _ _ I _ F2) as R2. rewrite <- Q1 in R1. rewrite <- Q2 in R2. unfold p_encode.
  destruct (read_subs m (items m (pg_hashed g))), (subs_now w (list_now w (called v (pg_hashed g)))); try contradiction; cbn [bind]; [subst|exact Logic.I].
  destruct (read_subs m (items m (pg_unhashed g))), (subs_now w (list_now w (called v (pg_unhashed g)))); try contradiction; cbn [bind]; [subst|exact Logic.I].
  replace (Nat.ltb (length (pg_digest g)) 2) with false by lia. unfold sig_encode. cbn [sg_type sg_hash sg_hashed sg_unhashed sg_digest sg_r sg_s]. rewrite T1, T2, T3, T4, T5. reflexivity.
Qed.
Lemma step_sim st t c : sim st t ->
  match told E t c with
  | Some (o, t') => fst (p_step E st c) = o /\ o <> P_panicked /\ sim (snd (p_step E st c)) t'
  | None => fst (p_step E st c) = P_panicked
  end.
Proof.
  destruct st as [m vals], t as [w tv]. intros (v & I & B & F & Q). cbn [p_mem p_vals t_log t_vals] in *.
  assert (V : forall x, nth x tv None = called v (nth x vals None)) by (intros x; rewrite <- Q; apply value_called).
  pose proof (fun x => value_live v vals x F) as LV.
  assert (UM : unnamed v (Made (length tv))) by (apply (before_unnamed (length tv)); auto).
  assert (BM : before (S (length tv)) (v ++ [Some (Made (length tv))])) by (apply before_app; [apply before_next, B|repeat constructor; cbn [call_of]; lia]).
  destruct c; unfold told, p_step; cbn [p_mem p_vals t_log t_vals].
  - cbn [alloc fst snd]. split; [reflexivity|]. split; [discriminate|].
    refine (sim_more _ v [Some (Made (length tv))] vals (mk_tale w tv) _ _ _ _ BM F Q _); [apply inv_alloc; [exact I|exact UM|exact Logic.I|reflexivity]|].
    rewrite <- (iv_length _ _ _ I). apply called_new.
  - cbn [alloc fst snd]. split; [reflexivity|]. split; [discriminate|].
    refine (sim_more _ v [Some (Made (length tv))] vals (mk_tale w tv) _ _ _ _ BM F Q _); [apply inv_alloc; [exact I|exact UM| |]|].
    + cbn [cell_live]. apply Forall_map, Forall_forall. intros x _. apply LV.
    + cbn [stands]. rewrite map_map. apply map_ext. intros x. symmetry. apply V.
    + rewrite <- (iv_length _ _ _ I). apply called_new.
  - pose proof (sign_sim E SZ private fp hash data type (nth hashed vals None) (nth unhashed vals None) t m v w (length tv) I B (LV _) (LV _)) as SS.
    rewrite !V. unfold sign_told in SS. rewrite <- !V in *.
    destruct (subs_now w (list_now w (nth hashed tv None))) as [hl|]; [destruct (_ && _ && _); [destruct (sign E private _) as [g| |]|]|];
      destruct (p_sign E private fp hash data type (nth hashed vals None) (nth unhashed vals None) t m) as [[p m']| |]; try contradiction; try reflexivity.
    destruct SS as (e & S1 & S2 & S3). cbn [fst snd]. split; [reflexivity|]. split; [discriminate|]. exact (sim_more _ v e vals (mk_tale w tv) _ _ _ S1 S3 F Q S2).
  - rewrite V. pose proof (read_cell _ _ _ I _ (LV s)) as R. destruct (cell_at m (nth s vals None)) as [c|], (now_at w (called v (nth s vals None))) as [t|]; try contradiction; [|reflexivity].
    destruct R as [R1 R2]. destruct c as [|l|g], t as [|l'|a b g']; cbn [stands cell_live] in *; try contradiction; try reflexivity. cbn [fst snd]. split; [reflexivity|]. split; [discriminate|].
    destruct R1 as (R3 & R4 & _), R2 as (<- & <- & _). destruct hashed; refine (sim_same _ _ v vals (mk_tale w tv) _ _ I B F Q _ eq_refl); assumption.
  - rewrite V. destruct (read_items _ _ _ I _ (LV l)) as [R1 R2]. rewrite R2. rewrite nth_error_map. destruct (nth_error (items m (nth l vals None)) i) as [p|] eqn:N; [|reflexivity]. cbn [option_map fst snd].
    split; [reflexivity|]. split; [discriminate|]. refine (sim_same _ _ v vals (mk_tale w tv) _ _ I B F Q _ eq_refl). rewrite Forall_forall in R1. apply R1. eapply nth_error_In, N.
  - rewrite V. pose proof (read_cell _ _ _ I _ (LV x)) as R. pose proof (LV x) as LX. destruct (nth x vals None) as [i|]; [|reflexivity]. cbn [called live] in *.
    destruct (nth i v None) as [n|] eqn:N; [|congruence]. destruct (cell_at m (Some i)) as [c|], (now_at w (Some n)) as [t|]; try contradiction; [|congruence].
    destruct R as [R1 R2]. destruct c as [s0|l|g], t as [s'|l'|a b g']; cbn [stands] in *; try contradiction; try reflexivity. cbn [fst snd]. split; [reflexivity|]. split; [discriminate|].
    refine (sim_same _ _ v vals (mk_tale w tv) None _ _ B F Q Logic.I eq_refl). apply inv_write; [exact I|apply nth_error_live, N|exact Logic.I|reflexivity].
  - rewrite !V. pose proof (read_cell _ _ _ I _ (LV l)) as R. pose proof (LV l) as LX. destruct (nth l vals None) as [a|]; [|reflexivity]. cbn [called live] in *.
    destruct (nth a v None) as [n|] eqn:N; [|congruence]. destruct (cell_at m (Some a)) as [c|], (now_at w (Some n)) as [t|]; try contradiction; [|congruence].
    destruct R as [R1 R2]. destruct c as [s0|its|g], t as [s'|l'|a' b g']; cbn [stands cell_live] in *; try contradiction; try reflexivity. subst l'. rewrite map_length. destruct (Nat.ltb i (length its)); [|reflexivity].
    cbn [fst snd]. split; [reflexivity|]. split; [discriminate|]. destruct (put_live v its i _ R1 (LV x)) as [P1 P2].
    refine (sim_same _ _ v vals (mk_tale w tv) None _ _ B F Q Logic.I eq_refl). apply inv_write; [exact I|apply nth_error_live, N|exact P1|exact P2].
  - rewrite !V. pose proof (read_cell _ _ _ I _ (LV s)) as R. pose proof (LV s) as LX. pose proof (LV l) as LL. destruct (nth s vals None) as [a|]; [|reflexivity]. cbn [called live] in LX, R |- *.
    destruct (nth a v None) as [n|] eqn:N; [|congruence]. destruct (cell_at m (Some a)) as [c|], (now_at w (Some n)) as [t|]; try contradiction; [|congruence].
    destruct R as [R1 R2]. destruct c as [s0|its|g], t as [s'|l'|a' b g']; cbn [stands cell_live] in *; try contradiction; try reflexivity.
    cbn [fst snd]. split; [reflexivity|]. split; [discriminate|]. destruct R1 as (R3 & R4 & R5), R2 as (R6 & R7 & R8).
    refine (sim_same _ _ v vals (mk_tale w tv) None _ _ B F Q Logic.I eq_refl). apply inv_write; [exact I|apply nth_error_live, N| |].
    + destruct hashed; cbn [cell_live pg_hashed pg_unhashed pg_digest]; auto.
    + destruct hashed; cbn [stands pg_hashed pg_unhashed]; split; auto.
  - rewrite V. pose proof (read_cell _ _ _ I _ (LV s)) as R. destruct (cell_at m (nth s vals None)) as [c|], (now_at w (called v (nth s vals None))) as [t|]; try contradiction; [|reflexivity].
    destruct R as [R1 R2]. destruct c as [|l|g], t as [|l'|a b g']; cbn [stands] in R2; try contradiction; try reflexivity. destruct R2 as (<- & <- & R3). pose proof (encode_sim m v w g g' I R1 R3) as ES.
    destruct (p_encode m g) as [x| |], (subs_now w (list_now w (called v (pg_hashed g)))), (subs_now w (list_now w (called v (pg_unhashed g)))); try contradiction; try reflexivity.
    cbn [fst snd]. split; [congruence|]. split; [discriminate|]. exact (sim_same _ _ v vals (mk_tale w tv) None _ I B F Q Logic.I eq_refl).
Qed.
Lemma run_sim calls : forall st t, sim st t -> p_run E st calls = tell E t calls.
Proof.
  induction calls as [|c calls IH]; intros st t S; [reflexivity|]. cbn [p_run tell]. pose proof (step_sim st t c S) as T. destruct (p_step E st c) as [o st']. cbn [fst snd] in T.
  destruct (told E t c) as [[o' t']|]; [|subst; reflexivity]. destruct T as (<- & N & S'). rewrite (IH _ _ S'). destruct o; congruence.
Qed.
Lemma init_sim : sim p_init no_tale.
Proof.
  exists []. cbn. split; [split; [reflexivity|intros [|i] j n A; discriminate|intros [|i] n A; discriminate]|]. split; [intros [|i] n A; discriminate|]. auto.
Qed.
End steps.
