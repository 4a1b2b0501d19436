(** Programs of the package pgp that differ in fields nothing reads see the same. *)
From Coq Require Import Lia ZifyBool ZifyNat.
From Verif.Model Require Import GoBase Env GoTime Seed Encoding PgpWire PgpS2k PgpKeys ZeroValues PgpFields.
From Verif.Spec Require Import EnvSpec SliceSpec FieldSpec.

Definition alike (o o' : f_object) : Prop :=
  match o, o' with
  | F_master_key k, F_master_key k' => fe_base k = fe_base k' /\ fe_private k = fe_private k' /\ fe_creation k = fe_creation k' /\ fe_expiry k = fe_expiry k'
  | F_ed_subkey k, F_ed_subkey k' => fe_base k = fe_base k' /\ fe_expiry k = fe_expiry k'
  | F_curve_key k, F_curve_key k' => fc_base k = fc_base k' /\ fc_expiry k = fc_expiry k'
  | _, _ => o = o'
  end.
Definition alike_st (st st' : f_state) : Prop := Forall2 alike (f_heap st) (f_heap st') /\ f_kdf st = f_kdf st' /\ f_hash st = f_hash st'.
Lemma alike_refl o : alike o o.
Proof. destruct o; cbn; auto. Qed.
Lemma alike_at h h' : Forall2 alike h h' -> forall p, alike (nth p h F_none) (nth p h' F_none).
Proof. induction 1 as [|o o' h h' A F IH]; intros [|p]; cbn [nth]; auto; reflexivity. Qed.

Section two.
Variable E : Env.
Variables h h' : list f_object.
Hypothesis A : Forall2 alike h h'.

Ltac look p := pose proof (alike_at _ _ A p) as Q; destruct (nth p h F_none), (nth p h' F_none); cbn [alike] in Q; try discriminate Q.
Lemma user_alike p : user_at h p = user_at h' p.
Proof. unfold user_at. look p; try reflexivity. congruence. Qed.
Lemma keys_alike p : keys_at h p = keys_at h' p.
Proof. unfold keys_at. look p; try reflexivity. congruence. Qed.
Lemma sub_alike p : subpacket_at h p = subpacket_at h' p.
Proof. unfold subpacket_at. look p; try reflexivity. congruence. Qed.
Lemma sig_alike p : signature_at h p = signature_at h' p.
Proof. unfold signature_at. look p; try reflexivity. congruence. Qed.
Lemma base_alike p : base_at h p = base_at h' p.
Proof. unfold base_at. look p; try reflexivity; destruct Q; assumption. Qed.
Lemma tag_alike p a b : tag_of h p a b = tag_of h' p a b.
Proof. unfold tag_of. look p; reflexivity. Qed.
Definition master_like (m m' : option f_ed) : Prop :=
  match m, m' with
  | Some k, Some k' => fe_base k = fe_base k' /\ fe_private k = fe_private k' /\ fe_creation k = fe_creation k' /\ fe_expiry k = fe_expiry k'
  | None, None => True
  | _, _ => False
  end.
Lemma master_alike p : master_like (master_at h p) (master_at h' p).
Proof. unfold master_at. look p; try exact I. exact Q. Qed.

Lemma subs_alike l : f_subs h l = f_subs h' l.
Proof. induction l as [|[s|p] l IH]; cbn [f_subs]; [reflexivity|rewrite IH; reflexivity|rewrite IH, sub_alike; reflexivity]. Qed.
Lemma sig_encode_alike s : f_sig_encode h s = f_sig_encode h' s.
Proof. unfold f_sig_encode. destruct s as [s|]; cbn [deref bind]; [|reflexivity]. rewrite !subs_alike. reflexivity. Qed.
Lemma sig_packet_alike s : f_sig_packet h s = f_sig_packet h' s.
Proof. unfold f_sig_packet. rewrite sig_encode_alike. reflexivity. Qed.
Lemma sign_alike p rq : f_sign E h p rq = f_sign E h' p rq.
Proof.
  unfold f_sign. destruct rq as [rq|]; cbn [deref bind]; [|reflexivity]. destruct (Nat.ltb _ 8); [reflexivity|]. destruct (hash_new E (fr_hash rq)); cbn [deref bind]; [|reflexivity].
  rewrite subs_alike. reflexivity.
Qed.
Lemma certify_alike m m' u : master_like m m' -> f_self_certify E h m u = f_self_certify E h' m' u.
Proof.
  unfold f_self_certify. destruct m as [k|], m' as [k'|]; cbn [master_like deref bind]; try contradiction; [|reflexivity]. intros (-> & -> & -> & ->).
  destruct (f_encode_public _); cbn [bind]; [|reflexivity..]. destruct (f_uid_encode u); cbn [bind]; [|reflexivity..]. destruct (f_fingerprint E _); cbn [bind]; [|reflexivity..]. apply sign_alike.
Qed.
Lemma bind_alike m m' sub flags ex : master_like m m' -> f_bind_subkey E h m sub flags ex = f_bind_subkey E h' m' sub flags ex.
Proof.
  unfold f_bind_subkey. destruct m as [k|], m' as [k'|]; cbn [master_like deref bind]; try contradiction; [|reflexivity]. intros (-> & -> & _ & _).
  destruct (f_encode_public _); cbn [bind]; [|reflexivity..]. destruct (f_encode_public sub); cbn [bind]; [|reflexivity..]. destruct sub as [s|]; cbn [deref bind]; [|reflexivity].
  match goal with |- (let* x := ?a in ?f) = (let* y := ?b in ?g) => assert (U : a = b) end.
  { destruct (negb _); [|reflexivity]. destruct (ec_signing s); cbn [deref bind]; [|reflexivity]. destruct (f_fingerprint E _); cbn [bind]; [|reflexivity..].
    rewrite sign_alike. destruct (f_sign E h' _ _); cbn [bind]; [|reflexivity..]. rewrite sig_encode_alike. reflexivity. }
  rewrite U. clear U. match goal with |- (let* x := ?a in _) = _ => destruct a; cbn [bind]; [|reflexivity..] end.
  destruct (f_fingerprint E (fe_base k')); cbn [bind]; [|reflexivity..]. apply sign_alike.
Qed.
Lemma subkey_packets_alike d m m' k flags ex pw tape : master_like m m' -> f_subkey_packets E h d m k flags ex pw tape = f_subkey_packets E h' d m' k flags ex pw tape.
Proof.
  intros M. unfold f_subkey_packets. destruct (f_private_packet _ _ _ _ _ _) as [[p t]| |]; cbn [bind]; [|reflexivity..]. rewrite (bind_alike m m' k flags ex M).
  destruct (f_bind_subkey E h' m' k flags ex); cbn [bind]; [|reflexivity..]. rewrite sig_packet_alike. reflexivity.
Qed.
Lemma all_subkeys_alike d ks pw tape : f_all_subkeys E h d ks pw tape = f_all_subkeys E h' d ks pw tape.
Proof.
  unfold f_all_subkeys. pose proof (master_alike (fs_master ks)) as M. set (m := master_at h (fs_master ks)) in *. set (m' := master_at h' (fs_master ks)) in *. clearbody m m'.
  match goal with |- (let* x := ?a in _) = (let* y := ?b in _) => assert (U : a = b) end.
  { unfold curve_at. look (fs_enc ks); try reflexivity. destruct Q as [-> ->]. apply subkey_packets_alike, M. }
  rewrite U. clear U. match goal with |- (let* x := ?a in _) = _ => destruct a as [[g0 t0]| |]; cbn [bind]; [|reflexivity..] end.
  match goal with |- (let* x := ?a in _) = (let* y := ?b in _) => assert (U : a = b) end.
  { unfold subkey_at. look (fs_auth ks); try reflexivity. destruct Q as [-> ->]. apply subkey_packets_alike, M. }
  rewrite U. clear U. match goal with |- (let* x := ?a in _) = _ => destruct a as [[g1 t1]| |]; cbn [bind]; [|reflexivity..] end.
  match goal with |- (let* x := ?a in _) = (let* y := ?b in _) => assert (U : a = b) end.
  { unfold subkey_at. look (fs_sign ks); try reflexivity. destruct Q as [-> ->]. apply subkey_packets_alike, M. }
  rewrite U. clear U. match goal with |- (let* x := ?a in _) = _ => destruct a as [[g2 t2]| |]; cbn [bind]; [|reflexivity..] end.
  destruct m as [k|], m' as [k'|]; cbn [master_like deref bind] in *; try contradiction; [|reflexivity]. destruct M as (_ & -> & _). reflexivity.
Qed.
Lemma certification_alike ks : f_self_certification E h ks = f_self_certification E h' ks.
Proof.
  unfold f_self_certification. rewrite user_alike, (certify_alike _ _ _ (master_alike _)). destruct (f_self_certify E h' _ _); cbn [bind]; [|reflexivity..]. apply sig_packet_alike.
Qed.
Lemma packets_alike d s pw tape : f_encode_packets E h d s pw tape = f_encode_packets E h' d s pw tape.
Proof.
  unfold f_encode_packets. destruct s as [ks|]; cbn [deref bind]; [|reflexivity]. pose proof (master_alike (fs_master ks)) as M.
  rewrite user_alike, certification_alike. destruct (master_at h _) as [k|], (master_at h' _) as [k'|]; cbn [master_like deref bind] in *; try contradiction; [|reflexivity].
  destruct M as (-> & _). destruct (f_private_packet _ _ _ _ _ _) as [[p t]| |]; cbn [bind]; [|reflexivity..]. destruct (f_uid_packet _); cbn [bind]; [|reflexivity..].
  destruct (f_self_certification E h' ks); cbn [bind]; [|reflexivity..]. rewrite all_subkeys_alike. reflexivity.
Qed.
Lemma subkeys_alike d s pw (cert : bool) tape : f_encode_subkey_packets E h d s pw cert tape = f_encode_subkey_packets E h' d s pw cert tape.
Proof.
  unfold f_encode_subkey_packets. destruct s as [ks|]; cbn [deref bind]; [|reflexivity]. pose proof (master_alike (fs_master ks)) as M.
  rewrite user_alike, certification_alike. destruct (master_at h _) as [k|], (master_at h' _) as [k'|]; cbn [master_like deref bind] in *; try contradiction; [|reflexivity].
  destruct M as (-> & _). destruct (f_dummy_packet _) as [p| |]; cbn [bind]; [|reflexivity..]. destruct (f_uid_packet _); cbn [bind]; [|reflexivity..].
  destruct (if cert then _ else _); cbn [bind]; [|reflexivity..]. rewrite all_subkeys_alike. reflexivity.
Qed.
End two.

(** *** steps *)
Section steps.
Variable E : Env.
Lemma shows_alike st st' r : alike_st st st' -> fst (f_shows st r) = fst (f_shows st' r) /\ alike_st (snd (f_shows st r)) (snd (f_shows st' r)).
Proof. intros (A & B & C). destruct r; (split; [reflexivity|split; [apply Forall2_app; [exact A|constructor; [reflexivity|constructor]]|split; assumption]]). Qed.
Definition res_alike (r r' : res f_object) : Prop :=
  match r, r' with Ok o, Ok o' => alike o o' | Err e, Err e' => e = e' | Panic, Panic => True | _, _ => False end.
Lemma res_alike_refl r : res_alike r r.
Proof. destruct r; cbn; auto using alike_refl. Qed.
Lemma makes_alike st st' r r' : alike_st st st' -> res_alike r r' -> fst (f_makes st r) = fst (f_makes st' r') /\ alike_st (snd (f_makes st r)) (snd (f_makes st' r')).
Proof.
  intros (A & B & C) R. destruct r, r'; cbn [res_alike] in R; try contradiction; try subst;
    (split; [reflexivity|split; [apply Forall2_app; [exact A|constructor; [first [exact R|reflexivity]|constructor]]|split; assumption]]).
Qed.
Lemma update_alike h h' p o o' : Forall2 alike h h' -> alike o o' -> Forall2 alike (f_update h p o) (f_update h' p o').
Proof.
  intros A O. unfold f_update. revert p. induction A as [|x x' h h' X A IH]; intros p.
  - destruct p; cbn; constructor; auto; constructor.
  - destruct p as [|p]; cbn [firstn skipn app]; constructor; auto. apply (IH p).
Qed.
Lemma assigns_alike st st' p r r' : alike_st st st' -> res_alike r r' -> fst (f_assigns st p r) = fst (f_assigns st' p r') /\ alike_st (snd (f_assigns st p r)) (snd (f_assigns st' p r')).
Proof.
  intros (A & B & C) R. destruct r, r'; cbn [res_alike] in R; try contradiction; try subst;
    (split; [reflexivity|split; [apply Forall2_app; [first [apply update_alike; assumption|exact A]|constructor; [reflexivity|constructor]]|split; assumption]]).
Qed.

Definition not_master (o : f_object) : Prop := match o with F_master_key _ => False | _ => True end.
Lemma same_step st st' c : alike_st st st' -> fst (f_step E st c) = fst (f_step E st' c) /\ alike_st (snd (f_step E st c)) (snd (f_step E st' c)).
Proof.
  intros AS. pose proof AS as (A & B & C).
  destruct c; cbn [f_step];
    try (apply makes_alike; [exact AS|apply res_alike_refl]);
    try (rewrite ?B, ?C; apply makes_alike; [exact AS|apply res_alike_refl]);
    try (rewrite ?(base_alike _ _ A), ?(tag_alike _ _ A), ?(user_alike _ _ A), ?(keys_alike _ _ A), ?(sub_alike _ _ A), ?(sig_alike _ _ A), ?B, ?C,
           ?(sig_encode_alike _ _ A), ?(sig_packet_alike _ _ A), ?(packets_alike E _ _ A), ?(subkeys_alike E _ _ A); apply shows_alike, AS);
    try (apply assigns_alike; [exact AS|]; unfold f_key_field;
         pose proof (alike_at _ _ A k) as Q; destruct (nth k (f_heap st) F_none), (nth k (f_heap st') F_none); cbn [alike res_alike] in *; try discriminate Q; try exact I;
         cbn [fe_base fe_private fe_creation fe_expiry fc_base fc_expiry];
         repeat match goal with H : _ /\ _ |- _ => destruct H end; repeat split; assumption).
  - (* set_kdf *) apply assigns_alike; [exact AS|]. unfold curve_at. pose proof (alike_at _ _ A k) as Q. destruct (nth k (f_heap st) F_none), (nth k (f_heap st') F_none); cbn [alike] in Q; try discriminate Q; try exact I.
    exact Q.
  - rewrite (user_alike _ _ A). apply assigns_alike; [exact AS|apply res_alike_refl].
  - rewrite (keys_alike _ _ A). apply assigns_alike; [exact AS|apply res_alike_refl].
  - rewrite (sub_alike _ _ A). apply assigns_alike; [exact AS|apply res_alike_refl].
  - rewrite (sig_alike _ _ A). apply assigns_alike; [exact AS|apply res_alike_refl].
  - cbn [fst snd]. split; [reflexivity|]. split; [apply Forall2_app; [exact A|constructor; [reflexivity|constructor]]|split; [reflexivity|exact C]].
  - cbn [fst snd]. split; [reflexivity|]. split; [apply Forall2_app; [exact A|constructor; [reflexivity|constructor]]|split; [exact B|reflexivity]].
  - (* dummy *) pose proof (master_alike _ _ A k) as M. destruct (master_at (f_heap st) k) as [m|], (master_at (f_heap st') k) as [m'|]; cbn [master_like deref bind] in *; try contradiction.
    + destruct M as (-> & _). apply shows_alike, AS.
    + apply shows_alike, AS.
  - (* certify *) rewrite (user_alike _ _ A), (certify_alike E _ _ A _ _ _ (master_alike _ _ A k)). apply makes_alike; [exact AS|apply res_alike_refl].
  - (* bind *) rewrite (bind_alike E _ _ A _ _ _ _ _ (master_alike _ _ A k)). apply makes_alike; [exact AS|apply res_alike_refl].
  - (* sign *) rewrite (sign_alike E _ _ A). apply makes_alike; [exact AS|apply res_alike_refl].
Qed.
Lemma unread_step calls st st' c c' : alike_st st st' -> (forall k, makes_subkey (nth k calls (F_packet 0 [])) -> not_master (nth k (f_heap st) F_none)) ->
  same_but_unread calls c c' -> fst (f_step E st c) = fst (f_step E st' c') /\ alike_st (snd (f_step E st c)) (snd (f_step E st' c')).
Proof.
  intros AS K [<-|D]; [apply same_step, AS|]. pose proof AS as (A & B & C).
  destruct c as [| | | | | | | | | |k b|k b|k b| |k b| | | | | | | | | | | | | | | | | | | | | | | |]; try contradiction;
  destruct c' as [| | | | | | | | | |k' b'|k' b'|k' b'| |k' b'| | | | | | | | | | | | | | | | | | | | | | | |]; try contradiction; cbn [f_step].
  - destruct D as [<- D]. specialize (K k D). apply assigns_alike; [exact AS|]. unfold f_key_field. pose proof (alike_at _ _ A k) as Q.
    destruct (nth k (f_heap st) F_none), (nth k (f_heap st') F_none); cbn [alike res_alike not_master] in *; try discriminate Q; try contradiction; try exact I; exact Q.
  - subst k'. apply assigns_alike; [exact AS|]. unfold f_key_field. pose proof (alike_at _ _ A k) as Q.
    destruct (nth k (f_heap st) F_none), (nth k (f_heap st') F_none); cbn [alike res_alike] in *; try discriminate Q; try contradiction; try exact I; exact Q.
  - destruct D as [<- D]. specialize (K k D). apply assigns_alike; [exact AS|]. unfold f_key_field. pose proof (alike_at _ _ A k) as Q.
    destruct (nth k (f_heap st) F_none), (nth k (f_heap st') F_none); cbn [alike res_alike not_master] in *; try discriminate Q; try contradiction; try exact I; exact Q.
  - subst k'. apply assigns_alike; [exact AS|]. unfold curve_at. pose proof (alike_at _ _ A k) as Q.
    destruct (nth k (f_heap st) F_none), (nth k (f_heap st') F_none); cbn [alike] in *; try discriminate Q; try contradiction; try exact I; exact Q.
Qed.

(** kinds of objects do not change *)
Definition kind (o : f_object) : nat :=
  match o with F_none => 0 | F_master_key _ => 1 | F_ed_subkey _ => 2 | F_curve_key _ => 3 | F_user _ => 4 | F_keys _ => 5 | F_subpacket _ => 6 | F_signature _ => 7 end%nat.
Lemma update_kinds h p o : (p < length h)%nat -> kind o = kind (nth p h F_none) -> map kind (f_update h p o) = map kind h.
Proof.
  revert p. unfold f_update. induction h as [|x h IH]; intros p P O; [cbn in P; lia|]. destruct p as [|p]; cbn [firstn skipn app map nth length] in *.
  - rewrite O. reflexivity.
  - f_equal. apply IH; [lia|exact O].
Qed.
Lemma inside h p : nth p h F_none <> F_none -> (p < length h)%nat.
Proof. intros N. destruct (Nat.lt_ge_cases p (length h)); [assumption|]. rewrite nth_overflow in N by assumption. congruence. Qed.
Lemma key_field_kind h p ed cv o : f_key_field h p ed cv = Ok o -> nth p h F_none <> F_none /\ kind o = kind (nth p h F_none).
Proof. unfold f_key_field. destruct (nth p h F_none); try discriminate; intros Q; injection Q as <-; (split; [discriminate|reflexivity]). Qed.
Lemma assigns_kinds st p r : (forall o, r = Ok o -> nth p (f_heap st) F_none <> F_none /\ kind o = kind (nth p (f_heap st) F_none)) ->
  map kind (f_heap (snd (f_assigns st p r))) = map kind (f_heap st) ++ [0%nat].
Proof.
  intros R. destruct r as [o| |]; cbn [f_assigns snd f_heap]; rewrite map_app; [|reflexivity..]. destruct (R o eq_refl) as [R1 R2]. rewrite update_kinds; [reflexivity|apply inside, R1|exact R2].
Qed.
Lemma makes_kinds st r : map kind (f_heap (snd (f_makes st r))) = map kind (f_heap st) ++ [match r with Ok o => kind o | _ => 0%nat end].
Proof. destruct r; cbn [f_makes snd f_heap]; rewrite map_app; reflexivity. Qed.
Lemma shows_kinds st r : map kind (f_heap (snd (f_shows st r))) = map kind (f_heap st) ++ [0%nat].
Proof. destruct r; cbn [f_shows snd f_heap]; rewrite map_app; reflexivity. Qed.
Lemma step_kinds st c : exists x, map kind (f_heap (snd (f_step E st c))) = map kind (f_heap st) ++ [x] /\ (makes_subkey c -> x <> 1%nat).
Proof.
  destruct c; cbn [f_step];
    try (eexists; split; [apply shows_kinds|discriminate]);
    try (eexists; split; [apply makes_kinds|]; cbn [makes_subkey]; first [contradiction|intros _]);
    try (eexists; split; [apply assigns_kinds|discriminate]; intros o Q; exact (key_field_kind _ _ _ _ _ Q)).
  - destruct (f_new_ed E seed creation expiry); discriminate.
  - destruct (f_new_curve E _ seed creation expiry kdf); discriminate.
  - discriminate.
  - discriminate.
  - eexists. split; [apply assigns_kinds|discriminate]. intros o Q. unfold curve_at in Q. destruct (nth k (f_heap st) F_none); try discriminate Q. injection Q as <-. split; [discriminate|reflexivity].
  - eexists. split; [apply assigns_kinds|discriminate]. intros o Q. unfold user_at in Q. destruct (nth u (f_heap st) F_none); try discriminate Q. injection Q as <-. split; [discriminate|reflexivity].
  - eexists. split; [apply assigns_kinds|discriminate]. intros o Q. unfold keys_at in Q. destruct (nth s (f_heap st) F_none); try discriminate Q. injection Q as <-. split; [discriminate|reflexivity].
  - eexists. split; [apply assigns_kinds|discriminate]. intros o Q. unfold subpacket_at in Q. destruct (nth s (f_heap st) F_none); try discriminate Q. injection Q as <-. split; [discriminate|reflexivity].
  - eexists. split; [apply assigns_kinds|discriminate]. intros o Q. unfold signature_at in Q. destruct (nth s (f_heap st) F_none); try discriminate Q. injection Q as <-. split; [discriminate|reflexivity].
  - exists 0%nat. cbn [snd f_heap]. rewrite map_app. split; [reflexivity|discriminate].
  - exists 0%nat. cbn [snd f_heap]. rewrite map_app. split; [reflexivity|discriminate].
Qed.

Definition kept (calls : list f_call) (done : list f_call) (st : f_state) : Prop :=
  length (f_heap st) = length done /\ forall k, makes_subkey (nth k calls (F_packet 0 [])) -> not_master (nth k (f_heap st) F_none).
Lemma kind_master o : not_master o <-> kind o <> 1%nat.
Proof. destruct o; cbn; split; try discriminate; try contradiction; auto; lia. Qed.
Lemma nth_kind h k : kind (nth k h F_none) = nth k (map kind h) 0%nat.
Proof. symmetry. apply (map_nth kind h F_none k). Qed.
Lemma kept_step calls done c rest st : calls = done ++ c :: rest -> kept calls done st -> kept calls (done ++ [c]) (snd (f_step E st c)).
Proof.
  intros Q [L K]. destruct (step_kinds st c) as (x & S & X). split.
  - rewrite <- (map_length kind), S, !app_length, map_length, L. reflexivity.
  - intros k M. apply kind_master. rewrite nth_kind, S. destruct (Nat.lt_ge_cases k (length (f_heap st))) as [B|B].
    + rewrite app_nth1 by (rewrite map_length; exact B). rewrite <- nth_kind. apply kind_master, K, M.
    + rewrite app_nth2 by (rewrite map_length; exact B). rewrite map_length. destruct (k - length (f_heap st))%nat as [|j] eqn:J.
      * cbn [nth]. apply X. assert (k = length done) by lia. subst k. rewrite Q, nth_middle in M. exact M.
      * cbn [nth]. destruct j; discriminate.
Qed.
Lemma unread_run calls : forall rest rest' done st st', calls = done ++ rest -> Forall2 (same_but_unread calls) rest rest' -> alike_st st st' -> kept calls done st ->
  map snd (fst (f_run E st rest)) = map snd (fst (f_run E st' rest')).
Proof.
  induction rest as [|c rest IH]; intros rest' done st st' Q F A K; inversion F as [|? c' ? rest1 D F' X Y]; subst rest'; [reflexivity|]. cbn [f_run].
  destruct (unread_step calls st st' c c' A (proj2 K) D) as [S1 S2]. pose proof (kept_step calls done c rest st Q K) as K2.
  destruct (f_step E st c) as [o s], (f_step E st' c') as [o' s']. cbn [fst snd] in *. subst o'.
  assert (R : map snd (fst (f_run E s rest)) = map snd (fst (f_run E s' rest1))).
  { apply (IH rest1 (done ++ [c])); [rewrite <- app_assoc; exact Q|exact F'|exact S2|exact K2]. }
  destruct o; try reflexivity; destruct (f_run E s rest), (f_run E s' rest1); cbn [fst map snd] in *; f_equal; exact R.
Qed.
End steps.
