(** What a key of the package pgp was made with stays, whatever is assigned to it. *)
From Coq Require Import Lia ZifyBool ZifyNat.
From Verif.Model Require Import GoBase Env GoTime PgpWire PgpS2k PgpKeys ZeroValues PgpFields.
From Verif.Proofs Require Import UnreadP.

(** the base of an object, and whether it is a master key *)
Definition ident (o : f_object) : option (bool * option ecc_key) :=
  match o with F_master_key k => Some (true, fe_base k) | F_ed_subkey k => Some (false, fe_base k) | F_curve_key k => Some (false, fc_base k) | _ => None end.

Section env.
Variable E : Env.
Lemma update_idents h p o : (p < length h)%nat -> ident o = ident (nth p h F_none) -> map ident (f_update h p o) = map ident h.
Proof.
  revert p. unfold f_update. induction h as [|x h IH]; intros p P O; [cbn in P; lia|]. destruct p as [|p]; cbn [firstn skipn app map nth length] in *.
  - rewrite O. reflexivity.
  - f_equal. apply IH; [lia|exact O].
Qed.
Lemma key_field_ident h p ed cv o : (forall k, fe_base (ed k) = fe_base k) -> (forall k, fc_base (cv k) = fc_base k) ->
  f_key_field h p ed cv = Ok o -> nth p h F_none <> F_none /\ ident o = ident (nth p h F_none).
Proof. unfold f_key_field. intros HE HC. destruct (nth p h F_none); try discriminate; intros Q; injection Q as <-; (split; [discriminate|cbn [ident]; rewrite ?HE, ?HC; reflexivity]). Qed.
Lemma assigns_idents st p r : (forall o, r = Ok o -> nth p (f_heap st) F_none <> F_none /\ ident o = ident (nth p (f_heap st) F_none)) ->
  map ident (f_heap (snd (f_assigns st p r))) = map ident (f_heap st) ++ [None] /\ f_kdf (snd (f_assigns st p r)) = f_kdf st.
Proof.
  intros R. destruct r as [o| |]; cbn [f_assigns snd f_heap f_kdf]; rewrite map_app; [|split; reflexivity..]. destruct (R o eq_refl) as [R1 R2].
  rewrite update_idents; [split; reflexivity|apply inside, R1|exact R2].
Qed.
Lemma makes_idents st r : map ident (f_heap (snd (f_makes st r))) = map ident (f_heap st) ++ [match r with Ok o => ident o | _ => None end] /\ f_kdf (snd (f_makes st r)) = f_kdf st.
Proof. destruct r; cbn [f_makes snd f_heap f_kdf]; rewrite map_app; split; reflexivity. Qed.
Lemma shows_idents st r : map ident (f_heap (snd (f_shows st r))) = map ident (f_heap st) ++ [None] /\ f_kdf (snd (f_shows st r)) = f_kdf st.
Proof. destruct r; cbn [f_shows snd f_heap f_kdf]; rewrite map_app; split; reflexivity. Qed.

(** what a call makes *)
Definition makes_ident (kdf : option kdf_params) (c : f_call) : option (bool * option ecc_key) :=
  match c with
  | F_new_master s cr ex => match new_ed_key E s cr ex with Ok k => Some (true, Some (ed_base k)) | _ => None end
  | F_new_subkey s cr ex => match new_ed_key E s cr ex with Ok k => Some (false, Some (ed_base k)) | _ => None end
  | F_new_encryption s cr ex p =>
      match f_new_curve E kdf s cr ex p with Ok k => Some (false, fc_base k) | _ => None end
  | F_lit_master _ _ _ _ => Some (true, None)
  | F_lit_subkey _ _ _ _ | F_lit_encryption _ _ _ _ _ => Some (false, None)
  | _ => None
  end.
Definition sets_kdf (d : option kdf_params) (c : f_call) : option kdf_params := match c with F_set_default_kdf p => p | _ => d end.
Lemma step_idents st c : map ident (f_heap (snd (f_step E st c))) = map ident (f_heap st) ++ [makes_ident (f_kdf st) c] /\ f_kdf (snd (f_step E st c)) = sets_kdf (f_kdf st) c.
Proof.
  destruct c; cbn [f_step makes_ident sets_kdf]; try exact (makes_idents st _); try exact (shows_idents st _);
    try (apply assigns_idents; intros o Q; apply key_field_ident in Q; [exact Q|reflexivity..]).
  - destruct (makes_idents st (let* k := f_new_ed E seed creation expiry in Ok (F_master_key k))) as [A B]. rewrite A, B. unfold f_new_ed. destruct (new_ed_key E seed creation expiry); split; reflexivity.
  - destruct (makes_idents st (let* k := f_new_ed E seed creation expiry in Ok (F_ed_subkey k))) as [A B]. rewrite A, B. unfold f_new_ed. destruct (new_ed_key E seed creation expiry); split; reflexivity.
  - destruct (makes_idents st (let* k := f_new_curve E (f_kdf st) seed creation expiry kdf in Ok (F_curve_key k))) as [A B]. rewrite A, B. destruct (f_new_curve E (f_kdf st) seed creation expiry kdf); split; reflexivity.
  - apply assigns_idents. intros o Q. unfold curve_at in Q. destruct (nth k (f_heap st) F_none); try discriminate. injection Q as <-. split; [discriminate|reflexivity].
  - apply assigns_idents. intros o Q. unfold user_at in Q. destruct (nth u (f_heap st) F_none); try discriminate. injection Q as <-. split; [discriminate|reflexivity].
  - apply assigns_idents. intros o Q. unfold keys_at in Q. destruct (nth s (f_heap st) F_none); try discriminate. injection Q as <-. split; [discriminate|reflexivity].
  - apply assigns_idents. intros o Q. unfold subpacket_at in Q. destruct (nth s (f_heap st) F_none); try discriminate. injection Q as <-. split; [discriminate|reflexivity].
  - apply assigns_idents. intros o Q. unfold signature_at in Q. destruct (nth s (f_heap st) F_none); try discriminate. injection Q as <-. split; [discriminate|reflexivity].
  - cbn [snd f_heap f_kdf]. rewrite map_app. split; reflexivity.
  - cbn [snd f_heap f_kdf]. rewrite map_app. split; reflexivity.
  - match goal with |- context [f_makes st ?r] => destruct (makes_idents st r) as [A B]; rewrite A, B; split; [f_equal; f_equal|reflexivity]; destruct r as [o| |] eqn:Q; try reflexivity end.
    destruct (f_self_certify E _ _ _); try discriminate. injection Q as <-. reflexivity.
  - match goal with |- context [f_makes st ?r] => destruct (makes_idents st r) as [A B]; rewrite A, B; split; [f_equal; f_equal|reflexivity]; destruct r as [o| |] eqn:Q; try reflexivity end.
    destruct (f_bind_subkey E _ _ _ _ _); try discriminate. injection Q as <-. reflexivity.
  - match goal with |- context [f_makes st ?r] => destruct (makes_idents st r) as [A B]; rewrite A, B; split; [f_equal; f_equal|reflexivity]; destruct r as [o| |] eqn:Q; try reflexivity end.
    destruct (f_sign E _ _ _); try discriminate. injection Q as <-. reflexivity.
Qed.

Lemma run_idents calls : forall st h st', f_run E st calls = (h, st') -> (forall e, In e h -> snd e <> F_panicked) ->
  f_kdf st' = fold_left sets_kdf calls (f_kdf st) /\ exists l, map ident (f_heap st') = map ident (f_heap st) ++ l /\ length l = length calls /\
  forall before c after, calls = before ++ c :: after -> nth (length before) l None = makes_ident (fold_left sets_kdf before (f_kdf st)) c.
Proof.
  induction calls as [|c calls IH]; intros st h st' Q N; cbn [f_run] in Q.
  - apply pair_equal_spec in Q as [_ <-]. split; [reflexivity|]. exists []. rewrite app_nil_r. split; [reflexivity|]. split; [reflexivity|]. intros [|? ?]; discriminate.
  - pose proof (step_idents st c) as [A B]. destruct (f_step E st c) as [o st1]. cbn [snd] in A, B. destruct (f_run E st1 calls) as [h1 st2] eqn:Q1.
    assert (O : (c, o) :: h1 = h /\ st2 = st').
    { destruct o; try (apply pair_equal_spec in Q as [<- <-]; split; reflexivity). apply pair_equal_spec in Q as [<- _]. exfalso. exact (N _ (or_introl eq_refl) eq_refl). }
    destruct O as [<- <-]. destruct (IH _ _ _ Q1 (fun e I => N e (or_intror I))) as (K & l & L1 & L2 & L3). rewrite B in K, L3. split; [exact K|].
    exists (makes_ident (f_kdf st) c :: l). rewrite L1, A, <- app_assoc. split; [reflexivity|]. split; [cbn [length]; rewrite L2; reflexivity|].
    intros [|b before] c' after R; cbn [app] in R; injection R as <- R; [reflexivity|]. cbn [length nth fold_left]. exact (L3 _ _ _ R).
Qed.
End env.
