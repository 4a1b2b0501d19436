(** The fields of objects of the package pgp hold what was assigned last. *)
From Coq Require Import Lia ZifyBool ZifyNat.
From Verif.Model Require Import GoBase Env GoTime PgpWire PgpS2k PgpKeys ZeroValues PgpFields.
From Verif.Spec Require Import FieldSpec.
From Verif.Proofs Require Import UnreadP.

Definition held_of (o : f_object) : held :=
  match o with
  | F_master_key k => Held_key Master_key (fe_private k) (fe_creation k) (fe_expiry k)
  | F_ed_subkey k => Held_key Ed_subkey (fe_private k) (fe_creation k) (fe_expiry k)
  | F_curve_key k => Held_key Curve_subkey (fc_private k) (fc_creation k) (fc_expiry k)
  | F_user u => Held_user u
  | F_keys s => Held_keys s
  | _ => Held_else
  end.
Section env.
Variable E : Env.
Lemma nth_update h p o q : (p < length h)%nat -> nth q (f_update h p o) F_none = if Nat.eqb p q then o else nth q h F_none.
Proof.
  revert p q. unfold f_update. induction h as [|x h IH]; intros p q P; [cbn in P; lia|]. destruct p as [|p], q as [|q]; cbn [firstn skipn app nth length Nat.eqb] in *; try reflexivity.
  apply IH. lia.
Qed.
Lemma update_length h p o : (p < length h)%nat -> length (f_update h p o) = length h.
Proof. intros P. unfold f_update. rewrite app_length. cbn [length]. rewrite firstn_length, skipn_length. lia. Qed.
(** a step: the new object, and the old ones *)
Definition stepped (c : f_call) (h h' : list f_object) : Prop :=
  length h' = S (length h) /\ held_of (nth (length h) h' F_none) = held_first E c /\
  forall q, (q < length h)%nat -> held_of (nth q h' F_none) = held_next q (held_of (nth q h F_none)) c.
Lemma snoc_stepped c h o : held_of o = held_first E c -> (forall q v, held_next q v c = v) -> stepped c h (h ++ [o]).
Proof.
  intros O N. split; [rewrite app_length; cbn; lia|]. split; [rewrite nth_middle; exact O|]. intros q Q. rewrite app_nth1 by exact Q. rewrite N. reflexivity.
Qed.
Lemma makes_stepped c st r : fst (f_makes st r) <> F_panicked -> (forall o, r = Ok o -> held_of o = held_first E c) -> (forall e, r = Err e -> held_first E c = Held_else) ->
  (forall q v, held_next q v c = v) -> stepped c (f_heap st) (f_heap (snd (f_makes st r))).
Proof. intros P O F N. destruct r as [o|e|]; cbn [f_makes fst snd f_heap] in *; [apply snoc_stepped; auto|apply snoc_stepped; [rewrite (F e); reflexivity|exact N]|congruence]. Qed.
Lemma shows_stepped c st r : held_first E c = Held_else -> (forall q v, held_next q v c = v) -> stepped c (f_heap st) (f_heap (snd (f_shows st r))).
Proof. intros O N. destruct r; cbn [f_shows snd f_heap]; apply snoc_stepped; auto. Qed.
Lemma assigns_stepped c st p r : fst (f_assigns st p r) <> F_panicked -> held_first E c = Held_else ->
  (forall e, r <> Err e) -> (forall o, r = Ok o -> nth p (f_heap st) F_none <> F_none /\ held_of o = held_next p (held_of (nth p (f_heap st) F_none)) c) ->
  (forall q v, q <> p -> held_next q v c = v) -> stepped c (f_heap st) (f_heap (snd (f_assigns st p r))).
Proof.
  intros P O NE R N. destruct r as [o|e|]; cbn [f_assigns fst snd f_heap] in *; [|destruct (NE e eq_refl)|congruence]. destruct (R o eq_refl) as [R1 R2]. apply inside in R1.
  split; [rewrite app_length, update_length by exact R1; cbn; lia|]. split.
  - rewrite <- (update_length (f_heap st) p o R1), nth_middle. rewrite O. reflexivity.
  - intros q Q. rewrite app_nth1 by (rewrite update_length; assumption). rewrite nth_update by exact R1. destruct (Nat.eqb_spec p q) as [->|D]; [exact R2|]. rewrite N by congruence. reflexivity.
Qed.
Lemma size_32 (s : bytes) : (zlen s =? 32) = Nat.eqb (length s) 32.
Proof. unfold zlen. destruct (Nat.eqb_spec (length s) 32); [apply Z.eqb_eq|apply Z.eqb_neq]; lia. Qed.
Lemma key_field_held h p ed cv o c : f_key_field h p ed cv = Ok o ->
  (forall k, held_of (F_master_key (ed k)) = held_next p (held_of (F_master_key k)) c) -> (forall k, held_of (F_ed_subkey (ed k)) = held_next p (held_of (F_ed_subkey k)) c) ->
  (forall k, held_of (F_curve_key (cv k)) = held_next p (held_of (F_curve_key k)) c) ->
  nth p h F_none <> F_none /\ held_of o = held_next p (held_of (nth p h F_none)) c.
Proof. unfold f_key_field. destruct (nth p h F_none); intros Q H1 H2 H3; try discriminate; injection Q as <-; (split; [discriminate|auto]). Qed.
Lemma key_field_fine h p ed cv e : f_key_field h p ed cv <> Err e.
Proof. unfold f_key_field. destruct (nth p h F_none); discriminate. Qed.
Lemma other_eqb (p q : nat) : q <> p -> Nat.eqb p q = false.
Proof. intros N. apply Nat.eqb_neq. congruence. Qed.
Lemma step_stepped st c : fst (f_step E st c) <> F_panicked -> stepped c (f_heap st) (f_heap (snd (f_step E st c))).
Proof.
  destruct c; cbn [f_step]; intros P; try (apply shows_stepped; [reflexivity|intros q []; reflexivity]);
    try (apply assigns_stepped; [exact P|reflexivity|intros e; apply key_field_fine| |intros q [] N; cbn [held_next]; rewrite ?other_eqb by exact N; reflexivity];
         intros o Q; apply (key_field_held _ _ _ _ _ _ Q); intros; cbn [held_of held_next]; rewrite ?Nat.eqb_refl; reflexivity);
    try (apply makes_stepped; [exact P|intros o Q; injection Q as <-; reflexivity|discriminate|intros q []; reflexivity]).
  - apply makes_stepped; [exact P| | |intros q []; reflexivity]; unfold f_new_ed, new_ed_key; cbn [held_first]; rewrite size_32; destruct (Nat.eqb (length seed) 32); cbn [negb bind]; try discriminate; try reflexivity.
    intros o Q. injection Q as <-. reflexivity.
  - apply makes_stepped; [exact P| | |intros q []; reflexivity]; unfold f_new_ed, new_ed_key; cbn [held_first]; rewrite size_32; destruct (Nat.eqb (length seed) 32); cbn [negb bind]; try discriminate; try reflexivity.
    intros o Q. injection Q as <-. reflexivity.
  - apply makes_stepped; [exact P| | |intros q []; reflexivity]; unfold f_new_curve, new_curve_key; cbn [held_first]; rewrite size_32; destruct (Nat.eqb (length seed) 32); cbn [negb bind]; try discriminate; try reflexivity;
      (destruct (match kdf with None => f_kdf st | Some k => Some k end); cbn [deref bind]; try discriminate).
    intros o Q. injection Q as <-. reflexivity.
  - apply assigns_stepped; [exact P|reflexivity| | |intros q [] N; reflexivity]; unfold curve_at; destruct (nth k (f_heap st) F_none); cbn [deref bind]; try discriminate.
    intros o Q. injection Q as <-. split; [discriminate|reflexivity].
  - apply assigns_stepped; [exact P|reflexivity| | |intros q [] N; cbn [held_next]; rewrite ?other_eqb by exact N; reflexivity]; unfold user_at; destruct (nth u (f_heap st) F_none); cbn [deref bind]; try discriminate.
    intros o Q. injection Q as <-. split; [discriminate|cbn [held_of held_next]; rewrite Nat.eqb_refl; reflexivity].
  - apply assigns_stepped; [exact P|reflexivity| | |intros q [] N; cbn [held_next]; rewrite ?other_eqb by exact N; reflexivity]; unfold keys_at; destruct (nth s (f_heap st) F_none); cbn [deref bind]; try discriminate.
    intros o Q. injection Q as <-. split; [discriminate|cbn [held_of held_next]; rewrite Nat.eqb_refl; reflexivity].
  - apply assigns_stepped; [exact P|reflexivity| | |intros q [] N; reflexivity]; unfold subpacket_at; destruct (nth s (f_heap st) F_none); cbn [deref bind]; try discriminate.
    intros o Q. injection Q as <-. split; [discriminate|reflexivity].
  - apply assigns_stepped; [exact P|reflexivity| | |intros q [] N; reflexivity]; unfold signature_at; destruct (nth s (f_heap st) F_none); cbn [deref bind]; try discriminate.
    intros o Q. injection Q as <-. split; [discriminate|reflexivity].
  - cbn [snd f_heap]. apply snoc_stepped; [reflexivity|intros q []; reflexivity].
  - cbn [snd f_heap]. apply snoc_stepped; [reflexivity|intros q []; reflexivity].
  - apply makes_stepped; [exact P| |reflexivity|intros q []; reflexivity]. destruct (f_self_certify E _ _ _); try discriminate. intros o Q. injection Q as <-. reflexivity.
  - apply makes_stepped; [exact P| |reflexivity|intros q []; reflexivity]. destruct (f_bind_subkey E _ _ _ _ _); try discriminate. intros o Q. injection Q as <-. reflexivity.
  - apply makes_stepped; [exact P| |reflexivity|intros q []; reflexivity]. destruct (f_sign E _ _ _); try discriminate. intros o Q. injection Q as <-. reflexivity.
Qed.

Lemma run_held calls : forall st h st', f_run E st calls = (h, st') -> (forall e, In e h -> snd e <> F_panicked) ->
  length (f_heap st') = (length (f_heap st) + length calls)%nat /\
  (forall q, (q < length (f_heap st))%nat -> held_of (nth q (f_heap st') F_none) = fold_left (held_next q) calls (held_of (nth q (f_heap st) F_none))) /\
  (forall before c after, calls = before ++ c :: after -> let k := (length (f_heap st) + length before)%nat in
     held_of (nth k (f_heap st') F_none) = fold_left (held_next k) after (held_first E c)).
Proof.
  induction calls as [|c calls IH]; intros st h st' Q N; cbn [f_run] in Q.
  - apply pair_equal_spec in Q as [_ <-]. split; [cbn; lia|]. split; [reflexivity|]. intros [|? ?]; discriminate.
  - pose proof (step_stepped st c) as A. destruct (f_step E st c) as [o st1]. cbn [fst snd] in A. destruct (f_run E st1 calls) as [h1 st2] eqn:Q1.
    assert (O : (c, o) :: h1 = h /\ st2 = st' /\ o <> F_panicked).
    { destruct o; try (apply pair_equal_spec in Q as [<- <-]; repeat split; discriminate). apply pair_equal_spec in Q as [<- _]. exfalso. exact (N _ (or_introl eq_refl) eq_refl). }
    destruct O as (<- & <- & O). specialize (A O). destruct A as (A1 & A2 & A3). destruct (IH _ _ _ Q1 (fun e I => N e (or_intror I))) as (K1 & K2 & K3). rewrite A1 in *.
    split; [cbn [length]; lia|]. split.
    + intros q L. rewrite K2 by lia. rewrite A3 by exact L. reflexivity.
    + intros [|b before] c' after R; cbn [app] in R; injection R as <- R; cbv zeta; cbn [length].
      * subst after. rewrite Nat.add_0_r. rewrite K2 by lia. rewrite A2. reflexivity.
      * specialize (K3 before c' after R). cbv zeta in K3. replace (length (f_heap st) + S (length before))%nat with (S (length (f_heap st)) + length before)%nat by lia. exact K3.
Qed.
End env.
