(** Programs that use /repo/pgp: with slices in memory they see what they would see with values (C95). *)
From Coq Require Import Lia ZifyBool ZifyNat.
From Verif.Model Require Import GoBase Env PgpWire PgpS2k PgpKeys SliceHeap.
From Verif.Spec Require Import SliceSpec.
From Verif.Proofs Require Import SliceP.

(** ** States of programs *)
Definition ed_wf (m : arrays) (k : h_ed) : Prop :=
  Forall (in_memory m) (slices_ed k) /\ can_sign k /\ (3 <= sl_at (hd_private k))%nat /\ (3 <= sl_at (he_public (hd_base k)))%nat.
Definition curve_wf (m : arrays) (c : h_curve) : Prop :=
  Forall (in_memory m) (slices_curve c) /\ he_signing (hc_base c) = None /\ (3 <= sl_at (hc_private c))%nat.
Definition sig_wf (m : arrays) (s : h_sig) : Prop := Forall (in_memory m) (slices_sig s) /\ (2 <= sl_len (hg_digest s))%nat.
Definition slice_wf (m : arrays) (s : slice) : Prop := in_memory m s /\ (3 <= sl_at s)%nat.
Record wf (st : p_state) : Prop := {
  wf_mem : extends package_arrays (pst_mem st);
  wf_slices : Forall (slice_wf (pst_mem st)) (pst_slices st);
  wf_keys : Forall (ed_wf (pst_mem st)) (pst_keys st);
  wf_curves : Forall (curve_wf (pst_mem st)) (pst_curves st);
  wf_sigs : Forall (sig_wf (pst_mem st)) (pst_sigs st)
}.
Lemma wf_init : wf p_init. Proof. constructor; [apply ext_refl|constructor..]. Qed.

(** What a call that assigns nothing does to the state: one more slice, key or signature, of new arrays; a signature
    may keep slices that are among [given]. *)
Inductive grows (given : list nat) (st : p_state) : p_state -> Prop :=
| grows_none m1 : extends (pst_mem st) m1 -> grows given st (with_mem m1 st)
| grows_slice m1 a : extends (pst_mem st) m1 -> (length (pst_mem st) <= sl_at a)%nat -> in_memory m1 a ->
    grows given st (mk_pst m1 (pst_slices st ++ [a]) (pst_keys st) (pst_curves st) (pst_sigs st))
| grows_key m1 k v : extends (pst_mem st) m1 -> ed_made (length (pst_mem st)) m1 k v ->
    grows given st (mk_pst m1 (pst_slices st) (pst_keys st ++ [k]) (pst_curves st) (pst_sigs st))
| grows_curve m1 c v : extends (pst_mem st) m1 -> curve_made (length (pst_mem st)) m1 c v ->
    grows given st (mk_pst m1 (pst_slices st) (pst_keys st) (pst_curves st ++ [c]) (pst_sigs st))
| grows_sig m1 s v : extends (pst_mem st) m1 ->
    sig_made (fun i => (length (pst_mem st) <= i)%nat \/ exists x a, In x given /\ nth_error (pst_slices st) x = Some a /\ sl_at a = i) m1 s v ->
    grows given st (mk_pst m1 (pst_slices st) (pst_keys st) (pst_curves st) (pst_sigs st ++ [s])).

Lemma grows_extends given st st' : grows given st st' -> extends (pst_mem st) (pst_mem st').
Proof. intros []; assumption. Qed.
Lemma wf_ext st m1 : wf st -> extends (pst_mem st) m1 -> wf (with_mem m1 st).
Proof.
  intros [A B C D F] X. constructor; cbn [pst_mem pst_slices pst_keys pst_curves pst_sigs with_mem].
  - exact (ext_trans _ _ _ A X).
  - revert B. apply Forall_impl. intros s [I L]. split; [exact (in_ext _ _ _ X I)|exact L].
  - revert C. apply Forall_impl. intros s [I L]. split; [exact (forall_in_ext _ _ _ X I)|exact L].
  - revert D. apply Forall_impl. intros s [I L]. split; [exact (forall_in_ext _ _ _ X I)|exact L].
  - revert F. apply Forall_impl. intros s [I L]. split; [exact (forall_in_ext _ _ _ X I)|exact L].
Qed.
Lemma forall_one {A} (P : A -> Prop) l a : Forall P l -> P a -> Forall P (l ++ [a]).
Proof. intros H Q. apply Forall_app. split; [exact H|]. constructor; [exact Q|constructor]. Qed.
Lemma wf_grows given st st' : wf st -> grows given st st' -> wf st'.
Proof.
  intros W H. pose proof (ext_len _ _ (wf_mem st W)) as L3. cbn [length package_arrays] in L3. destruct H as [m1 X|m1 a X N I|m1 k v X M|m1 c v X M|m1 s v X M].
  - apply wf_ext; assumption.
  - destruct (wf_ext st m1 W X) as [A B C D F]. constructor; cbn [pst_mem pst_slices pst_keys pst_curves pst_sigs with_mem] in *; try assumption. apply forall_one; [exact B|]. split; [exact I|lia].
  - destruct (wf_ext st m1 W X) as [A B C D F]. constructor; cbn [pst_mem pst_slices pst_keys pst_curves pst_sigs with_mem] in *; try assumption. apply forall_one; [exact C|].
    destruct M as (_ & I & _ & CS & P & Q). split; [exact I|]. split; [exact CS|]. lia.
  - destruct (wf_ext st m1 W X) as [A B C D F]. constructor; cbn [pst_mem pst_slices pst_keys pst_curves pst_sigs with_mem] in *; try assumption. apply forall_one; [exact D|].
    destruct M as (_ & I & _ & P & _ & Q). split; [exact I|]. split; [exact Q|]. lia.
  - destruct (wf_ext st m1 W X) as [A B C D F]. constructor; cbn [pst_mem pst_slices pst_keys pst_curves pst_sigs with_mem] in *; try assumption. apply forall_one; [exact F|].
    destruct M as (_ & I & _ & P). split; [exact I|exact P].
Qed.
(** in more memory everything has the value it had *)
Lemma map_same {A B} (f g : A -> B) (P : A -> Prop) l : Forall P l -> (forall a, P a -> f a = g a) -> map f l = map g l.
Proof. intros F H. induction F as [|a l Q F IH]; [reflexivity|]. cbn [map]. rewrite (H a Q), IH. reflexivity. Qed.
Lemma see_slices_ext st m1 : wf st -> extends (pst_mem st) m1 -> map (content m1) (pst_slices st) = map (content (pst_mem st)) (pst_slices st).
Proof. intros [A B C D F] X. apply (map_same _ _ _ _ B). intros a [I _]. apply content_ext; assumption. Qed.
Lemma see_keys_ext st m1 : wf st -> extends (pst_mem st) m1 -> map (see_ed m1) (pst_keys st) = map (see_ed (pst_mem st)) (pst_keys st).
Proof. intros [A B C D F] X. apply (map_same _ _ _ _ C). intros a [I _]. apply see_ed_ext; assumption. Qed.
Lemma see_curves_ext st m1 : wf st -> extends (pst_mem st) m1 -> map (see_curve m1) (pst_curves st) = map (see_curve (pst_mem st)) (pst_curves st).
Proof. intros [A B C D F] X. apply (map_same _ _ _ _ D). intros a [I _]. apply see_curve_same. apply forall_content_ext; assumption. Qed.
Lemma see_sigs_ext st m1 : wf st -> extends (pst_mem st) m1 -> map (see_sig m1) (pst_sigs st) = map (see_sig (pst_mem st)) (pst_sigs st).
Proof. intros [A B C D F] X. apply (map_same _ _ _ _ F). intros a [I _]. apply see_sig_ext; assumption. Qed.
Lemma see_state_ext st m1 : wf st -> extends (pst_mem st) m1 -> see_state (with_mem m1 st) = see_state st.
Proof.
  intros W X. unfold see_state. cbn [pst_mem pst_slices pst_keys pst_curves pst_sigs with_mem]. rewrite (see_slices_ext st m1 W X), (see_keys_ext st m1 W X), (see_curves_ext st m1 W X), (see_sigs_ext st m1 W X). reflexivity.
Qed.

(** ** Calls that assign nothing *)
Section Step.
Variable E : Env.
Variable G : nat -> nat -> nat.
Hypothesis sizes : sizes_ok E.

(** what a call sees and leaves: as with values *)
Definition agree (given : list nat) (st : p_state) (p : p_seen * p_state) (q : p_seen * p_values) : Prop :=
  q = (fst p, see_state (snd p)) /\ grows given st (snd p).
Lemma agree_same given st o : wf st -> agree given st (o, st) (o, see_state st).
Proof. intros W. split; [reflexivity|]. cbn [snd]. replace st with (with_mem (pst_mem st) st) at 2 by (destruct st; reflexivity). apply grows_none. apply ext_refl. Qed.
Lemma with_ok {A B} given st (l : list A) (f : A -> B) n K K' : wf st -> (forall a, nth_error l n = Some a -> agree given st (K a) (K' (f a))) ->
  agree given st (p_with l n st K) (p_with (map f l) n (see_state st) K').
Proof. intros W H. unfold p_with. rewrite nth_error_map. destruct (nth_error l n) as [a|]; cbn [option_map]; [apply H; reflexivity|apply agree_same; exact W]. Qed.
Lemma maybe_ok {A B} given st (l : list A) (f : A -> B) n K K' : wf st -> (forall o, (forall a, o = Some a -> In a l) -> agree given st (K o) (K' (option_map f o))) ->
  agree given st (p_maybe l n st K) (p_maybe (map f l) n (see_state st) K').
Proof.
  intros W H. unfold p_maybe. destruct n as [n|]; [|apply (H None); discriminate]. apply (with_ok given st l f n (fun a => K (Some a)) (fun a => K' (Some a)) W).
  intros a N. apply (H (Some a)). intros b Q. injection Q as <-. exact (nth_error_In _ _ N).
Qed.
Lemma all_ok {A B} given st (l : list A) (f : A -> B) ns K K' : wf st ->
  (forall r, Forall2 (fun p q => fst p = fst q /\ nth_error l (snd p) = Some (snd q)) ns r -> agree given st (K r) (K' (map (fun p => (fst p, f (snd p))) r))) ->
  agree given st (p_all l ns st K) (p_all (map f l) ns (see_state st) K').
Proof.
  intros W. revert K K'. induction ns as [|[t n] ns IH]; intros K K' H; cbn [p_all]; [apply (H []); constructor|].
  apply (with_ok given st l f n (fun a => p_all l ns st (fun r => K ((t, a) :: r))) (fun a => p_all (map f l) ns (see_state st) (fun r => K' ((t, a) :: r))) W).
  intros a N. apply (IH (fun r => K ((t, a) :: r)) (fun r => K' ((t, f a) :: r))). intros r R. apply (H ((t, a) :: r)). constructor; [split; [reflexivity|exact N]|exact R].
Qed.

(** the results of the functions of the package as new slices, keys and signatures *)
Lemma do_slice given st (f : sm slice) t r : wf st -> sim (new_slice (length (pst_mem st))) (pst_mem st) (f (pst_mem st, t)) r ->
  agree given st (p_do f t st p_slice) (v_res r (see_state st) (fun r => v_slice (see_state st) (fst r))).
Proof.
  intros W H. unfold p_do. destruct r as [[b t1]|e|]; unfold sim in H; cbn [v_res].
  - destruct H as (a & m1 & -> & X & N & I & C). unfold p_slice, agree, v_slice. cbn [fst snd pst_mem with_mem pst_slices pst_keys pst_curves pst_sigs]. split; [|apply grows_slice; assumption].
    rewrite C. unfold see_state. cbn [pst_mem pst_slices pst_keys pst_curves pst_sigs pv_slices pv_keys pv_curves pv_sigs]. rewrite map_app, (see_slices_ext st m1 W X), (see_keys_ext st m1 W X), (see_curves_ext st m1 W X), (see_sigs_ext st m1 W X). cbn [map]. rewrite C. reflexivity.
  - destruct H as (m1 & t1 & -> & X). unfold agree. cbn [fst snd]. rewrite see_state_ext by assumption. split; [reflexivity|apply grows_none; exact X].
  - destruct H as (m1 & t1 & -> & X). unfold agree. cbn [fst snd]. rewrite see_state_ext by assumption. split; [reflexivity|apply grows_none; exact X].
Qed.
Lemma do_makes given st (f : sm slice) t b : wf st -> makes f (pst_mem st) b -> agree given st (p_do f t st p_slice) (v_slice (see_state st) b).
Proof. intros W H. exact (do_slice given st f t (Ok (b, t)) W (sim_makes f (pst_mem st) t b H)). Qed.
Lemma do_read given st s t : wf st -> agree given st (p_do (s_read s) t st p_show) (Q_bytes (content (pst_mem st) s), see_state st).
Proof. intros W. unfold p_do, s_read, p_show. cbn [s_run s_ret fst]. replace (with_mem (pst_mem st) st) with st by (destruct st; reflexivity). apply agree_same. exact W. Qed.
Lemma do_key given st (f : sm h_ed) t r : wf st -> sim (ed_made (length (pst_mem st))) (pst_mem st) (f (pst_mem st, t)) (plain r t) ->
  agree given st (p_do f t st p_key) (v_res r (see_state st) (v_ed (see_state st))).
Proof.
  intros W H. unfold p_do. destruct r as [k|e|]; unfold plain, sim in H; cbn [bind] in H; cbn [v_res].
  - destruct H as (a & m1 & -> & X & M). unfold p_key, agree, v_ed. cbn [fst snd pst_mem with_mem pst_slices pst_keys pst_curves pst_sigs]. split; [|eapply grows_key; eassumption].
    unfold see_state. cbn [pst_mem pst_slices pst_keys pst_curves pst_sigs pv_slices pv_keys pv_curves pv_sigs]. rewrite map_app, (see_slices_ext st m1 W X), (see_keys_ext st m1 W X), (see_curves_ext st m1 W X), (see_sigs_ext st m1 W X). cbn [map]. rewrite (proj1 M). reflexivity.
  - destruct H as (m1 & t1 & -> & X). unfold agree. cbn [fst snd]. rewrite see_state_ext by assumption. split; [reflexivity|apply grows_none; exact X].
  - destruct H as (m1 & t1 & -> & X). unfold agree. cbn [fst snd]. rewrite see_state_ext by assumption. split; [reflexivity|apply grows_none; exact X].
Qed.
Lemma do_curve given st (f : sm h_curve) t r : wf st -> sim (curve_made (length (pst_mem st))) (pst_mem st) (f (pst_mem st, t)) (plain r t) ->
  agree given st (p_do f t st p_curve) (v_res r (see_state st) (v_curve (see_state st))).
Proof.
  intros W H. unfold p_do. destruct r as [k|e|]; unfold plain, sim in H; cbn [bind] in H; cbn [v_res].
  - destruct H as (a & m1 & -> & X & M). unfold p_curve, agree, v_curve. cbn [fst snd pst_mem with_mem pst_slices pst_keys pst_curves pst_sigs]. split; [|eapply grows_curve; eassumption].
    unfold see_state. cbn [pst_mem pst_slices pst_keys pst_curves pst_sigs pv_slices pv_keys pv_curves pv_sigs]. rewrite map_app, (see_slices_ext st m1 W X), (see_keys_ext st m1 W X), (see_curves_ext st m1 W X), (see_sigs_ext st m1 W X). cbn [map]. rewrite (proj1 M). reflexivity.
  - destruct H as (m1 & t1 & -> & X). unfold agree. cbn [fst snd]. rewrite see_state_ext by assumption. split; [reflexivity|apply grows_none; exact X].
  - destruct H as (m1 & t1 & -> & X). unfold agree. cbn [fst snd]. rewrite see_state_ext by assumption. split; [reflexivity|apply grows_none; exact X].
Qed.
Lemma sig_made_weaken (P Q : nat -> Prop) m s v : (forall i, P i -> Q i) -> sig_made P m s v -> sig_made Q m s v.
Proof. intros I (A & B & C & D). split; [exact A|]. split; [exact B|]. split; [|exact D]. revert C. apply Forall_impl. intros u. apply I. Qed.
Lemma do_sig given (P : nat -> Prop) st (f : sm h_sig) t r : wf st ->
  (forall i, P i -> (length (pst_mem st) <= i)%nat \/ exists x a, In x given /\ nth_error (pst_slices st) x = Some a /\ sl_at a = i) ->
  sim (sig_made P) (pst_mem st) (f (pst_mem st, t)) (plain r t) ->
  agree given st (p_do f t st p_sig) (v_res r (see_state st) (v_sig (see_state st))).
Proof.
  intros W I H. unfold p_do. destruct r as [k|e|]; unfold plain, sim in H; cbn [bind] in H; cbn [v_res].
  - destruct H as (a & m1 & -> & X & M). unfold p_sig, agree, v_sig. cbn [fst snd pst_mem with_mem pst_slices pst_keys pst_curves pst_sigs]. split; [|eapply grows_sig; [exact X|exact (sig_made_weaken _ _ _ _ _ I M)]].
    unfold see_state. cbn [pst_mem pst_slices pst_keys pst_curves pst_sigs pv_slices pv_keys pv_curves pv_sigs]. rewrite map_app, (see_slices_ext st m1 W X), (see_keys_ext st m1 W X), (see_curves_ext st m1 W X), (see_sigs_ext st m1 W X). cbn [map]. rewrite (proj1 M). reflexivity.
  - destruct H as (m1 & t1 & -> & X). unfold agree. cbn [fst snd]. rewrite see_state_ext by assumption. split; [reflexivity|apply grows_none; exact X].
  - destruct H as (m1 & t1 & -> & X). unfold agree. cbn [fst snd]. rewrite see_state_ext by assumption. split; [reflexivity|apply grows_none; exact X].
Qed.

Lemma slice_of st n a : wf st -> nth_error (pst_slices st) n = Some a -> in_memory (pst_mem st) a.
Proof. intros W N. pose proof (wf_slices st W) as F. rewrite Forall_forall in F. exact (proj1 (F a (nth_error_In _ _ N))). Qed.
Lemma key_of st a : wf st -> In a (pst_keys st) -> Forall (in_memory (pst_mem st)) (slices_ed a) /\ can_sign a.
Proof. intros W N. pose proof (wf_keys st W) as F. rewrite Forall_forall in F. destruct (F a N) as (A & B & _). auto. Qed.
Lemma curve_of st a : wf st -> In a (pst_curves st) -> Forall (in_memory (pst_mem st)) (slices_curve a) /\ he_signing (hc_base a) = None.
Proof. intros W N. pose proof (wf_curves st W) as F. rewrite Forall_forall in F. destruct (F a N) as (A & B & _). auto. Qed.
Lemma sig_of st n a : wf st -> nth_error (pst_sigs st) n = Some a -> sig_wf (pst_mem st) a.
Proof. intros W N. pose proof (wf_sigs st W) as F. rewrite Forall_forall in F. exact (F a (nth_error_In _ _ N)). Qed.
Lemma curve_base_in m c : Forall (in_memory m) (slices_curve c) -> Forall (in_memory m) (slices_ecc (hc_base c)).
Proof. intros F. inversion F; assumption. Qed.
Lemma set_in_of st u m enc auth sign : wf st -> In m (pst_keys st) -> (forall c, enc = Some c -> In c (pst_curves st)) ->
  (forall k, auth = Some k -> In k (pst_keys st)) -> (forall k, sign = Some k -> In k (pst_keys st)) -> set_in (pst_mem st) (mk_hset u m enc auth sign).
Proof.
  intros W M C A S. destruct (key_of st m W M) as [MI MS].
  split; [|split; [|split; [|split]]]; cbn [hk_master hk_enc hk_auth hk_sign].
  - unfold slices_set. cbn [hk_master hk_enc hk_auth hk_sign]. apply Forall_app. split; [exact MI|]. apply Forall_app. split; [destruct enc as [c|]; [exact (proj1 (curve_of st c W (C c eq_refl)))|constructor]|].
    apply Forall_app. split; [destruct auth as [c|]; [exact (proj1 (key_of st c W (A c eq_refl)))|constructor]|destruct sign as [c|]; [exact (proj1 (key_of st c W (S c eq_refl)))|constructor]].
  - exact MS.
  - intros k K. exact (proj2 (key_of st k W (A k K))).
  - intros k K. exact (proj2 (key_of st k W (S k K))).
  - intros c K. exact (proj2 (curve_of st c W (C c K))).
Qed.
Lemma named_in st ns (r : list (Z * slice)) : wf st -> Forall2 (fun p q => fst p = fst q /\ nth_error (pst_slices st) (snd p) = Some (snd q)) ns r ->
  Forall (in_memory (pst_mem st)) (map hb_body (h_subs r)) /\ map (see_sub (pst_mem st)) (h_subs r) = subs_of (map (fun p => (fst p, content (pst_mem st) (snd p))) r) /\
  forall i, In i (map sl_at (map hb_body (h_subs r))) -> exists x a, In x (map snd ns) /\ nth_error (pst_slices st) x = Some a /\ sl_at a = i.
Proof.
  intros W. induction 1 as [|p q ns r [_ N] F IH]; [split; [constructor|]; split; [reflexivity|]; intros i []|]. destruct IH as (A & B & C). cbn [h_subs map hb_body subs_of fst snd] in *. split; [|split].
  - constructor; [exact (slice_of st _ _ W N)|exact A].
  - f_equal. exact B.
  - intros i [<-|I]; [exists (snd p), (snd q); split; [left; reflexivity|]; split; [exact N|reflexivity]|]. destruct (C i I) as (x & a & P & Q). exists x, a. split; [right; exact P|exact Q].
Qed.

Lemma step_agree c st : wf st -> p_assigns c = false -> agree (hands c) st (p_step E G c st) (pv_step E c (see_state st)).
Proof.
  intros W A. pose proof (wf_mem st W) as G0. destruct c; try discriminate A; clear A; unfold p_step, pv_step;
    cbn [see_state pv_slices pv_keys pv_curves pv_sigs];
    change (mk_pv (map (content (pst_mem st)) (pst_slices st)) (map (see_ed (pst_mem st)) (pst_keys st)) (map (see_curve (pst_mem st)) (pst_curves st)) (map (see_sig (pst_mem st)) (pst_sigs st))) with (see_state st).
  - apply do_makes; [exact W|apply (lit_makes G)].
  - apply with_ok; [exact W|]. intros a N. apply do_read. exact W.
  - apply with_ok; [exact W|]. intros a N. apply do_key; [exact W|]. apply new_ed_ok; [exact sizes|exact G0|exact (slice_of st _ _ W N)].
  - apply with_ok; [exact W|]. intros a N. apply do_curve; [exact W|]. apply new_curve_ok; [exact G0|exact (slice_of st _ _ W N)].
  - apply with_ok; [exact W|]. intros a N. apply (do_read _ st (hd_private a) [] W).
  - apply with_ok; [exact W|]. intros a N. apply (do_read _ st (he_public (hd_base a)) [] W).
  - apply with_ok; [exact W|]. intros a N. apply (do_read _ st (hc_private a) [] W).
  - apply with_ok; [exact W|]. intros a N. apply do_makes; [exact W|]. apply (fingerprint_makes E G (hd_base a)). apply ed_base_in. exact (proj1 (key_of st a W (nth_error_In _ _ N))).
  - apply with_ok; [exact W|]. intros a N. apply do_makes; [exact W|]. apply (fingerprint_makes E G (hc_base a)). apply curve_base_in. exact (proj1 (curve_of st a W (nth_error_In _ _ N))).
  - apply with_ok; [exact W|]. intros a N. apply do_makes; [exact W|]. apply (public_packet_makes G tag_public_key (hd_base a)). apply ed_base_in. exact (proj1 (key_of st a W (nth_error_In _ _ N))).
  - apply with_ok; [exact W|]. intros a N. apply do_makes; [exact W|]. apply (public_packet_makes G tag_public_subkey (hd_base a)). apply ed_base_in. exact (proj1 (key_of st a W (nth_error_In _ _ N))).
  - apply with_ok; [exact W|]. intros a N. apply do_makes; [exact W|]. apply (public_packet_makes G tag_public_subkey (hc_base a)). apply curve_base_in. exact (proj1 (curve_of st a W (nth_error_In _ _ N))).
  - apply with_ok; [exact W|]. intros a N. apply with_ok; [exact W|]. intros p P. apply do_slice; [exact W|]. apply (private_packet_ok E G tag_secret_key (hd_base a)); [apply ed_base_in; exact (proj1 (key_of st a W (nth_error_In _ _ N)))|exact (slice_of st _ _ W P)].
  - apply with_ok; [exact W|]. intros a N. apply with_ok; [exact W|]. intros p P. apply do_slice; [exact W|]. apply (private_packet_ok E G tag_secret_subkey (hd_base a)); [apply ed_base_in; exact (proj1 (key_of st a W (nth_error_In _ _ N)))|exact (slice_of st _ _ W P)].
  - apply with_ok; [exact W|]. intros a N. apply with_ok; [exact W|]. intros p P. apply do_slice; [exact W|]. apply (private_packet_ok E G tag_secret_subkey (hc_base a)); [apply curve_base_in; exact (proj1 (curve_of st a W (nth_error_In _ _ N)))|exact (slice_of st _ _ W P)].
  - apply with_ok; [exact W|]. intros a N. apply do_makes; [exact W|]. apply (dummy_packet_makes G (hd_base a)). apply ed_base_in. exact (proj1 (key_of st a W (nth_error_In _ _ N))).
  - apply with_ok; [exact W|]. intros a N. destruct (key_of st a W (nth_error_In _ _ N)) as [KI KS].
    apply (do_sig _ (fun i => (length (pst_mem st) <= i)%nat)); [exact W|intros i I; left; exact I|]. apply self_certify_ok; assumption.
  - apply with_ok; [exact W|]. intros f NF. apply with_ok; [exact W|]. intros d ND. apply all_ok; [exact W|]. intros hl NH. apply all_ok; [exact W|]. intros ul NU.
    destruct (named_in st _ _ W NH) as (HI & HV & HN). destruct (named_in st _ _ W NU) as (UI & UV & UN).
    assert (SH : forall i, (length (pst_mem st) <= i)%nat \/ In i (map sl_at (f :: map hb_body (h_subs hl) ++ map hb_body (h_subs ul))) ->
      (length (pst_mem st) <= i)%nat \/ exists x a, In x (fingerprint :: map snd hashed ++ map snd unhashed) /\ nth_error (pst_slices st) x = Some a /\ sl_at a = i).
    { intros i [I|[<-|I]]; [left; exact I|right; exists fingerprint, f; split; [left; reflexivity|]; split; [exact NF|reflexivity]|]. right. rewrite map_app in I. apply in_app_or in I. destruct I as [I|I].
      - destruct (HN i I) as (x & a & P & Q). exists x, a. split; [right; apply in_or_app; left; exact P|exact Q].
      - destruct (UN i I) as (x & a & P & Q). exists x, a. split; [right; apply in_or_app; right; exact P|exact Q]. }
    rewrite <- HV, <- UV. set (rq := mk_hreq f hash d type (h_subs hl) (h_subs ul) time).
    change (mk_req (content (pst_mem st) f) hash (content (pst_mem st) d) type (map (see_sub (pst_mem st)) (h_subs hl)) (map (see_sub (pst_mem st)) (h_subs ul)) time) with (see_request (pst_mem st) rq).
    destruct by_ as [k|x]; (apply with_ok; [exact W|]); intros a N; (eapply do_sig; [exact W|exact SH|]).
    + apply (sign_ok E G sizes (hd_private a) rq); try assumption; try exact (slice_of st _ _ W NF); try exact (slice_of st _ _ W ND). apply ed_private_in. exact (proj1 (key_of st a W (nth_error_In _ _ N))).
    + apply (sign_ok E G sizes a rq); try assumption; try exact (slice_of st _ _ W NF); try exact (slice_of st _ _ W ND); exact (slice_of st _ _ W N).
  - apply with_ok; [exact W|]. intros a N. apply do_makes; [exact W|]. destruct (sig_of st _ _ W N) as [SI SL]. apply (sig_makes G a); assumption.
  - apply with_ok; [exact W|]. intros a N. apply do_makes; [exact W|]. destruct (sig_of st _ _ W N) as [SI SL]. apply (sig_packet_makes G a); assumption.
  - apply with_ok; [exact W|]. intros a N. apply (do_read _ st (hg_digest a) [] W).
  - apply with_ok; [exact W|]. intros a N. apply maybe_ok; [exact W|]. intros en NE. apply maybe_ok; [exact W|]. intros au NA. apply maybe_ok; [exact W|]. intros si NS. apply with_ok; [exact W|]. intros p P. apply do_slice; [exact W|].
    apply (packets_ok E G sizes (mk_hset u a en au si)); [exact G0|apply set_in_of; try assumption; exact (nth_error_In _ _ N)|exact (slice_of st _ _ W P)].
  - apply with_ok; [exact W|]. intros a N. apply maybe_ok; [exact W|]. intros en NE. apply maybe_ok; [exact W|]. intros au NA. apply maybe_ok; [exact W|]. intros si NS. apply with_ok; [exact W|]. intros p P. apply do_slice; [exact W|].
    apply (subkey_set_ok E G sizes (mk_hset u a en au si)); [exact G0|apply set_in_of; try assumption; exact (nth_error_In _ _ N)|exact (slice_of st _ _ W P)].
  - apply with_ok; [exact W|]. intros a N. apply do_makes; [exact W|]. apply (packet_makes G). exact (slice_of st _ _ W N).
  - apply do_makes; [exact W|]. apply (mpi_makes G).
  - apply with_ok; [exact W|]. intros a N. apply with_ok; [exact W|]. intros p P. apply do_slice; [exact W|]. apply encrypt_ok; [exact (slice_of st _ _ W N)|exact (slice_of st _ _ W P)].
  - apply do_makes; [exact W|]. apply uid_makes.
  - apply do_makes; [exact W|]. apply uid_packet_makes.
  - apply with_ok; [exact W|]. intros a N. apply do_makes; [exact W|]. apply (sub_makes G (mk_hsub type a)). exact (slice_of st _ _ W N).
Qed.
End Step.

(** ** Assignments *)
(** arrays to which the program still writes: those of its slices that it has not given to Sign, and of the Private
    fields of encryption subkeys *)
Definition loose (given : list nat) (st : p_state) (i : nat) : Prop :=
  (exists x a, nth_error (pst_slices st) x = Some a /\ sl_at a = i /\ ~ In x given) \/ exists c, In c (pst_curves st) /\ sl_at (hc_private c) = i.
(** the slices behind keys and signatures, without those fields *)
Definition inner (st : p_state) : list slice :=
  flat_map slices_ed (pst_keys st) ++ flat_map (fun c => slices_ecc (hc_base c)) (pst_curves st) ++ flat_map slices_sig (pst_sigs st).
Definition own (st : p_state) : list nat := map sl_at (pst_slices st) ++ map (fun c => sl_at (hc_private c)) (pst_curves st).
Record apart (given : list nat) (st : p_state) : Prop := {
  apart_own : NoDup (own st);
  apart_inner : Forall (fun u => ~ loose given st (sl_at u)) (inner st)
}.
Lemma apart_init : apart [] p_init. Proof. constructor; constructor. Qed.

Lemma own_old st i : wf st -> In i (own st) -> (3 <= i < length (pst_mem st))%nat.
Proof.
  intros W I. unfold own in I. apply in_app_or in I. destruct I as [I|I]; apply in_map_iff in I; destruct I as (a & <- & I).
  - pose proof (wf_slices st W) as F. rewrite Forall_forall in F. destruct (F a I) as [[L _] M]. lia.
  - pose proof (wf_curves st W) as F. rewrite Forall_forall in F. destruct (F a I) as (L & _ & M). inversion L as [|? ? [Q _] _]; subst. lia.
Qed.
Lemma loose_own given st i : loose given st i -> In i (own st).
Proof.
  unfold own. intros [(x & a & N & <- & _)|(c & C & <-)]; apply in_or_app; [left; apply in_map; exact (nth_error_In _ _ N)|right; apply (in_map (fun c => sl_at (hc_private c))); exact C].
Qed.
Lemma inner_old st : wf st -> Forall (fun u => in_memory (pst_mem st) u) (inner st).
Proof.
  intros W. unfold inner. apply Forall_app. split; [|apply Forall_app; split]; apply Forall_flat_map.
  - apply (Forall_impl _ (fun k => @proj1 _ _) (wf_keys st W)).
  - generalize (wf_curves st W). apply Forall_impl. intros c (F & _). apply curve_base_in. exact F.
  - apply (Forall_impl _ (fun k => @proj1 _ _) (wf_sigs st W)).
Qed.
(** what is not behind anything of the program is not loose *)
Lemma nodup_snoc (l : list nat) i : NoDup l -> ~ In i l -> NoDup (l ++ [i]).
Proof. intros N I. apply NoDup_rev in N. rewrite <- (rev_involutive (l ++ [i])). apply NoDup_rev. rewrite rev_app_distr. cbn [rev app]. constructor; [rewrite <- in_rev; exact I|exact N]. Qed.
Lemma nodup_mid (l r : list nat) i : NoDup (l ++ r) -> ~ In i (l ++ r) -> NoDup ((l ++ [i]) ++ r).
Proof. intros N I. rewrite <- app_assoc. cbn [app]. apply NoDup_Add with (a := i) (l := l ++ r); [apply Add_app|split; assumption]. Qed.

Lemma apart_grows given more st st' : wf st -> apart given st -> grows more st st' -> apart (more ++ given) st'.
Proof.
  intros W [N F] H. assert (OLD : forall i, In i (own st) -> (3 <= i < length (pst_mem st))%nat) by (intros i; apply own_old; exact W). assert (INN := inner_old st W).
  assert (F' : Forall (fun u => ~ loose (more ++ given) st (sl_at u)) (inner st)).
  { revert F. apply Forall_impl. intros u Q L. apply Q. destruct L as [(x & a & P & A & I)|L]; [left; exists x, a; split; [exact P|]; split; [exact A|]; intros J; apply I, in_or_app; right; exact J|right; exact L]. }
  assert (OUT : forall i, (i < 3)%nat \/ (length (pst_mem st) <= i)%nat -> ~ loose (more ++ given) st i) by (intros i B L; apply loose_own, OLD in L; lia).
  destruct H as [m1 X|m1 a X L I|m1 k v X M|m1 c v X M|m1 s v X M].
  - constructor; [exact N|exact F'].
  - constructor.
    + unfold own. cbn [pst_slices pst_curves]. rewrite map_app. cbn [map]. apply nodup_mid; [exact N|]. intros Q. apply OLD in Q. lia.
    + change (inner _) with (inner st). rewrite Forall_forall in *. intros u U Q. apply (F' u U). destruct Q as [(x & b & P & A & NI)|Q]; [|right; exact Q]. cbn [pst_slices] in P. left. exists x, b. split; [|split; assumption].
      destruct (Nat.lt_ge_cases x (length (pst_slices st))) as [Lx|Lx]; [rewrite nth_error_app1 in P by exact Lx; exact P|]. exfalso. rewrite nth_error_app2 in P by exact Lx.
      destruct (x - length (pst_slices st))%nat as [|d]; cbn [nth_error] in P; [|destruct d; discriminate]. injection P as <-. pose proof (proj1 (INN u U)). lia.
  - destruct M as (_ & _ & NA & _). constructor; [exact N|]. unfold inner in *. cbn [pst_keys pst_curves pst_sigs]. rewrite flat_map_app. cbn [flat_map]. rewrite app_nil_r.
    apply Forall_app in F'. destruct F' as [F1 F2]. apply Forall_app. split; [apply Forall_app; split; [exact F1|]|exact F2]. revert NA. apply Forall_impl. intros u [B|B]; apply OUT; [left|right]; exact B.
  - destruct M as (_ & _ & NA & P & NE & _). assert (L1 : forall i, loose (more ++ given) (mk_pst m1 (pst_slices st) (pst_keys st) (pst_curves st ++ [c]) (pst_sigs st)) i -> loose (more ++ given) st i \/ sl_at (hc_private c) = i).
    { intros i [Q|(d & D & Q)]; [left; left; exact Q|]. cbn [pst_curves] in D. apply in_app_or in D. destruct D as [D|[<-|[]]]; [left; right; exists d; split; assumption|right; exact Q]. }
    constructor.
    + unfold own. cbn [pst_slices pst_curves]. rewrite map_app. cbn [map]. rewrite app_assoc. apply nodup_snoc; [exact N|]. intros Q. apply OLD in Q. lia.
    + assert (K : forall u, In u (inner st) -> ~ loose (more ++ given) (mk_pst m1 (pst_slices st) (pst_keys st) (pst_curves st ++ [c]) (pst_sigs st)) (sl_at u)).
      { intros u U Q. rewrite Forall_forall in F', INN. destruct (L1 _ Q) as [Z|Z]; [exact (F' u U Z)|]. pose proof (proj1 (INN u U)). lia. }
      apply Forall_forall. intros u U. unfold inner in U. cbn [pst_keys pst_curves pst_sigs] in U. rewrite flat_map_app in U. cbn [flat_map] in U. rewrite app_nil_r in U.
      assert (V : In u (inner st) \/ In u (slices_ecc (hc_base c))) by (unfold inner; rewrite !in_app_iff in *; tauto). destruct V as [V|V]; [exact (K u V)|]. intros Q.
      inversion NA as [|? ? _ NB]; subst. rewrite Forall_forall in NB, NE. destruct (L1 _ Q) as [Z|Z]; [apply (OUT (sl_at u)); [exact (NB u V)|exact Z]|]. apply (NE u V). symmetry. exact Z.
  - destruct M as (_ & _ & NA & _). constructor; [exact N|]. unfold inner in *. cbn [pst_keys pst_curves pst_sigs]. rewrite flat_map_app. cbn [flat_map]. rewrite app_nil_r, !app_assoc.
    rewrite app_assoc in F'. apply Forall_app. split; [exact F'|]. revert NA. apply Forall_impl. intros u [B|(x & a & GI & NX & <-)]; [apply OUT; right; exact B|].
    assert (IX : In (sl_at a) (map sl_at (pst_slices st))) by (apply in_map; exact (nth_error_In _ _ NX)).
    intros [(y & b & NY & A & GY)|(c & C & A)].
    + cbn [pst_slices] in NY. apply GY. apply in_or_app. left. assert (x = y) as <-; [|exact GI].
      unfold own in N. assert (NS : NoDup (map sl_at (pst_slices st))) by (clear -N; induction (map sl_at (pst_slices st)); [constructor|]; cbn [app] in N; inversion N as [|? ? P Q]; subst; constructor; [intros I; apply P, in_or_app; left; exact I|auto]).
      rewrite NoDup_nth_error in NS. apply NS; [apply nth_error_Some; rewrite nth_error_map, NX; discriminate|]. rewrite !nth_error_map, NX, NY. cbn [option_map]. congruence.
    + cbn [pst_curves] in C. unfold own in N. assert (IC : In (sl_at a) (map (fun c => sl_at (hc_private c)) (pst_curves st))) by (rewrite <- A; apply (in_map (fun c => sl_at (hc_private c))); exact C).
      clear -N IX IC. induction (map sl_at (pst_slices st)) as [|y l IH]; [exact IX|]. cbn [app] in N. inversion N as [|? ? P Q]; subst. destruct IX as [->|IX]; [apply P, in_or_app; right; exact IC|auto].
Qed.

(** Keys share no array with slices of the program. *)
Definition key_inner (st : p_state) : list slice := flat_map slices_ed (pst_keys st) ++ flat_map (fun c => slices_ecc (hc_base c)) (pst_curves st).
Definition keys_apart (st : p_state) : Prop := Forall (fun u => ~ In (sl_at u) (own st)) (key_inner st).
Lemma keys_grows more st st' : wf st -> keys_apart st -> grows more st st' -> keys_apart st'.
Proof.
  intros W F H. assert (OLD : forall i, In i (own st) -> (3 <= i < length (pst_mem st))%nat) by (intros i; apply own_old; exact W).
  assert (INN : forall u, In u (key_inner st) -> (sl_at u < length (pst_mem st))%nat).
  { intros u U. pose proof (inner_old st W) as I. rewrite Forall_forall in I. apply (I u). unfold inner, key_inner in *. rewrite !in_app_iff in *. tauto. }
  unfold keys_apart in *. destruct H as [m1 X|m1 a X L I|m1 k v X M|m1 c v X M|m1 s v X M]; try exact F; rewrite Forall_forall in F; apply Forall_forall; intros u U.
  - change (key_inner _) with (key_inner st) in U. unfold own. cbn [pst_slices pst_curves]. rewrite map_app, !in_app_iff. cbn [map In]. intros Q. apply (F u U). unfold own. rewrite in_app_iff. destruct Q as [[Q|[Q|[]]]|Q]; auto. specialize (INN u U). lia.
  - change (own _) with (own st). unfold key_inner in U. cbn [pst_keys pst_curves] in U. rewrite flat_map_app in U. cbn [flat_map] in U. rewrite app_nil_r, !in_app_iff in U. destruct M as (_ & _ & NA & _). rewrite Forall_forall in NA.
    destruct U as [[U|U]|U]; [apply F; unfold key_inner; rewrite in_app_iff; auto| |apply F; unfold key_inner; rewrite in_app_iff; auto]. intros Q. apply OLD in Q. destruct (NA u U); lia.
  - unfold key_inner in U. cbn [pst_keys pst_curves] in U. rewrite flat_map_app in U. cbn [flat_map] in U. rewrite app_nil_r, !in_app_iff in U. destruct M as (_ & _ & NA & P & NE & _). inversion NA as [|? ? _ NB]; subst. rewrite Forall_forall in NB, NE.
    unfold own. cbn [pst_slices pst_curves]. rewrite map_app, !in_app_iff. cbn [map In].
    assert (V : In u (key_inner st) \/ In u (slices_ecc (hc_base c))) by (unfold key_inner; rewrite in_app_iff; tauto). intros Q.
    assert (Q' : In (sl_at u) (own st) \/ sl_at (hc_private c) = sl_at u) by (unfold own; rewrite in_app_iff; tauto). clear U Q.
    destruct V as [V|V], Q' as [Q|Q].
    + exact (F u V Q).
    + specialize (INN u V). lia.
    + apply OLD in Q. destruct (NB u V); lia.
    + apply (NE u V). symmetry. exact Q.
Qed.
Lemma wf_assign st m1 : wf st -> extends package_arrays m1 -> (forall u, in_memory (pst_mem st) u -> in_memory m1 u) -> wf (with_mem m1 st).
Proof.
  intros [A B C D F] X I. assert (FI : forall l, Forall (in_memory (pst_mem st)) l -> Forall (in_memory m1) l) by (intros l; apply Forall_impl; exact I).
  constructor; cbn [pst_mem pst_slices pst_keys pst_curves pst_sigs with_mem].
  - exact X.
  - revert B. apply Forall_impl. intros s [Q L]. split; [exact (I _ Q)|exact L].
  - revert C. apply Forall_impl. intros s [Q L]. split; [exact (FI _ Q)|exact L].
  - revert D. apply Forall_impl. intros s [Q L]. split; [exact (FI _ Q)|exact L].
  - revert F. apply Forall_impl. intros s [Q L]. split; [exact (FI _ Q)|exact L].
Qed.
Lemma assign_ok st s i n : wf st -> in_memory (pst_mem st) s -> (3 <= sl_at s)%nat ->
  ((i < sl_len s)%nat /\ exists m1, p_do (s_set s i n) [] st p_quiet = (Q_nothing, with_mem m1 st) /\ wf (with_mem m1 st) /\
     content m1 s = replace_at (content (pst_mem st) s) i n /\ forall u, in_memory (pst_mem st) u -> sl_at u <> sl_at s -> content m1 u = content (pst_mem st) u) \/
  ((sl_len s <= i)%nat /\ p_do (s_set s i n) [] st p_quiet = (Q_panicked, with_mem (pst_mem st) st)).
Proof.
  intros W I L. destruct (Nat.lt_ge_cases i (sl_len s)) as [B|B].
  - left. split; [exact B|]. destruct (set_ok (fun _ n => n) s i n (pst_mem st) [] I B) as (m1 & H & _ & X & _ & C & Q & O). exists m1. unfold p_do. rewrite H. split; [reflexivity|]. split; [|split; assumption].
    apply wf_assign; [exact W|apply X; [exact (wf_mem st W)|exact L]|exact Q].
  - right. split; [exact B|]. unfold p_do, s_set. destruct (Nat.ltb_spec i (sl_len s)) as [C|_]; [lia|reflexivity].
Qed.
Lemma with_same st : with_mem (pst_mem st) st = st. Proof. destruct st. reflexivity. Qed.

Lemma map_replace {A B} (f g : A -> B) l x a b : nth_error l x = Some a -> b = f a -> (forall y c, nth_error l y = Some c -> y <> x -> f c = g c) -> map f l = replace_at (map g l) x b.
Proof.
  intros N -> H. revert x N H. induction l as [|c l IH]; intros [|x] N H; try discriminate; cbn [nth_error] in N.
  - injection N as <-. cbn [map]. unfold replace_at. cbn [firstn skipn app]. f_equal. apply map_ext_in. intros d D. apply In_nth_error in D. destruct D as (y & D). apply (H (S y) d); [exact D|discriminate].
  - cbn [map]. unfold replace_at. cbn [firstn skipn app]. f_equal; [apply (H 0%nat c); [reflexivity|discriminate]|]. apply (IH x N). intros y d D Y. apply (H (S y) d D). congruence.
Qed.
Lemma nodup_app (l r : list nat) : NoDup (l ++ r) -> NoDup l /\ NoDup r /\ forall i, In i l -> ~ In i r.
Proof.
  induction l as [|a l IH]; cbn [app]; intros N; [split; [constructor|]; split; [exact N|]; intros i []|]. inversion N as [|? ? P Q]; subst. destruct (IH Q) as (A & B & C).
  split; [constructor; [intros I; apply P, in_or_app; left; exact I|exact A]|]. split; [exact B|]. intros i [<-|I] J; [apply P, in_or_app; right; exact J|exact (C i I J)].
Qed.
Lemma nodup_at {A} (f : A -> nat) l x y a b : NoDup (map f l) -> nth_error l x = Some a -> nth_error l y = Some b -> f a = f b -> x = y.
Proof.
  intros N X Y Q. rewrite NoDup_nth_error in N. apply N; [apply nth_error_Some; rewrite nth_error_map, X; discriminate|]. rewrite !nth_error_map, X, Y. cbn [option_map]. congruence.
Qed.
Lemma inner_key st k : In k (pst_keys st) -> forall u, In u (slices_ed k) -> In u (inner st).
Proof. intros K u U. unfold inner. apply in_or_app. left. apply in_flat_map. exists k. split; assumption. Qed.
Lemma inner_curve st k : In k (pst_curves st) -> forall u, In u (slices_ecc (hc_base k)) -> In u (inner st).
Proof. intros K u U. unfold inner. apply in_or_app. right. apply in_or_app. left. apply in_flat_map. exists k. split; assumption. Qed.
Lemma inner_sig st k : In k (pst_sigs st) -> forall u, In u (slices_sig k) -> In u (inner st).
Proof. intros K u U. unfold inner. apply in_or_app. right. apply in_or_app. right. apply in_flat_map. exists k. split; assumption. Qed.

(** an assignment to a loose array leaves the keys and signatures as they are *)
Lemma inner_same given st m1 j : wf st -> apart given st -> loose given st j -> (forall u, in_memory (pst_mem st) u -> sl_at u <> j -> content m1 u = content (pst_mem st) u) ->
  map (see_ed m1) (pst_keys st) = map (see_ed (pst_mem st)) (pst_keys st) /\ map (see_sig m1) (pst_sigs st) = map (see_sig (pst_mem st)) (pst_sigs st) /\
  forall c, In c (pst_curves st) -> see_ecc m1 (hc_base c) = see_ecc (pst_mem st) (hc_base c).
Proof.
  intros W [_ F] J O. assert (I := inner_old st W). rewrite Forall_forall in F, I.
  assert (K : forall u, In u (inner st) -> same_content (pst_mem st) m1 u) by (intros u U; apply O; [exact (I u U)|]; intros Q; apply (F u U); rewrite Q; exact J). split; [|split].
  - apply map_ext_in. intros k IK. apply see_ed_same. apply Forall_forall. intros u U. apply K. exact (inner_key st k IK u U).
  - apply map_ext_in. intros k IK. apply see_sig_same. apply Forall_forall. intros u U. apply K. exact (inner_sig st k IK u U).
  - intros k IK. apply see_ecc_same. apply Forall_forall. intros u U. apply K. exact (inner_curve st k IK u U).
Qed.
Lemma v_assign_in m s i n : in_memory m s -> v_assign (content m s) i n = if Nat.ltb i (sl_len s) then Ok (replace_at (content m s) i n) else Panic.
Proof. intros I. unfold v_assign. rewrite content_len by exact I. reflexivity. Qed.

Section Run.
Variable E : Env.
Variable G : nat -> nat -> nat.
Hypothesis sizes : sizes_ok E.

Definition agree_run (given : list nat) (p : p_seen * p_state) (q : p_seen * p_values) : Prop := q = (fst p, see_state (snd p)) /\ wf (snd p) /\ apart given (snd p).
Lemma set_agree given st x i n : wf st -> apart given st -> ~ In x given -> agree_run given (p_step E G (P_set x i n) st) (pv_step E (P_set x i n) (see_state st)).
Proof.
  intros W A NG. unfold p_step, pv_step, p_with. cbn [see_state pv_slices]. rewrite nth_error_map. destruct (nth_error (pst_slices st) x) as [s|] eqn:N; cbn [option_map]; [|repeat (split; [reflexivity || assumption|]); assumption].
  pose proof (wf_slices st W) as F. rewrite Forall_forall in F. destruct (F s (nth_error_In _ _ N)) as [I L]. rewrite (v_assign_in _ _ _ _ I).
  destruct (assign_ok st s i n W I L) as [(B & m1 & -> & W1 & C & O)|(B & ->)]; destruct (Nat.ltb_spec i (sl_len s)) as [B'|B']; try lia; cbn [v_res].
  2:{ rewrite with_same. split; [reflexivity|]. split; assumption. }
  split; [|split; [exact W1|exact (Build_apart given (with_mem m1 st) (apart_own _ _ A) (apart_inner _ _ A))]]. cbn [fst snd]. f_equal.
  assert (LO : loose given st (sl_at s)) by (left; exists x, s; split; [exact N|]; split; [reflexivity|exact NG]). destruct (inner_same given st m1 (sl_at s) W A LO O) as (KK & KS & KC).
  destruct (nodup_app _ _ (apart_own _ _ A)) as (NS & _ & ND). unfold see_state. cbn [pst_mem pst_slices pst_keys pst_curves pst_sigs with_mem pv_keys pv_curves pv_sigs]. rewrite KK, KS.
  assert (KC' : map (see_curve m1) (pst_curves st) = map (see_curve (pst_mem st)) (pst_curves st)).
  { apply map_ext_in. intros c IC. unfold see_curve. rewrite (KC c IC). f_equal. pose proof (wf_curves st W) as FC. rewrite Forall_forall in FC. destruct (FC c IC) as (FI & _). inversion FI; subst.
    apply O; [assumption|]. intros Q. apply (ND (sl_at s)); [apply in_map; exact (nth_error_In _ _ N)|]. rewrite <- Q. apply (in_map (fun c => sl_at (hc_private c))). exact IC. }
  rewrite KC'. f_equal. symmetry. apply (map_replace _ _ _ x s _ N); [symmetry; exact C|]. intros y c Y XY. apply O; [exact (slice_of st _ _ W Y)|]. intros Q. apply XY. exact (nodup_at sl_at (pst_slices st) y x c s NS Y N Q).
Qed.
Lemma set_curve_agree given st x i n : wf st -> apart given st -> agree_run given (p_step E G (P_set_curve_private x i n) st) (pv_step E (P_set_curve_private x i n) (see_state st)).
Proof.
  intros W A. unfold p_step, pv_step, p_with. cbn [see_state pv_curves]. rewrite nth_error_map. destruct (nth_error (pst_curves st) x) as [s|] eqn:N; cbn [option_map]; [|repeat (split; [reflexivity || assumption|]); assumption].
  pose proof (wf_curves st W) as F. rewrite Forall_forall in F. destruct (F s (nth_error_In _ _ N)) as (FI & _ & L). assert (I : in_memory (pst_mem st) (hc_private s)) by (inversion FI; assumption).
  change (cv_private (see_curve (pst_mem st) s)) with (content (pst_mem st) (hc_private s)). rewrite (v_assign_in _ _ _ _ I).
  destruct (assign_ok st (hc_private s) i n W I L) as [(B & m1 & -> & W1 & C & O)|(B & ->)]; destruct (Nat.ltb_spec i (sl_len (hc_private s))) as [B'|B']; try lia; cbn [v_res].
  2:{ rewrite with_same. split; [reflexivity|]. split; assumption. }
  split; [|split; [exact W1|exact (Build_apart given (with_mem m1 st) (apart_own _ _ A) (apart_inner _ _ A))]]. cbn [fst snd]. f_equal.
  assert (LO : loose given st (sl_at (hc_private s))) by (right; exists s; split; [exact (nth_error_In _ _ N)|reflexivity]). destruct (inner_same given st m1 _ W A LO O) as (KK & KS & KC).
  destruct (nodup_app _ _ (apart_own _ _ A)) as (_ & NC & ND). unfold see_state. cbn [pst_mem pst_slices pst_keys pst_curves pst_sigs with_mem pv_slices pv_keys pv_sigs]. rewrite KK, KS.
  assert (KX : map (content m1) (pst_slices st) = map (content (pst_mem st)) (pst_slices st)).
  { apply map_ext_in. intros c IC. pose proof (wf_slices st W) as FS. rewrite Forall_forall in FS. destruct (FS c IC) as [CI _].
    apply O; [assumption|]. intros Q. apply (ND (sl_at c)); [apply in_map; exact IC|]. rewrite Q. apply (in_map (fun c => sl_at (hc_private c))). exact (nth_error_In _ _ N). }
  rewrite KX. f_equal. symmetry. apply (map_replace _ _ _ x s _ N).
  - unfold see_curve. cbn [cv_base cv_expiry cv_kdf]. rewrite (KC s (nth_error_In _ _ N)), C. reflexivity.
  - intros y c Y XY. unfold see_curve. rewrite (KC c (nth_error_In _ _ Y)). f_equal. destruct (F c (nth_error_In _ _ Y)) as (FC & _). inversion FC; subst. apply O; [assumption|].
    intros Q. apply XY. exact (nodup_at (fun c => sl_at (hc_private c)) (pst_curves st) y x c s NC Y N Q).
Qed.
Lemma run_careful calls : forall given st, wf st -> apart given st -> p_careful given calls -> fst (p_run E G calls st) = pv_run E calls (see_state st).
Proof.
  induction calls as [|c calls IH]; intros given st W A P; [reflexivity|]. cbn [p_run pv_run].
  assert (K : exists g', agree_run g' (p_step E G c st) (pv_step E c (see_state st)) /\ p_careful g' calls).
  { destruct (p_assigns c) eqn:AS.
    - destruct c; try discriminate AS; cbn [p_careful] in P; try contradiction; exists given.
      + destruct P as [NI P]. split; [apply set_agree; assumption|exact P].
      + split; [apply set_curve_agree; assumption|exact P].
    - exists (hands c ++ given). destruct (step_agree E G sizes c st W AS) as [Q R]. split; [split; [exact Q|]; split; [exact (wf_grows _ _ _ W R)|exact (apart_grows _ _ _ _ W A R)]|].
      destruct c; try discriminate AS; cbn [p_careful hands app] in *; try exact P. rewrite <- app_assoc. exact P. }
  destruct K as (g' & (Q & W' & A') & P'). rewrite Q. destruct (p_step E G c st) as [o st1]. cbn [fst snd] in *. specialize (IH g' st1 W' A' P').
  destruct o; [| | |reflexivity]; (destruct (p_run E G calls st1) as [l st2]; cbn [fst] in *; rewrite IH; reflexivity).
Qed.

(** ** Every program *)
Lemma assign_wf c st : wf st -> p_assigns c = true -> wf (snd (p_step E G c st)).
Proof.
  intros W A. destruct c; try discriminate A; unfold p_step, p_with.
  - destruct (nth_error (pst_slices st) x) as [s|] eqn:N; [|exact W]. pose proof (wf_slices st W) as F. rewrite Forall_forall in F. destruct (F s (nth_error_In _ _ N)) as [I L].
    destruct (assign_ok st s i v W I L) as [(B & m1 & -> & W1 & _)|(B & ->)]; [exact W1|cbn [snd]; rewrite with_same; exact W].
  - destruct (nth_error (pst_keys st) k) as [s|] eqn:N; [|exact W]. pose proof (wf_keys st W) as F. rewrite Forall_forall in F. destruct (F s (nth_error_In _ _ N)) as (I & _ & L & _).
    destruct (assign_ok st (hd_private s) i v W (ed_private_in _ _ I) L) as [(B & m1 & -> & W1 & _)|(B & ->)]; [exact W1|cbn [snd]; rewrite with_same; exact W].
  - destruct (nth_error (pst_keys st) k) as [s|] eqn:N; [|exact W]. pose proof (wf_keys st W) as F. rewrite Forall_forall in F. destruct (F s (nth_error_In _ _ N)) as (I & _ & _ & L).
    destruct (assign_ok st (he_public (hd_base s)) i v W (proj1 (proj2 (ecc_in _ _ (ed_base_in _ _ I)))) L) as [(B & m1 & -> & W1 & _)|(B & ->)]; [exact W1|cbn [snd]; rewrite with_same; exact W].
  - destruct (nth_error (pst_curves st) c) as [s|] eqn:N; [|exact W]. pose proof (wf_curves st W) as F. rewrite Forall_forall in F. destruct (F s (nth_error_In _ _ N)) as (I & _ & L).
    assert (IP : in_memory (pst_mem st) (hc_private s)) by (inversion I; assumption).
    destruct (assign_ok st (hc_private s) i v W IP L) as [(B & m1 & -> & W1 & _)|(B & ->)]; [exact W1|cbn [snd]; rewrite with_same; exact W].
Qed.
Lemma step_wf c st : wf st -> wf (snd (p_step E G c st)).
Proof. intros W. destruct (p_assigns c) eqn:A; [apply assign_wf; assumption|]. exact (wf_grows _ _ _ W (proj2 (step_agree E G sizes c st W A))). Qed.
Lemma run_wf calls : forall st, wf st -> wf (snd (p_run E G calls st)).
Proof.
  induction calls as [|c calls IH]; intros st W; [exact W|]. cbn [p_run]. pose proof (step_wf c st W) as S. destruct (p_step E G c st) as [o st1]. cbn [snd] in S. specialize (IH st1 S).
  destruct o; try (destruct (p_run E G calls st1); exact IH). exact S.
Qed.
(** no assignment moves a slice *)
Lemma assign_shape c st : p_assigns c = true -> exists m1, snd (p_step E G c st) = with_mem m1 st.
Proof.
  intros A. destruct c; try discriminate A; unfold p_step, p_with;
  match goal with |- context [nth_error ?l ?n] => destruct (nth_error l n) as [s|]; [|exists (pst_mem st); symmetry; apply with_same] end;
  unfold p_do; match goal with |- context [s_run (s_set ?a ?b ?d) ?e] => destruct (s_run (s_set a b d) e) as [[[]|e0|] [m1 t1]] end; exists m1; reflexivity.
Qed.
Lemma run_apart calls : forall given st, wf st -> apart given st -> keys_apart st ->
  exists given', apart given' (snd (p_run E G calls st)) /\ keys_apart (snd (p_run E G calls st)) /\ forall x, In x given' -> In x given \/ exists c, In c calls /\ In x (hands c).
Proof.
  induction calls as [|c calls IH]; intros given st W A K; [exists given; split; [exact A|]; split; [exact K|auto]|]. cbn [p_run].
  assert (S : wf (snd (p_step E G c st)) /\ apart (hands c ++ given) (snd (p_step E G c st)) /\ keys_apart (snd (p_step E G c st))).
  { split; [apply step_wf; exact W|]. destruct (p_assigns c) eqn:AS.
    - destruct (assign_shape c st AS) as [m1 ->]. assert (hands c = []) as -> by (destruct c; try discriminate AS; reflexivity).
      split; [exact (Build_apart given (with_mem m1 st) (apart_own _ _ A) (apart_inner _ _ A))|exact K].
    - pose proof (proj2 (step_agree E G sizes c st W AS)) as R. split; [exact (apart_grows _ _ _ _ W A R)|exact (keys_grows _ _ _ W K R)]. }
  destruct (p_step E G c st) as [o st1]. cbn [snd] in S. destruct S as (W1 & A1 & K1).
  assert (E1 : forall x, In x (hands c ++ given) -> In x given \/ exists d, In d (c :: calls) /\ In x (hands d)).
  { intros x X. apply in_app_or in X. destruct X as [X|X]; [right; exists c; split; [left; reflexivity|exact X]|left; exact X]. }
  destruct (IH _ st1 W1 A1 K1) as (g & AG & KG & SG). destruct o; try (exists g; destruct (p_run E G calls st1) as [l st2]; cbn [snd] in *; split; [exact AG|]; split; [exact KG|];
    intros x X; destruct (SG x X) as [Y|(d & D & Y)]; [exact (E1 x Y)|right; exists d; split; [right; exact D|exact Y]]).
  exists (hands c ++ given). split; [exact A1|]. split; [exact K1|exact E1].
Qed.
End Run.
