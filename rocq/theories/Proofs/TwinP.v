(** The functions of SliceHeap.v do not depend on where arrays lie, read only slices they were given or made, and write
    only to arrays they made: two runs of the same code, with arrays at different places, stay in step whatever they
    read. *)
From Coq Require Import Lia ZifyBool ZifyNat.
From Verif.Model Require Import GoBase Env GoTime Seed Encoding PgpWire PgpS2k PgpKeys SliceHeap SliceThreads.
From Verif.Spec Require Import ThreadSpec.
From Verif.Proofs Require Import SliceP.

Section Twins.
(** Arrays below [n0] were there before and are at the same place in both runs; the array made as number [j] is number
    [n0 + j] in the second run and where the list [r] says in the first. *)
Variable n0 : nat.
Definition at_ (r : list nat) (a a' : nat) : Prop :=
  (a < n0 /\ a' = a)%nat \/ exists j, a' = (n0 + j)%nat /\ nth_error r j = Some a.
Record tw (r : list nat) (s s' : slice) : Prop := {
  tw_at : at_ r (sl_at s) (sl_at s'); tw_off : sl_off s' = sl_off s; tw_len : sl_len s' = sl_len s; tw_cap : sl_cap s' = sl_cap s
}.
(** a slice of an array that was made meanwhile *)
Record tw_own (r : list nat) (s s' : slice) : Prop := { own_tw : tw r s s'; own_at : (n0 <= sl_at s')%nat }.

Definition grows (r r2 : list nat) : Prop := exists l, r2 = r ++ l.
Lemma grows_refl r : grows r r. Proof. exists []. rewrite app_nil_r. reflexivity. Qed.
Lemma grows_trans a b c : grows a b -> grows b c -> grows a c.
Proof. intros [l ->] [l' ->]. exists (l ++ l'). symmetry. apply app_assoc. Qed.
Lemma at_grows r r2 a a' : grows r r2 -> at_ r a a' -> at_ r2 a a'.
Proof. intros [l ->] [H|(j & J & N)]; [left; exact H|right]. exists j. split; [exact J|]. rewrite nth_error_app1; [exact N|]. apply nth_error_Some. congruence. Qed.
Lemma tw_grows r r2 s s' : grows r r2 -> tw r s s' -> tw r2 s s'.
Proof. intros X [A B C D]. split; auto. exact (at_grows _ _ _ _ X A). Qed.
Lemma tw_own_grows r r2 s s' : grows r r2 -> tw_own r s s' -> tw_own r2 s s'.
Proof. intros X [A B]. split; [exact (tw_grows _ _ _ _ X A)|exact B]. Qed.

Inductive tws {A} (R : list nat -> A -> A -> Prop) : list nat -> sm A -> sm A -> Prop :=
| T_ok r a a' : R r a a' -> tws R r (S_done (Ok a)) (S_done (Ok a'))
| T_err r e : tws R r (S_done (Err e)) (S_done (Err e))
| T_panic r : tws R r (S_done Panic) (S_done Panic)
| T_read r s s' k k' : tw r s s' -> (forall b, tws R r (k b) (k' b)) -> tws R r (S_read s k) (S_read s' k')
| T_new r b room k k' :
    (forall g, tws R (r ++ [g]) (k (mk_slice g 0 (length b) (length b + room))) (k' (mk_slice (n0 + length r) 0 (length b) (length b + room)))) ->
    tws R r (S_new b room k) (S_new b room k')
| T_put r s s' i b k k' : tw_own r s s' -> tws R r k k' -> tws R r (S_put s i b k) (S_put s' i b k')
| T_take r n k k' : (forall x, tws R r (k x) (k' x)) -> tws R r (S_take n k) (S_take n k').

Lemma tws_bind {A B} (R : list nat -> A -> A -> Prop) (Q : list nat -> B -> B -> Prop) r f f' (g g' : A -> sm B) :
  tws R r f f' -> (forall r2 a a', grows r r2 -> R r2 a a' -> tws Q r2 (g a) (g' a')) -> tws Q r (s_bind f g) (s_bind f' g').
Proof.
  induction 1 as [r a a' H|r e|r|r s s' k k' T H IH|r b room k k' H IH|r s s' i b k k' T H IH|r n k k' H IH]; intros N; cbn [s_bind].
  - apply N; [apply grows_refl|exact H].
  - constructor.
  - constructor.
  - constructor; [exact T|]. intros b. apply IH. exact N.
  - constructor. intros g0. apply IH. intros r2 a a' X. apply N. apply (grows_trans _ (r ++ [g0])); [exists [g0]; reflexivity|exact X].
  - constructor; [exact T|]. apply IH. exact N.
  - constructor. intros x. apply IH. exact N.
Qed.
Lemma tws_weaken {A} (R Q : list nat -> A -> A -> Prop) r f f' : tws R r f f' -> (forall r2 a a', R r2 a a' -> Q r2 a a') -> tws Q r f f'.
Proof. induction 1; intros N; constructor; auto. Qed.
Lemma read_bind {B} (Q : list nat -> B -> B -> Prop) r s s' (g g' : bytes -> sm B) :
  tw r s s' -> (forall b, tws Q r (g b) (g' b)) -> tws Q r (s_bind (s_read s) g) (s_bind (s_read s') g').
Proof. intros T H. cbn. constructor; assumption. Qed.
Lemma lift_tws {A} (R : list nat -> A -> A -> Prop) r (x x' : res A) :
  match x, x' with Ok a, Ok a' => R r a a' | Err e, Err e' => e = e' | Panic, Panic => True | _, _ => False end -> tws R r (s_lift x) (s_lift x').
Proof. destruct x, x'; intros H; try contradiction; try subst; unfold s_lift; constructor. exact H. Qed.
Lemma ret_tws {A} (R : list nat -> A -> A -> Prop) r (a a' : A) : R r a a' -> tws R r (s_ret a) (s_ret a').
Proof. intros H. constructor. exact H. Qed.
Lemma panic_tws {A} (R : list nat -> A -> A -> Prop) r : tws R r (s_lift (@Panic A)) (s_lift Panic).
Proof. constructor. Qed.

Lemma new_tws b room r : tws tw_own r (s_new b room) (s_new b room).
Proof.
  constructor. intros g. constructor. split; [split; try reflexivity|cbn; lia]. cbn [sl_at]. right. exists (length r). split; [reflexivity|].
  rewrite nth_error_app2, Nat.sub_diag by lia. reflexivity.
Qed.
Lemma put_tws s s' i b r : tw_own r s s' -> tws (fun _ _ _ => True) r (s_put s i b) (s_put s' i b).
Proof. intros T. constructor; [exact T|]. constructor. exact I. Qed.
Lemma set_tws s s' i v r : tw_own r s s' -> tws (fun _ _ _ => True) r (s_set s i v) (s_set s' i v).
Proof. intros T. unfold s_set. rewrite (tw_len _ _ _ (own_tw _ _ _ T)). destruct (Nat.ltb _ _); [apply put_tws; exact T|constructor]. Qed.
Lemma copy_tws s s' i b r : tw_own r s s' -> tws (fun _ _ _ => True) r (s_copy s i b) (s_copy s' i b).
Proof. intros T. unfold s_copy. rewrite (tw_len _ _ _ (own_tw _ _ _ T)). destruct (Nat.ltb _ _); [constructor|apply put_tws; exact T]. Qed.
Lemma put_uint_tws s s' b r : tw_own r s s' -> tws (fun _ _ _ => True) r (s_put_uint s b) (s_put_uint s' b).
Proof. intros T. unfold s_put_uint. rewrite (tw_len _ _ _ (own_tw _ _ _ T)). destruct (Nat.ltb _ _); [constructor|apply put_tws; exact T]. Qed.
Lemma cut_tws s s' i j r : tw r s s' -> tws tw r (s_cut s i j) (s_cut s' i j).
Proof.
  intros T. unfold s_cut. rewrite (tw_cap _ _ _ T). destruct (_ && _)%bool; [|constructor]. constructor. rewrite (tw_off _ _ _ T). split; cbn; try reflexivity. exact (tw_at _ _ _ T).
Qed.
Lemma cut_own_tws s s' i j r : tw_own r s s' -> tws tw_own r (s_cut s i j) (s_cut s' i j).
Proof.
  intros [T N]. unfold s_cut. rewrite (tw_cap _ _ _ T). destruct (_ && _)%bool; [|constructor]. constructor. rewrite (tw_off _ _ _ T). split; [split; cbn; try reflexivity; exact (tw_at _ _ _ T)|exact N].
Qed.

(** ** the structures *)
Definition tw_sub (r : list nat) (s s' : h_sub) : Prop := hb_type s' = hb_type s /\ tw r (hb_body s) (hb_body s').
Definition tw_subs (r : list nat) (l l' : list h_sub) : Prop := Forall2 (tw_sub r) l l'.
Record tw_sig (r : list nat) (s s' : h_sig) : Prop := {
  tg_hashed : tw_subs r (hg_hashed s) (hg_hashed s'); tg_unhashed : tw_subs r (hg_unhashed s) (hg_unhashed s');
  tg_type : hg_type s' = hg_type s; tg_hash : hg_hash s' = hg_hash s; tg_digest : tw r (hg_digest s) (hg_digest s');
  tg_r : hg_r s' = hg_r s; tg_s : hg_s s' = hg_s s
}.
Record tw_request (r : list nat) (q q' : h_request) : Prop := {
  tq_fingerprint : tw r (hr_fingerprint q) (hr_fingerprint q'); tq_hash : hr_hash q' = hr_hash q; tq_data : tw r (hr_data q) (hr_data q');
  tq_type : hr_type q' = hr_type q; tq_hashed : tw_subs r (hr_hashed q) (hr_hashed q'); tq_unhashed : tw_subs r (hr_unhashed q) (hr_unhashed q');
  tq_time : hr_time q' = hr_time q
}.
Definition tw_maybe {A} (R : list nat -> A -> A -> Prop) (r : list nat) (a a' : option A) : Prop :=
  match a, a' with Some a, Some a' => R r a a' | None, None => True | _, _ => False end.
Record tw_ecc (r : list nat) (k k' : h_ecc) : Prop := {
  te_private : tw r (he_private k) (he_private k'); te_public : tw r (he_public k) (he_public k');
  te_signing : tw_maybe tw r (he_signing k) (he_signing k'); te_creation : he_creation k' = he_creation k; te_alg : he_alg k' = he_alg k;
  te_oid : tw r (he_oid k) (he_oid k'); te_extra : tw r (he_extra k) (he_extra k')
}.
Record tw_ed (r : list nat) (k k' : h_ed) : Prop := {
  td_base : tw_ecc r (hd_base k) (hd_base k'); td_private : tw r (hd_private k) (hd_private k'); td_expiry : hd_expiry k' = hd_expiry k
}.
Record tw_curve (r : list nat) (k k' : h_curve) : Prop := {
  tc_base : tw_ecc r (hc_base k) (hc_base k'); tc_private : tw r (hc_private k) (hc_private k'); tc_expiry : hc_expiry k' = hc_expiry k; tc_kdf : hc_kdf k' = hc_kdf k
}.
Record tw_set (r : list nat) (k k' : h_set) : Prop := {
  ts_uid : hk_uid k' = hk_uid k; ts_master : tw_ed r (hk_master k) (hk_master k'); ts_enc : tw_maybe tw_curve r (hk_enc k) (hk_enc k');
  ts_auth : tw_maybe tw_ed r (hk_auth k) (hk_auth k'); ts_sign : tw_maybe tw_ed r (hk_sign k) (hk_sign k')
}.
Lemma subs_grows r r2 l l' : grows r r2 -> tw_subs r l l' -> tw_subs r2 l l'.
Proof. intros X H. induction H as [|s s' l l' [T B] H IH]; constructor; [|exact IH]. split; [exact T|exact (tw_grows _ _ _ _ X B)]. Qed.
Lemma maybe_grows {A} (R : list nat -> A -> A -> Prop) r r2 a a' : (forall x y, R r x y -> R r2 x y) -> tw_maybe R r a a' -> tw_maybe R r2 a a'.
Proof. intros H. destruct a, a'; cbn; auto. Qed.
Lemma ecc_grows r r2 k k' : grows r r2 -> tw_ecc r k k' -> tw_ecc r2 k k'.
Proof. intros X [A B C D F H I]. split; try assumption; try (eapply tw_grows; eassumption). eapply maybe_grows; [|exact C]. intros x y. apply tw_grows. exact X. Qed.
Lemma ed_grows r r2 k k' : grows r r2 -> tw_ed r k k' -> tw_ed r2 k k'.
Proof. intros X [A B C]. split; [exact (ecc_grows _ _ _ _ X A)|exact (tw_grows _ _ _ _ X B)|exact C]. Qed.
Lemma curve_grows r r2 k k' : grows r r2 -> tw_curve r k k' -> tw_curve r2 k k'.
Proof. intros X [A B C D]. split; [exact (ecc_grows _ _ _ _ X A)|exact (tw_grows _ _ _ _ X B)|exact C|exact D]. Qed.
Lemma sig_grows r r2 k k' : grows r r2 -> tw_sig r k k' -> tw_sig r2 k k'.
Proof. intros X [A B C D F H I]. split; try assumption; [exact (subs_grows _ _ _ _ X A)|exact (subs_grows _ _ _ _ X B)|exact (tw_grows _ _ _ _ X F)]. Qed.
Lemma set_grows r r2 k k' : grows r r2 -> tw_set r k k' -> tw_set r2 k k'.
Proof.
  intros X [A B C D F]. split; [exact A|exact (ed_grows _ _ _ _ X B)| | |]; (eapply maybe_grows; [|eassumption]); intros x y; first [apply ed_grows; exact X|apply curve_grows; exact X].
Qed.
End Twins.

Ltac grow X := lazymatch type of X with grows ?a ?b =>
  repeat match goal with
  | H : tw ?n a _ _ |- _ => apply (tw_grows n a b _ _ X) in H
  | H : tw_own ?n a _ _ |- _ => apply (tw_own_grows n a b _ _ X) in H
  | H : tw_subs ?n a _ _ |- _ => apply (subs_grows n a b _ _ X) in H
  | H : tw_ecc ?n a _ _ |- _ => apply (ecc_grows n a b _ _ X) in H
  | H : tw_ed ?n a _ _ |- _ => apply (ed_grows n a b _ _ X) in H
  | H : tw_curve ?n a _ _ |- _ => apply (curve_grows n a b _ _ X) in H
  | H : tw_sig ?n a _ _ |- _ => apply (sig_grows n a b _ _ X) in H
  | H : tw_set ?n a _ _ |- _ => apply (set_grows n a b _ _ X) in H
  end; clear X end.
Create HintDb twins.
#[export] Hint Resolve own_tw new_tws put_tws set_tws copy_tws put_uint_tws ret_tws panic_tws td_base td_private tc_base tc_private te_private te_public te_oid te_extra tg_digest tg_hashed tg_unhashed
  tq_fingerprint tq_data tq_hashed tq_unhashed ts_master : twins.
(** the numbers in twins are the same *)
Ltac same := repeat match goal with
  | H : tw _ _ ?s ?s' |- context [sl_len ?s'] => rewrite (tw_len _ _ _ _ H)
  | H : tw_own _ _ ?s ?s' |- context [sl_len ?s'] => rewrite (tw_len _ _ _ _ (own_tw _ _ _ _ H))
  | H : tw _ _ ?s ?s' |- context [sl_cap ?s'] => rewrite (tw_cap _ _ _ _ H)
  | H : tw_own _ _ ?s ?s' |- context [sl_cap ?s'] => rewrite (tw_cap _ _ _ _ (own_tw _ _ _ _ H))
  | H : tw_own _ _ ?s ?s' |- context [sl_off ?s'] => rewrite (tw_off _ _ _ _ (own_tw _ _ _ _ H))
  end.
Ltac known := eauto 4 with twins.
Ltac walk :=
  same;
  lazymatch goal with
  | |- tws _ _ _ (s_bind (s_read _) _) (s_bind (s_read _) _) => try (apply read_bind; [solve [known]|let b := fresh "b" in intros b; walk])
  | |- tws _ _ _ (s_bind ?f _) (s_bind _ _) =>
      try (eapply tws_bind; [solve [known]|let r := fresh "r" in let a := fresh "a" in let a' := fresh "a'" in let X := fresh "X" in let H := fresh "H" in
        intros r a a' X H; grow X; try (lazymatch type of H with True => clear H; destruct a, a' end); walk])
  | |- _ => try solve [known]
  end.

Section Code.
Variable n0 : nat.
Hypothesis n0_package : (3 <= n0)%nat.
Variable E : Env.
Variable G : nat -> nat -> nat.

Lemma lit_tws b r : tws n0 (tw_own n0) r (s_lit b) (s_lit b). Proof. apply new_tws. Qed.
Lemma make_tws n r : tws n0 (tw_own n0) r (s_make n) (s_make n). Proof. apply new_tws. Qed.
Lemma fresh_tws b r : tws n0 (tw_own n0) r (s_fresh G b) (s_fresh G b). Proof. apply new_tws. Qed.
Hint Resolve lit_tws make_tws fresh_tws : twins.
Lemma append_tws s s' b r : tw_own n0 r s s' -> tws n0 (tw_own n0) r (s_append G s b) (s_append G s' b).
Proof.
  intros T. unfold s_append. same. destruct (Nat.leb _ _).
  - eapply tws_bind; [known|]. intros r2 a a' X _. grow X. apply ret_tws. destruct T as [[A B C D] N]. split; [split; cbn; auto|exact N].
  - apply read_bind; [known|]. intros old. apply new_tws.
Qed.
Hint Resolve append_tws : twins.

Lemma packet_length_tws size r : tws n0 (tw_own n0) r (h_packet_length size) (h_packet_length size).
Proof.
  unfold h_packet_length. destruct (size <=? 191); [known|]. destruct (size <=? 8383); [known|].
  eapply tws_bind; [known|]. intros r1 s s' X T. grow X. eapply tws_bind; [apply cut_own_tws; exact T|]. intros r2 a a' X H. grow X. walk.
Qed.
Hint Resolve packet_length_tws : twins.
Lemma encode_packet_tws tag p p' r : tw n0 r p p' -> tws n0 (tw_own n0) r (h_encode_packet tag p) (h_encode_packet tag p').
Proof. intros T. unfold h_encode_packet. walk. Qed.
Hint Resolve encode_packet_tws : twins.
Lemma encode_mpi_tws n r : tws n0 (tw_own n0) r (h_encode_mpi n) (h_encode_mpi n).
Proof. unfold h_encode_mpi. walk. Qed.
Hint Resolve encode_mpi_tws : twins.
Lemma checksum_tws s s' r : tw n0 r s s' -> tws n0 (tw_own n0) r (h_checksum_mpi s) (h_checksum_mpi s').
Proof. intros T. unfold h_checksum_mpi. walk. Qed.
Hint Resolve checksum_tws : twins.
Lemma uid_tws u r : tws n0 (tw_own n0) r (h_uid_encode G u) (h_uid_encode G u). Proof. apply fresh_tws. Qed.
Hint Resolve uid_tws : twins.
Lemma uid_packet_tws u r : tws n0 (tw_own n0) r (h_uid_packet G u) (h_uid_packet G u).
Proof. unfold h_uid_packet. walk. Qed.
Lemma kdf_tws k r : tws n0 (tw_own n0) r (h_kdf_encode k) (h_kdf_encode k). Proof. apply lit_tws. Qed.
Hint Resolve uid_packet_tws kdf_tws : twins.

Lemma sub_tws s s' r : tw_sub n0 r s s' -> tws n0 (tw_own n0) r (h_sub_encode G s) (h_sub_encode G s').
Proof. intros [T B]. unfold h_sub_encode. rewrite T. walk. Qed.
Lemma sub_grows r r2 s s' : grows r r2 -> tw_sub n0 r s s' -> tw_sub n0 r2 s s'.
Proof. intros X [T B]. split; [exact T|exact (tw_grows n0 _ _ _ _ X B)]. Qed.
Lemma sub_loop_tws l l' : forall r s s', tw_subs n0 r l l' -> tw_own n0 r s s' -> tws n0 (tw_own n0) r (h_sub_loop G s l) (h_sub_loop G s' l').
Proof.
  revert l'. induction l as [|x l IH]; intros l' r s s' L T; inversion L as [|? y ? m XY LM]; subst; cbn [h_sub_loop]; [known|].
  eapply tws_bind; [apply sub_tws; exact XY|]. intros r1 e e' X H. apply (subs_grows n0 r r1) in LM; [|exact X]. grow X. apply read_bind; [known|]. intros b. eapply tws_bind; [known|].
  intros r2 a a' X K. apply IH; [exact (subs_grows n0 _ _ _ _ X LM)|exact K].
Qed.
Lemma subpackets_tws l l' r : tw_subs n0 r l l' -> tws n0 (tw_own n0) r (h_encode_subpackets G l) (h_encode_subpackets G l').
Proof.
  intros L. unfold h_encode_subpackets. eapply tws_bind; [known|]. intros r1 s s' X T. grow X. eapply tws_bind; [apply sub_loop_tws; eassumption|]. intros r2 a a' X H. grow X. walk.
Qed.
Hint Resolve subpackets_tws : twins.
Lemma preimage_tws type hash l l' r : tw_subs n0 r l l' -> tws n0 (tw_own n0) r (h_sig_preimage G type hash l) (h_sig_preimage G type hash l').
Proof. intros L. unfold h_sig_preimage. walk. Qed.
Hint Resolve preimage_tws cut_tws : twins.
Lemma sig_encode_tws s s' r : tw_sig n0 r s s' -> tws n0 (tw_own n0) r (h_sig_encode G s) (h_sig_encode G s').
Proof. intros T. unfold h_sig_encode. rewrite (tg_type _ _ _ _ T), (tg_hash _ _ _ _ T), (tg_r _ _ _ _ T), (tg_s _ _ _ _ T). walk. Qed.
Hint Resolve sig_encode_tws : twins.
Lemma sig_packet_tws s s' r : tw_sig n0 r s s' -> tws n0 (tw_own n0) r (h_sig_packet G s) (h_sig_packet G s').
Proof. intros T. unfold h_sig_packet. walk. Qed.
Hint Resolve sig_packet_tws : twins.

Lemma string_to_key_tws hash pw pw' salt salt' count r : tw n0 r pw pw' -> tw_own n0 r salt salt' ->
  tws n0 (tw_own n0) r (h_string_to_key E G hash pw salt count) (h_string_to_key E G hash pw' salt' count).
Proof.
  intros P S. unfold h_string_to_key. apply read_bind; [known|]. intros b. eapply tws_bind; [known|]. intros r1 a a' X H. grow X.
  destruct (hash_new E hash) as [h|]; [|known]. same. destruct (_ =? 0); [known|]. apply read_bind; [known|]. intros all. eapply tws_bind; [apply cut_own_tws; exact H|]. intros r2 c c' X K. grow X. walk.
Qed.
Hint Resolve string_to_key_tws : twins.
Lemma random_tws s s' r : tw_own n0 r s s' -> tws n0 (fun _ _ _ => True) r (s_random s) (s_random s').
Proof. intros T. unfold s_random. same. constructor. intros [b|e|]; [apply put_tws; exact T|constructor|constructor]. Qed.
Hint Resolve random_tws : twins.
Lemma lift_same {A} (x : res A) r : tws n0 (fun _ (a a' : A) => a = a') r (s_lift x) (s_lift x).
Proof. apply lift_tws. destruct x; auto. Qed.
Lemma encrypt_s2k_tws hash p p' pw pw' r : tw n0 r p p' -> tw n0 r pw pw' ->
  tws n0 (tw_own n0) r (h_encrypt_s2k E G hash p pw) (h_encrypt_s2k E G hash p' pw').
Proof.
  intros P Q. unfold h_encrypt_s2k. walk. destruct (negb _); [constructor|]. walk. eapply tws_bind; [apply lift_same|]. cbn beta. intros r9 c c' X ->. grow X. walk.
Qed.
Hint Resolve encrypt_s2k_tws : twins.

Lemma sign_tws private private' q q' r : tw n0 r private private' -> tw_request n0 r q q' ->
  tws n0 (tw_sig n0) r (h_sign E G private q) (h_sign E G private' q').
Proof.
  intros P [F H D T HS US TM]. unfold h_sign. rewrite H, T, TM.
  eapply tws_bind; [known|]. intros r1 stamp stamp' X S. grow X. eapply tws_bind; [known|]. intros r2 [] [] X _. grow X.
  eapply tws_bind; [known|]. intros r3 version version' X V. grow X. apply read_bind; [known|]. intros fp. eapply tws_bind; [known|]. intros r4 issuer issuer' X I. grow X.
  same. cbn zeta. apply tws_bind with (R := tw n0).
  { destruct (Nat.ltb _ _); [known|]. apply cut_tws. exact F. }
  intros r5 id id' X ID. grow X.
  assert (HASHED : tw_subs n0 r5 ([mk_hsub sub_issuer_fingerprint issuer; mk_hsub sub_creation_time stamp] ++ hr_hashed q)
                                 ([mk_hsub sub_issuer_fingerprint issuer'; mk_hsub sub_creation_time stamp'] ++ hr_hashed q')).
  { constructor; [split; [reflexivity|exact (own_tw _ _ _ _ I)]|]. constructor; [split; [reflexivity|exact (own_tw _ _ _ _ S)]|]. exact HS. }
  assert (UNHASHED : tw_subs n0 r5 ([mk_hsub sub_issuer id] ++ hr_unhashed q) ([mk_hsub sub_issuer id'] ++ hr_unhashed q')).
  { constructor; [split; [reflexivity|exact ID]|]. exact US. }
  set (hs := [_; _] ++ hr_hashed q) in *. set (hs' := [_; _] ++ hr_hashed q') in *. set (us := [_] ++ hr_unhashed q) in *. set (us' := [_] ++ hr_unhashed q') in *.
  destruct (hash_new E (hr_hash q)) as [h|]; [|known]. apply read_bind; [known|]. intros data. eapply tws_bind; [known|]. intros r6 pre pre' X PR. grow X. apply read_bind; [known|]. intros p.
  assert (TR : tw n0 r6 var_trailer var_trailer). { split; try reflexivity. left. cbn. lia. }
  apply read_bind; [exact TR|]. intros tr. eapply tws_bind; [known|]. intros r7 dg dg' X DG. grow X. apply read_bind; [known|]. intros d. same. destruct (negb _); [known|]. apply read_bind; [known|]. intros k.
  apply ret_tws. split; cbn; auto. exact (own_tw _ _ _ _ DG).
Qed.
Hint Resolve sign_tws : twins.

Lemma encode_public_tws k k' r : tw_ecc n0 r k k' -> tws n0 (tw_own n0) r (h_encode_public G k) (h_encode_public G k').
Proof. intros K. unfold h_encode_public. rewrite (te_creation _ _ _ _ K), (te_alg _ _ _ _ K). assert (O := te_oid _ _ _ _ K). same. clear O. walk. Qed.
Hint Resolve encode_public_tws : twins.
Lemma encode_private_tws k k' pw pw' r : tw_ecc n0 r k k' -> tw n0 r pw pw' ->
  tws n0 (tw_own n0) r (h_encode_private E G k pw) (h_encode_private E G k' pw').
Proof. intros K P. unfold h_encode_private. walk. destruct (_ >? 0); walk. Qed.
Lemma dummy_tws k k' r : tw_ecc n0 r k k' -> tws n0 (tw_own n0) r (h_encode_private_dummy G k) (h_encode_private_dummy G k').
Proof. intros K. unfold h_encode_private_dummy. walk. Qed.
Lemma fingerprint_tws k k' r : tw_ecc n0 r k k' -> tws n0 (tw_own n0) r (h_fingerprint_v4 E G k) (h_fingerprint_v4 E G k').
Proof. intros K. unfold h_fingerprint_v4. walk. Qed.
Hint Resolve encode_private_tws dummy_tws fingerprint_tws : twins.
Lemma reverse_tws s s' r : tw n0 r s s' -> tws n0 (tw_own n0) r (h_reverse s) (h_reverse s').
Proof. intros T. unfold h_reverse. walk. Qed.
Hint Resolve reverse_tws : twins.

(** keys that were made meanwhile *)
Record own_ed (r : list nat) (k k' : h_ed) : Prop := {
  oe_tw : tw_ed n0 r k k'; oe_private : tw_own n0 r (hd_private k) (hd_private k'); oe_public : tw_own n0 r (he_public (hd_base k)) (he_public (hd_base k'))
}.
Record own_curve (r : list nat) (k k' : h_curve) : Prop := { oc_tw : tw_curve n0 r k k'; oc_private : tw_own n0 r (hc_private k) (hc_private k') }.
Lemma package_tw r i b : (i < 3)%nat -> tw n0 r (global i b) (global i b).
Proof. intros L. split; try reflexivity. left. cbn. lia. Qed.
Lemma nil_tw r : tw n0 r s_nil s_nil.
Proof. split; try reflexivity. left. cbn. lia. Qed.
Lemma new_ed_tws s s' cr ex r : tw n0 r s s' -> tws n0 own_ed r (h_new_ed_key E s cr ex) (h_new_ed_key E s' cr ex).
Proof.
  intros T. unfold h_new_ed_key. same. destruct (negb _); [constructor|]. apply read_bind; [known|]. intros b. eapply tws_bind; [known|]. intros r1 p p' X P. grow X.
  eapply tws_bind; [known|]. intros r2 q q' X Q. grow X. eapply tws_bind; [apply cut_own_tws; exact P|]. intros r3 c c' X C. grow X.
  apply ret_tws. split; [|exact P|exact Q]. split; [|exact (own_tw _ _ _ _ P)|reflexivity]. split; cbn; try reflexivity; try (apply own_tw; assumption).
  - apply package_tw. lia.
  - apply nil_tw.
Qed.
Lemma new_curve_tws s s' cr ex kdf r : tw n0 r s s' -> tws n0 own_curve r (h_new_curve_key E G s cr ex kdf) (h_new_curve_key E G s' cr ex kdf).
Proof.
  intros T. unfold h_new_curve_key. same. destruct (negb _); [constructor|]. eapply tws_bind; [known|]. intros r1 e e' X M. grow X. apply read_bind; [known|]. intros b.
  eapply tws_bind; [known|]. intros r2 p p' X P. grow X. clear M. apply read_bind; [known|]. intros b1. eapply tws_bind; [known|]. intros r3 [] [] X _. grow X.
  apply read_bind; [known|]. intros b2. eapply tws_bind; [known|]. intros r4 [] [] X _. grow X. apply read_bind; [known|]. intros b3. eapply tws_bind; [known|]. intros r5 [] [] X _. grow X.
  apply read_bind; [known|]. intros b4. eapply tws_bind; [known|]. intros r6 q q' X Q. grow X. cbn zeta. eapply tws_bind; [known|]. intros r7 c c' X C. grow X. eapply tws_bind; [known|]. intros r8 x x' X K. grow X.
  apply ret_tws. split; [|exact P]. split; cbn; try reflexivity; [|exact (own_tw _ _ _ _ P)]. split; cbn; try reflexivity; try exact I; try (apply own_tw; assumption). apply package_tw. lia.
Qed.

Lemma expiry_tws cr ex r : tws n0 (tw_subs n0) r (h_expiry E cr ex) (h_expiry E cr ex).
Proof.
  unfold h_expiry. destruct (is_zero_time ex); [apply ret_tws; constructor|]. eapply tws_bind; [known|]. intros r1 t t' X T. grow X. eapply tws_bind; [known|]. intros r2 [] [] X _. grow X.
  apply ret_tws. constructor; [split; [reflexivity|exact (own_tw _ _ _ _ T)]|constructor].
Qed.
Hint Resolve expiry_tws : twins.
Lemma sub_one r t s s' l l' : tw_own n0 r s s' -> tw_subs n0 r l l' -> tw_subs n0 r (mk_hsub t s :: l) (mk_hsub t s' :: l').
Proof. intros S L. constructor; [split; [reflexivity|exact (own_tw _ _ _ _ S)]|exact L]. Qed.
Lemma subs_app r l l' k k' : tw_subs n0 r l l' -> tw_subs n0 r k k' -> tw_subs n0 r (l ++ k) (l' ++ k').
Proof. apply Forall2_app. Qed.
Lemma self_certify_tws m m' u r : tw_ed n0 r m m' -> tws n0 (tw_sig n0) r (h_self_certify E G m u) (h_self_certify E G m' u).
Proof.
  intros M. unfold h_self_certify. rewrite (td_expiry _ _ _ _ M), (te_creation _ _ _ _ (td_base _ _ _ _ M)). walk.
  apply sign_tws; [known|]. split; cbn; try reflexivity; try (apply own_tw; assumption); [|constructor].
  apply sub_one; [assumption|]. apply subs_app; [assumption|]. repeat (apply sub_one; [assumption|]). constructor.
Qed.
Hint Resolve self_certify_tws : twins.
Lemma bind_subkey_tws m m' k k' flags ex r : tw_ed n0 r m m' -> tw_ecc n0 r k k' -> tws n0 (tw_sig n0) r (h_bind_subkey E G m k flags ex) (h_bind_subkey E G m' k' flags ex).
Proof.
  intros M K. unfold h_bind_subkey. rewrite (te_creation _ _ _ _ K). eapply tws_bind; [known|]. intros r1 p p' X P. grow X. eapply tws_bind; [known|]. intros r2 q q' X Q. grow X.
  apply read_bind; [known|]. intros pb. apply read_bind; [known|]. intros qb. eapply tws_bind; [known|]. intros r3 f f' X F. grow X. eapply tws_bind; [known|]. intros r4 x x' X EX. grow X.
  eapply tws_bind; [known|]. intros r5 d d' X D. grow X. apply tws_bind with (R := tw_subs n0).
  { destruct (negb _); [|apply ret_tws; constructor]. assert (S := te_signing _ _ _ _ K). destruct (he_signing k) as [s|], (he_signing k') as [s'|]; cbn in S; try contradiction; [|known].
    eapply tws_bind; [known|]. intros r6 fp fp' X FP. grow X. eapply tws_bind.
    { apply sign_tws; [exact S|]. split; cbn; try reflexivity; try (apply own_tw; assumption); constructor. }
    intros r7 sg sg' X SG. grow X. eapply tws_bind; [known|]. intros r8 b b' X B. grow X. apply ret_tws. apply sub_one; [exact B|constructor]. }
  intros r6 un un' X UN. grow X. eapply tws_bind; [known|]. intros r7 fp fp' X FP. grow X.
  apply sign_tws; [known|]. split; cbn; try reflexivity; try (apply own_tw; assumption); [|exact UN]. apply sub_one; assumption.
Qed.
Hint Resolve bind_subkey_tws : twins.

Lemma private_packet_tws tag k k' pw pw' r : tw_ecc n0 r k k' -> tw n0 r pw pw' -> tws n0 (tw_own n0) r (h_private_packet E G tag k pw) (h_private_packet E G tag k' pw').
Proof. intros K P. unfold h_private_packet. walk. Qed.
Lemma public_packet_tws tag k k' r : tw_ecc n0 r k k' -> tws n0 (tw_own n0) r (h_public_packet G tag k) (h_public_packet G tag k').
Proof. intros K. unfold h_public_packet. walk. Qed.
Lemma dummy_packet_tws k k' r : tw_ecc n0 r k k' -> tws n0 (tw_own n0) r (h_dummy_packet G k) (h_dummy_packet G k').
Proof. intros K. unfold h_dummy_packet. walk. Qed.
Hint Resolve private_packet_tws public_packet_tws dummy_packet_tws : twins.
Lemma subkey_packets_tws m m' k k' flags ex pw pw' r : tw_ed n0 r m m' -> tw_ecc n0 r k k' -> tw n0 r pw pw' ->
  tws n0 (tw_own n0) r (h_subkey_packets E G m k flags ex pw) (h_subkey_packets E G m' k' flags ex pw').
Proof. intros M K P. unfold h_subkey_packets. walk. Qed.
Hint Resolve subkey_packets_tws : twins.
Definition tw_list (r : list nat) (l l' : list slice) : Prop := Forall2 (tw n0 r) l l'.
Lemma read_all_tws l l' r : tw_list r l l' -> tws n0 (fun _ b b' => b = b') r (s_read_all l) (s_read_all l').
Proof.
  intros L. induction L as [|s s' l l' S L IH]; cbn [s_read_all]; [apply ret_tws; reflexivity|]. apply read_bind; [exact S|]. intros b. eapply tws_bind; [exact IH|]. cbn beta. intros r2 x x' _ ->. apply ret_tws. reflexivity.
Qed.
Lemma group_tws (f f' : sm slice) s s' r : tws n0 (tw_own n0) r f f' -> tw_own n0 r s s' -> tws n0 (tw n0) r f f' /\ tws n0 (tw n0) r (s_ret s) (s_ret s').
Proof. intros F S. split; [apply (tws_weaken n0 (tw_own n0)); [exact F|intros ? ? ? []; assumption]|apply ret_tws; exact (own_tw _ _ _ _ S)]. Qed.
Lemma all_subkeys_tws ks ks' pw pw' r : tw_set n0 r ks ks' -> tw n0 r pw pw' -> tws n0 (tw_own n0) r (h_all_subkey_packets E G ks pw) (h_all_subkey_packets E G ks' pw').
Proof.
  intros K P. unfold h_all_subkey_packets. cbn zeta. eapply tws_bind; [known|]. intros r1 e0 e0' X E0. grow X. eapply tws_bind; [known|]. intros r2 e1 e1' X E1. grow X. eapply tws_bind; [known|]. intros r3 e2 e2' X E2. grow X.
  apply tws_bind with (R := tw_own n0).
  { assert (S := ts_enc _ _ _ _ K). destruct (hk_enc ks) as [k|], (hk_enc ks') as [k'|]; cbn in S; try contradiction; [|apply ret_tws; exact E0]. rewrite (tc_expiry _ _ _ _ S). known. }
  intros r4 g0 g0' X G0. grow X. apply tws_bind with (R := tw_own n0).
  { assert (S := ts_auth _ _ _ _ K). destruct (hk_auth ks) as [k|], (hk_auth ks') as [k'|]; cbn in S; try contradiction; [|apply ret_tws; exact E1]. rewrite (td_expiry _ _ _ _ S). known. }
  intros r5 g1 g1' X G1. grow X. apply tws_bind with (R := tw_own n0).
  { assert (S := ts_sign _ _ _ _ K). destruct (hk_sign ks) as [k|], (hk_sign ks') as [k'|]; cbn in S; try contradiction; [|apply ret_tws; exact E2]. rewrite (td_expiry _ _ _ _ S). known. }
  intros r6 g2 g2' X G2. grow X. apply read_bind; [known|]. intros private.
  eapply tws_bind with (R := tw_list).
  { apply lift_tws. pose proof (shuffle_rel (tw n0 r6) E (shuffle_seed E private) [g0; g1; g2] [g0'; g1'; g2']) as S.
    destruct (shuffle E _ [g0; g1; g2]), (shuffle E _ [g0'; g1'; g2']); apply S; repeat (constructor; [apply own_tw; assumption|]); constructor. }
  intros r7 gs gs' X GS. grow X. eapply tws_bind; [apply read_all_tws; exact GS|]. cbn beta. intros r8 b b' X ->. known.
Qed.
Hint Resolve all_subkeys_tws : twins.
Lemma self_certification_tws ks ks' r : tw_set n0 r ks ks' -> tws n0 (tw_own n0) r (h_self_certification E G ks) (h_self_certification E G ks').
Proof. intros K. unfold h_self_certification. rewrite (ts_uid _ _ _ _ K). walk. Qed.
Hint Resolve self_certification_tws : twins.
Lemma packets_tws ks ks' pw pw' r : tw_set n0 r ks ks' -> tw n0 r pw pw' -> tws n0 (tw_own n0) r (h_encode_packets E G ks pw) (h_encode_packets E G ks' pw').
Proof. intros K P. unfold h_encode_packets. rewrite (ts_uid _ _ _ _ K). walk. Qed.
Lemma subkey_export_tws ks ks' pw pw' cert r : tw_set n0 r ks ks' -> tw n0 r pw pw' -> tws n0 (tw_own n0) r (h_encode_subkey_packets E G ks pw cert) (h_encode_subkey_packets E G ks' pw' cert).
Proof.
  intros K P. unfold h_encode_subkey_packets. rewrite (ts_uid _ _ _ _ K). eapply tws_bind; [known|]. intros r1 m m' X M. grow X. apply read_bind; [known|]. intros a. eapply tws_bind; [known|]. intros r2 u u' X U. grow X.
  apply read_bind; [known|]. intros b. eapply tws_bind with (R := fun _ c c' => c = c').
  { destruct cert; [|apply ret_tws; reflexivity]. eapply tws_bind; [known|]. intros r3 c c' X C. grow X. constructor; [known|]. intros d. apply ret_tws. reflexivity. }
  cbn beta. intros r3 c c' X ->. grow X. walk.
Qed.
Hint Resolve packets_tws subkey_export_tws new_ed_tws new_curve_tws : twins.

(** ** what a goroutine has *)
Variable shared : p_state.
Hypothesis shared_mem : length (pst_mem shared) = n0.
Hypothesis shared_slices : Forall (fun s => (sl_at s < n0)%nat) (pst_slices shared).
Definition old_ecc (k : h_ecc) : Prop :=
  (sl_at (he_private k) < n0 /\ sl_at (he_public k) < n0 /\ match he_signing k with Some s => sl_at s < n0 | None => True end /\ sl_at (he_oid k) < n0 /\ sl_at (he_extra k) < n0)%nat.
Hypothesis shared_keys : Forall (fun k => old_ecc (hd_base k) /\ (sl_at (hd_private k) < n0)%nat) (pst_keys shared).
Hypothesis shared_curves : Forall (fun k => old_ecc (hc_base k) /\ (sl_at (hc_private k) < n0)%nat) (pst_curves shared).
Hypothesis shared_sigs : Forall (fun g => Forall (fun s => (sl_at (hb_body s) < n0)%nat) (hg_hashed g) /\ Forall (fun s => (sl_at (hb_body s) < n0)%nat) (hg_unhashed g) /\ (sl_at (hg_digest g) < n0)%nat) (pst_sigs shared).
Definition mixed {A} (R : A -> A -> Prop) (base l l' : list A) : Prop := exists mine mine', l = base ++ mine /\ l' = base ++ mine' /\ Forall2 R mine mine'.
Record tw_objects (r : list nat) (o o' : t_objects) : Prop := {
  tb_slices : mixed (tw_own n0 r) (pst_slices shared) (to_slices o) (to_slices o');
  tb_keys : mixed (own_ed r) (pst_keys shared) (to_keys o) (to_keys o');
  tb_curves : mixed (own_curve r) (pst_curves shared) (to_curves o) (to_curves o');
  tb_sigs : mixed (tw_sig n0 r) (pst_sigs shared) (to_sigs o) (to_sigs o')
}.
Lemma mixed_grows {A} (R Q : A -> A -> Prop) base l l' : (forall x y, R x y -> Q x y) -> mixed R base l l' -> mixed Q base l l'.
Proof. intros H (m & m' & -> & -> & F). exists m, m'. split; [reflexivity|]. split; [reflexivity|]. clear - H F. induction F; constructor; auto. Qed.
Lemma mixed_more {A} (R : A -> A -> Prop) base l l' a a' : mixed R base l l' -> R a a' -> mixed R base (l ++ [a]) (l' ++ [a']).
Proof. intros (m & m' & -> & -> & F) H. exists (m ++ [a]), (m' ++ [a']). rewrite !app_assoc. split; [reflexivity|]. split; [reflexivity|]. apply Forall2_app; auto. Qed.
Lemma own_ed_grows r r2 k k' : grows r r2 -> own_ed r k k' -> own_ed r2 k k'.
Proof. intros X [A B C]. split; [exact (ed_grows _ _ _ _ _ X A)|exact (tw_own_grows _ _ _ _ _ X B)|exact (tw_own_grows _ _ _ _ _ X C)]. Qed.
Lemma own_curve_grows r r2 k k' : grows r r2 -> own_curve r k k' -> own_curve r2 k k'.
Proof. intros X [A B]. split; [exact (curve_grows _ _ _ _ _ X A)|exact (tw_own_grows _ _ _ _ _ X B)]. Qed.
Lemma objects_grow r r2 o o' : grows r r2 -> tw_objects r o o' -> tw_objects r2 o o'.
Proof.
  intros X [A B C D]. split; (eapply mixed_grows; [|eassumption]); intros x y; first [apply tw_own_grows; exact X|apply own_ed_grows; exact X|apply own_curve_grows; exact X|apply sig_grows; exact X].
Qed.
(** looking at the same place in both lists *)
Lemma mixed_nth {A} (R Q : A -> A -> Prop) base l l' n : mixed R base l l' -> Forall (fun a => Q a a) base -> (forall a a', R a a' -> Q a a') ->
  match nth_error l n, nth_error l' n with Some a, Some a' => Q a a' /\ ((length base <= n)%nat -> R a a') | None, None => True | _, _ => False end.
Proof.
  intros (m & m' & -> & -> & F) B I. destruct (Nat.lt_ge_cases n (length base)) as [L|L].
  - rewrite !nth_error_app1 by exact L. destruct (nth_error base n) as [a|] eqn:N; [|exact Logic.I]. split; [|lia]. rewrite Forall_forall in B. apply B. apply nth_error_In with n. exact N.
  - rewrite !nth_error_app2 by exact L. generalize (n - length base)%nat as j. clear - F I. induction F as [|a a' m m' H F IH]; intros [|j]; cbn [nth_error]; auto. exact (IH j).
Qed.
Lemma old_tw r s : (sl_at s < n0)%nat -> tw n0 r s s.
Proof. intros L. split; try reflexivity. left. auto. Qed.
Lemma old_ecc_tw r k : old_ecc k -> tw_ecc n0 r k k.
Proof. intros (A & B & C & D & F). split; try reflexivity; try (apply old_tw; assumption). destruct (he_signing k); cbn; [apply old_tw; exact C|exact I]. Qed.
Lemma slices_nth r o o' n : tw_objects r o o' ->
  match nth_error (to_slices o) n, nth_error (to_slices o') n with Some a, Some a' => tw n0 r a a' /\ ((length (pst_slices shared) <= n)%nat -> tw_own n0 r a a') | None, None => True | _, _ => False end.
Proof. intros T. apply mixed_nth; [exact (tb_slices _ _ _ T)| |intros a a'; apply own_tw]. eapply Forall_impl; [|exact shared_slices]. intros s. apply old_tw. Qed.
Lemma keys_nth r o o' n : tw_objects r o o' ->
  match nth_error (to_keys o) n, nth_error (to_keys o') n with Some a, Some a' => tw_ed n0 r a a' /\ ((length (pst_keys shared) <= n)%nat -> own_ed r a a') | None, None => True | _, _ => False end.
Proof.
  intros T. apply mixed_nth; [exact (tb_keys _ _ _ T)| |intros a a'; apply oe_tw]. eapply Forall_impl; [|exact shared_keys]. cbn beta. intros k [A B]. split; [apply old_ecc_tw; exact A|apply old_tw; exact B|reflexivity].
Qed.
Lemma curves_nth r o o' n : tw_objects r o o' ->
  match nth_error (to_curves o) n, nth_error (to_curves o') n with Some a, Some a' => tw_curve n0 r a a' /\ ((length (pst_curves shared) <= n)%nat -> own_curve r a a') | None, None => True | _, _ => False end.
Proof.
  intros T. apply mixed_nth; [exact (tb_curves _ _ _ T)| |intros a a'; apply oc_tw]. eapply Forall_impl; [|exact shared_curves]. cbn beta. intros k [A B]. split; [apply old_ecc_tw; exact A|apply old_tw; exact B|reflexivity|reflexivity].
Qed.
Lemma old_subs_tw r l : Forall (fun s => (sl_at (hb_body s) < n0)%nat) l -> tw_subs n0 r l l.
Proof. intros F. induction F; constructor; auto. split; [reflexivity|apply old_tw; assumption]. Qed.
Lemma sigs_nth r o o' n : tw_objects r o o' ->
  match nth_error (to_sigs o) n, nth_error (to_sigs o') n with Some a, Some a' => tw_sig n0 r a a' /\ ((length (pst_sigs shared) <= n)%nat -> tw_sig n0 r a a') | None, None => True | _, _ => False end.
Proof.
  intros T. apply mixed_nth; [exact (tb_sigs _ _ _ T)| |auto]. eapply Forall_impl; [|exact shared_sigs]. cbn beta. intros g (A & B & C). split; try reflexivity; [apply old_subs_tw; exact A|apply old_subs_tw; exact B|apply old_tw; exact C].
Qed.

Definition tw_result (r : list nat) (x x' : t_result) : Prop := (fst x' = fst x /\ fst x <> Q_panicked) /\ tw_objects r (snd x) (snd x').
Lemma nothing_tws r o o' : tw_objects r o o' -> tws n0 tw_result r (s_ret (Q_nothing, o)) (s_ret (Q_nothing, o')).
Proof. intros T. apply ret_tws. split; [split; [reflexivity|discriminate]|exact T]. Qed.
Lemma with_slice r o o' n f f' : tw_objects r o o' ->
  (forall s s', tw n0 r s s' -> ((length (pst_slices shared) <= n)%nat -> tw_own n0 r s s') -> tws n0 tw_result r (f s) (f' s')) -> tws n0 tw_result r (t_with (to_slices o) n o f) (t_with (to_slices o') n o' f').
Proof. intros T H. pose proof (slices_nth r o o' n T) as N. unfold t_with. destruct (nth_error (to_slices o) n), (nth_error (to_slices o') n); try contradiction; [destruct N; apply H; assumption|apply nothing_tws; exact T]. Qed.
Lemma with_key r o o' n f f' : tw_objects r o o' ->
  (forall s s', tw_ed n0 r s s' -> ((length (pst_keys shared) <= n)%nat -> own_ed r s s') -> tws n0 tw_result r (f s) (f' s')) -> tws n0 tw_result r (t_with (to_keys o) n o f) (t_with (to_keys o') n o' f').
Proof. intros T H. pose proof (keys_nth r o o' n T) as N. unfold t_with. destruct (nth_error (to_keys o) n), (nth_error (to_keys o') n); try contradiction; [destruct N; apply H; assumption|apply nothing_tws; exact T]. Qed.
Lemma with_curve r o o' n f f' : tw_objects r o o' ->
  (forall s s', tw_curve n0 r s s' -> ((length (pst_curves shared) <= n)%nat -> own_curve r s s') -> tws n0 tw_result r (f s) (f' s')) -> tws n0 tw_result r (t_with (to_curves o) n o f) (t_with (to_curves o') n o' f').
Proof. intros T H. pose proof (curves_nth r o o' n T) as N. unfold t_with. destruct (nth_error (to_curves o) n), (nth_error (to_curves o') n); try contradiction; [destruct N; apply H; assumption|apply nothing_tws; exact T]. Qed.
Lemma with_sig r o o' n f f' : tw_objects r o o' ->
  (forall s s', tw_sig n0 r s s' -> tws n0 tw_result r (f s) (f' s')) -> tws n0 tw_result r (t_with (to_sigs o) n o f) (t_with (to_sigs o') n o' f').
Proof. intros T H. pose proof (sigs_nth r o o' n T) as N. unfold t_with. destruct (nth_error (to_sigs o) n), (nth_error (to_sigs o') n); try contradiction; [destruct N; apply H; assumption|apply nothing_tws; exact T]. Qed.
Lemma maybe_key r o o' n f f' : tw_objects r o o' -> (forall k k', tw_maybe (tw_ed n0) r k k' -> tws n0 tw_result r (f k) (f' k')) ->
  tws n0 tw_result r (t_maybe (to_keys o) n o f) (t_maybe (to_keys o') n o' f').
Proof. intros T H. destruct n as [n|]; cbn [t_maybe]; [|apply H; exact I]. apply with_key; [exact T|]. intros k k' K _. apply H. exact K. Qed.
Lemma maybe_curve r o o' n f f' : tw_objects r o o' -> (forall k k', tw_maybe (tw_curve n0) r k k' -> tws n0 tw_result r (f k) (f' k')) ->
  tws n0 tw_result r (t_maybe (to_curves o) n o f) (t_maybe (to_curves o') n o' f').
Proof. intros T H. destruct n as [n|]; cbn [t_maybe]; [|apply H; exact I]. apply with_curve; [exact T|]. intros k k' K _. apply H. exact K. Qed.
Lemma all_slices r o o' ns : tw_objects r o o' -> forall f f', (forall l l', tw_subs n0 r (h_subs l) (h_subs l') -> tws n0 tw_result r (f l) (f' l')) ->
  tws n0 tw_result r (t_all (to_slices o) ns o f) (t_all (to_slices o') ns o' f').
Proof.
  intros T. induction ns as [|[t n] ns IH]; intros f f' H; cbn [t_all]; [apply H; constructor|]. apply with_slice; [exact T|]. intros s s' S _. apply IH. intros l l' L. apply H. cbn [h_subs map fst snd].
  constructor; [split; [reflexivity|exact S]|exact L].
Qed.
Lemma quiet_tws r o o' f f' : tw_objects r o o' -> tws n0 (fun _ _ _ => True) r f f' -> tws n0 tw_result r (t_quiet o f) (t_quiet o' f').
Proof. intros T F. eapply tws_bind; [exact F|]. intros r2 a a' X _. apply nothing_tws. exact (objects_grow _ _ _ _ X T). Qed.
Lemma show_tws r o o' s s' : tw_objects r o o' -> tw n0 r s s' -> tws n0 tw_result r (t_show o (s_read s)) (t_show o' (s_read s')).
Proof. intros T S. unfold t_show. apply read_bind; [exact S|]. intros b. apply ret_tws. split; [split; [reflexivity|discriminate]|exact T]. Qed.
Lemma slice_tws r o o' f f' : tw_objects r o o' -> tws n0 (tw_own n0) r f f' -> tws n0 tw_result r (t_slice o f) (t_slice o' f').
Proof.
  intros T F. eapply tws_bind; [exact F|]. intros r2 a a' X A. apply read_bind; [exact (own_tw _ _ _ _ A)|]. intros b. apply ret_tws. split; [split; [reflexivity|discriminate]|]. destruct (objects_grow _ _ _ _ X T) as [T1 T2 T3 T4]. split; cbn; try assumption. apply mixed_more; assumption.
Qed.
Lemma key_tws r o o' f f' : tw_objects r o o' -> tws n0 own_ed r f f' -> tws n0 tw_result r (t_key o f) (t_key o' f').
Proof. intros T F. eapply tws_bind; [exact F|]. intros r2 a a' X A. apply ret_tws. split; [split; [reflexivity|discriminate]|]. destruct (objects_grow _ _ _ _ X T) as [T1 T2 T3 T4]. split; cbn; try assumption. apply mixed_more; assumption. Qed.
Lemma curve_tws r o o' f f' : tw_objects r o o' -> tws n0 own_curve r f f' -> tws n0 tw_result r (t_curve o f) (t_curve o' f').
Proof. intros T F. eapply tws_bind; [exact F|]. intros r2 a a' X A. apply ret_tws. split; [split; [reflexivity|discriminate]|]. destruct (objects_grow _ _ _ _ X T) as [T1 T2 T3 T4]. split; cbn; try assumption. apply mixed_more; assumption. Qed.
Lemma sig_tws r o o' f f' : tw_objects r o o' -> tws n0 (tw_sig n0) r f f' -> tws n0 tw_result r (t_sig o f) (t_sig o' f').
Proof. intros T F. eapply tws_bind; [exact F|]. intros r2 a a' X A. apply ret_tws. split; [split; [reflexivity|discriminate]|]. destruct (objects_grow _ _ _ _ X T) as [T1 T2 T3 T4]. split; cbn; try assumption. apply mixed_more; assumption. Qed.

(** the code of any call that leaves the shared objects alone *)
Lemma code_tws c r o o' : leaves_alone shared c -> tw_objects r o o' -> tws n0 tw_result r (t_code E G c o) (t_code E G c o').
Proof.
  intros L T.
  destruct c; cbn [t_code leaves_alone] in *;
    repeat first [apply with_slice; [exact T|intros ? ? ? ?]|apply with_key; [exact T|intros ? ? ? ?]|apply with_curve; [exact T|intros ? ? ? ?]|apply with_sig; [exact T|intros ? ? ?]
      |apply maybe_key; [exact T|intros ? ? ?]|apply maybe_curve; [exact T|intros ? ? ?]|apply all_slices; [exact T|intros ? ? ?]];
    try (apply slice_tws; [exact T|known]); try (apply key_tws; [exact T|known]); try (apply curve_tws; [exact T|known]); try (apply sig_tws; [exact T|known]); try (apply show_tws; [exact T|known]).
  all: try (apply quiet_tws; [exact T|apply set_tws]).
  all: try solve [auto].
  - apply oe_private. auto.
  - apply oe_public. auto.
  - apply oc_private. auto.
  - assert (R : forall r2, grows r r2 -> tw_request n0 r2 (mk_hreq s hash s0 type (h_subs l) (h_subs l0) time) (mk_hreq s' hash s'0 type (h_subs l') (h_subs l'0) time)).
    { intros r2 X. grow X. split; cbn; try reflexivity; assumption. }
    assert (X : grows r r) by (exists []; rewrite app_nil_r; reflexivity). specialize (R r X).
    destruct by_ as [k|x]; [apply with_key; [exact T|]; intros k1 k1' K _|apply with_slice; [exact T|]; intros x1 x1' K _]; (apply sig_tws; [exact T|]); apply sign_tws; try exact R; [exact (td_private _ _ _ _ K)|exact K].
  - apply packets_tws; [split; cbn; try reflexivity; assumption|assumption].
  - apply subkey_export_tws; [split; cbn; try reflexivity; assumption|assumption].
  - apply sub_tws. split; cbn; [reflexivity|assumption].
Qed.
End Code.
