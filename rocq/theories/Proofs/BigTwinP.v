(** The functions of BigHeap.v do not depend on where integers lie, and write only to integers they made, but for the
    argument of EncodeToIndices: two runs of the same code, with integers at different places, stay in step whatever they
    read. *)
From Coq Require Import Lia ZifyBool ZifyNat.
From Verif.Model Require Import GoBase Env BitBuffer Crc32 MnemonicPkg Version Seed Encoding GoTime Recovery PgpKeys Mnemonikey BigHeap SliceThreads BigThreads.
From Verif.Spec Require Import ShareSpec BigThreadSpec.
From Verif.Proofs Require Import TwinP.

Section Twins.
(** Integers below [n0] were there before; the one made as number [j] is number [n0 + j] in the second run and where [r]
    says in the first ([at_] of TwinP.v). *)
Variable n0 : nat.
(** an integer that was made meanwhile *)
Definition mine (r : list nat) (p p' : ptr) : Prop := at_ n0 r p p' /\ (n0 <= p')%nat.
Lemma mine_at r p p' : mine r p p' -> at_ n0 r p p'. Proof. intros [A _]. exact A. Qed.
Lemma mine_grows r r2 p p' : grows r r2 -> mine r p p' -> mine r2 p p'.
Proof. intros X [A B]. split; [exact (at_grows _ _ _ _ _ X A)|exact B]. Qed.

Inductive twm {A} (R : list nat -> A -> A -> Prop) : list nat -> mem A -> mem A -> Prop :=
| W_ok r a a' : R r a a' -> twm R r (M_done (Ok a)) (M_done (Ok a'))
| W_err r e : twm R r (M_done (Err e)) (M_done (Err e))
| W_panic r : twm R r (M_done Panic) (M_done Panic)
| W_load r p p' k k' : at_ n0 r p p' -> (forall v, twm R r (k v) (k' v)) -> twm R r (M_load p k) (M_load p' k')
| W_store r p p' v k k' : mine r p p' -> twm R r k k' -> twm R r (M_store p v k) (M_store p' v k')
| W_new r v k k' : (forall g, twm R (r ++ [g]) (k g) (k' (n0 + length r)%nat)) -> twm R r (M_new v k) (M_new v k').

Lemma twm_bind {A B} (R : list nat -> A -> A -> Prop) (Q : list nat -> B -> B -> Prop) r f f' (g g' : A -> mem B) :
  twm R r f f' -> (forall r2 a a', grows r r2 -> R r2 a a' -> twm Q r2 (g a) (g' a')) -> twm Q r (m_bind f g) (m_bind f' g').
Proof.
  induction 1 as [r a a' H|r e|r|r p p' k k' T H IH|r p p' v k k' T H IH|r v k k' H IH]; intros N; cbn [m_bind].
  - apply N; [apply grows_refl|exact H].
  - constructor.
  - constructor.
  - constructor; [exact T|]. intros v. apply IH. exact N.
  - constructor; [exact T|]. apply IH. exact N.
  - constructor. intros x. apply IH. intros r2 a a' X. apply N. apply (grows_trans _ (r ++ [x])); [exists [x]; reflexivity|exact X].
Qed.
Lemma twm_weaken {A} (R Q : list nat -> A -> A -> Prop) r f f' : twm R r f f' -> (forall r2 a a', R r2 a a' -> Q r2 a a') -> twm Q r f f'.
Proof. induction 1; intros N; constructor; auto. Qed.
Definition eqs {A} (_ : list nat) (a a' : A) : Prop := a' = a.
Lemma ret_twm {A} (R : list nat -> A -> A -> Prop) r (a a' : A) : R r a a' -> twm R r (m_ret a) (m_ret a').
Proof. intros H. constructor. exact H. Qed.
Lemma lift_twm {A} r (x : res A) : twm eqs r (m_lift x) (m_lift x).
Proof. destruct x; constructor. reflexivity. Qed.
Lemma err_twm {A} (R : list nat -> A -> A -> Prop) r e : twm R r (m_lift (Err e)) (m_lift (Err e)).
Proof. constructor. Qed.
Lemma panic_twm {A} (R : list nat -> A -> A -> Prop) r : twm R r (m_lift Panic) (m_lift Panic).
Proof. constructor. Qed.
Lemma load_twm r p p' : at_ n0 r p p' -> twm eqs r (load p) (load p').
Proof. intros H. constructor; [exact H|]. intros v. constructor. reflexivity. Qed.
Lemma store_twm r p p' v : mine r p p' -> twm eqs r (store p v) (store p' v).
Proof. intros H. constructor; [exact H|]. constructor. reflexivity. Qed.
Lemma new_twm r v : twm mine r (new_int v) (new_int v).
Proof.
  constructor. intros g. constructor. split; [|lia]. right. exists (length r). split; [reflexivity|]. rewrite nth_error_app2, Nat.sub_diag by lia. reflexivity.
Qed.
Lemma big1_twm f r z z' x x' : mine r z z' -> at_ n0 r x x' -> twm eqs r (big1 f z x) (big1 f z' x').
Proof. intros M X. constructor; [exact X|]. intros v. apply store_twm. exact M. Qed.
Lemma big2_twm f r z z' x x' y y' : mine r z z' -> at_ n0 r x x' -> at_ n0 r y y' -> twm eqs r (big2 f z x y) (big2 f z' x' y').
Proof. intros M X Y. constructor; [exact X|]. intros v. constructor; [exact Y|]. intros u. apply store_twm. exact M. Qed.

(** ** the structures: buffers are made by the function that uses them *)
Definition tw_buf (r : list nat) (b b' : hbuf) : Prop := mine r (hb_value b) (hb_value b') /\ hb_nbits b' = hb_nbits b.
Definition tw_seed (r : list nat) (s s' : h_seed) : Prop := at_ n0 r (hs_value s) (hs_value s') /\ hs_era s' = hs_era s.
Definition tw_phrase (r : list nat) (d d' : h_decoded) : Prop :=
  hd_version d' = hd_version d /\ at_ n0 r (hd_entropy d) (hd_entropy d') /\ tw_maybe (at_ n0) r (hd_salt d) (hd_salt d') /\
  hd_verify d' = hd_verify d /\ hd_offset d' = hd_offset d.
Definition tw_key (r : list nat) (k k' : h_key) : Prop := tw_seed r (hk_seed k) (hk_seed k') /\ hk_key k' = hk_key k.
Definition tw_pop (r : list nat) (x x' : ptr * hbuf) : Prop := mine r (fst x) (fst x') /\ tw_buf r (snd x) (snd x').
Lemma buf_grows r r2 b b' : grows r r2 -> tw_buf r b b' -> tw_buf r2 b b'.
Proof. intros X [A B]. split; [exact (mine_grows _ _ _ _ X A)|exact B]. Qed.
Lemma seed_grows r r2 b b' : grows r r2 -> tw_seed r b b' -> tw_seed r2 b b'.
Proof. intros X [A B]. split; [exact (at_grows _ _ _ _ _ X A)|exact B]. Qed.
Lemma salt_grows r r2 b b' : grows r r2 -> tw_maybe (at_ n0) r b b' -> tw_maybe (at_ n0) r2 b b'.
Proof. intros X. destruct b, b'; cbn; auto. apply at_grows. exact X. Qed.
Lemma phrase_grows r r2 b b' : grows r r2 -> tw_phrase r b b' -> tw_phrase r2 b b'.
Proof. intros X (A & B & C & D). split; [exact A|]. split; [exact (at_grows _ _ _ _ _ X B)|]. split; [exact (salt_grows _ _ _ _ X C)|exact D]. Qed.
Lemma key_grows r r2 b b' : grows r r2 -> tw_key r b b' -> tw_key r2 b b'.
Proof. intros X [A B]. split; [exact (seed_grows _ _ _ _ X A)|exact B]. Qed.
End Twins.

Ltac bgrow X := lazymatch type of X with grows ?a ?b =>
  repeat match goal with
  | H : at_ ?n a _ _ |- _ => apply (at_grows n a b _ _ X) in H
  | H : mine ?n a _ _ |- _ => apply (mine_grows n a b _ _ X) in H
  | H : tw_buf ?n a _ _ |- _ => apply (buf_grows n a b _ _ X) in H
  | H : tw_seed ?n a _ _ |- _ => apply (seed_grows n a b _ _ X) in H
  | H : tw_maybe (at_ ?n) a _ _ |- _ => apply (salt_grows n a b _ _ X) in H
  | H : tw_phrase ?n a _ _ |- _ => apply (phrase_grows n a b _ _ X) in H
  | H : tw_key ?n a _ _ |- _ => apply (key_grows n a b _ _ X) in H
  end; clear X end.
Definition tw_fst {A B} (R : list nat -> A -> A -> Prop) (r : list nat) (x x' : A * B) : Prop := R r (fst x) (fst x') /\ snd x' = snd x.
Create HintDb bigs.
#[export] Hint Resolve mine_at lift_twm err_twm panic_twm load_twm store_twm new_twm big1_twm big2_twm : bigs.
Ltac bknown := eauto 12 with bigs.
(** what the two runs have is taken apart *)
Ltac bapart H := lazymatch type of H with
  | @eqs (_ * _) _ ?a ?a' => unfold eqs in H; subst a'; destruct a
  | eqs _ ?a ?a' => unfold eqs in H; subst a'
  | tw_fst _ _ ?x ?x' => let p := fresh "p" in let b := fresh "b" in let p' := fresh "p" in let b' := fresh "b" in
      destruct x as [p b], x' as [p' b']; let H1 := fresh "H" in let H2 := fresh "H" in destruct H as [H1 H2]; cbn [fst snd] in H1, H2; subst b'
  | tw_pop _ _ (_, _) (_, _) => destruct H
  | tw_pop _ _ ?x ?x' => let p := fresh "p" in let b := fresh "b" in let p' := fresh "p" in let b' := fresh "b" in
      destruct x as [p b], x' as [p' b']; let H1 := fresh "H" in let H2 := fresh "H" in destruct H as [H1 H2]; cbn [fst snd] in H1, H2
  | _ => idtac
  end.
Ltac bsame := repeat match goal with
  | H : tw_buf _ _ ?b ?b' |- context [hb_nbits ?b'] => rewrite (proj2 H)
  | H : tw_seed _ _ ?b ?b' |- context [hs_era ?b'] => rewrite (proj2 H)
  end.
Ltac bwalk :=
  cbn beta iota zeta; bsame;
  lazymatch goal with
  | |- twm _ _ _ (m_bind ?f _) (m_bind _ _) =>
      try (eapply twm_bind; [solve [bknown]|let r := fresh "r" in let a := fresh "a" in let a' := fresh "a'" in let X := fresh "X" in let H := fresh "H" in
        intros r a a' X H; bgrow X; bapart H; bwalk])
  | |- twm _ _ _ (if ?c then _ else _) (if ?c then _ else _) => destruct c; bwalk
  | |- _ => try solve [bknown]
  end.

(** looking at the same place in both lists *)
Lemma mixed_both {A} (R Q : A -> A -> Prop) base l l' n : mixed R base l l' -> Forall (fun a => Q a a) base -> (forall a a', R a a' -> Q a a') ->
  match nth_error l n, nth_error l' n with Some a, Some a' => Q a a' /\ ((length base <= n)%nat -> R a a') | None, None => True | _, _ => False end.
Proof.
  intros (m & m' & -> & -> & F) B I. destruct (Nat.lt_ge_cases n (length base)) as [L|L].
  - rewrite !nth_error_app1 by exact L. destruct (nth_error base n) as [a|] eqn:N; [|exact Logic.I]. split; [|lia]. rewrite Forall_forall in B. apply B. apply nth_error_In with n. exact N.
  - rewrite !nth_error_app2 by exact L. generalize (n - length base)%nat as j. clear - F I. induction F as [|a a' m m' H F IH]; intros [|j]; cbn [nth_error]; auto. exact (IH j).
Qed.

Section Code.
Variable n0 : nat.
Hypothesis n0_package : (2 <= n0)%nat.
Variable E : Env.

Lemma one_at r : at_ n0 r big_one big_one. Proof. left. unfold big_one. split; [lia|reflexivity]. Qed.
Lemma mask_at r : at_ n0 r big_mask big_mask. Proof. left. unfold big_mask. split; [lia|reflexivity]. Qed.
Lemma buf_at r b b' : tw_buf n0 r b b' -> mine n0 r (hb_value b) (hb_value b'). Proof. intros [A _]. exact A. Qed.
Lemma seed_at_ r b b' : tw_seed n0 r b b' -> at_ n0 r (hs_value b) (hs_value b'). Proof. intros [A _]. exact A. Qed.
Hint Resolve one_at mask_at buf_at seed_at_ : bigs.
Lemma set_twm r z z' x x' : mine n0 r z z' -> at_ n0 r x x' -> twm n0 eqs r (big_set z x) (big_set z' x'). Proof. apply big1_twm. Qed.
Lemma lsh_twm r z z' x x' n : mine n0 r z z' -> at_ n0 r x x' -> twm n0 eqs r (big_lsh z x n) (big_lsh z' x' n). Proof. apply big1_twm. Qed.
Lemma rsh_twm r z z' x x' n : mine n0 r z z' -> at_ n0 r x x' -> twm n0 eqs r (big_rsh z x n) (big_rsh z' x' n). Proof. apply big1_twm. Qed.
Lemma and_twm r z z' x x' y y' : mine n0 r z z' -> at_ n0 r x x' -> at_ n0 r y y' -> twm n0 eqs r (big_and z x y) (big_and z' x' y'). Proof. apply big2_twm. Qed.
Lemma or_twm r z z' x x' y y' : mine n0 r z z' -> at_ n0 r x x' -> at_ n0 r y y' -> twm n0 eqs r (big_or z x y) (big_or z' x' y'). Proof. apply big2_twm. Qed.
Lemma xor_twm r z z' x x' y y' : mine n0 r z z' -> at_ n0 r x x' -> at_ n0 r y y' -> twm n0 eqs r (big_xor z x y) (big_xor z' x' y'). Proof. apply big2_twm. Qed.
Lemma sub_twm r z z' x x' y y' : mine n0 r z z' -> at_ n0 r x x' -> at_ n0 r y y' -> twm n0 eqs r (big_sub z x y) (big_sub z' x' y'). Proof. apply big2_twm. Qed.
Hint Resolve set_twm lsh_twm rsh_twm and_twm or_twm xor_twm sub_twm : bigs.

Lemma new_bitbuf_twm x x' nb r : at_ n0 r x x' -> twm n0 (tw_buf n0) r (h_new_bitbuf x nb) (h_new_bitbuf x' nb).
Proof. intros X. unfold h_new_bitbuf. bwalk. apply ret_twm. split; cbn; auto. Qed.
Lemma pop_trailing_twm b b' n r : tw_buf n0 r b b' -> twm n0 (tw_pop n0) r (h_pop_trailing b n) (h_pop_trailing b' n).
Proof. intros B. unfold h_pop_trailing. bwalk. apply ret_twm. split; cbn; auto. split; cbn; [bknown|reflexivity]. Qed.
Lemma pop_leading_twm b b' n r : tw_buf n0 r b b' -> twm n0 (tw_pop n0) r (h_pop_leading b n) (h_pop_leading b' n).
Proof. intros B. unfold h_pop_leading. bwalk. apply ret_twm. split; cbn; auto. split; cbn; [bknown|reflexivity]. Qed.
Lemma append_leading_twm b b' x x' n r : tw_buf n0 r b b' -> at_ n0 r x x' -> twm n0 (tw_buf n0) r (h_append_leading b x n) (h_append_leading b' x' n).
Proof. intros B X. unfold h_append_leading. bwalk. apply ret_twm. split; cbn; [bknown|reflexivity]. Qed.
Lemma append_trailing_twm b b' x x' n r : tw_buf n0 r b b' -> at_ n0 r x x' -> twm n0 (tw_buf n0) r (h_append_trailing b x n) (h_append_trailing b' x' n).
Proof. intros B X. unfold h_append_trailing. bwalk. apply ret_twm. split; cbn; [bknown|reflexivity]. Qed.
Lemma bytes_twm b b' r : tw_buf n0 r b b' -> twm n0 eqs r (h_bytes b) (h_bytes b').
Proof. intros B. unfold h_bytes. bwalk. Qed.
Lemma int_twm b b' r : tw_buf n0 r b b' -> twm n0 (mine n0) r (h_int b) (h_int b').
Proof. intros B. unfold h_int. bwalk. apply ret_twm. assumption. Qed.
Lemma encode_loop_twm k : forall p p' acc r, mine n0 r p p' -> twm n0 eqs r (h_encode_loop k p acc) (h_encode_loop k p' acc).
Proof.
  induction k as [|k IH]; intros p p' acc r P; cbn [h_encode_loop]; bwalk; try (apply ret_twm; reflexivity); apply IH; assumption.
Qed.
Hint Resolve new_bitbuf_twm pop_trailing_twm pop_leading_twm append_leading_twm append_trailing_twm bytes_twm int_twm encode_loop_twm : bigs.
Lemma to_indices_twm p p' n r : mine n0 r p p' -> twm n0 eqs r (h_encode_to_indices p n) (h_encode_to_indices p' n).
Proof. intros P. unfold h_encode_to_indices. bwalk. Qed.
Lemma decode_loop_twm l : forall p p' r, mine n0 r p p' -> twm n0 (mine n0) r (h_decode_loop p l) (h_decode_loop p' l).
Proof. induction l as [|i l IH]; intros p p' r P; cbn [h_decode_loop]; bwalk; try (apply ret_twm; exact P); apply IH; assumption. Qed.
Lemma decode_indices_twm l r : twm n0 (mine n0) r (h_decode_indices l) (h_decode_indices l).
Proof. unfold h_decode_indices. bwalk. apply decode_loop_twm. assumption. Qed.
Hint Resolve to_indices_twm decode_indices_twm : bigs.
Lemma new_seed_twm era p p' r : at_ n0 r p p' -> twm n0 (tw_seed n0) r (h_new_seed era p) (h_new_seed era p').
Proof. intros P. unfold h_new_seed. bwalk. apply ret_twm. split; cbn; auto. Qed.
Lemma seed_int_twm s s' r : tw_seed n0 r s s' -> twm n0 (mine n0) r (h_seed_int s) (h_seed_int s').
Proof. intros S. unfold h_seed_int. bwalk. apply ret_twm. assumption. Qed.
Lemma seed_bytes_twm s s' r : tw_seed n0 r s s' -> twm n0 eqs r (h_seed_bytes s) (h_seed_bytes s').
Proof. intros S. unfold h_seed_bytes. bwalk. Qed.
Lemma rand_int_twm src p p' r : at_ n0 r p p' -> twm n0 (tw_fst (mine n0)) r (h_rand_int src p) (h_rand_int src p').
Proof.
  intros P. unfold h_rand_int. bwalk. apply ret_twm. split; cbn; auto.
Qed.
Hint Resolve new_seed_twm seed_int_twm seed_bytes_twm rand_int_twm : bigs.
Lemma generate_seed_twm src r : twm n0 (tw_fst (tw_seed n0)) r (h_generate_seed src) (h_generate_seed src).
Proof.
  unfold h_generate_seed. bwalk. apply ret_twm. split; cbn; auto.
Qed.
Lemma encode_mnemonic_twm v b b' r : tw_buf n0 r b b' -> twm n0 eqs r (h_encode_mnemonic E v b) (h_encode_mnemonic E v b').
Proof. intros B. unfold h_encode_mnemonic. bwalk. Qed.
Hint Resolve generate_seed_twm encode_mnemonic_twm : bigs.
Lemma plaintext_twm s s' t r : tw_seed n0 r s s' -> twm n0 eqs r (h_encode_plaintext E s t) (h_encode_plaintext E s' t).
Proof. intros S. unfold h_encode_plaintext. bwalk. Qed.
Lemma seed_key_twm pw p p' t r : at_ n0 r p p' -> twm n0 eqs r (h_seed_key E pw p t) (h_seed_key E pw p' t).
Proof. intros S. unfold h_seed_key. bwalk. Qed.
Hint Resolve plaintext_twm seed_key_twm : bigs.
Lemma encrypted_twm s s' t pw src r : tw_seed n0 r s s' -> twm n0 eqs r (h_encode_encrypted E s t pw src) (h_encode_encrypted E s' t pw src).
Proof.
  intros S. unfold h_encode_encrypted. bwalk.
Qed.
Lemma dm_seed_twm d d' r : tw_phrase n0 r d d' -> twm n0 (tw_seed n0) r (h_dm_seed d) (h_dm_seed d').
Proof. intros (V & P & _). unfold h_dm_seed. rewrite V. bwalk. Qed.
Hint Resolve encrypted_twm dm_seed_twm : bigs.
Lemma decode_mnemonic_twm ws r : twm n0 (tw_phrase n0) r (h_decode_mnemonic E ws) (h_decode_mnemonic E ws).
Proof.
  unfold h_decode_mnemonic. destruct ws as [|w0 ws]; [apply err_twm|]. set (l := w0 :: ws). clearbody l. bwalk.
  eapply twm_bind with (R := fun r x x' => tw_maybe (at_ n0) r (fst (fst x)) (fst (fst x')) /\ snd (fst x') = snd (fst x) /\ tw_buf n0 r (snd x) (snd x')).
  { destruct (_ =? 1); [|apply ret_twm; cbn; auto]. bwalk. apply ret_twm. cbn. bknown. }
  intros rr [[salt verify] bb] [[salt' verify'] bb'] X (A & B & C). cbn [fst snd] in A, B, C. subst verify'. bgrow X. bwalk.
  apply ret_twm. split; [reflexivity|]. cbn. bknown.
Qed.
Lemma decrypt_twm d d' pw r : tw_phrase n0 r d d' -> twm n0 (tw_seed n0) r (h_decrypt_seed E d pw) (h_decrypt_seed E d' pw).
Proof.
  intros D. pose proof D as (V & P & S & C & O). unfold h_decrypt_seed. rewrite V, O, C. destruct (negb _); [bknown|].
  eapply twm_bind with (R := at_ n0). { destruct (hd_salt d), (hd_salt d'); cbn in S; try contradiction; constructor. exact S. }
  intros r2 p p' X H. bgrow X. bwalk.
Qed.
Lemma new_key_twm s s' t opts r : tw_seed n0 r s s' -> twm n0 (tw_key n0) r (h_new_key E s t opts) (h_new_key E s' t opts).
Proof. intros S. unfold h_new_key. bwalk. apply ret_twm. split; cbn; auto. Qed.
Lemma key_plaintext_twm k k' r : tw_key n0 r k k' -> twm n0 eqs r (h_key_plaintext E k) (h_key_plaintext E k').
Proof. intros [S K]. unfold h_key_plaintext. rewrite K. bwalk. Qed.
Lemma key_encrypted_twm k k' pw src r : tw_key n0 r k k' -> twm n0 eqs r (h_key_encrypted E k pw src) (h_key_encrypted E k' pw src).
Proof. intros [S K]. unfold h_key_encrypted. rewrite K. bwalk. Qed.
Hint Resolve decode_mnemonic_twm decrypt_twm new_key_twm key_plaintext_twm key_encrypted_twm : bigs.

(** ** what a goroutine has *)
Variable shared : h_state.
Hypothesis shared_ints : Forall (fun p => (p < n0)%nat) (hst_ints shared).
Hypothesis shared_seeds : Forall (fun s => (hs_value s < n0)%nat) (hst_seeds shared).
Hypothesis shared_phrases : Forall (fun d => (hd_entropy d < n0)%nat /\ match hd_salt d with Some p => (p < n0)%nat | None => True end) (hst_phrases shared).
Hypothesis shared_keys : Forall (fun k => (hs_value (hk_seed k) < n0)%nat) (hst_keys shared).
Record tw_bobjects (r : list nat) (o o' : b_objects) : Prop := {
  tb_ints : mixed (mine n0 r) (hst_ints shared) (bo_ints o) (bo_ints o');
  tb_seeds : mixed (tw_seed n0 r) (hst_seeds shared) (bo_seeds o) (bo_seeds o');
  tb_phrases : mixed (tw_phrase n0 r) (hst_phrases shared) (bo_phrases o) (bo_phrases o');
  tb_keys_ : mixed (tw_key n0 r) (hst_keys shared) (bo_keys o) (bo_keys o')
}.
Lemma bobjects_grow r r2 o o' : grows r r2 -> tw_bobjects r o o' -> tw_bobjects r2 o o'.
Proof.
  intros X [A B C D]. split; (eapply mixed_grows; [|eassumption]); intros x y; first [apply mine_grows; exact X|apply seed_grows; exact X|apply phrase_grows; exact X|apply key_grows; exact X].
Qed.
Definition tw_bresult (r : list nat) (x x' : b_result) : Prop := (fst x' = fst x /\ fst x <> Panicked) /\ tw_bobjects r (snd x) (snd x').
Lemma bnothing r o o' : tw_bobjects r o o' -> twm n0 tw_bresult r (m_ret (Nothing, o)) (m_ret (Nothing, o')).
Proof. intros T. apply ret_twm. split; [split; [reflexivity|discriminate]|exact T]. Qed.
Lemma with_int r o o' n f f' : tw_bobjects r o o' ->
  (forall p p', at_ n0 r p p' -> ((length (hst_ints shared) <= n)%nat -> mine n0 r p p') -> twm n0 tw_bresult r (f p) (f' p')) ->
  twm n0 tw_bresult r (b_with (bo_ints o) n o f) (b_with (bo_ints o') n o' f').
Proof.
  intros T H. pose proof (mixed_both (mine n0 r) (at_ n0 r) _ _ _ n (tb_ints _ _ _ T)) as N. unfold b_with.
  assert (B : Forall (fun a => at_ n0 r a a) (hst_ints shared)) by (eapply Forall_impl; [|exact shared_ints]; intros p L; left; auto).
  specialize (N B (mine_at n0 r)). destruct (nth_error (bo_ints o) n), (nth_error (bo_ints o') n); try contradiction; [destruct N; apply H; assumption|apply bnothing; exact T].
Qed.
Lemma with_same {A} (R : list nat -> A -> A -> Prop) base l l' r o o' n f f' : tw_bobjects r o o' -> mixed (R r) base l l' -> Forall (fun a => R r a a) base ->
  (forall p p', R r p p' -> twm n0 tw_bresult r (f p) (f' p')) -> twm n0 tw_bresult r (b_with l n o f) (b_with l' n o' f').
Proof.
  intros T M B H. pose proof (mixed_both (R r) (R r) _ _ _ n M B (fun _ _ x => x)) as N. unfold b_with.
  destruct (nth_error l n), (nth_error l' n); try contradiction; [destruct N; apply H; assumption|apply bnothing; exact T].
Qed.
Lemma with_seed r o o' n f f' : tw_bobjects r o o' -> (forall p p', tw_seed n0 r p p' -> twm n0 tw_bresult r (f p) (f' p')) ->
  twm n0 tw_bresult r (b_with (bo_seeds o) n o f) (b_with (bo_seeds o') n o' f').
Proof.
  intros T. apply (with_same (tw_seed n0) (hst_seeds shared)); [exact T|exact (tb_seeds _ _ _ T)|]. eapply Forall_impl; [|exact shared_seeds]. intros s L. split; [left; auto|reflexivity].
Qed.
Lemma with_phrase r o o' n f f' : tw_bobjects r o o' -> (forall p p', tw_phrase n0 r p p' -> twm n0 tw_bresult r (f p) (f' p')) ->
  twm n0 tw_bresult r (b_with (bo_phrases o) n o f) (b_with (bo_phrases o') n o' f').
Proof.
  intros T. apply (with_same (tw_phrase n0) (hst_phrases shared)); [exact T|exact (tb_phrases _ _ _ T)|]. eapply Forall_impl; [|exact shared_phrases]. intros d [L S].
  split; [reflexivity|]. split; [left; auto|]. split; [|auto]. destruct (hd_salt d); [left; auto|exact I].
Qed.
Lemma with_bkey r o o' n f f' : tw_bobjects r o o' -> (forall p p', tw_key n0 r p p' -> twm n0 tw_bresult r (f p) (f' p')) ->
  twm n0 tw_bresult r (b_with (bo_keys o) n o f) (b_with (bo_keys o') n o' f').
Proof.
  intros T. apply (with_same (tw_key n0) (hst_keys shared)); [exact T|exact (tb_keys_ _ _ _ T)|]. eapply Forall_impl; [|exact shared_keys]. intros s L. split; [split; [left; auto|reflexivity]|reflexivity].
Qed.
Lemma bshow_twm {A} r o o' f f' (g : A -> seen) : tw_bobjects r o o' -> (forall a, g a <> Panicked) -> twm n0 eqs r f f' -> twm n0 tw_bresult r (b_show o f g) (b_show o' f' g).
Proof.
  intros T N F. eapply twm_bind; [exact F|]. intros r2 a a' X H. unfold eqs in H. subst a'. apply ret_twm. split; [split; [reflexivity|apply N]|exact (bobjects_grow _ _ _ _ X T)].
Qed.
Lemma bint_twm r o o' f f' : tw_bobjects r o o' -> twm n0 (mine n0) r f f' -> twm n0 tw_bresult r (b_int o f) (b_int o' f').
Proof. intros T F. eapply twm_bind; [exact F|]. intros r2 a a' X A. apply ret_twm. split; [split; [reflexivity|discriminate]|]. destruct (bobjects_grow _ _ _ _ X T) as [T1 T2 T3 T4]. split; cbn; try assumption. apply mixed_more; assumption. Qed.
Lemma bseed_twm r o o' f f' : tw_bobjects r o o' -> twm n0 (tw_seed n0) r f f' -> twm n0 tw_bresult r (b_seed o f) (b_seed o' f').
Proof. intros T F. eapply twm_bind; [exact F|]. intros r2 a a' X A. apply ret_twm. split; [split; [reflexivity|discriminate]|]. destruct (bobjects_grow _ _ _ _ X T) as [T1 T2 T3 T4]. split; cbn; try assumption. apply mixed_more; assumption. Qed.
Lemma bphrase_twm r o o' f f' : tw_bobjects r o o' -> twm n0 (tw_phrase n0) r f f' -> twm n0 tw_bresult r (b_phrase o f) (b_phrase o' f').
Proof. intros T F. eapply twm_bind; [exact F|]. intros r2 a a' X A. apply ret_twm. split; [split; [reflexivity|discriminate]|]. destruct (bobjects_grow _ _ _ _ X T) as [T1 T2 T3 T4]. split; cbn; try assumption. apply mixed_more; assumption. Qed.
Lemma bkey_twm r o o' f f' : tw_bobjects r o o' -> twm n0 (tw_key n0) r f f' -> twm n0 tw_bresult r (b_key o f) (b_key o' f').
Proof.
  intros T F. eapply twm_bind; [exact F|]. intros r2 a a' X A. apply ret_twm. split; [split; [|discriminate]|].
  - cbn [fst]. rewrite (proj2 A). reflexivity.
  - destruct (bobjects_grow _ _ _ _ X T) as [T1 T2 T3 T4]. split; cbn; try assumption. apply mixed_more; assumption.
Qed.

(** the code of any call that changes no shared integer *)
Lemma code_twm c r o o' : keeps_shared shared c -> tw_bobjects r o o' -> twm n0 tw_bresult r (b_code E c o) (b_code E c o').
Proof.
  intros L T. unfold keeps_shared in L.
  destruct c; cbn [b_code writes] in *;
    repeat first [apply with_int; [exact T|intros ? ? ? ?]|apply with_seed; [exact T|intros ? ? ?]|apply with_phrase; [exact T|intros ? ? ?]|apply with_bkey; [exact T|intros ? ? ?]];
    first [apply bint_twm; [exact T|]|apply bseed_twm; [exact T|]|apply bphrase_twm; [exact T|]|apply bkey_twm; [exact T|]|apply bshow_twm; [exact T|discriminate|]].
  all: try solve [bknown].
  bwalk. apply ret_twm. assumption.
Qed.
End Code.
