(** Lemmas about Model/CliFile.v. *)
From Coq Require Import Lia ZifyBool ZifyNat.
From Verif.Model Require Import GoBase CliMain CliFile.
From Verif.Spec Require Import DiskSpec.
From Verif.Proofs Require Import BitsP.

Lemma put_here d q n : d_at (put_inode d q n) q = n.
Proof. unfold put_inode. cbn [d_at]. rewrite bytes_eqb_refl. reflexivity. Qed.
Lemma put_there d q n p : p <> q -> d_at (put_inode d q n) p = d_at d p.
Proof. intros N. unfold put_inode. cbn [d_at]. apply bytes_eqb_neq in N. rewrite N. reflexivity. Qed.
Lemma put_elsewhere d q n : elsewhere_same q d (put_inode d q n).
Proof. split; [intros; apply put_there; auto|repeat split]. Qed.
Lemma elsewhere_refl q d : elsewhere_same q d d. Proof. repeat split. Qed.
Lemma elsewhere_trans q a b c : elsewhere_same q a b -> elsewhere_same q b c -> elsewhere_same q a c.
Proof. intros (A & B & C & D & E) (A1 & B1 & C1 & D1 & E1). split; [intros p N; rewrite A1, A by auto; reflexivity|repeat split; congruence]. Qed.
Lemma follow_leads d : forall n p q, follow n d p = Some q -> leads d p q.
Proof.
  induction n as [|n IH]; intros p q F; cbn [follow] in F; destruct (d_reach d p) eqn:R; try discriminate; destruct (d_at d p) as [| | |to] eqn:A; try discriminate;
    try (injection F as <-; apply Leads_here; [exact R|rewrite A; discriminate]).
  eapply Leads_on; eauto.
Qed.
Lemma leads_end d p q : leads d p q -> d_reach d q = true /\ forall to, d_at d q <> Link to.
Proof. induction 1; auto. Qed.
Lemma leads_one d p q : leads d p q -> forall q', leads d p q' -> q' = q.
Proof.
  induction 1 as [p R A|p to q R A L IH]; intros q' L'.
  - inversion L' as [|p' to' q1 R' A' L1]; subst; [reflexivity|]. destruct (A to' A').
  - inversion L' as [p' R' A'|p' to' q1 R' A' L1]; subst; [destruct (A' to A)|]. apply IH. congruence.
Qed.
Lemma resolve_end d p q : resolve d p = Some q -> d_reach d q = true /\ forall to, d_at d q <> Link to.
Proof. intros F. apply (leads_end d p q), (follow_leads d 40), F. Qed.
(** changing what is not a link to something that is not a link leads nowhere else *)
Lemma follow_put d q x : (forall to, d_at d q <> Link to) -> (forall to, x <> Link to) -> forall n p, follow n (put_inode d q x) p = follow n d p.
Proof.
  intros A X. induction n as [|n IH]; intros p; cbn [follow]; change (d_reach (put_inode d q x) p) with (d_reach d p); destruct (d_reach d p); auto;
    (destruct (bytes_eqb p q) eqn:B; [apply bytes_eqb_eq in B; subst p; rewrite put_here; destruct x; try (destruct (X to eq_refl)); destruct (d_at d q) eqn:Y; auto; destruct (A _ eq_refl)
      |apply bytes_eqb_neq in B; rewrite put_there by exact B; destruct (d_at d p); auto]).
Qed.
Lemma put_put d q x y : forall p, d_at (put_inode (put_inode d q x) q y) p = d_at (put_inode d q y) p.
Proof. intros p. unfold put_inode. cbn [d_at]. destruct (bytes_eqb p q); reflexivity. Qed.

(** opening to write in the absence of others *)
Lemma open_absent d p q d1 : stat d p = Stat_absent -> open_write d p word_file_mode = Some (q, d1) ->
  resolve d p = Some q /\ d_at d q = Nothing /\ d_create d q = true /\ d1 = put_inode d q (Regular (new_mode d word_file_mode) []).
Proof.
  unfold stat, open_write. intros S O. destruct (resolve d p) as [q'|] eqn:R; [|discriminate]. destruct (d_at d q') eqn:A; try discriminate.
  destruct (d_create d q') eqn:C; [|discriminate]. injection O as -> <-. auto.
Qed.
Lemma write_new d q m c : write_open (put_inode d q (Regular m [])) q c = put_inode (put_inode d q (Regular m [])) q (Regular m c).
Proof. unfold write_open. rewrite put_here. reflexivity. Qed.
Lemma new_mode_private d : only_owner (new_mode d word_file_mode) /\ (forall i, 9 <= i -> Z.testbit (new_mode d word_file_mode) i = false) /\ Z.testbit (new_mode d word_file_mode) 6 = false.
Proof.
  assert (G : forall i, Z.testbit word_file_mode i = false -> Z.testbit (new_mode d word_file_mode) i = false) by (intros i Q; unfold new_mode; rewrite Z.land_spec, Q; reflexivity).
  split; [|split].
  - intros i I. apply G. assert (C : i = 0 \/ i = 1 \/ i = 2 \/ i = 3 \/ i = 4 \/ i = 5) by lia. destruct C as [-> |[-> |[-> |[-> |[-> | ->]]]]]; reflexivity.
  - intros i I. apply G. apply Z.bits_above_log2; [discriminate|]. change (Z.log2 word_file_mode) with 8. lia.
  - apply G. reflexivity.
Qed.
Lemma new_mode_usual d : usual_umask d -> new_mode d word_file_mode = word_file_mode.
Proof.
  intros [A B]. apply Z.bits_inj'. intros i I. unfold new_mode. rewrite Z.land_spec, Z.lnot_spec by lia.
  destruct (Z.testbit word_file_mode i) eqn:Q; [|reflexivity]. cbn [andb].
  assert (C : i = 7 \/ i = 8). { destruct (Z.le_gt_cases 9 i) as [L|L]; [rewrite Z.bits_above_log2 in Q; [discriminate|discriminate|change (Z.log2 word_file_mode) with 8; lia]|].
    assert (C : i = 0 \/ i = 1 \/ i = 2 \/ i = 3 \/ i = 4 \/ i = 5 \/ i = 6 \/ i = 7 \/ i = 8) by lia. destruct C as [-> |[-> |[-> |[-> |[-> |[-> |[-> |C]]]]]]]; try discriminate Q. exact C. }
  destruct C as [-> | ->]; [rewrite A|rewrite B]; reflexivity.
Qed.

Lemma put_put_elsewhere d q x y : elsewhere_same q d (put_inode (put_inode d q x) q y).
Proof. apply (elsewhere_trans q d (put_inode d q x)); apply put_elsewhere. Qed.
Lemma not_link m c : forall to, Regular m c <> Link to. Proof. discriminate. Qed.
Lemma follow_new d q m c : d_at d q = Nothing -> forall n p, follow n (put_inode (put_inode d q (Regular m [])) q (Regular m c)) p = follow n d p.
Proof.
  intros N n p. rewrite follow_put; [apply follow_put; [rewrite N; discriminate|apply not_link]|rewrite put_here; apply not_link|apply not_link].
Qed.
(** the outcomes of saveMnemonic *)
Definition saved_as (words : list bytes) (path : bytes) (d : disk) (x : res unit * disk) : Prop :=
  (exists e, x = (Err e, d)) \/
  exists q n r, resolve d path = Some q /\ d_at d q = Nothing /\ d_create d q = true /\
    (r = Ok tt /\ firstn n (word_file_content words) = word_file_content words /\ (forall k, d_room d = Some k -> (length (word_file_content words) <= k)%nat)
     \/ r = Err ErrFileInaccessible /\ d_room d = Some n /\ (n < length (word_file_content words))%nat) /\
    x = (r, put_inode (put_inode d q (Regular (new_mode d word_file_mode) [])) q (Regular (new_mode d word_file_mode) (firstn n (word_file_content words)))).
Lemma save_outcomes words path d : saved_as words path d (save_disk words path d).
Proof.
  unfold save_disk, save_disk_with. destruct (stat d path) eqn:S; [left; eauto| |left; eauto].
  unfold os_write_file. destruct (open_write d path word_file_mode) as [[q d1]|] eqn:O; [|left; eauto].
  destruct (open_absent d path q d1 S O) as (R & N & C & ->). right. exists q.
  destruct (d_room d) as [k|] eqn:M.
  - destruct (Nat.ltb k _) eqn:L; rewrite write_new.
    + apply Nat.ltb_lt in L. exists k. eexists. split; [exact R|]. split; [exact N|]. split; [exact C|]. split; [|reflexivity]. right. auto.
    + apply Nat.ltb_ge in L. exists (length (word_file_content words)). eexists. split; [exact R|]. split; [exact N|]. split; [exact C|]. rewrite firstn_all. split; [|reflexivity]. left. split; [reflexivity|]. split; [reflexivity|].
      intros k' [= <-]. exact L.
  - exists (length (word_file_content words)). eexists. split; [exact R|]. split; [exact N|]. split; [exact C|]. rewrite write_new, firstn_all. split; [|reflexivity]. left. split; [reflexivity|]. split; [reflexivity|discriminate].
Qed.
Lemma leads_put d q x : (forall to, d_at d q <> Link to) -> (forall to, x <> Link to) -> forall p r, leads d p r -> leads (put_inode d q x) p r.
Proof.
  intros A X p r L. induction L as [p R N|p to r R N L IH].
  - apply Leads_here; [exact R|]. destruct (bytes_eqb p q) eqn:B; [apply bytes_eqb_eq in B; subst; rewrite put_here; exact X|]. apply bytes_eqb_neq in B. rewrite put_there by exact B. exact N.
  - apply Leads_on with (to := to); auto. rewrite put_there; [exact N|]. intros ->. destruct (A to N).
Qed.
Lemma follow_here n d p : d_reach d p = true -> (forall to, d_at d p <> Link to) -> follow n d p = Some p.
Proof. intros R A. destruct n; cbn [follow]; rewrite R; destruct (d_at d p) eqn:Q; auto; destruct (A _ eq_refl). Qed.
Lemma resolve_here d p : d_reach d p = true -> (forall to, d_at d p <> Link to) -> resolve d p = Some p.
Proof. apply follow_here. Qed.
Lemma follow_link n d p q : d_reach d p = true -> d_at d p = Link q -> d_reach d q = true -> (forall to, d_at d q <> Link to) -> follow (S n) d p = Some q.
Proof. intros R A R' A'. cbn [follow]. rewrite R, A. apply follow_here; auto. Qed.
Lemma resolve_link d p q : d_reach d p = true -> d_at d p = Link q -> d_reach d q = true -> (forall to, d_at d q <> Link to) -> resolve d p = Some q.
Proof. apply follow_link. Qed.
Lemma resolve_leads d p q : resolve d p = Some q -> leads d p q.
Proof. apply follow_leads. Qed.
Lemma resolve_new d q m c : d_at d q = Nothing -> forall p, resolve (put_inode (put_inode d q (Regular m [])) q (Regular m c)) p = resolve d p.
Proof. intros N p. apply follow_new, N. Qed.
Lemma follow_link2 n d o p q : d_reach d o = true -> d_at d o = Link p -> d_reach d p = true -> d_at d p = Link q -> d_reach d q = true -> (forall to, d_at d q <> Link to) -> follow (S (S n)) d o = Some q.
Proof. intros R A R' A' R2 A2. remember (S n) as k. cbn [follow]. rewrite R, A. subst k. apply follow_link; auto. Qed.
Lemma resolve_link2 d o p q : d_reach d o = true -> d_at d o = Link p -> d_reach d p = true -> d_at d p = Link q -> d_reach d q = true -> (forall to, d_at d q <> Link to) -> resolve d o = Some q.
Proof. apply follow_link2. Qed.
