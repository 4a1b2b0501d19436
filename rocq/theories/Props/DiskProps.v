(** The word file on a disk with links and permission bits (C87, C88). *)
From Coq Require Import Lia ZifyBool ZifyNat.
From Verif.Model Require Import GoBase Env Version GoTime Seed Encoding Recovery PgpKeys Mnemonikey CliText CliInput CliFlags CliMain CliFile.
From Verif.Spec Require Import DiskSpec.
From Verif.Proofs Require Import BitsP MainP DiskP EnvInst CliInst.
From Verif.Props Require Import LifeProps FileProps EndProps.

(** a disk with files at the given paths *)
Definition disk_of (l : list (bytes * inode)) (umask : Z) (room : option nat) : disk :=
  mk_disk (fun p => fold_right (fun x r => if bytes_eqb p (fst x) then snd x else r) Nothing l) umask (fun _ => true) (fun _ => true) room.
Definition some_words : list bytes := [bs "hybrid"; bs "legend"; bs "tray"].

(** * C87: the word file is readable by its owner only, from the moment it exists *)
Theorem save_private : forall ws p d d', save_disk ws p d = (Ok tt, d') ->
  exists q m, leads d p q /\ d_at d q = Nothing /\ leads d' p q /\ d_at d' q = Regular m (word_file_content ws) /\
    only_owner m /\ (usual_umask d -> m = 384 /\ owner_reads m) /\ elsewhere_same q d d'.
Proof.
  intros ws p d d' S. pose proof (save_outcomes ws p d) as O. rewrite S in O.
  destruct O as [(e & Q)|(q & n & r & R & N & C & X & Q)]; [discriminate Q|]. apply pair_equal_spec in Q as [<- ->]. destruct X as [(_ & F & _)|(X & _)]; [|discriminate X]. rewrite F.
  assert (L : leads d p q) by exact (resolve_leads d p q R).
  exists q, (new_mode d word_file_mode). split; [exact L|]. split; [exact N|].
  split; [apply leads_put; [rewrite put_here; apply not_link|apply not_link|]; apply leads_put; [rewrite N; discriminate|apply not_link|exact L]|].
  split; [apply put_here|]. split; [apply new_mode_private|]. split; [|apply put_put_elsewhere].
  intros U. unfold owner_reads. rewrite (new_mode_usual d U). split; reflexivity.
Qed.
Print Assumptions save_private.
(** at no time during the save does the disk hold the phrase, or a part of it, where others can read it,
    and nothing else is changed *)
Theorem seen_private : forall ws p d x, save_seen ws p d x ->
  x = d \/ exists q m n, leads d p q /\ d_at d q = Nothing /\ d_at x q = Regular m (firstn n (word_file_content ws)) /\ only_owner m /\ elsewhere_same q d x.
Proof.
  intros ws p d x [|q d1 n S O]; [left; reflexivity|]. right.
  destruct (open_absent d p q d1 S O) as (R & N & C & ->). rewrite write_new.
  exists q, (new_mode d word_file_mode), n. split; [exact (resolve_leads d p q R)|]. split; [exact N|]. split; [apply put_here|]. split; [apply new_mode_private|apply put_put_elsewhere].
Qed.
Print Assumptions seen_private.
(** the disk left behind is one of those *)
Theorem save_seen_last : forall ws p d, (exists x, save_seen ws p d x /\ snd (save_disk ws p d) = x) /\ fst (save_disk ws p d) <> Panic.
Proof.
  intros ws p d. split.
  - unfold save_disk, save_disk_with. destruct (stat d p) eqn:S; [exists d; split; [constructor|reflexivity]| |exists d; split; [constructor|reflexivity]].
    unfold os_write_file. destruct (open_write d p word_file_mode) as [[q d1]|] eqn:O; [|exists d; split; [constructor|reflexivity]].
    destruct (d_room d) as [k|]; [destruct (Nat.ltb k _)|].
    + eexists. split; [apply (Seen_writing ws p d q d1 k S O)|reflexivity].
    + eexists. split; [apply (Seen_writing ws p d q d1 (length (word_file_content ws)) S O)|]. rewrite firstn_all. reflexivity.
    + eexists. split; [apply (Seen_writing ws p d q d1 (length (word_file_content ws)) S O)|]. rewrite firstn_all. reflexivity.
  - destruct (save_outcomes ws p d) as [(e & Q)|(q & n & r & _ & _ & _ & [[-> _]|[-> _]] & Q)]; rewrite Q; discriminate.
Qed.
Print Assumptions save_seen_last.
(** what exists is left alone, also at the end of links, and a path that leads nowhere is refused *)
Theorem save_refuses_disk : forall ws p d, (forall q, leads d p q -> d_at d q <> Nothing) -> exists e, save_disk ws p d = (Err e, d).
Proof.
  intros ws p d H. destruct (save_outcomes ws p d) as [(e & Q)|(q & n & r & R & N & C & X & Q)]; [eauto|].
  destruct (H q (resolve_leads d p q R) N).
Qed.
Print Assumptions save_refuses_disk.
(** a place where a file can be created is written *)
Theorem save_accepts_disk : forall ws p d, d_reach d p = true -> d_at d p = Nothing -> d_create d p = true -> d_room d = None -> exists d', save_disk ws p d = (Ok tt, d').
Proof.
  intros ws p d R N C M. unfold save_disk, save_disk_with, stat, os_write_file, open_write. rewrite resolve_here by (rewrite ?N; auto; discriminate). rewrite N, C, M. eauto.
Qed.
Print Assumptions save_accepts_disk.

(** not so when another process gets between the check and the write: a file made there in the meantime
    keeps its mode, be it readable by everyone *)
Theorem save_private_refuted : forall ws p d mode old, d_reach d p = true -> d_at d p = Nothing -> d_room d = None -> Z.testbit mode 7 = true ->
  exists d', save_disk_with (fun d => put_inode d p (Regular mode old)) ws p d = (Ok tt, d') /\ d_at d' p = Regular mode (word_file_content ws).
Proof.
  intros ws p d mode old R N M W. unfold save_disk_with, stat, os_write_file, open_write. rewrite resolve_here by (rewrite ?N; auto; discriminate). rewrite N.
  rewrite resolve_here by (rewrite ?put_here; auto; discriminate).
  change (d_room (put_inode d p (Regular mode old))) with (d_room d).
  rewrite put_here, W, M. unfold write_open. rewrite put_here. eexists. split; [reflexivity|]. apply put_here.
Qed.
Print Assumptions save_private_refuted.
(** and a link made there in the meantime leads to the loss of the file at its end *)
Theorem save_race_link_refuted : forall ws p q d mode old, p <> q -> d_reach d p = true -> d_reach d q = true -> d_at d p = Nothing -> d_at d q = Regular mode old -> Z.testbit mode 7 = true -> d_room d = None ->
  exists d', save_disk_with (fun d => put_inode d p (Link q)) ws p d = (Ok tt, d') /\ d_at d' q = Regular mode (word_file_content ws).
Proof.
  intros ws p q d mode old PQ R R' N A W M. assert (QP : q <> p) by auto. unfold save_disk_with, stat, os_write_file, open_write. rewrite resolve_here by (rewrite ?N; auto; discriminate). rewrite N.
  assert (B : d_at (put_inode d p (Link q)) q = Regular mode old) by (rewrite put_there by exact QP; exact A).
  rewrite (resolve_link (put_inode d p (Link q)) p q); [|exact R|apply put_here|exact R'|rewrite B; discriminate].
  change (d_room (put_inode d p (Link q))) with (d_room d).
  rewrite B, W, M. unfold write_open. rewrite put_here. eexists. split; [reflexivity|]. apply put_here.
Qed.
Print Assumptions save_race_link_refuted.
(** The file need not be created at the path given: os.Stat reports a link that leads to nothing as
    absent, and the file is created where it leads. *)
Theorem save_here_refuted : forall ws p q d, p <> q -> d_reach d p = true -> d_reach d q = true -> d_at d p = Link q -> d_at d q = Nothing -> d_create d q = true -> d_room d = None ->
  exists d', save_disk ws p d = (Ok tt, d') /\ d_at d' p = Link q /\ exists m, d_at d' q = Regular m (word_file_content ws).
Proof.
  intros ws p q d PQ R R' A N C M. unfold save_disk, save_disk_with, stat, os_write_file, open_write. rewrite (resolve_link d p q) by (rewrite ?N; auto; discriminate). rewrite N, C, M, write_new.
  eexists. split; [reflexivity|]. rewrite !put_there by exact PQ. split; [exact A|]. rewrite put_here. eauto.
Qed.
Print Assumptions save_here_refuted.

(** cases: through two links, with the umask 022 and with 077; a full disk; a file at the end of a link;
    a world-readable file made in the meantime *)
Definition linked (n : inode) (room : option nat) : disk := disk_of [(bs "a", Link (bs "b")); (bs "b", Link (bs "c")); (bs "c", n)] 0x12 room.
Example save_private_case : exists d', save_disk some_words (bs "a") (linked Nothing None) = (Ok tt, d') /\ usual_umask (linked Nothing None) /\
  d_at d' (bs "c") = Regular 384 (bs "hybrid legend tray" ++ [10]) /\ d_at d' (bs "a") = Link (bs "b").
Proof. eexists. split; [vm_compute; reflexivity|]. split; [split; reflexivity|]. split; vm_compute; reflexivity. Qed.
Example seen_private_case : exists x, save_seen some_words (bs "a") (linked Nothing None) x /\ d_at x (bs "c") = Regular 384 (bs "hybrid ").
Proof.
  destruct (open_write (linked Nothing None) (bs "a") word_file_mode) as [[q d1]|] eqn:O; [|vm_compute in O; discriminate O].
  eexists. split; [apply (Seen_writing _ _ _ q d1 7); [vm_compute; reflexivity|exact O]|]. vm_compute in O. injection O as <- <-. vm_compute. reflexivity.
Qed.
Example save_full_case : exists d', save_disk some_words (bs "a") (linked Nothing (Some 7%nat)) = (Err ErrFileInaccessible, d') /\ d_at d' (bs "c") = Regular 384 (bs "hybrid ").
Proof. eexists. split; vm_compute; reflexivity. Qed.
Lemma linked_leads n room q : (forall to, n <> Link to) -> leads (linked n room) (bs "a") q -> q = bs "c".
Proof.
  intros N L. apply (leads_one (linked n room) (bs "a") (bs "c")) in L; [exact L|].
  apply Leads_on with (to := bs "b"); [reflexivity..|]. apply Leads_on with (to := bs "c"); [reflexivity..|]. apply Leads_here; [reflexivity|exact N].
Qed.
Example save_refuses_disk_case : (forall q, leads (linked (Regular 420 (bs "x")) None) (bs "a") q -> d_at (linked (Regular 420 (bs "x")) None) q <> Nothing) /\
  fst (save_disk some_words (bs "a") (linked (Regular 420 (bs "x")) None)) = Err ErrFileExists /\
  fst (save_disk some_words (bs "a") (disk_of [(bs "a", Link (bs "a"))] 0x12 None)) = Err ErrFileInaccessible.
Proof. split; [|split; vm_compute; reflexivity]. intros q L. apply linked_leads in L; [|discriminate]. subst q. vm_compute. discriminate. Qed.
Example save_private_refuted_case : let d := linked Nothing None in d_reach d (bs "d") = true /\ d_at d (bs "d") = Nothing /\ d_room d = None /\ Z.testbit 420 7 = true /\ ~ only_owner 420.
Proof. repeat split; [reflexivity..|]. intros O. assert (I : 0 <= 2 < 6) by lia. discriminate (O 2 I). Qed.
Example save_race_link_case : let d := linked (Regular 420 (bs "x")) None in bs "d" <> bs "c" /\ d_reach d (bs "d") = true /\ d_reach d (bs "c") = true /\ d_at d (bs "d") = Nothing /\ d_at d (bs "c") = Regular 420 (bs "x") /\ d_room d = None.
Proof. repeat split; try reflexivity. discriminate. Qed.
Example save_here_refuted_case : let d := linked Nothing None in bs "b" <> bs "c" /\ d_reach d (bs "b") = true /\ d_at d (bs "b") = Link (bs "c") /\ d_at d (bs "c") = Nothing /\ d_create d (bs "c") = true /\ d_room d = None.
Proof. repeat split; try reflexivity. discriminate. Qed.

(** * C88: the files of CliMain.v stand for such disks *)
Lemma view_same d q m c : d_at d q = Nothing -> forall p, resolve d p <> Some q -> view (put_inode (put_inode d q (Regular m [])) q (Regular m c)) p = view d p.
Proof.
  intros N p P. unfold view. rewrite (resolve_new d q m c N). destruct (resolve d p) as [r|] eqn:R; [|reflexivity].
  assert (RQ : r <> q) by congruence. rewrite !put_there by exact RQ. reflexivity.
Qed.
Lemma view_written d q m c : d_at d q = Nothing -> Z.testbit m 8 = true -> forall p, resolve d p = Some q -> view (put_inode (put_inode d q (Regular m [])) q (Regular m c)) p = File c.
Proof. intros N M p P. unfold view. rewrite (resolve_new d q m c N), P, put_here, M. reflexivity. Qed.
(** a save on the disk is a save in the model of the commands: the same outcome, and then the same files;
    a path that leads to the same place as the one given then shows what that shows *)
Theorem save_disk_view : forall ws p d w r d' x w', usual_umask d -> w_files w p = view d p ->
  save_disk ws p d = (r, d') -> save_mnemonic ws p w = (x, w') ->
  x = of_res r /\ w_files w' p = view d' p /\ (forall p', p' <> p -> w_files w' p' = w_files w p') /\
  forall p', (view d' p' = view d p' \/ exists q, leads d p q /\ leads d p' q /\ view d' p' = view d' p).
Proof.
  intros ws p d w r d' x w' U V S M. pose proof (save_outcomes ws p d) as O. rewrite S in O. rewrite save_cases, V in M.
  destruct O as [(e & Q)|(q & n & r' & R & N & C & X & Q)].
  - apply pair_equal_spec in Q as [-> ->]. cut (x = Fail e /\ forall p', w_files w' p' = w_files w p').
    { intros (A & B). split; [exact A|]. rewrite B. split; [exact V|]. split; [auto|]. intros p'. left. reflexivity. }
    unfold save_disk, save_disk_with, stat in S. unfold view in M. destruct (resolve d p) as [q|] eqn:R; [|injection S as <-; injection M as <- <-; auto].
    pose proof (resolve_end d p q R) as (_ & NL).
    destruct (d_at d q) as [|m c| |to] eqn:A; [|destruct (Z.testbit m 8); injection S as <-; injection M as <- <-; auto|injection S as <-; injection M as <- <-; auto|destruct (NL to eq_refl)].
    unfold os_write_file, open_write in S. rewrite R, A in S. destruct (d_create d q) eqn:C.
    + exfalso. destruct (d_room d) as [k|]; [destruct (Nat.ltb k _); [|discriminate S]|discriminate S].
      injection S as _ S. assert (B : d_at d q = Nothing) by exact A. rewrite <- S, write_new, put_here in B. discriminate B.
    + injection S as <-. injection M as <- <-. split; [reflexivity|]. intros p'. cbn [set_files w_files]. unfold put_file. destruct (bytes_eqb p' p) eqn:B; [|reflexivity].
      apply bytes_eqb_eq in B. subst p'. rewrite V. unfold view. rewrite R, A, C. reflexivity.
  - apply pair_equal_spec in Q as [<- ->]. rewrite (new_mode_usual d U).
    assert (W : forall c, view (put_inode (put_inode d q (Regular word_file_mode [])) q (Regular word_file_mode c)) p = File c) by (intros c; apply view_written; auto).
    assert (VP : view d p = Absent (d_room d)) by (unfold view; rewrite R, N, C; reflexivity). rewrite VP in M.
    assert (G : x = of_res r /\ w_files w' = put_file (w_files w) p (File (firstn n (word_file_content ws)))).
    { destruct X as [(-> & F & K)|(-> & K & L)].
      - rewrite F. destruct (d_room d) as [k|]; [specialize (K k eq_refl); apply Nat.ltb_ge in K; rewrite K in M|]; injection M as <- <-; auto.
      - rewrite K in M. apply Nat.ltb_lt in L. rewrite L in M. injection M as <- <-. auto. }
    destruct G as (-> & G). split; [reflexivity|]. rewrite G. split; [rewrite put_same, W; reflexivity|].
    split; [intros p' NE; apply put_other; exact NE|]. intros p'. destruct (resolve d p') as [q'|] eqn:R'.
    + destruct (bytes_eqb q' q) eqn:B.
      * apply bytes_eqb_eq in B. subst q'. right. exists q. split; [exact (resolve_leads d p q R)|]. split; [exact (resolve_leads d p' q R')|]. rewrite W. apply view_written; auto.
      * apply bytes_eqb_neq in B. left. apply view_same; [exact N|congruence].
    + left. apply view_same; [exact N|congruence].
Qed.
Print Assumptions save_disk_view.

(** an action that leaves the files as they are or saves words to [path], and succeeds only if that does *)
Definition saves {A} (path : bytes) (fs : files) (a : action A) : Prop := forall w r w', w_files w = fs -> a w = (r, w') ->
  (w_files w' = fs /\ forall u, r <> Ret u) \/
  exists ws v x v', w_files v = fs /\ save_mnemonic ws path v = (x, v') /\ w_files w' = w_files v' /\ ((exists u, r = Ret u) -> x = Ret tt).
Lemma saves_after {A B} path fs (a : action A) (b : A -> action B) : keeps w_files a -> (forall x, saves path fs (b x)) -> saves path fs (andthen a b).
Proof.
  intros K S w r w' F H. specialize (K w). unfold andthen in H. destruct (a w) as [[x|e| | |c] v]; cbn [snd] in K;
    [|(left; injection H as <- <-; split; [congruence|discriminate])..].
  apply (S x v r w'); [congruence|exact H].
Qed.
Lemma saves_first {B} path fs ws (b : unit -> action B) : (forall x, keeps w_files (b x)) -> saves path fs (andthen (save_mnemonic ws path) b).
Proof.
  intros K w r w' F H. right. exists ws, w. unfold andthen in H. destruct (save_mnemonic ws path w) as [x v] eqn:S. exists x, v. split; [exact F|]. split; [reflexivity|].
  destruct x as [[]|e| | |c]; [|(injection H as <- <-; split; [reflexivity|]; intros (u & U); discriminate U)..].
  specialize (K tt v). rewrite H in K. cbn [snd] in K. split; [exact K|auto].
Qed.
Lemma generate_saves E o w r w' : go_out_file o <> [] -> generate_and_print E o w = (r, w') ->
  (w_files w' = w_files w /\ forall u, r <> Ret u) \/
  exists ws v x v', w_files v = w_files w /\ save_mnemonic ws (go_out_file o) v = (x, v') /\ w_files w' = w_files v' /\ ((exists u, r = Ret u) -> x = Ret tt).
Proof.
  intros NE H. cut (saves (go_out_file o) (w_files w) (generate_and_print E o)); [intros S; exact (S w r w' eq_refl H)|]. clear H.
  intros v. unfold generate_and_print. cbv zeta. generalize (w_now v) as c. intros c. revert v.
  match goal with |- forall v r w', w_files v = ?fs -> ?a v = _ -> _ => change (saves (go_out_file o) fs a) end.
  do 7 (apply saves_after; [keeping blind_files|intros ?];
          match goal with |- saves _ _ (let '(_, _) := ?x in _) => destruct x | _ => idtac end).
  destruct (go_out_file o) eqn:Q; [congruence|]. apply saves_first. intros _. apply keeps_andthen; [apply keeps_files_print|intros _; apply keeps_ret].
Qed.
(** generate with -out-word-file on such a disk: it succeeds only if the phrase was saved for its owner
    alone; otherwise the disk is unchanged or has a part of the phrase, for the owner alone *)
Theorem generate_private : forall E o w r w' d, go_out_file o <> [] -> usual_umask d -> w_files w (go_out_file o) = view d (go_out_file o) ->
  generate_and_print E o w = (r, w') ->
  exists d', w_files w' (go_out_file o) = view d' (go_out_file o) /\
    (r = Ret tt -> d' <> d) /\
    (d' = d \/ exists q ws n, leads d (go_out_file o) q /\ d_at d q = Nothing /\ d_at d' q = Regular 384 (firstn n (word_file_content ws)) /\
                 elsewhere_same q d d' /\ (r = Ret tt -> firstn n (word_file_content ws) = word_file_content ws)).
Proof.
  intros E o w r w' d NE U V H. destruct (generate_saves E o w r w' NE H) as [(F & NR)|(ws & v & x & v' & F & S & F' & OK)].
  - exists d. rewrite F. split; [exact V|]. split; [intros ->; destruct (NR tt eq_refl)|]. left. reflexivity.
  - destruct (save_disk ws (go_out_file o) d) as [r0 d'] eqn:D. exists d'.
    destruct (save_disk_view ws (go_out_file o) d v r0 d' x v' U) as (X & Y & _); [congruence|exact D|exact S|]. rewrite F'. split; [exact Y|].
    pose proof (save_outcomes ws (go_out_file o) d) as O. rewrite D in O. destruct O as [(e & Q)|(q & n & r1 & R & N & C & Z & Q)].
    + apply pair_equal_spec in Q as [-> ->]. split; [intros ->|left; reflexivity]. exfalso. specialize (OK (ex_intro _ tt eq_refl)). rewrite OK in X. discriminate X.
    + apply pair_equal_spec in Q as [<- ->]. rewrite (new_mode_usual d U). split.
      * intros _ B. assert (A : d_at d q = Nothing) by exact N. rewrite <- B, put_here in A. discriminate A.
      * right. exists q, ws, n. split; [exact (resolve_leads d _ q R)|]. split; [exact N|]. split; [apply put_here|]. split; [apply put_put_elsewhere|].
        intros ->. specialize (OK (ex_intro _ tt eq_refl)). rewrite OK in X. destruct Z as [(_ & Z & _)|(-> & _)]; [exact Z|discriminate X].
Qed.
Print Assumptions generate_private.
(** case: generate saving the phrase through two links; a third path to the same place shows it as well *)
Definition linked_start : world := set_files case_start (view (linked Nothing None)).
Lemma linked_start_files : forall p c, w_files linked_start p = File c -> Forall EnvSpec.byte c.
Proof.
  intros p c Q. exfalso. change (w_files linked_start p) with (view (linked Nothing None) p) in Q. unfold view in Q. destruct (resolve (linked Nothing None) p) as [q|]; [|discriminate Q].
  unfold linked, disk_of in Q. cbn [d_at fold_right fst snd d_create d_room] in Q. destruct (bytes_eqb q (bs "a")), (bytes_eqb q (bs "b")), (bytes_eqb q (bs "c")); discriminate Q.
Qed.
Example generate_private_case : exists w', generate_and_print toy_env (case_generate false (bs "a")) linked_start = (Ret tt, w') /\
  usual_umask (linked Nothing None) /\ w_files linked_start (bs "a") = Absent None /\
  exists d' words, w_files w' (bs "a") = File (word_file_content words) /\ d_at d' (bs "c") = Regular 384 (word_file_content words) /\ view d' (bs "b") = w_files w' (bs "a").
Proof.
  assert (U : usual_umask (linked Nothing None)) by (split; reflexivity).
  assert (V : w_files linked_start (bs "a") = Absent None) by (vm_compute; reflexivity).
  destruct (generate_works toy_env toy_verify (case_generate false (bs "a")) linked_start (31536000 * second) true (Some [bs "encryption"])) as (w' & G & _);
    [apply toy_wordlist_ok|apply toy_argon_ok|apply toy_aes_ok|apply toy_hkdf_ok|apply toy_env_ok|destruct case_start_ok as (W1 & W2 & W3); split; [exact W1|split; [exact W2|exact linked_start_files]]|reflexivity
    |vm_compute; reflexivity|vm_compute; congruence|vm_compute; reflexivity|vm_compute; reflexivity|vm_compute; intuition congruence
    |reflexivity|vm_compute; lia|discriminate|discriminate|intros _; exact V|].
  exists w'. split; [exact G|]. split; [exact U|]. split; [exact V|].
  destruct (generate_private toy_env (case_generate false (bs "a")) linked_start (Ret tt) w' (linked Nothing None) ltac:(discriminate) U eq_refl G)
    as (d' & F & ND & [Q|(q & ws & n & L & N & A & S & C)]); [destruct (ND eq_refl Q)|].
  apply linked_leads in L; [|discriminate]. subst q. rewrite (C eq_refl) in A. exists d', ws.
  assert (LA : d_at d' (bs "a") = Link (bs "b")) by (destruct S as (S & _); rewrite S by discriminate; reflexivity).
  assert (LB : d_at d' (bs "b") = Link (bs "c")) by (destruct S as (S & _); rewrite S by discriminate; reflexivity).
  assert (RE : forall p, d_reach d' p = true) by (destruct S as (_ & _ & S & _); rewrite S; reflexivity).
  assert (WB : view d' (bs "b") = File (word_file_content ws)).
  { unfold view. rewrite (resolve_link d' (bs "b") (bs "c")); [|apply RE|exact LB|apply RE|rewrite A; discriminate]. rewrite A. reflexivity. }
  assert (WA : view d' (bs "a") = File (word_file_content ws)).
  { unfold view. rewrite (resolve_link2 d' (bs "a") (bs "b") (bs "c")); [|apply RE|exact LA|apply RE|exact LB|apply RE|rewrite A; discriminate]. rewrite A. reflexivity. }
  change (go_out_file (case_generate false (bs "a"))) with (bs "a") in F. rewrite F, WA, WB. auto.
Qed.
Example save_disk_view_case : exists d' w', save_disk some_words (bs "a") (linked Nothing None) = (Ok tt, d') /\ save_mnemonic some_words (bs "a") linked_start = (Ret tt, w') /\
  w_files linked_start (bs "a") = view (linked Nothing None) (bs "a") /\ w_files w' (bs "a") = view d' (bs "a") /\ view d' (bs "a") = File (bs "hybrid legend tray" ++ [10]) /\
  view d' (bs "c") <> w_files w' (bs "c").
Proof.
  exists (snd (save_disk some_words (bs "a") (linked Nothing None))), (snd (save_mnemonic some_words (bs "a") linked_start)).
  split; [vm_compute; reflexivity|]. split; [vm_compute; reflexivity|]. split; [reflexivity|]. split; [vm_compute; reflexivity|]. split; [vm_compute; reflexivity|]. vm_compute. discriminate.
Qed.
