(** Simple phrase entry when standard input arrives in pieces (C106). *)
From Coq Require Import Lia ZifyBool ZifyNat.
From Verif.Model Require Import GoBase Env Version Recovery CliText CliInput Scanner.
From Verif.Spec Require Import EnvSpec CliEnvSpec InputSpec ScanSpec.
From Verif.Proofs Require Import BitsP PgpP EnvInst InputP CliInst EntryP ScanP.
From Verif.Props Require Import InputProps.

(** The words, or the error, are those of CliInput.v for the text of the pieces; what CliInput.v leaves is what the scanner holds
    and, unless it has seen the end of the input, what is still to be read.  It holds at most 65536 bytes. *)
Theorem simple_in_pieces : forall E src r s src',
  scanned_mnemonic E src = (r, s, src') ->
  fst (user_input_mnemonic_simple E (text src)) = r /\
  (forall ws, r = Ok ws ->
     snd (user_input_mnemonic_simple E (text src)) = sc_data s ++ (match sc_err s with None => text src' | Some _ => [] end) /\
     zlen (sc_data s) <= 65536).
Proof.
  intros E src r s src' H. unfold scanned_mnemonic in H. unfold user_input_mnemonic_simple. pose proof (text_short src) as T.
  change (text src) with (to_come new_scanner src) in T at 1.
  pose proof (loop_ok E (S (length (concat src))) (S (length (text src))) 0 1 [] new_scanner src new_sane) as L.
  rewrite H in L. change (to_come new_scanner src) with (text src) in *. destruct L as (A & B); [lia|lia|]. split; [exact A|].
  intros ws Q. destruct (B ws Q) as (C & [S1 S2 S3 _ _]). split; [exact C|]. unfold sc_end in S2. lia.
Qed.
Print Assumptions simple_in_pieces.

(** So how a text is cut into pieces does not matter. *)
Theorem pieces_do_not_matter : forall E src1 src2,
  text src1 = text src2 -> fst (fst (scanned_mnemonic E src1)) = fst (fst (scanned_mnemonic E src2)).
Proof.
  intros E src1 src2 H. destruct (scanned_mnemonic E src1) as [[r1 s1] t1] eqn:Q1. destruct (scanned_mnemonic E src2) as [[r2 s2] t2] eqn:Q2.
  apply simple_in_pieces in Q1 as [<- _]. apply simple_in_pieces in Q2 as [<- _]. rewrite H. reflexivity.
Qed.
Print Assumptions pieces_do_not_matter.

(** At a terminal nothing is read ahead: after the last word the reads of the next prompt begin with the next line entered, whether
    it was typed before or after that prompt.  This is what CliInput.v and CliMain.v take for granted. *)
Theorem typed_ahead_kept : forall E src ws s src',
  Forall entered_line src -> Forall (fun p => p <> []) src ->
  scanned_mnemonic E src = (Ok ws, s, src') ->
  sc_data s = [] /\ user_input_mnemonic_simple E (concat src) = (Ok ws, concat src').
Proof.
  intros E src ws s src' F N H. pose proof H as H2. apply simple_in_pieces in H2 as (A & B). destruct (B ws eq_refl) as (C & _).
  unfold scanned_mnemonic in H. apply loop_entered in H; [|apply new_sane|reflexivity|split; [exact F|split; [exact N|intros X; exfalso; apply X; reflexivity]]].
  destruct H as (D & _ & P2 & P3). split; [exact D|]. rewrite <- (text_all src N).
  rewrite (surjective_pairing (user_input_mnemonic_simple E (text src))). rewrite A, C, D. cbn [app]. f_equal.
  destruct (sc_err s) eqn:SE; [rewrite P3 by congruence; reflexivity|apply text_all; exact P2].
Qed.
Print Assumptions typed_ahead_kept.

(** ** The hypotheses are met *)
(** the lines of C51 as a terminal gives them, with a password typed ahead: it is left *)
Definition typed : list bytes := map (fun p => text_of_lines [p]) case_lines ++ [bs "secret" ++ [10]; bs "half a li"].
Lemma entered_check p : forallb (fun b => negb (b =? 10)) (removelast p) = true -> entered_line p.
Proof.
  intros H a b ->. destruct b as [|c b]; [reflexivity|]. exfalso. rewrite forallb_forall in H.
  assert (X : In 10 (removelast (a ++ 10 :: c :: b))).
  { rewrite removelast_app by discriminate. apply in_or_app. right. left. reflexivity. }
  specialize (H _ X). discriminate.
Qed.
Lemma typed_entered : Forall entered_line typed /\ Forall (fun p => p <> []) typed.
Proof.
  split.
  - assert (B : forallb (fun p => forallb (fun b => negb (b =? 10)) (removelast p)) typed = true) by (vm_compute; reflexivity).
    rewrite forallb_forall in B. apply Forall_forall. intros p P. apply entered_check, B, P.
  - assert (B : forallb (fun p => negb (zlen p =? 0)) typed = true) by (vm_compute; reflexivity).
    rewrite forallb_forall in B. apply Forall_forall. intros p P ->. specialize (B _ P). discriminate.
Qed.
Example typed_case : exists s, scanned_mnemonic toy_env typed = (Ok case_words, s, [bs "aaa" ++ [10]; bs "secret" ++ [10]; bs "half a li"]).
Proof. eexists. vm_compute. reflexivity. Qed.

Lemma whole_case : exists s, scanned_mnemonic toy_env [concat typed] = (Ok case_words, s, []).
Proof. eexists. vm_compute. reflexivity. Qed.
Lemma whole_piece : Forall (fun p : bytes => p <> []) [concat typed].
Proof. constructor; [|constructor]. intros W. apply (f_equal zlen) in W. vm_compute in W. discriminate W. Qed.
Lemma whole_left : zlen (snd (user_input_mnemonic_simple toy_env (concat [concat typed]))) = 20.
Proof. vm_compute. reflexivity. Qed.
(** Without the terminal it is false: of a pipe or a file the scanner takes what follows the phrase, and neither the program nor
    another one sharing its standard input gets to see it.  (A password prompt needs a terminal, so only others are concerned.) *)
Theorem read_ahead_refuted : ~ (forall E src ws s src', Forall (fun p => p <> []) src ->
  scanned_mnemonic E src = (Ok ws, s, src') ->
  user_input_mnemonic_simple E (concat src) = (Ok ws, concat src')).
Proof.
  intros H. destruct whole_case as (s & Q). specialize (H _ _ _ _ _ whole_piece Q).
  pose proof whole_left as L. rewrite H in L. discriminate L.
Qed.
Print Assumptions read_ahead_refuted.

(** pieces cut anywhere, and the same text in one *)
Example cut_case : text [bs "hello"; [10]; bs "x"; []; bs "y"] = text [bs "hello" ++ [10] ++ bs "x"].
Proof. vm_compute. reflexivity. Qed.
(** Ctrl+D inside: the end of the input, though more could be read *)
Example eof_case : fst (fst (scanned_mnemonic toy_env ([] :: typed))) = Err ErrInputEOF.
Proof. vm_compute. reflexivity. Qed.
