(** Lemmas about the commands (Model/CliMain.v): what they leave alone. *)
From Coq Require Import Lia ZifyBool ZifyNat.
From Verif.Model Require Import GoBase Env Version Seed Encoding Recovery PgpKeys Mnemonikey CliText CliInput CliFlags CliMain.
From Verif.Spec Require Import EnvSpec CliEnvSpec InputSpec.
From Verif.Proofs Require Import BitsP PgpP InputP EntryP.
Ltac Zify.zify_post_hook ::= Z.div_mod_to_equations.

(** an action that does not change [f] of the world *)
Definition keeps {A X} (f : world -> X) (a : action A) : Prop := forall w, f (snd (a w)) = f w.
(** input and randomness do not matter to [f] *)
Record blind {X} (f : world -> X) : Prop := mk_blind {
  bl_stdin : forall w x, f (set_stdin w x) = f w;
  bl_prompts : forall w x, f (set_prompts w x) = f w;
  bl_random : forall w x, f (set_random w x) = f w
}.
Lemma blind_files : blind w_files. Proof. constructor; reflexivity. Qed.
Lemma blind_usage : blind w_usage. Proof. constructor; reflexivity. Qed.
Lemma blind_stdout : blind w_stdout. Proof. constructor; reflexivity. Qed.
Lemma blind_shown : blind w_shown. Proof. constructor; reflexivity. Qed.
Lemma blind_tty : blind w_tty. Proof. constructor; reflexivity. Qed.
Lemma blind_width : blind w_width. Proof. constructor; reflexivity. Qed.
Lemma blind_now : blind w_now. Proof. constructor; reflexivity. Qed.

Section Keeps.
Context {X : Type} (f : world -> X).
Lemma keeps_ret {A} (a : A) : keeps f (ret a). Proof. intros w. reflexivity. Qed.
Lemma keeps_fail {A} e : keeps f (@fail A e). Proof. intros w. reflexivity. Qed.
Lemma keeps_lift {A} (r : res A) : keeps f (lift r). Proof. intros w. reflexivity. Qed.
Lemma keeps_andthen {A B} (a : action A) (b : A -> action B) : keeps f a -> (forall x, keeps f (b x)) -> keeps f (andthen a b).
Proof.
  intros KA KB w. unfold andthen. specialize (KA w). destruct (a w) as [[x|e| | |c] w']; cbn [snd] in *; auto.
  rewrite (KB x w'). auto.
Qed.
Lemma keeps_open path : keeps f (open_file path).
Proof. intros w. unfold open_file. destruct (w_files w path); reflexivity. Qed.
Context (B : blind f).
Lemma keeps_random {A} (g : bytes -> res (A * bytes)) : keeps f (with_random g).
Proof. intros w. unfold with_random. destruct (g (w_random w)) as [[a r]|e|]; cbn [snd]; auto. apply (bl_random f B). Qed.
Lemma keeps_ask confirm : keeps f (ask_password confirm).
Proof.
  intros w. unfold ask_password. destruct (user_input_password _ _ _) as [r rest]. cbn [snd].
  destruct (w_tty _); [rewrite (bl_prompts f B)|]; apply (bl_stdin f B).
Qed.
Lemma keeps_stdin {A} (g : bytes -> res A * bytes) : keeps f (from_stdin g).
Proof. intros w. unfold from_stdin. destruct (g (w_stdin w)) as [r rest]. apply (bl_stdin f B). Qed.
Lemma keeps_read_file E path : keeps f (read_word_file E path).
Proof. apply keeps_andthen; [apply keeps_open|intros; apply keeps_lift]. Qed.
Lemma keeps_read_phrase E o : keeps f (read_phrase E o).
Proof.
  intros w. unfold read_phrase. destruct (io_in_file o); [|apply keeps_read_file].
  destruct (io_simple o || negb (w_tty w)); apply keeps_stdin.
Qed.
Lemma keeps_decrypt E dm fuel : keeps f (decrypt_loop E fuel dm).
Proof.
  induction fuel as [|n IH]; intros w; [reflexivity|]. cbn [decrypt_loop].
  apply (keeps_andthen (if dm_encrypted dm then ask_password false else ret [])).
  - destruct (dm_encrypted dm); [apply keeps_ask|apply keeps_ret].
  - intros p v. destruct (dm_decrypt_seed E dm p) as [s|e|]; try reflexivity. destruct e; try reflexivity. apply IH.
Qed.
Lemma keeps_input E o : keeps f (decode_mnemonic_from_input E o).
Proof.
  apply keeps_andthen; [apply keeps_read_phrase|]. intros ws. apply keeps_andthen; [apply keeps_lift|]. intros dm.
  apply keeps_andthen; [intros w; apply keeps_decrypt|]. intros s. apply keeps_ret.
Qed.
Lemma keeps_ttl E t : keeps f (ttl_option E t).
Proof. unfold ttl_option. destruct t; [apply keeps_ret|]. destruct (parse_ttl E _); [apply keeps_ret|apply keeps_fail|apply keeps_fail]. Qed.
Lemma keeps_source o : keeps f (seed_from_source o).
Proof.
  unfold seed_from_source. destruct o as [|c o]; [apply keeps_random|]. destruct (bytes_eqb _ _).
  - intros w. destruct (generate_seed (w_stdin w)) as [[s r]|e|]; cbn [snd]; auto; apply (bl_stdin f B).
  - apply keeps_andthen; [apply keeps_open|intros; apply keeps_lift].
Qed.
End Keeps.

(** the last step decides *)
Lemma andthen_ret {A B} (a : action A) (b : A -> action B) w x w' : andthen a b w = (Ret x, w') ->
  exists y w1, a w = (Ret y, w1) /\ b y w1 = (Ret x, w').
Proof. unfold andthen. destruct (a w) as [[y|e| | |c] w1]; intros H; try discriminate. eauto. Qed.

Lemma keeps_usage_save ws path : keeps w_usage (save_mnemonic ws path).
Proof.
  intros w. unfold save_mnemonic, save_mnemonic_with. destruct (w_files w path); try reflexivity;
  unfold write_file; destruct (write_node _ _); reflexivity.
Qed.

Ltac keeping B :=
  lazymatch goal with
  | |- keeps _ (andthen _ _) => apply keeps_andthen; [keeping B|intros ?; keeping B]
  | |- keeps _ (ret _) => apply keeps_ret
  | |- keeps _ (fail _) => apply keeps_fail
  | |- keeps _ (lift _) => apply keeps_lift
  | |- keeps _ (ask_password _) => apply (keeps_ask _ B)
  | |- keeps _ (with_random _) => apply (keeps_random _ B)
  | |- keeps _ (ttl_option _ _) => apply keeps_ttl
  | |- keeps _ (seed_from_source _) => apply (keeps_source _ B)
  | |- keeps _ (decode_mnemonic_from_input _ _) => apply (keeps_input _ B)
  | |- keeps _ (if ?b then _ else _) => destruct b; keeping B
  | |- keeps _ (match ?x with _ => _ end) => destruct x; keeping B
  | |- keeps _ (let _ := ?x in _) => keeping B
  | |- keeps _ (fun w => _) => intros ?; try reflexivity
  | |- _ => idtac
  end.
Lemma generate_body {X} (f : world -> X) E o : blind f ->
  (forall t, keeps f (print_out t)) -> (forall ws, keeps f (print_mnemonic ws)) ->
  (forall ws path, go_out_file o = path -> path <> [] -> keeps f (save_mnemonic ws path)) -> keeps f (generate_and_print E o).
Proof.
  intros B P M S w0. unfold generate_and_print. cbv zeta. generalize (w_now w0) as c. intros c. revert w0.
  match goal with |- forall w0, f (snd (?a w0)) = f w0 => change (keeps f a) end.
  keeping B; try apply P; try apply M; try apply S; auto; congruence.
Qed.
Lemma recover_body {X} (f : world -> X) E o : blind f -> (forall t, keeps f (print_out t)) -> keeps f (recover_and_print E o).
Proof. intros B P. unfold recover_and_print. keeping B; try apply P. Qed.
Lemma convert_body {X} (f : world -> X) E o : blind f -> (forall ws, keeps f (print_mnemonic ws)) ->
  (forall ws, io_in_file (co_input o) <> [] -> keeps f (save_mnemonic ws (io_in_file (co_input o)))) ->
  keeps f (decode_and_convert E o).
Proof.
  intros B M S. unfold decode_and_convert. keeping B; try apply M.
  intros w. apply S. discriminate.
Qed.
Lemma keeps_usage_print t : keeps w_usage (print_out t). Proof. intros w. reflexivity. Qed.
Lemma keeps_usage_phrase ws : keeps w_usage (print_mnemonic ws). Proof. intros w. reflexivity. Qed.
Lemma keeps_files_print t : keeps w_files (print_out t). Proof. intros w. reflexivity. Qed.
Lemma keeps_files_phrase ws : keeps w_files (print_mnemonic ws). Proof. intros w. reflexivity. Qed.
Lemma keeps_stdout_phrase ws : keeps w_stdout (print_mnemonic ws). Proof. intros w. reflexivity. Qed.
Lemma keeps_stdout_save ws path : keeps w_stdout (save_mnemonic ws path).
Proof.
  intros w. unfold save_mnemonic, save_mnemonic_with. destruct (w_files w path); try reflexivity;
  unfold write_file; destruct (write_node _ _); reflexivity.
Qed.
Lemma put_same fs p n : put_file fs p n p = n.
Proof. unfold put_file. rewrite bytes_eqb_refl. reflexivity. Qed.
Lemma put_other fs p n q : q <> p -> put_file fs p n q = fs q.
Proof. intros H. unfold put_file. destruct (bytes_eqb q p) eqn:Q; [apply bytes_eqb_eq in Q; contradiction|reflexivity]. Qed.

(** the save by cases *)
Lemma save_cases ws path w :
  save_mnemonic ws path w =
  match w_files w path with
  | File _ | Closed => (Fail ErrFileExists, w)
  | Blocked => (Fail ErrFileInaccessible, w)
  | Uncreatable => (Fail ErrFileInaccessible, set_files w (put_file (w_files w) path Uncreatable))
  | Absent None => (Ret tt, set_files w (put_file (w_files w) path (File (word_file_content ws))))
  | Absent (Some room) =>
      if Nat.ltb room (length (word_file_content ws))
      then (Fail ErrFileInaccessible, set_files w (put_file (w_files w) path (File (firstn room (word_file_content ws)))))
      else (Ret tt, set_files w (put_file (w_files w) path (File (word_file_content ws))))
  end.
Proof.
  unfold save_mnemonic, save_mnemonic_with, write_file. cbn [set_files w_files].
  destruct (w_files w path) as [[room|]| | | |]; cbn [write_node]; try reflexivity.
  destruct (Nat.ltb _ _); reflexivity.
Qed.
Lemma keeps_shown_save ws path : keeps w_shown (save_mnemonic ws path).
Proof.
  intros w. rewrite save_cases. destruct (w_files w path) as [[room|]| | | |]; try reflexivity. destruct (Nat.ltb _ _); reflexivity.
Qed.

(** an action that, with the files of [w0], delivers nothing, prints nothing and changes no file *)
Definition refuses {A} (w0 : world) (a : action A) : Prop :=
  forall w, w_files w = w_files w0 ->
  (forall u, fst (a w) <> Ret u) /\ w_stdout (snd (a w)) = w_stdout w /\ w_shown (snd (a w)) = w_shown w /\
  forall p, w_files (snd (a w)) p = w_files w p.
Lemma refuses_after {A B} w0 (a : action A) (b : A -> action B) :
  keeps w_files a -> keeps w_stdout a -> keeps w_shown a -> (forall x, refuses w0 (b x)) -> refuses w0 (andthen a b).
Proof.
  intros K1 K2 K3 R w V. specialize (K1 w). specialize (K2 w). specialize (K3 w). unfold andthen.
  destruct (a w) as [[x|e| | |c] v]; cbn [fst snd] in *;
  [|(split; [discriminate|split; [auto|split; [auto|intros; congruence]]])..].
  destruct (R x v) as (R1 & R2 & R3 & R4); [congruence|]. split; [auto|]. split; [congruence|]. split; [congruence|].
  intros p. rewrite R4. congruence.
Qed.
Lemma refuses_first {A B} w0 (a : action A) (b : A -> action B) : refuses w0 a -> refuses w0 (andthen a b).
Proof.
  intros R w V. destruct (R w V) as (R1 & R2 & R3 & R4). unfold andthen.
  destruct (a w) as [[x|e| | |c] v]; cbn [fst snd] in *; [destruct (R1 x); reflexivity|(split; [discriminate|auto])..].
Qed.
