(** The conversation at password prompts, and a calculus for what is written to standard error. *)
From Coq Require Import Lia ZifyBool ZifyNat.
From Verif.Model Require Import GoBase Env Version GoTime Seed Encoding Recovery PgpKeys Mnemonikey.
From Verif.Model Require Import CliText CliInput CliFlags CliMain CliHelp CliScreen CliTrace.
From Verif.Proofs Require Import ShowP TraceP.
From Verif.Spec Require Import EnvSpec PhraseSpec DecodeSpec InputSpec TraceSpec.
Ltac Zify.zify_post_hook ::= Z.div_mod_to_equations.

(** *** reading a password *)
Lemma pass_edited_rev cur k : pass_edited (rev cur) k =
  rev (if k =? 8 then tl cur else if k =? 13 then cur else k :: cur).
Proof.
  unfold pass_edited. destruct (k =? 8).
  - destruct cur as [|c cur]; [reflexivity|]. cbn [tl rev]. rewrite app_length. cbn [length].
    replace (length (rev cur) + 1 - 1)%nat with (length (rev cur)) by lia. rewrite firstn_app, Nat.sub_diag, firstn_all. cbn [firstn]. apply app_nil_r.
  - destruct (k =? 13); reflexivity.
Qed.
Lemma pass_text_snoc keys k : pass_text (keys ++ [k]) = pass_edited (pass_text keys) k.
Proof. unfold pass_text. rewrite fold_left_app. reflexivity. Qed.
Lemma read_lines stdin : forall raw cur, pass_text (rev raw) = rev cur ->
  let (ls, last) := lines_of stdin raw in
  match ls with
  | l :: ls' => exists rest, read_password stdin cur = (Ok (pass_text l), rest) /\ lines_of rest [] = (ls', last) /\ (length rest < length stdin)%nat
  | [] => read_password stdin cur = match pass_text last with [] => (Err ErrInputEOF, []) | t => (Ok t, []) end
  end.
Proof.
  induction stdin as [|k stdin IH]; intros raw cur K.
  - cbn [lines_of read_password]. rewrite K. destruct cur as [|c cur]; [reflexivity|]. destruct (rev (c :: cur)) eqn:Q; [|reflexivity].
    apply (f_equal (@length _)) in Q. rewrite rev_length in Q. discriminate.
  - cbn [lines_of read_password]. destruct (k =? 10) eqn:K10.
    + replace (k =? 8) with false by lia. destruct (lines_of stdin []) as [ls last] eqn:L. exists stdin. rewrite K. cbn [length]. auto.
    + assert (X : pass_text (rev (k :: raw)) = rev (if k =? 8 then tl cur else if k =? 13 then cur else k :: cur)).
      { cbn [rev]. rewrite pass_text_snoc, K. apply pass_edited_rev. }
      specialize (IH _ _ X). destruct (lines_of stdin (k :: raw)) as [ls last].
      replace (if k =? 8 then read_password stdin (tl cur) else if k =? 13 then read_password stdin cur else read_password stdin (k :: cur))
        with (read_password stdin (if k =? 8 then tl cur else if k =? 13 then cur else k :: cur)) by (destruct (k =? 8), (k =? 13); reflexivity).
      destruct ls as [|l ls]; [exact IH|]. destruct IH as (rest & A & B & C). exists rest. cbn [length]. repeat split; auto.
Qed.
Lemma read_texts stdin :
  match typed_texts stdin with
  | [] => exists rest, read_password stdin [] = (Err ErrInputEOF, rest) /\ rest = []
  | t :: ts => exists rest, read_password stdin [] = (Ok t, rest) /\ typed_texts rest = ts /\ (length rest < length stdin)%nat
  end.
Proof.
  pose proof (read_lines stdin [] [] eq_refl) as R. unfold typed_texts. destruct (lines_of stdin []) as [ls last] eqn:L. destruct ls as [|l ls].
  - cbn [map app]. destruct (pass_text last) as [|c t] eqn:P; [exists []; auto|]. exists []. split; [exact R|]. split; [reflexivity|].
    destruct stdin; [cbn in R; discriminate|cbn; lia].
  - destruct R as (rest & A & B & C). cbn [map app]. exists rest. split; [exact A|]. split; [|exact C]. unfold typed_texts. rewrite B. reflexivity.
Qed.

(** *** the prompt *)
Definition chooses (confirm : bool) (texts : list bytes) : res bytes :=
  match chosen confirm texts with Some p => Ok p | None => Err ErrInputEOF end.
Lemma prompt_talk H confirm question : forall fuel stdin, (length stdin < fuel)%nat ->
  (exists rest, prompt_loop fuel confirm At_prompt stdin = (chooses confirm (typed_texts stdin), rest) /\
     (chosen confirm (typed_texts stdin) <> None -> typed_texts rest = skipn (texts_used confirm (typed_texts stdin)) (typed_texts stdin)) /\
     (length rest <= length stdin)%nat /\ (chosen confirm (typed_texts stdin) <> None -> (length rest < length stdin)%nat)) /\
  fst (prompt_text H fuel confirm question At_prompt stdin) = dialogue confirm question (typed_texts stdin) /\
  (chosen confirm (typed_texts stdin) = None ->
     snd (prompt_text H fuel confirm question At_prompt stdin) = bs "failed to read password: " ++ h_read H \/
     confirm = true /\ snd (prompt_text H fuel confirm question At_prompt stdin) = bs "failed to confirm password: " ++ h_read H).
Proof.
  intros fuel. induction fuel as [fuel IH] using lt_wf_ind. intros stdin F. destruct fuel as [|f]; [lia|].
  cbn [prompt_loop prompt_text reader_step]. pose proof (read_texts stdin) as R. destruct (typed_texts stdin) as [|t ts] eqn:T.
  - destruct R as (rest & -> & ->). split; [exists []; split; [destruct f; reflexivity|]; split; [cbn; congruence|]; split; [cbn; lia|cbn; congruence]|].
    split; [reflexivity|]. intros _. left. reflexivity.
  - destruct R as (rest & -> & <- & L). destruct t as [|c t].
    + destruct (IH f ltac:(lia) rest ltac:(lia)) as ((rest' & A & B & C & C') & D & G).
      destruct (prompt_text H f confirm question At_prompt rest) as [out text]. cbn [fst snd] in *. subst out.
      split; [exists rest'; split; [exact A|]; split; [exact B|]; split; [lia|intros; lia]|]. split; [reflexivity|exact G].
    + destruct confirm.
      2:{ split; [exists rest; split; [destruct f; reflexivity|]; split; [reflexivity|]; split; [lia|intros; lia]|]. split; [cbn [fst dialogue]; rewrite app_nil_r; reflexivity|discriminate]. }
      destruct f as [|f]; [lia|]. cbn [prompt_loop prompt_text reader_step]. pose proof (read_texts rest) as R2. destruct (typed_texts rest) as [|u us] eqn:T2.
      * destruct R2 as (rest2 & -> & ->). split; [exists []; split; [destruct f; reflexivity|]; split; [cbn; congruence|]; split; [cbn; lia|cbn; congruence]|].
        split; [cbn [fst dialogue]; reflexivity|]. intros _. right. auto.
      * destruct R2 as (rest2 & -> & <- & L2). cbn [chosen chooses dialogue texts_used]. unfold chooses. cbn [chosen].
        destruct (bytes_eqb (c :: t) u) eqn:Q.
        -- split; [exists rest2; split; [destruct f; reflexivity|]; split; [reflexivity|]; split; [lia|intros; lia]|]. split; [|discriminate].
           cbn [fst]. rewrite app_nil_r. reflexivity.
        -- destruct (IH f ltac:(lia) rest2 ltac:(lia)) as ((rest' & A & B & C & C') & D & G).
           destruct (prompt_text H f true question At_prompt rest2) as [out text]. cbn [fst snd] in *. subst out.
           split; [exists rest'; split; [exact A|]; split; [exact B|]; split; [lia|intros; lia]|]. split; [|exact G].
           reflexivity.
Qed.
Lemma unlocking_talk right : forall texts, unlocking right texts =
  match chosen false texts with
  | None => dialogue false unlock_question texts
  | Some t => dialogue false unlock_question texts ++ if right t then [] else wrong_notice ++ unlocking right (skipn (texts_used false texts) texts)
  end.
Proof.
  induction texts as [|t ts IH]; [reflexivity|]. destruct t as [|c t].
  - cbn [unlocking dialogue chosen texts_used skipn]. rewrite IH. destruct (chosen false ts); [|reflexivity]. rewrite <- !app_assoc. reflexivity.
  - cbn [unlocking dialogue chosen texts_used skipn]. rewrite app_nil_r. reflexivity.
Qed.

(** *** the calculus: what is written, the complaint, and what is known when a function returns *)
Definition speaks {A} (S : bytes -> Prop) (C : err -> bytes -> Prop) (R : A -> world -> bytes -> Prop) (t : traced A) (w : world) : Prop :=
  S (fst (snd (t w))) /\
  match fst (fst (t w)) with
  | Ret a => R a (snd (fst (t w))) (fst (snd (t w)))
  | Fail e => C e (snd (snd (t w)))
  | _ => True
  end.
Lemma speaks_then {A B} S C (Q : A -> world -> bytes -> Prop) (R : B -> world -> bytes -> Prop) m f w :
  speaks S C Q m w ->
  (forall a w' x, Q a w' x -> speaks (fun y => S (x ++ y)) C (fun b w2 y => R b w2 (x ++ y)) (f a) w') ->
  speaks S C R (t_then m f) w.
Proof.
  unfold speaks, t_then. intros [M1 M2] F. destruct (m w) as [[o w'] [x text]]. cbn [fst snd] in *.
  destruct o as [a|e| | |c]; cbn [fst snd]; auto. destruct (F a w' x M2) as [F1 F2].
  destruct (f a w') as [[o2 w2] [y text2]]. cbn [fst snd] in *. auto.
Qed.
Lemma speaks_weaken {A} (S S' : bytes -> Prop) (C C' : err -> bytes -> Prop) (R R' : A -> world -> bytes -> Prop) t w :
  speaks S C R t w -> (forall x, S x -> S' x) -> (forall e x, C e x -> C' e x) -> (forall a w' x, R a w' x -> S x -> R' a w' x) ->
  speaks S' C' R' t w.
Proof.
  unfold speaks. intros [A1 A2] S1 C1 R1. destruct (t w) as [[o w'] [x text]]. cbn [fst snd] in *. split; auto. destruct o; auto.
Qed.
Lemma speaks_quiet {A} (S : bytes -> Prop) (C : err -> bytes -> Prop) (R : A -> world -> bytes -> Prop) (a : action A) (text : err -> bytes) (w : world) : S [] ->
  (forall x w', a w = (Ret x, w') -> R x w' []) -> (forall e w', a w = (Fail e, w') -> C e (text e)) -> speaks S C R (quiet a text) w.
Proof.
  unfold speaks, quiet. intros S0 R0 C0. destruct (a w) as [o w']. cbn [fst snd] in *. split; auto. destruct o; eauto.
Qed.
Lemma speaks_say (S : bytes -> Prop) C (R : unit -> world -> bytes -> Prop) x w : S x -> R tt w x -> speaks S C R (say x) w.
Proof. unfold speaks, say. auto. Qed.
Lemma speaks_ret {A} (S : bytes -> Prop) C (R : A -> world -> bytes -> Prop) a w : S [] -> R a w [] -> speaks S C R (t_ret a) w.
Proof. unfold speaks, t_ret. auto. Qed.
Lemma speaks_fail {A} (S : bytes -> Prop) (C : err -> bytes -> Prop) (R : A -> world -> bytes -> Prop) e x w : S [] -> C e x -> speaks S C R (t_fail e x) w.
Proof. unfold speaks, t_fail. auto. Qed.

(** *** pieces *)
Lemma made_nil P : made_of P []. Proof. exists []. auto. Qed.
Lemma made_one (P : bytes -> Prop) x : P x -> made_of P x.
Proof. intros H. exists [x]. cbn [concat]. rewrite app_nil_r. auto. Qed.
Lemma made_app P x y : made_of P x -> made_of P y -> made_of P (x ++ y).
Proof. intros (a & -> & A) (b & -> & B). exists (a ++ b). rewrite concat_app. split; [reflexivity|]. apply Forall_app. auto. Qed.
Lemma made_weaken (P Q : bytes -> Prop) x : (forall p, P p -> Q p) -> made_of P x -> made_of Q x.
Proof. intros H (a & -> & A). exists a. split; [reflexivity|]. eapply Forall_impl; eauto. Qed.
Lemma dialogue_made confirm q : forall texts, made_of (prompt_piece q) (dialogue confirm q texts).
Proof.
  assert (P : forall p, In p [dim q; repeat_prompt; empty_notice; differ_notice; [10]] -> made_of (prompt_piece q) p) by (intros; apply made_one; auto).
  assert (N : forall n texts, (length texts < n)%nat -> made_of (prompt_piece q) (dialogue confirm q texts)).
  { induction n as [|n IH]; intros texts L; [lia|]. destruct texts as [|[|c t] ts]; cbn [dialogue]; cbn [length] in L.
    - apply made_app; apply P; cbn; auto 8.
    - apply made_app; [apply P; cbn; auto 8|]. apply made_app; [apply P; cbn; auto 8|]. apply IH. lia.
    - apply made_app; [apply P; cbn; auto 8|]. destruct confirm; [|apply made_nil]. apply made_app; [apply P; cbn; auto 8|].
      destruct ts as [|u us]; [apply P; cbn; auto 8|]. destruct (bytes_eqb (c :: t) u); [apply made_nil|].
      apply made_app; [apply P; cbn; auto 8|]. apply IH. cbn [length] in L. lia. }
  intros texts. apply (N (S (length texts))). lia.
Qed.
Lemma unlocking_made v right : forall texts, made_of (decode_piece v) (unlocking right texts).
Proof.
  assert (P : forall p, In p [dim unlock_question; repeat_prompt; empty_notice; differ_notice; [10]] -> made_of (decode_piece v) p)
    by (intros; apply made_one; left; auto).
  induction texts as [|[|c t] ts IH]; cbn [unlocking].
  - apply made_app; apply P; cbn; auto 8.
  - apply made_app; [apply P; cbn; auto 8|]. apply made_app; [apply P; cbn; auto 8|]. exact IH.
  - apply made_app; [apply P; cbn; auto 8|]. destruct (right (c :: t)); [apply made_nil|]. apply made_app; [|exact IH]. apply made_one. right. left. reflexivity.
Qed.

(** *** what stays the same *)
Record kept (w w' : world) : Prop := mk_kept {
  k_tty : w_tty w' = w_tty w;
  k_files : w_files w' = w_files w;
  k_width : w_width w' = w_width w;
  k_stdout : w_stdout w' = w_stdout w;
  k_shown : w_shown w' = w_shown w;
  k_random : Forall byte (w_random w) -> Forall byte (w_random w')
}.
Lemma kept_refl w : kept w w. Proof. constructor; auto. Qed.
Lemma kept_trans a b c : kept a b -> kept b c -> kept a c.
Proof. intros [] []. constructor; try congruence. auto. Qed.
#[local] Hint Resolve kept_refl : core.

(** *** password prompts *)
Definition asked (confirm : bool) (question : bytes) (w : world) (p : bytes) (w' : world) (x : bytes) : Prop :=
  kept w w' /\ w_tty w = true /\ p <> [] /\ chosen confirm (typed_texts (w_stdin w)) = Some p /\ x = dialogue confirm question (typed_texts (w_stdin w)) /\
  typed_texts (w_stdin w') = skipn (texts_used confirm (typed_texts (w_stdin w))) (typed_texts (w_stdin w)) /\
  (length (w_stdin w') < length (w_stdin w))%nat.
Lemma chosen_nonempty confirm : forall texts p, chosen confirm texts = Some p -> p <> [].
Proof.
  assert (N : forall n texts p, (length texts < n)%nat -> chosen confirm texts = Some p -> p <> []).
  { induction n as [|n IH]; intros texts p L; [lia|]. destruct texts as [|[|c t] ts]; cbn [chosen length] in *; [discriminate| |].
    - apply IH. lia.
    - destruct confirm; [|congruence]. destruct ts as [|u us]; [discriminate|]. destruct (bytes_eqb (c :: t) u); [congruence|]. apply IH. cbn [length] in L. lia. }
  intros texts p. apply (N (S (length texts))). lia.
Qed.
Lemma speaks_password H q confirm w :
  speaks (made_of (prompt_piece q)) (prompt_complaint H (w_tty w) confirm) (asked confirm q w) (t_password H q confirm) w.
Proof.
  unfold speaks, t_password, ask_password, user_input_password. destruct (w_tty w) eqn:T; cbn [fst snd].
  - destruct (prompt_talk H confirm q (length (w_stdin w) + 2) (w_stdin w) ltac:(lia)) as ((rest & L & U & _ & SH) & D & X).
    rewrite L. cbn [fst snd]. rewrite D. split; [apply dialogue_made|]. unfold chooses in *. cbn [set_stdin w_tty].
    destruct (chosen confirm (typed_texts (w_stdin w))) as [p|] eqn:CH; cbn [of_res].
    + rewrite T. unfold asked. cbn [set_prompts set_stdin w_stdin]. split; [constructor; auto|]. split; [exact T|].
      split; [eapply chosen_nonempty; eauto|]. split; [exact CH|]. split; [reflexivity|]. split; [apply U; congruence|apply SH; congruence].
    + destruct (X eq_refl) as [-> | [-> ->]]; [apply No_password; auto|apply No_repetition; auto].
  - split; [apply made_nil|]. cbn [of_res]. apply No_terminal. reflexivity.
Qed.

Lemma speaks_step {A B} (P S : bytes -> Prop) (C0 C : err -> bytes -> Prop) (Q : A -> world -> bytes -> Prop) (R : B -> world -> bytes -> Prop) m f w :
  (forall y, made_of P y -> S y) -> speaks (made_of P) C0 Q m w -> (forall e t, C0 e t -> C e t) ->
  (forall a w' x, Q a w' x -> made_of P x -> speaks (fun y => S (x ++ y)) C (fun b w2 y => R b w2 (x ++ y)) (f a) w') ->
  speaks S C R (t_then m f) w.
Proof.
  intros G M K F. eapply speaks_then with (Q := fun a w' x => Q a w' x /\ made_of P x).
  - eapply speaks_weaken; [exact M|auto|auto|auto].
  - intros a w' x [q p]. apply F; auto.
Qed.
Lemma grown (P S : bytes -> Prop) x : (forall y, made_of P y -> S y) -> made_of P x -> forall y, made_of P y -> S (x ++ y).
Proof. intros G X y Y. apply G, made_app; auto. Qed.
