(** The toy environment (EnvInst.v) meets the hypotheses for the command line. *)
From Coq Require Import Lia ZifyBool ZifyNat.
From Verif.Model Require Import GoBase Env Version Recovery.
From Verif.Spec Require Import EnvSpec CliEnvSpec InputSpec.
From Verif.Proofs Require Import BitsP PgpP EnvInst.

Lemma toy_lone_byte_ok : lone_byte_ok toy_env.
Proof. intros b c B C H. cbn in H. injection H as H. lia. Qed.
Lemma toy_search_ok : search_ok toy_env.
Proof.
  intros q. change (wl_search toy_env q) with (toy_search q). change (wl_words toy_env) with toy_words.
  unfold toy_search. cbn [fst snd]. split.
  - rewrite existsb_exists. split.
    + intros (x & X & Q). apply bytes_eqb_eq in Q. subst. auto.
    + intros X. exists q. rewrite bytes_eqb_refl. auto.
  - apply Forall_forall. intros s Hs. apply in_map_iff in Hs as (x & <- & X). apply filter_In in X as [X P].
    unfold has_prefix in P. apply bytes_eqb_eq in P. rewrite <- P at 1. rewrite firstn_skipn. auto.
Qed.
Lemma toy_word_length w : In w toy_words -> length w = 3%nat.
Proof.
  unfold toy_words. intros H. apply in_flat_map in H as (a & _ & H). apply in_flat_map in H as (b & _ & H).
  apply in_map_iff in H as (c & <- & _). reflexivity.
Qed.
Lemma toy_prefix_free : prefix_free toy_env.
Proof.
  intros w s W S. change (wl_words toy_env) with toy_words in *. apply toy_word_length in W, S.
  rewrite app_length in S. destruct s; [auto|cbn [length] in S; lia].
Qed.
Lemma toy_letters w : In w toy_words -> Forall (fun b => 97 <= b <= 122) w.
Proof.
  intros W. pose proof (wlo_letters _ toy_wordlist_ok) as H. rewrite Forall_forall in H. exact (H w W).
Qed.
Lemma toy_completion w : In w toy_words -> completion toy_env w = Some w.
Proof.
  intros W. unfold completion. change (wl_search toy_env w) with (toy_search w). unfold toy_search. cbn [snd].
  destruct (filter (has_prefix w) toy_words) as [|x l] eqn:F.
  - assert (X : In w (filter (has_prefix w) toy_words)).
    { apply filter_In. split; auto. unfold has_prefix. rewrite firstn_all. apply bytes_eqb_refl. }
    rewrite F in X. destruct X.
  - cbn [map]. assert (X : In x (filter (has_prefix w) toy_words)) by (rewrite F; left; auto).
    apply filter_In in X as [X P]. unfold has_prefix in P. apply bytes_eqb_eq in P.
    apply toy_word_length in X, W. rewrite firstn_all2 in P by lia. subst x. rewrite skipn_all. rewrite app_nil_r. auto.
Qed.
Lemma typed_letters c l : forall t, Forall (fun b => 97 <= b <= 122) l -> fold_left (edited c) l t = t ++ l.
Proof.
  induction l as [|b l IH]; intros t F; cbn [fold_left]; [symmetry; apply app_nil_r|].
  inversion F; subst. rewrite IH by auto. unfold edited. replace ((97 <=? b) && (b <=? 122)) with true by lia.
  rewrite <- app_assoc. reflexivity.
Qed.
Lemma toy_enters w : In w toy_words -> enters toy_env (w ++ [13]) w.
Proof.
  intros W. exists w, 13. split; [reflexivity|]. split.
  { pose proof (toy_letters w W) as L. eapply Forall_impl; [|exact L]. intros b B. cbn beta in B. unfold edit_key. cbn [In]. lia. }
  split; [auto|]. unfold typed_text. rewrite typed_letters by (apply toy_letters; auto). apply toy_completion; auto.
Qed.
