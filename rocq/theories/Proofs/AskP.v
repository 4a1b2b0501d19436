(** Simple entry: the questions and their numbers. *)
From Coq Require Import Lia ZifyBool ZifyNat.
From Verif.Model Require Import GoBase Env MnemonicPkg Version Recovery CliText CliInput CliMain CliScreen CliTrace.
From Verif.Spec Require Import EnvSpec PhraseSpec DecodeSpec CliEnvSpec InputSpec TraceSpec.
From Verif.Proofs Require Import BitsP PgpP WordsP InputP TalkP.
Ltac Zify.zify_post_hook ::= Z.div_mod_to_equations.

Section env.
Variable E : Env.
Hypothesis W : wordlist_ok E.
Hypothesis SO : search_ok E.
Lemma in_list_iff w : in_list E w = true <-> In w (wl_words E).
Proof. rewrite <- search_in_list by exact SO. apply SO. Qed.
Lemma accepted_snoc pre l : accepted_words E (pre ++ [l]) =
  match accepted_words E pre with
  | [] => if supported_first E (line_word E l) then [line_word E l] else []
  | acc => acc ++ (if in_list E (line_word E l) then [line_word E l] else [])
  end.
Proof.
  induction pre as [|a pre IH]; cbn [app accepted_words].
  - destruct (supported_first E (line_word E l)); reflexivity.
  - destruct (supported_first E (line_word E a)); [|exact IH]. rewrite map_app, filter_app. cbn [map filter app]. destruct (in_list E (line_word E l)); reflexivity.
Qed.
Definition wanted (pre : list bytes) : Z := match accepted_words E pre with [] => 1 | w :: _ => phrase_size E w end.
Lemma wanted_more pre : zlen (accepted_words E pre) <? wanted pre = true <-> ~ finished E pre.
Proof.
  unfold wanted, finished. destruct (accepted_words E pre) as [|w more].
  - split; [intros _ (x & y & Q & _); discriminate|reflexivity].
  - rewrite Z.ltb_lt. split; [intros L (x & y & Q & Z0); injection Q as <- <-; lia|]. intros N. destruct (Z.lt_ge_cases (zlen (w :: more)) (phrase_size E w)); [auto|]. destruct N. exists w, more. auto.
Qed.
Lemma question_of n q : 0 <= n -> q = simple_word_prompt n -> word_question (n + 1) q.
Proof. intros N ->. exists (itoa (n + 1)). split; [apply number_itoa; lia|reflexivity]. Qed.
Lemma zlen_snoc {A} (l : list A) x : zlen (l ++ [x]) = zlen l + 1. Proof. rewrite zlen_app. reflexivity. Qed.
Lemma version_reply pre l : accepted_words E pre = [] -> In (line_word E l) (wl_words E) -> (forall v, parse_mnemonic_version E (line_word E l) <> Ok v) ->
  accepted_words E (pre ++ [l]) = [] /\ reply E pre l (erase_forward ++ red (version_error E (line_word E l))).
Proof.
  intros A I N. destruct (first_index_of E W (line_word E l) [] I) as (i & (I0 & a & b & X & NT) & WM). injection X as <- <-. rewrite (to_lower_word E W _ I) in NT.
  assert (Q : accepted_words E (pre ++ [l]) = []).
  { rewrite accepted_snoc, A. unfold supported_first. destruct (parse_mnemonic_version E (line_word E l)) as [v| |]; [destruct (N v)|..]; reflexivity. }
  split; [exact Q|]. unfold version_error. pose proof (raw_version E W _ i I WM) as PV.
  destruct (parse_version_raw E (line_word E l)) as [v r] eqn:PR. cbn [fst] in PV. subst v.
  replace (match r with Err ErrInvalidWord => _ | _ => _ end) with (bs "invalid version number in recovery phrase: " ++ itoa (i / 256)).
  - apply (Reply_version E pre l i (itoa (i / 256))); auto; [|apply number_itoa; lia].
    destruct (Z.lt_ge_cases 1 (i / 256)); [auto|]. exfalso. apply (N (i / 256)). unfold parse_mnemonic_version. rewrite PR.
    unfold parse_version_raw in PR. rewrite (to_lower_word E W _ I), WM in PR. injection PR as _ <-.
    assert (V : i / 256 = 0 \/ i / 256 = 1) by lia. change (Z.shiftr i (bits_per_word - version_bits)) with (Z.shiftr i 8). rewrite Z.shiftr_div_pow2 by lia. change (2 ^ 8) with 256.
    destruct V as [-> | ->]; reflexivity.
  - unfold parse_version_raw in PR. rewrite (to_lower_word E W _ I), WM in PR. injection PR as _ <-.
    unfold version_check. destruct (_ || _) || destruct (_ >? _); reflexivity.
Qed.
(** one line *)
Lemma answered pre l : exists answer, reply E pre l answer /\
  (if fst (wl_search E (line_word E l)) then
     if zlen (accepted_words E pre) =? 0 then
       match parse_mnemonic_version E (line_word E l) with
       | Ok v => answer = erase_forward /\ zlen (accepted_words E (pre ++ [l])) = zlen (accepted_words E pre) + 1 /\ wanted (pre ++ [l]) = mnemonic_size v
       | _ => answer = erase_forward ++ red (version_error E (line_word E l)) /\ zlen (accepted_words E (pre ++ [l])) = zlen (accepted_words E pre) /\ wanted (pre ++ [l]) = wanted pre
       end
     else answer = erase_forward /\ zlen (accepted_words E (pre ++ [l])) = zlen (accepted_words E pre) + 1 /\ wanted (pre ++ [l]) = wanted pre
   else answer = red bad_word /\ zlen (accepted_words E (pre ++ [l])) = zlen (accepted_words E pre) /\ wanted (pre ++ [l]) = wanted pre).
Proof.
  rewrite search_in_list by exact SO. pose proof (accepted_snoc pre l) as A. unfold wanted. destruct (in_list E (line_word E l)) eqn:IL.
  - pose proof (proj1 (in_list_iff _) IL) as I. destruct (zlen (accepted_words E pre) =? 0) eqn:Z0.
    + assert (A0 : accepted_words E pre = []) by (destruct (accepted_words E pre) as [|x y]; [reflexivity|rewrite zlen_cons in Z0; pose proof (zlen_nonneg y); lia]).
      destruct (parse_mnemonic_version E (line_word E l)) as [v|e|] eqn:V.
      * rewrite A0 in A. unfold supported_first in A. rewrite V, IL in A. exists erase_forward. split; [apply Reply_accepted; rewrite A, A0; reflexivity|].
        split; [reflexivity|]. rewrite A, A0. split; [reflexivity|]. unfold phrase_size. rewrite V. reflexivity.
      * destruct (version_reply pre l A0 I) as [Q R]; [congruence|]. exists (erase_forward ++ red (version_error E (line_word E l))). split; [exact R|]. rewrite Q, A0. auto.
      * destruct (version_reply pre l A0 I) as [Q R]; [congruence|]. exists (erase_forward ++ red (version_error E (line_word E l))). split; [exact R|]. rewrite Q, A0. auto.
    + destruct (accepted_words E pre) as [|x y] eqn:A0; [discriminate|]. exists erase_forward. split; [apply Reply_accepted; rewrite A, A0; reflexivity|]. split; [reflexivity|]. rewrite A.
      split; [apply zlen_snoc|reflexivity].
  - assert (N : ~ In (line_word E l) (wl_words E)) by (intros I; apply in_list_iff in I; congruence).
    assert (Q : accepted_words E (pre ++ [l]) = accepted_words E pre).
    { rewrite A. destruct (accepted_words E pre); [|rewrite app_nil_r; reflexivity]. unfold supported_first. destruct (parse_mnemonic_version E _); [rewrite IL|..]; reflexivity. }
    exists (red bad_word). split; [apply Reply_unknown; auto|]. rewrite Q. auto.
Qed.
Lemma asks_writes ls : forall pre f, Forall (fun p => line_ok (fst p)) ls -> (length ls <= f)%nat ->
  asks E (fun _ => []) pre (map fst ls) (simple_writes E f (zlen (accepted_words E pre)) (wanted pre) (text_of_lines ls)).
Proof.
  assert (B : forall pre f stdin, zlen (accepted_words E pre) <? wanted pre = false -> simple_writes E f (zlen (accepted_words E pre)) (wanted pre) stdin = []).
  { intros pre f stdin B. destruct f; cbn [simple_writes]; rewrite B; reflexivity. }
  assert (D : forall pre, zlen (accepted_words E pre) <? wanted pre = false -> finished E pre).
  { intros pre B0. unfold wanted in B0. destruct (accepted_words E pre) as [|w more] eqn:A; [discriminate|]. exists w, more. split; [exact A|lia]. }
  induction ls as [|[l cr] ls IH]; intros pre f F L.
  - destruct (zlen (accepted_words E pre) <? wanted pre) eqn:B0; [|rewrite B by exact B0; apply Asks_done, D, B0].
    replace (simple_writes _ _ _ _ _) with (simple_word_prompt (zlen (accepted_words E pre)) ++ [10; 10]).
    + apply Asks_end; [apply wanted_more, B0|]. apply question_of; [apply zlen_nonneg|reflexivity].
    + destruct f; cbn [simple_writes]; rewrite B0; reflexivity.
  - destruct (zlen (accepted_words E pre) <? wanted pre) eqn:B0; [|rewrite B by exact B0; apply Asks_done, D, B0].
    destruct f as [|f]; [cbn in L; lia|]. cbn [length] in L. inversion F as [|? ? Fl Fs]; subst. cbn [fst] in Fl.
    unfold text_of_lines. cbn [flat_map fst snd map]. fold (text_of_lines ls). cbn [simple_writes]. rewrite B0. rewrite <- !app_assoc, scan_line_text by auto. fold (line_word E l).
    destruct (answered pre l) as (answer & R & P). specialize (IH (pre ++ [l]) f Fs ltac:(lia)).
    pose proof (fun t T => Asks_line E (fun _ => []) pre l (map fst ls) (simple_word_prompt (zlen (accepted_words E pre))) answer t (proj1 (wanted_more pre) B0)
      (question_of _ _ (zlen_nonneg _) eq_refl) R T) as K. cbn [app] in K.
    destruct (fst (wl_search E (line_word E l))).
    + destruct (zlen (accepted_words E pre) =? 0) eqn:Z0.
      * destruct (parse_mnemonic_version E (line_word E l)) as [v|e|]; destruct P as (-> & P1 & P2); rewrite P1, P2 in IH; specialize (K _ IH); rewrite <- ?app_assoc in K; exact K.
      * destruct P as (-> & P1 & P2). rewrite P1, P2 in IH. exact (K _ IH).
    + destruct P as (-> & P1 & P2). rewrite P1, P2 in IH. exact (K _ IH).
Qed.
Lemma asks_output ls : forall pre, asks E (fun l => l ++ [10]) pre ls (simple_output E (zlen (accepted_words E pre)) (wanted pre) (map (fun l => (l, true)) ls)).
Proof.
  assert (B : forall pre ls, zlen (accepted_words E pre) <? wanted pre = false -> simple_output E (zlen (accepted_words E pre)) (wanted pre) ls = []).
  { intros pre l B. destruct l; cbn [simple_output]; rewrite B; reflexivity. }
  assert (D : forall pre, zlen (accepted_words E pre) <? wanted pre = false -> finished E pre).
  { intros pre B0. unfold wanted in B0. destruct (accepted_words E pre) as [|w more] eqn:A; [discriminate|]. exists w, more. split; [exact A|lia]. }
  induction ls as [|l ls IH]; intros pre.
  - destruct (zlen (accepted_words E pre) <? wanted pre) eqn:B0; [|rewrite B by exact B0; apply Asks_done, D, B0]. cbn [map simple_output]. rewrite B0.
    apply Asks_end; [apply wanted_more, B0|]. apply question_of; [apply zlen_nonneg|reflexivity].
  - destruct (zlen (accepted_words E pre) <? wanted pre) eqn:B0; [|rewrite B by exact B0; apply Asks_done, D, B0].
    cbn [map simple_output]. rewrite B0. fold (line_word E l).
    destruct (answered pre l) as (answer & R & P). specialize (IH (pre ++ [l])).
    pose proof (fun t T => Asks_line E (fun l => l ++ [10]) pre l ls (simple_word_prompt (zlen (accepted_words E pre))) answer t (proj1 (wanted_more pre) B0)
      (question_of _ _ (zlen_nonneg _) eq_refl) R T) as K.
    destruct (fst (wl_search E (line_word E l))).
    + destruct (zlen (accepted_words E pre) =? 0) eqn:Z0.
      * destruct (parse_mnemonic_version E (line_word E l)) as [v|e|]; destruct P as (-> & P1 & P2); rewrite P1, P2 in IH; specialize (K _ IH); rewrite <- ?app_assoc in K; exact K.
      * destruct P as (-> & P1 & P2). rewrite P1, P2 in IH. specialize (K _ IH). rewrite <- ?app_assoc in K; exact K.
    + destruct P as (-> & P1 & P2). rewrite P1, P2 in IH. specialize (K _ IH). rewrite <- ?app_assoc in K; exact K.
Qed.
End env.
