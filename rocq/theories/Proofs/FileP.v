(** Lemmas about word files (Model/CliMain.v). *)
From Coq Require Import Lia ZifyBool ZifyNat.
From Verif.Model Require Import GoBase Env Version Recovery CliText CliInput CliFlags CliMain.
From Verif.Spec Require Import EnvSpec CliEnvSpec InputSpec FileSpec.
From Verif.Proofs Require Import BitsP PgpP WordsP InputP EntryP.
Ltac Zify.zify_post_hook ::= Z.div_mod_to_equations.

Lemma Forall_firstn' {A} (P : A -> Prop) n l : Forall P l -> Forall P (firstn n l).
Proof. intros F. revert n. induction F; intros [|n]; cbn [firstn]; constructor; auto. Qed.
Lemma to_lower_id E w : Forall lower_letter w -> to_lower E w = w.
Proof.
  intros HL. unfold to_lower, is_ascii.
  assert (H1 : forallb (fun b => b <? 128) w = true).
  { apply forallb_forall. rewrite Forall_forall in HL. intros x Hx. specialize (HL x Hx). unfold lower_letter in HL. lia. }
  rewrite H1. clear H1. induction HL as [|b w Hb Hw IH]; [reflexivity|]. cbn [map]. rewrite IH. f_equal.
  unfold ascii_lower_byte. unfold lower_letter in Hb. replace ((65 <=? b) && (b <=? 90)) with false by lia. reflexivity.
Qed.

(** ** The scanner *)
Lemma space_width_blank b l : blank b -> space_width (b :: l) = 1%nat.
Proof. unfold blank. intros H. cbn [space_width]. replace ((b =? 32) || _) with true by lia. reflexivity. Qed.
Lemma space_width_letter b l : 0 <= b < 128 -> ~ blank b -> space_width (b :: l) = 0%nat.
Proof.
  unfold blank. intros B H. cbn [space_width]. replace ((b =? 32) || _) with false by lia.
  destruct l as [|c l]; [reflexivity|]. replace (b =? 0xC2) with false by lia. cbn [andb].
  destruct l as [|d l]; [reflexivity|]. replace (b =? 0xE1) with false by lia. replace (b =? 0xE2) with false by lia.
  replace (b =? 0xE3) with false by lia. reflexivity.
Qed.
Lemma scan_blanks s c : Forall blank s -> scan_words (s ++ c) 0 [] = scan_words c 0 [].
Proof.
  induction 1 as [|b s B F IH]; [reflexivity|]. cbn [app scan_words]. rewrite space_width_blank by auto.
  change (zlen (@nil Z)) with 0. cbn [Z.gtb Z.compare andb emit]. exact IH.
Qed.
Lemma scan_letters t : Forall (fun b => 0 <= b < 128 /\ ~ blank b) t -> forall c cur, zlen cur + zlen t <= 65536 ->
  scan_words (t ++ c) 0 cur = scan_words c 0 (rev t ++ cur).
Proof.
  induction 1 as [|b t [B N] F IH]; intros c cur L; [reflexivity|]. rewrite zlen_cons in L. pose proof (zlen_nonneg t).
  cbn [app scan_words]. rewrite space_width_letter by auto. unfold max_token. replace (zlen cur >=? 65536) with false by lia.
  rewrite IH by (rewrite zlen_cons; lia). cbn [rev]. rewrite <- app_assoc. reflexivity.
Qed.
Lemma zlen_rev {A} (l : list A) : zlen (rev l) = zlen l.
Proof. unfold zlen. rewrite rev_length. reflexivity. Qed.
Lemma emit_token t rest : t <> [] -> emit (rev t) rest = t :: rest.
Proof.
  intros N. unfold emit. destruct (rev t) as [|x l] eqn:R.
  - destruct N. rewrite <- (rev_involutive t), R. reflexivity.
  - rewrite <- R, rev_involutive. reflexivity.
Qed.
Lemma token_pos t : t <> [] -> 0 < @zlen Z t.
Proof. destruct t; [congruence|]. intros _. rewrite zlen_cons. pose proof (zlen_nonneg t). lia. Qed.
Lemma scan_token_end t : token t -> scan_words t 0 [] = [t].
Proof.
  intros (N & F & L). rewrite <- (app_nil_r t) at 1. rewrite scan_letters by (auto; change (zlen (@nil Z)) with 0; lia).
  rewrite app_nil_r. cbn [scan_words]. unfold max_token. rewrite zlen_rev. replace (zlen t >=? 65536) with false by lia.
  apply emit_token; auto.
Qed.
Lemma scan_token_blank t b c : token t -> blank b -> scan_words (t ++ b :: c) 0 [] = t :: scan_words c 0 [].
Proof.
  intros (N & F & L) B. rewrite scan_letters by (auto; change (zlen (@nil Z)) with 0; lia). rewrite app_nil_r.
  cbn [scan_words]. rewrite space_width_blank by auto. unfold max_token. rewrite zlen_rev.
  replace (zlen t + Z.of_nat 1 >? 65536) with false by lia. rewrite andb_false_r. apply emit_token; auto.
Qed.
Lemma scan_separated c ts : separated c ts -> scan_words c 0 [] = ts.
Proof.
  induction 1 as [s B|s t B T|s t b c ts B T Bb S IH].
  - rewrite <- (app_nil_r s). rewrite scan_blanks by auto. reflexivity.
  - rewrite scan_blanks by auto. apply scan_token_end; auto.
  - rewrite scan_blanks by auto. rewrite scan_token_blank by auto. rewrite IH. reflexivity.
Qed.
(** a token that is too long ends the sequence *)
Lemma scan_too_long t : Forall (fun b => 0 <= b < 128 /\ ~ blank b) t -> forall c, 65536 <= zlen t ->
  scan_words (t ++ c) 0 [] = [].
Proof.
  intros F c L.
  assert (D : exists t1 t2, t = t1 ++ t2 /\ zlen t1 = 65536).
  { exists (firstn (Z.to_nat 65536) t), (skipn (Z.to_nat 65536) t). split; [symmetry; apply firstn_skipn|].
    unfold zlen in *. rewrite firstn_length, Nat.min_l; lia. }
  destruct D as (t1 & t2 & -> & L1). rewrite <- app_assoc. apply Forall_app in F as [F1 F2].
  rewrite scan_letters by (auto; change (zlen (@nil Z)) with 0; lia). rewrite app_nil_r.
  assert (C : zlen (rev t1) = 65536) by (rewrite zlen_rev; auto). set (cur := rev t1) in *. clearbody cur.
  destruct (t2 ++ c) as [|b l]; cbn [scan_words]; unfold max_token; rewrite C; [reflexivity|].
  destruct (space_width (b :: l)); [reflexivity|].
  replace (65536 + Z.of_nat (S n) >? 65536) with true by lia. reflexivity.
Qed.

(** ** The file format *)
Section Fmt.
Variable E : Env.
Hypothesis W : wordlist_ok E.
Hypothesis SH : words_short E.

Lemma word_token w : In w (wl_words E) -> token w.
Proof.
  intros H. unfold token. pose proof (wlo_nonempty E W) as N. pose proof (wlo_letters E W) as L. unfold words_short in SH.
  rewrite Forall_forall in N, L, SH. split; [auto|]. split; [|auto].
  specialize (L w H). eapply Forall_impl; [|exact L]. intros b B. unfold lower_letter in B. unfold blank. lia.
Qed.
Lemma content_cons w v ws : word_file_content (w :: v :: ws) = w ++ 32 :: word_file_content (v :: ws).
Proof. unfold word_file_content. cbn [join]. rewrite <- !app_assoc. reflexivity. Qed.
Lemma content_one w : word_file_content [w] = w ++ [10].
Proof. reflexivity. Qed.
Lemma content_separated ws rest ts : ws <> [] -> Forall (fun w => In w (wl_words E)) ws -> separated rest ts ->
  separated (word_file_content ws ++ rest) (ws ++ ts).
Proof.
  intros N F S. induction F as [|w ws H F IH]; [congruence|]. destruct ws as [|v ws].
  - rewrite content_one, <- app_assoc. cbn [app]. apply (Sep_more [] w 10 rest ts); auto; [apply word_token; auto|unfold blank; lia].
  - rewrite content_cons, <- app_assoc. cbn [app].
    apply (Sep_more [] w 32 (word_file_content (v :: ws) ++ rest)); auto; [apply word_token; auto|unfold blank; lia|].
    apply IH. discriminate.
Qed.
Lemma scan_content ws rest : Forall (fun w => In w (wl_words E)) ws ->
  scan_words (word_file_content ws ++ rest) 0 [] = ws ++ scan_words rest 0 [].
Proof.
  induction 1 as [|w ws H F IH].
  - cbn [app]. change (word_file_content [] ++ rest) with ([10] ++ rest). apply scan_blanks. constructor; [unfold blank; lia|constructor].
  - destruct ws as [|v ws].
    + rewrite content_one, <- app_assoc. cbn [app]. rewrite scan_token_blank by (try apply word_token; auto; unfold blank; lia). reflexivity.
    + rewrite content_cons, <- app_assoc. cbn [app]. rewrite scan_token_blank by (try apply word_token; auto; unfold blank; lia).
      rewrite IH. reflexivity.
Qed.

Lemma loop_ok ts : forall n ws, word_file_loop E n ts = Ok ws <->
  ws = map (to_lower E) ts /\ Forall (fun w => In w (wl_words E)) ws /\ (ts <> [] -> n + zlen ts <= 100).
Proof.
  induction ts as [|t ts IH]; intros n ws; cbn [word_file_loop map].
  - split; [intros H; injection H as <-; split; [reflexivity|]; split; [constructor|congruence]|]. intros (-> & _). reflexivity.
  - rewrite zlen_cons. pose proof (zlen_nonneg ts). destruct (word_map E (to_lower E t)) as [i|] eqn:M.
    + assert (In (to_lower E t) (wl_words E)).
      { apply (word_map_spec E W) in M as [_ M]. eapply nth_error_In; eauto. }
      destruct (n + 1 >? 100) eqn:C.
      * split; [discriminate|]. intros (_ & _ & L). specialize (L ltac:(discriminate)). lia.
      * destruct (word_file_loop E (n + 1) ts) as [r|e|] eqn:Q; cbn [bind].
        -- apply IH in Q as (-> & F & L). split.
           ++ intros X. injection X as <-. split; [reflexivity|]. split; [constructor; auto|]. intros _.
              destruct ts; [unfold zlen; cbn [length]; lia|]. specialize (L ltac:(discriminate)). lia.
           ++ intros (-> & _). reflexivity.
        -- split; [discriminate|]. intros (-> & F & L). inversion F as [|? ? F1 F2]; subst. exfalso.
           assert (X : word_file_loop E (n + 1) ts = Ok (map (to_lower E) ts)).
           { apply IH. split; [reflexivity|]. split; [auto|]. intros _. specialize (L ltac:(discriminate)). lia. }
           congruence.
        -- split; [discriminate|]. intros (-> & F & L). inversion F as [|? ? F1 F2]; subst. exfalso.
           assert (X : word_file_loop E (n + 1) ts = Ok (map (to_lower E) ts)).
           { apply IH. split; [reflexivity|]. split; [auto|]. intros _. specialize (L ltac:(discriminate)). lia. }
           congruence.
    + split; [discriminate|]. intros (-> & F & _). inversion F as [|? ? F1 F2]; subst. apply word_map_none in M. contradiction.
Qed.
Lemma raw_size w : In w (wl_words E) ->
  mnemonic_size (fst (parse_version_raw E w)) = if supported_first E w then phrase_size E w else 0.
Proof.
  intros H. unfold supported_first, phrase_size, parse_mnemonic_version. rewrite in_list_true by auto.
  unfold parse_version_raw. rewrite (to_lower_word E W w H).
  destruct (word_map E w) as [i|] eqn:M; [|apply word_map_none in M; contradiction].
  apply (word_map_spec E W) in M as [B _].
  assert (V : 0 <= Z.shiftr i (bits_per_word - version_bits)) by (apply Z.shiftr_nonneg; lia).
  set (v := Z.shiftr i _) in *. clearbody v. cbn [fst]. unfold version_check, version_latest.
  destruct (v >? 1) eqn:C; cbn [bind]; [|reflexivity]. unfold mnemonic_size, payload_bit_count.
  replace (v =? 0) with false by lia. replace (v =? 1) with false by lia. reflexivity.
Qed.
Lemma parse_tokens c ws : parse_word_file E c = Ok ws <->
  ws = map (to_lower E) (scan_words c 0 []) /\ phrase_ok E ws.
Proof.
  unfold parse_word_file. set (ts := scan_words c 0 []). clearbody ts.
  destruct (word_file_loop E 0 ts) as [l|e|] eqn:L; cbn [bind].
  - apply loop_ok in L as (-> & F & _). destruct (map (to_lower E) ts) as [|w0 t] eqn:M.
    + split; [discriminate|]. intros (-> & _ & w & t & X & _). discriminate.
    + inversion F as [|? ? F0 F1]; subst. pose proof (raw_size w0 F0) as R. destruct (parse_version_raw E w0) as [v r]. cbn [fst] in R.
      split.
      * destruct (zlen (w0 :: t) =? mnemonic_size v) eqn:Q; cbn [negb]; [|discriminate]. intros X. injection X as <-.
        split; [reflexivity|]. split; [auto|]. exists w0, t. split; [reflexivity|]. rewrite R in Q.
        destruct (supported_first E w0); [split; [reflexivity|lia]|].
        rewrite zlen_cons in Q. pose proof (zlen_nonneg t). lia.
      * intros (-> & _ & w & t' & X & S & Z1). injection X as <- <-. rewrite S in R. rewrite <- R in Z1. rewrite Z1, Z.eqb_refl. reflexivity.
  - split; [discriminate|]. intros (-> & F & w & t & X & S & Z1). exfalso.
    assert (Y : word_file_loop E 0 ts = Ok (map (to_lower E) ts)).
    { apply loop_ok. split; [reflexivity|]. split; [auto|]. intros _.
      unfold phrase_size, supported_first in *. destruct (parse_mnemonic_version E w) as [v|e'|] eqn:V; [|discriminate|discriminate].
      pose proof (size_supported v (parse_version_cases _ _ _ V)). pose proof (parse_version_cases _ _ _ V).
      unfold zlen in Z1. rewrite map_length in Z1. unfold zlen. lia. }
    congruence.
  - split; [discriminate|]. intros (-> & F & w & t & X & S & Z1). exfalso.
    assert (Y : word_file_loop E 0 ts = Ok (map (to_lower E) ts)).
    { apply loop_ok. split; [reflexivity|]. split; [auto|]. intros _.
      unfold phrase_size, supported_first in *. destruct (parse_mnemonic_version E w) as [v|e'|] eqn:V; [|discriminate|discriminate].
      pose proof (size_supported v (parse_version_cases _ _ _ V)). pose proof (parse_version_cases _ _ _ V).
      unfold zlen in Z1. rewrite map_length in Z1. unfold zlen. lia. }
    congruence.
Qed.
Lemma map_lower_words ws : Forall (fun w => In w (wl_words E)) ws -> map (to_lower E) ws = ws.
Proof. induction 1 as [|w ws H F IH]; [reflexivity|]. cbn [map]. rewrite to_lower_word, IH; auto. Qed.

(** ** Part of a file *)
Lemma scan_cut ws : Forall (fun w => In w (wl_words E)) ws -> ws <> [] -> forall n,
  exists k, (k <= length ws)%nat /\
    (scan_words (firstn n (word_file_content ws)) 0 [] = firstn k ws \/
     exists u s, u <> [] /\ nth_error ws k = Some (u ++ s) /\ scan_words (firstn n (word_file_content ws)) 0 [] = firstn k ws ++ [u]).
Proof.
  induction 1 as [|w ws H F IH]; intros N n; [congruence|]. clear N. pose proof (word_token w H) as T.
  destruct (Nat.le_gt_cases n (length w)) as [L|L].
  - assert (Q : firstn n (word_file_content (w :: ws)) = firstn n w).
    { destruct ws as [|v ws]; [rewrite content_one|rewrite content_cons]; rewrite firstn_app; replace (n - length w)%nat with 0%nat by lia;
      cbn [firstn]; apply app_nil_r. }
    rewrite Q. exists 0%nat. split; [lia|]. destruct (firstn n w) as [|b u] eqn:U; [left; reflexivity|]. right.
    rewrite <- U. exists (firstn n w), (skipn n w). split; [rewrite U; discriminate|].
    split; [rewrite firstn_skipn; reflexivity|]. change (firstn 0 (w :: ws) ++ [firstn n w]) with [firstn n w].
    apply scan_token_end. destruct T as (_ & T & TL). split; [rewrite U; discriminate|]. split; [apply Forall_firstn'; auto|].
    unfold zlen in *. rewrite firstn_length. lia.
  - destruct ws as [|v ws].
    + rewrite content_one. rewrite firstn_all2 by (rewrite app_length; cbn [length]; lia).
      exists 1%nat. split; [cbn; lia|]. left. rewrite scan_token_blank by (auto; unfold blank; lia). reflexivity.
    + rewrite content_cons. rewrite firstn_app, firstn_all2 by lia.
      replace (n - length w)%nat with (S (n - length w - 1)) by lia. cbn [firstn].
      rewrite scan_token_blank by (auto; unfold blank; lia).
      destruct (IH ltac:(discriminate) (n - length w - 1)%nat) as (k & K & [Q|(u & s & U & Nt & Q)]).
      * exists (S k). split; [cbn [length] in *; lia|]. left. rewrite Q. reflexivity.
      * exists (S k). split; [cbn [length] in *; lia|]. right. exists u, s. split; [auto|]. split; [exact Nt|]. rewrite Q. reflexivity.
Qed.
Hypothesis PF : prefix_free E.
Lemma parse_cut ws n r : phrase_ok E ws -> parse_word_file E (firstn n (word_file_content ws)) = Ok r -> r = ws.
Proof.
  intros (F & w & t & Q & S & Z1) P. assert (NE : ws <> []) by (rewrite Q; discriminate).
  apply parse_tokens in P as (R & F' & w' & t' & Q' & S' & Z2).
  destruct (scan_cut ws F NE n) as (k & K & [C|(u & s & U & Nt & C)]); rewrite C in R.
  - assert (R2 : r = firstn k ws).
    { rewrite R. apply map_lower_words. apply Forall_firstn'; auto. }
    clear R. destruct k as [|k]; [cbn [firstn] in R2; congruence|]. rewrite Q in R2. cbn [firstn] in R2. rewrite Q' in R2. injection R2 as R3 R4.
    subst w'. assert (LL : zlen r = zlen ws) by congruence.
    rewrite Q', Q, !zlen_cons in LL. rewrite Q', Q. f_equal. rewrite R4 in *. apply firstn_all2.
    unfold zlen in LL. rewrite firstn_length in LL. lia.
  - rewrite map_app in R. cbn [map] in R. rewrite map_lower_words in R by (apply Forall_firstn'; auto).
    assert (LU : to_lower E u = u).
    { apply to_lower_id. assert (X : In (u ++ s) (wl_words E)) by (rewrite Forall_forall in F; apply F; eapply nth_error_In; eauto).
      pose proof (wlo_letters E W) as L. rewrite Forall_forall in L. specialize (L _ X). apply Forall_app in L. tauto. }
    rewrite LU in R.
    assert (IU : In u (wl_words E)).
    { rewrite Forall_forall in F'. apply F'. rewrite R. apply in_or_app. right. left. auto. }
    assert (s = []).
    { apply (PF u s); auto. rewrite Forall_forall in F. apply F. eapply nth_error_In; eauto. }
    subst s. rewrite app_nil_r in Nt.
    assert (R2 : r = firstn (Datatypes.S k) ws).
    { rewrite R. clear - Nt. revert ws Nt. induction k as [|k IH]; intros [|x ws] Nt; cbn in Nt |- *; try discriminate.
      - injection Nt as ->. reflexivity.
      - f_equal. apply IH; auto. }
    clear R. rewrite Q in R2. cbn [firstn] in R2. rewrite Q' in R2. injection R2 as R3 R4.
    subst w'. assert (LL : zlen r = zlen ws) by congruence.
    rewrite Q', Q, !zlen_cons in LL. rewrite Q', Q. f_equal. rewrite R4 in *. apply firstn_all2.
    unfold zlen in LL. rewrite firstn_length in LL. lia.
Qed.
End Fmt.
