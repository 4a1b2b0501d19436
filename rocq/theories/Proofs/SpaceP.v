(** White space in UTF-8 text. *)
From Coq Require Import Lia ZifyBool ZifyNat.
From Verif.Model Require Import GoBase Env CliText.
From Verif.Spec Require Import SpaceSpec.
From Verif.Proofs Require Import BitsP PgpP FileP.
Ltac Zify.zify_post_hook ::= Z.div_mod_to_equations.

Lemma white_iff c : white c <-> 9 <= c <= 13 \/ c = 32 \/ c = 0x85 \/ c = 0xA0 \/ c = 0x1680 \/ 0x2000 <= c <= 0x200A \/
  c = 0x2028 \/ c = 0x2029 \/ c = 0x202F \/ c = 0x205F \/ c = 0x3000.
Proof. unfold white. cbn [app In]. lia. Qed.
Lemma white_point c : white c -> code_point c.
Proof. rewrite white_iff. unfold code_point. lia. Qed.
Lemma utf8_size c : code_point c -> 1 <= zlen (utf8 c) <= 4.
Proof. intros _. unfold utf8, zlen. destruct (c <? 128); [cbn; lia|]. destruct (c <? 2048); [cbn; lia|]. destruct (c <? 65536); cbn; lia. Qed.
Lemma tail_byte b l : 0x80 <= b < 0xC0 -> space_width (b :: l) = 0%nat.
Proof.
  intros B. cbn [space_width]. replace ((b =? 32) || ((9 <=? b) && (b <=? 13))) with false by lia. destruct l as [|c l]; [reflexivity|].
  replace (b =? 0xC2) with false by lia. cbn [andb]. destruct l; [reflexivity|]. replace (b =? 0xE1) with false by lia.
  replace (b =? 0xE2) with false by lia. replace (b =? 0xE3) with false by lia. reflexivity.
Qed.
Lemma white_width c l : white c -> space_width (utf8 c ++ l) = length (utf8 c).
Proof. unfold white. cbn [app In]. intros H. repeat (destruct H as [<-|H]; [reflexivity|]). destruct H. Qed.
Lemma other_width c l : code_point c -> ~ white c -> space_width (utf8 c ++ l) = 0%nat.
Proof.
  intros P N. rewrite white_iff in N. unfold code_point in P. unfold utf8.
  destruct (c <? 128) eqn:C1; [|destruct (c <? 2048) eqn:C2; [|destruct (c <? 65536) eqn:C3]]; cbn [app].
  - cbn [space_width]. replace ((c =? 32) || ((9 <=? c) && (c <=? 13))) with false by lia. destruct l as [|d l]; [reflexivity|].
    replace (c =? 0xC2) with false by lia. cbn [andb]. destruct l; [reflexivity|]. replace (c =? 0xE1) with false by lia.
    replace (c =? 0xE2) with false by lia. replace (c =? 0xE3) with false by lia. reflexivity.
  - set (a := 192 + c / 64). set (b := 128 + c mod 64). cbn [space_width].
    replace ((a =? 32) || ((9 <=? a) && (a <=? 13))) with false by lia.
    replace ((a =? 0xC2) && ((b =? 0x85) || (b =? 0xA0))) with false by lia.
    destruct l; [reflexivity|]. replace (a =? 0xE1) with false by lia. replace (a =? 0xE2) with false by lia. replace (a =? 0xE3) with false by lia. reflexivity.
  - set (a := 224 + c / 4096). set (b := 128 + c / 64 mod 64). set (d := 128 + c mod 64). cbn [space_width].
    replace ((a =? 32) || ((9 <=? a) && (a <=? 13))) with false by lia. replace (a =? 0xC2) with false by lia. cbn [andb].
    replace ((a =? 0xE1) && (b =? 0x9A) && (d =? 0x80)) with false by lia.
    replace ((a =? 0xE2) && (b =? 0x80) && (((0x80 <=? d) && (d <=? 0x8A)) || (d =? 0xA8) || (d =? 0xA9) || (d =? 0xAF))) with false by lia.
    replace ((a =? 0xE2) && (b =? 0x81) && (d =? 0x9F)) with false by lia.
    replace ((a =? 0xE3) && (b =? 0x80) && (d =? 0x80)) with false by lia. reflexivity.
  - set (a := 240 + c / 262144). cbn [space_width].
    replace ((a =? 32) || ((9 <=? a) && (a <=? 13))) with false by lia. replace (a =? 0xC2) with false by lia. cbn [andb].
    replace (a =? 0xE1) with false by lia. replace (a =? 0xE2) with false by lia. replace (a =? 0xE3) with false by lia. reflexivity.
Qed.
Lemma scan_skip s l cur : scan_words (s ++ l) (length s) cur = scan_words l 0 cur.
Proof. induction s as [|b s IH]; [reflexivity|]. cbn [app length scan_words]. exact IH. Qed.
Lemma utf8_tail c : code_point c -> exists b s, utf8 c = b :: s /\ Forall (fun x => 0x80 <= x < 0xC0) s.
Proof.
  intros P. unfold code_point in P. unfold utf8. destruct (c <? 128); [|destruct (c <? 2048); [|destruct (c <? 65536)]]; do 2 eexists; (split; [reflexivity|]);
  repeat constructor; lia.
Qed.
Lemma scan_white c l cur : white c -> zlen cur <= 65533 -> scan_words (utf8 c ++ l) 0 cur = emit cur (scan_words l 0 []).
Proof.
  intros W L. pose proof (utf8_size c (white_point c W)) as Z1. pose proof (white_width c l W) as X.
  assert (Z2 : zlen (utf8 c) <= 3).
  { clear - W. unfold white in W. cbn [app In] in W. repeat (destruct W as [<-|W]; [vm_compute; discriminate|]). destruct W. }
  destruct (utf8 c) as [|b s] eqn:U; [unfold zlen in Z1; cbn in Z1; lia|]. cbn [app] in *. cbn [scan_words]. rewrite X. cbn [length].
  unfold max_token. replace ((zlen cur >? 0) && (zlen cur + Z.of_nat (S (length s)) >? 65536)) with false by (unfold zlen in *; cbn [length] in *; lia).
  rewrite scan_skip. reflexivity.
Qed.
Lemma scan_tail s l cur : Forall (fun x => 0x80 <= x < 0xC0) s -> zlen cur + zlen s <= 65536 ->
  scan_words (s ++ l) 0 cur = scan_words l 0 (rev s ++ cur).
Proof.
  intros F. revert cur. induction F as [|b s B F IH]; intros cur L; [reflexivity|]. rewrite zlen_cons in L. pose proof (zlen_nonneg s).
  cbn [app scan_words]. rewrite tail_byte by auto. unfold max_token. replace (zlen cur >=? 65536) with false by lia.
  rewrite IH by (rewrite zlen_cons; lia). cbn [rev]. rewrite <- app_assoc. reflexivity.
Qed.
Lemma scan_point c l cur : code_point c -> ~ white c -> zlen cur + zlen (utf8 c) <= 65536 ->
  scan_words (utf8 c ++ l) 0 cur = scan_words l 0 (rev (utf8 c) ++ cur).
Proof.
  intros P N L. pose proof (other_width c l P N) as X. destruct (utf8_tail c P) as (b & s & U & F). rewrite U in *. rewrite zlen_cons in L. pose proof (zlen_nonneg s).
  cbn [app] in *. cbn [scan_words]. rewrite X. unfold max_token. replace (zlen cur >=? 65536) with false by lia.
  rewrite scan_tail by (auto; rewrite zlen_cons; lia). cbn [rev]. rewrite <- app_assoc. reflexivity.
Qed.
Lemma scan_word t : forall l cur, Forall (fun c => code_point c /\ ~ white c) t -> zlen cur + zlen (utf8_text t) <= 65536 ->
  scan_words (utf8_text t ++ l) 0 cur = scan_words l 0 (rev (utf8_text t) ++ cur).
Proof.
  induction t as [|c t IH]; intros l cur F L; [reflexivity|]. inversion F as [|? ? [P N] F']; subst.
  unfold utf8_text in *. cbn [flat_map] in *. rewrite zlen_app in L. pose proof (zlen_nonneg (flat_map utf8 t)).
  rewrite <- app_assoc, scan_point by (auto; lia). rewrite IH; auto.
  - rewrite rev_app_distr, <- app_assoc. reflexivity.
  - rewrite zlen_app, zlen_rev. lia.
Qed.
Lemma scan_whites s l : Forall white s -> scan_words (utf8_text s ++ l) 0 [] = scan_words l 0 [].
Proof.
  induction 1 as [|c s W F IH]; [reflexivity|]. unfold utf8_text in *. cbn [flat_map]. rewrite <- app_assoc, scan_white by (auto; unfold zlen; cbn; lia). exact IH.
Qed.
Lemma word_bytes t : word_of t -> exists b r, rev (utf8_text t) ++ [] = b :: r.
Proof.
  intros (N & F & _). destruct t as [|c t]; [congruence|]. inversion F as [|? ? [P _] _]; subst. destruct (utf8_tail c P) as (b & s & U & _).
  unfold utf8_text. cbn [flat_map]. rewrite U. cbn [app rev]. rewrite app_nil_r. destruct (rev (s ++ flat_map utf8 t)); cbn [app]; eauto.
Qed.
Lemma scan_worded l ts : worded l ts -> scan_words (utf8_text l) 0 [] = map utf8_text ts.
Proof.
  induction 1 as [s F|s t F T|s t b c ts F T B W IH].
  - rewrite <- (app_nil_r (utf8_text s)), scan_whites by auto. reflexivity.
  - unfold utf8_text at 1. rewrite flat_map_app. fold (utf8_text s). fold (utf8_text t). rewrite scan_whites by auto.
    destruct (word_bytes t T) as (x & r & E). destruct T as (N & FT & L).
    rewrite <- (app_nil_r (utf8_text t)), scan_word by (auto; unfold zlen at 1; cbn; lia). cbn [scan_words map].
    unfold max_token. rewrite E. rewrite <- E. rewrite app_nil_r, zlen_rev. replace (zlen (utf8_text t) >=? 65536) with false by lia.
    rewrite app_nil_r in E. unfold emit. rewrite E. rewrite <- E, rev_involutive. reflexivity.
  - unfold utf8_text at 1. rewrite !flat_map_app. cbn [flat_map]. fold (utf8_text s). fold (utf8_text t). fold (utf8_text c). rewrite scan_whites by auto.
    destruct (word_bytes t T) as (x & r & E). destruct T as (N & FT & L).
    rewrite scan_word by (auto; unfold zlen at 1; cbn; lia). rewrite scan_white by (auto; rewrite app_nil_r, zlen_rev; lia).
    rewrite IH. unfold emit. rewrite E. rewrite <- E, app_nil_r, rev_involutive. reflexivity.
Qed.
