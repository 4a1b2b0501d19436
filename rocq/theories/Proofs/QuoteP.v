(** Lemmas about Spec/GoQuote.v. *)
From Coq Require Import Lia ZifyBool ZifyNat.
From Verif.Model Require Import GoBase.
From Verif.Spec Require Import EnvSpec SpaceSpec GoText GoQuote QuoteSpec.
From Verif.Proofs Require Import UnicodeP.
Ltac Zify.zify_post_hook ::= Z.div_mod_to_equations.

Lemma nibble_16 n : 0 <= n < 16 -> hex_digit (lower_hex n) n /\ 48 <= lower_hex n <= 102.
Proof.
  intros N. assert (C : In n (map Z.of_nat (seq 0 16))) by (apply in_map_iff; exists (Z.to_nat n); split; [lia|apply in_seq; lia]).
  cbn in C. repeat (destruct C as [<- |C]; [unfold hex_digit; vm_compute; intuition congruence|]). destruct C.
Qed.
Lemma nibble_mod r s : 0 <= s -> Z.land (Z.shiftr r s) 0xF = r / 2 ^ s mod 16.
Proof. intros S. change 0xF with (Z.ones 4). rewrite Z.land_ones by lia. rewrite Z.shiftr_div_pow2 by lia. reflexivity. Qed.
Lemma hex_nibbles r : forall shifts, 0 <= r -> Forall (fun s => 0 <= s) shifts -> Forall (fun b => 48 <= b <= 102) (hex_from r shifts).
Proof.
  intros shifts R F. unfold hex_from. apply Forall_map. eapply Forall_impl; [|exact F]. intros s S. cbv beta in *. rewrite nibble_mod by exact S.
  apply nibble_16. apply Z.mod_pos_bound. lia.
Qed.
Lemma hex_value_step r s l n : hex_number (hex_from r l) n -> n = r / 2 ^ (s + 4) -> 0 <= s -> 0 <= r -> hex_number (hex_from r (l ++ [s])) (r / 2 ^ s).
Proof.
  intros H N S R. unfold hex_from in *. rewrite map_app. cbn [map]. rewrite nibble_mod by exact S.
  assert (Q : r / 2 ^ s = n * 16 + r / 2 ^ s mod 16).
  { subst n. rewrite Z.pow_add_r by lia. change (2 ^ 4) with 16. rewrite <- Z.div_div by lia. pose proof (Z.div_mod (r / 2 ^ s) 16). lia. }
  rewrite Q at 2. apply Hex_more; [exact H|]. apply nibble_16. apply Z.mod_pos_bound. lia.
Qed.
Lemma hex_2 r : 0 <= r < 256 -> hex_number (hex_from r [4; 0]) r.
Proof.
  intros R. assert (H0 : hex_number (hex_from r []) 0) by constructor.
  pose proof (hex_value_step r 4 [] 0 H0) as H1. cbn [app] in H1. specialize (H1 ltac:(rewrite Z.div_small; [reflexivity|change (2 ^ (4 + 4)) with 256; lia]) ltac:(lia) ltac:(lia)).
  pose proof (hex_value_step r 0 [4] _ H1 eq_refl ltac:(lia) ltac:(lia)) as H2. rewrite Z.pow_0_r, Z.div_1_r in H2. exact H2.
Qed.
Lemma hex_4 r : 0 <= r < 65536 -> hex_number (hex_from r [12; 8; 4; 0]) r.
Proof.
  intros R. assert (H0 : hex_number (hex_from r []) 0) by constructor.
  pose proof (hex_value_step r 12 [] 0 H0) as H1. cbn [app] in H1. specialize (H1 ltac:(rewrite Z.div_small; [reflexivity|change (2 ^ (12 + 4)) with 65536; lia]) ltac:(lia) ltac:(lia)).
  pose proof (hex_value_step r 8 [12] _ H1 eq_refl ltac:(lia) ltac:(lia)) as H2. pose proof (hex_value_step r 4 [12; 8] _ H2 eq_refl ltac:(lia) ltac:(lia)) as H3.
  pose proof (hex_value_step r 0 [12; 8; 4] _ H3 eq_refl ltac:(lia) ltac:(lia)) as H4. rewrite Z.pow_0_r, Z.div_1_r in H4. exact H4.
Qed.
Lemma hex_8 r : 0 <= r < 4294967296 -> hex_number (hex_from r [28; 24; 20; 16; 12; 8; 4; 0]) r.
Proof.
  intros R. assert (H0 : hex_number (hex_from r []) 0) by constructor.
  pose proof (hex_value_step r 28 [] 0 H0) as H1. cbn [app] in H1. specialize (H1 ltac:(rewrite Z.div_small; [reflexivity|change (2 ^ (28 + 4)) with 4294967296; lia]) ltac:(lia) ltac:(lia)).
  pose proof (hex_value_step r 24 [28] _ H1 eq_refl ltac:(lia) ltac:(lia)) as H2. pose proof (hex_value_step r 20 [28; 24] _ H2 eq_refl ltac:(lia) ltac:(lia)) as H3.
  pose proof (hex_value_step r 16 [28; 24; 20] _ H3 eq_refl ltac:(lia) ltac:(lia)) as H4. pose proof (hex_value_step r 12 [28; 24; 20; 16] _ H4 eq_refl ltac:(lia) ltac:(lia)) as H5.
  pose proof (hex_value_step r 8 [28; 24; 20; 16; 12] _ H5 eq_refl ltac:(lia) ltac:(lia)) as H6. pose proof (hex_value_step r 4 [28; 24; 20; 16; 12; 8] _ H6 eq_refl ltac:(lia) ltac:(lia)) as H7.
  pose proof (hex_value_step r 0 [28; 24; 20; 16; 12; 8; 4] _ H7 eq_refl ltac:(lia) ltac:(lia)) as H8. rewrite Z.pow_0_r, Z.div_1_r in H8. exact H8.
Qed.

(** bytes that are copied *)
Lemma stands_plainly p : forall t s, Forall (fun b => b <> 34 /\ b <> 92 /\ b <> 10) p -> stands_for t s -> stands_for (p ++ t) (p ++ s).
Proof. induction p as [|b p IH]; intros t s F H; [exact H|]. inversion F as [|? ? (A & B & C) F']; subst. cbn [app]. apply Stands_plain; auto. Qed.
Lemma utf8_plain r : code_point r -> r <> 34 -> r <> 92 -> r <> 10 -> Forall (fun b => b <> 34 /\ b <> 92 /\ b <> 10) (utf8 r).
Proof. unfold code_point, utf8. intros C A B D. destruct (r <? 128) eqn:Q1; [repeat constructor; lia|]. destruct (r <? 2048) eqn:Q2; [repeat constructor; lia|]. destruct (r <? 65536) eqn:Q3; repeat constructor; lia. Qed.
Lemma escaped_stands above r t s : code_point r -> stands_for t s -> stands_for (escaped_rune above r ++ t) (utf8 r ++ s).
Proof.
  intros C H. unfold escaped_rune.
  assert (SM : forall b, b < 128 -> utf8 b ++ s = b :: s) by (intros b B; rewrite utf8_ascii by exact B; reflexivity).
  assert (ES : forall c b, In (c, b) escapes -> b < 128 -> stands_for ([92; c] ++ t) (utf8 b ++ s)) by (intros c b I B; rewrite SM by exact B; apply Stands_escape; auto).
  assert (RC : 0 <= r < 1114112) by (unfold code_point in C; lia).
  destruct ((r =? 34) || (r =? 92)) eqn:Q0; [assert (r = 34 \/ r = 92) as [-> | ->] by lia; (apply ES; [cbn; tauto|lia])|].
  assert (R0 : r <> 34 /\ r <> 92) by lia. clear Q0.
  destruct (is_print above r) eqn:P.
  { apply stands_plainly; [|exact H]. apply utf8_plain; [exact C|lia|lia|]. intros ->. discriminate P. }
  destruct (r =? 7) eqn:Q1; [replace r with 7 by lia; apply (ES 97 7); [cbn; tauto|lia]|].
  destruct (r =? 8) eqn:Q2; [replace r with 8 by lia; apply (ES 98 8); [cbn; tauto|lia]|].
  destruct (r =? 12) eqn:Q3; [replace r with 12 by lia; apply (ES 102 12); [cbn; tauto|lia]|].
  destruct (r =? 10) eqn:Q4; [replace r with 10 by lia; apply (ES 110 10); [cbn; tauto|lia]|].
  destruct (r =? 13) eqn:Q5; [replace r with 13 by lia; apply (ES 114 13); [cbn; tauto|lia]|].
  destruct (r =? 9) eqn:Q6; [replace r with 9 by lia; apply (ES 116 9); [cbn; tauto|lia]|].
  destruct (r =? 11) eqn:Q7; [replace r with 11 by lia; apply (ES 118 11); [cbn; tauto|lia]|].
  clear Q1 Q2 Q3 Q4 Q5 Q6 Q7 ES.
  destruct ((r <? 32) || (r =? 127)) eqn:Q8.
  { rewrite SM by lia. apply (Stands_byte (hex_from r [4; 0]) r t s); [reflexivity|apply hex_2; lia|exact H]. }
  destruct (r <? 65536) eqn:Q9.
  - apply (Stands_short (hex_from r [12; 8; 4; 0]) r t s); [reflexivity|apply hex_4; lia|exact C|exact H].
  - apply (Stands_long (hex_from r [28; 24; 20; 16; 12; 8; 4; 0]) r t s); [reflexivity|apply hex_8; lia|exact C|exact H].
Qed.
(** the runes of a text *)
Lemma decode_step s : Forall byte s -> s <> [] -> exists r n, decode_rune s = (r, n) /\ (1 <= n)%nat /\ Forall byte (skipn n s) /\
  ((r = rune_error /\ n = 1%nat) \/ (code_point r /\ s = utf8 r ++ skipn n s /\ (n = 1%nat -> r <> rune_error))).
Proof.
  intros B N. destruct (decode_rune s) as [r n] eqn:D. exists r, n. destruct (decode_there s r n D N) as (L & T). split; [reflexivity|]. split; [exact L|].
  split; [rewrite <- (firstn_skipn n s) in B; apply Forall_app in B as [_ B]; exact B|]. destruct T as [T|([T|T] & U)]; [auto| |].
  - exfalso. unfold utf8 in U. replace (r <? 128) with true in U by lia. rewrite U in B. inversion B as [|? ? X]; subst. unfold byte in X. lia.
  - right. split; [exact T|]. split; [exact U|]. intros -> ->. rewrite U in D. rewrite decode_utf8 in D by exact T. vm_compute in D. discriminate D.
Qed.
Lemma quoted_stands above fuel : forall s, (length s <= fuel)%nat -> Forall byte s -> stands_for (quoted_runes above fuel s) s.
Proof.
  induction fuel as [|f IH]; intros s L B; [destruct s; [constructor|cbn in L; lia]|]. destruct s as [|b s]; [constructor|]. cbn [quoted_runes].
  destruct (decode_step (b :: s) B ltac:(discriminate)) as (r & n & D & N & BS & T). rewrite D.
  assert (LS : (length (skipn n (b :: s)) <= f)%nat) by (rewrite skipn_length; cbn [length] in *; lia). specialize (IH (skipn n (b :: s)) LS BS).
  destruct T as [[-> ->]|(C & U & NE)].
  - cbn [Nat.eqb andb]. rewrite Z.eqb_refl. inversion B as [|? ? Hb B']; subst. cbn [skipn] in *.
    rewrite <- app_assoc. apply (Stands_byte (hex_from b [4; 0]) b _ s); [reflexivity|apply hex_2; exact Hb|exact IH].
  - assert (X : Nat.eqb n 1 && (r =? rune_error) = false) by (destruct (Nat.eqb_spec n 1) as [Q|Q]; [specialize (NE Q); apply Z.eqb_neq in NE; rewrite NE; reflexivity|reflexivity]).
    rewrite X. rewrite U at 2. apply escaped_stands; [exact C|exact IH].
Qed.
(** what is written shows *)
Lemma shows_hex above r shifts : 0 <= r -> Forall (fun s => 0 <= s) shifts -> Forall (shows above) (hex_from r shifts).
Proof. intros R F. eapply Forall_impl; [|apply hex_nibbles; eauto]. intros b B. left. cbv beta in B. lia. Qed.
Definition shown_text (above : Z -> bool) (t : bytes) : Prop := exists rs, t = utf8_text rs /\ Forall (shows above) rs.
Lemma shown_app above a b : shown_text above a -> shown_text above b -> shown_text above (a ++ b).
Proof. intros (x & -> & X) (y & -> & Y). exists (x ++ y). unfold utf8_text. rewrite flat_map_app. split; [reflexivity|apply Forall_app; auto]. Qed.
Lemma shown_ascii above t : Forall (fun b => 32 <= b <= 126) t -> shown_text above t.
Proof.
  intros F. exists t. split.
  - induction F as [|b t B F IH]; [reflexivity|]. unfold utf8_text in *. cbn [flat_map]. rewrite utf8_ascii by lia. cbn [app]. rewrite <- IH. reflexivity.
  - eapply Forall_impl; [|exact F]. intros b B. left. cbv beta in B. lia.
Qed.
Lemma escaped_shows above r : code_point r -> shown_text above (escaped_rune above r).
Proof.
  intros C. unfold escaped_rune. assert (RC : 0 <= r < 1114112) by (unfold code_point in C; lia).
  assert (HX : forall a b shifts, 32 <= a <= 126 -> 32 <= b <= 126 -> Forall (fun s => 0 <= s) shifts -> shown_text above ([a; b] ++ hex_from r shifts)).
  { intros a b shifts A B F. apply shown_ascii. constructor; [lia|]. constructor; [lia|]. eapply Forall_impl; [|apply hex_nibbles; [apply RC|exact F]]. intros x X. cbv beta in X. lia. }
  destruct ((r =? 34) || (r =? 92)) eqn:Q0; [apply shown_ascii; constructor; [lia|]; constructor; [lia|constructor]|].
  destruct (is_print above r) eqn:P.
  { exists [r]. split; [unfold utf8_text; cbn [flat_map]; rewrite app_nil_r; reflexivity|]. constructor; [|constructor]. unfold shows. unfold is_print in P.
    destruct (Z.leb_spec r 255) as [Q|Q]; [|right; right; split; [lia|auto]]. rewrite andb_true_r in P. destruct (Z.eqb_spec r 0xAD) as [E|E]; [subst r; discriminate P|].
    destruct (Z.leb_spec 32 r), (Z.ltb_spec r 127), (Z.leb_spec 161 r); cbn in P; try discriminate P; lia. }
  assert (PA : forall c, 32 <= c <= 126 -> shown_text above [92; c]) by (intros c X; apply shown_ascii; repeat constructor; lia).
  destruct (r =? 7); [apply PA; cbn; lia|]. destruct (r =? 8); [apply PA; cbn; lia|]. destruct (r =? 12); [apply PA; cbn; lia|]. destruct (r =? 10); [apply PA; cbn; lia|].
  destruct (r =? 13); [apply PA; cbn; lia|]. destruct (r =? 9); [apply PA; cbn; lia|]. destruct (r =? 11); [apply PA; cbn; lia|].
  destruct ((r <? 32) || (r =? 127)); [apply HX; [cbn; lia|cbn; lia|repeat constructor; lia]|].
  destruct (r <? 65536); (apply HX; [cbn; lia|cbn; lia|repeat constructor; lia]).
Qed.
Lemma quoted_shows above fuel : forall s, (length s <= fuel)%nat -> Forall byte s -> shown_text above (quoted_runes above fuel s).
Proof.
  induction fuel as [|f IH]; intros s L B; [exists []; split; [reflexivity|constructor]|]. destruct s as [|b s]; [exists []; split; [reflexivity|constructor]|]. cbn [quoted_runes].
  destruct (decode_step (b :: s) B ltac:(discriminate)) as (r & n & D & N & BS & T). rewrite D.
  assert (LS : (length (skipn n (b :: s)) <= f)%nat) by (rewrite skipn_length; cbn [length] in *; lia). specialize (IH (skipn n (b :: s)) LS BS).
  apply shown_app; [|exact IH]. inversion B as [|? ? Hb B']; subst. destruct T as [[-> ->]|(C & U & NE)].
  - cbn [Nat.eqb andb]. rewrite Z.eqb_refl. apply shown_ascii. constructor; [cbn; lia|]. constructor; [cbn; lia|]. eapply Forall_impl; [|apply hex_nibbles; [apply Hb|repeat constructor; lia]]. intros x X. cbv beta in X. lia.
  - assert (X : Nat.eqb n 1 && (r =? rune_error) = false) by (destruct (Nat.eqb_spec n 1) as [Q|Q]; [specialize (NE Q); apply Z.eqb_neq in NE; rewrite NE; reflexivity|reflexivity]).
    rewrite X. apply escaped_shows, C.
Qed.

(** ** A literal stands for one text *)
Lemma hex_digit_exact c n m : hex_digit c n -> hex_digit c m -> n = m. Proof. unfold hex_digit. lia. Qed.
Lemma hex_cases t n : hex_number t n -> (t = [] /\ n = 0) \/ exists s k c d, t = s ++ [c] /\ n = k * 16 + d /\ hex_number s k /\ hex_digit c d.
Proof. intros [|s k c d D B]; [auto|]. right. exists s, k, c, d. auto. Qed.
Lemma hex_exact t n : hex_number t n -> forall n', hex_number t n' -> n = n'.
Proof.
  induction 1 as [|s n c d D IH B]; intros n' D'; apply hex_cases in D' as [(E & ->)|(s' & k & c' & d' & E & -> & D' & B')].
  - reflexivity.
  - destruct s'; discriminate E.
  - destruct s; discriminate E.
  - apply app_inj_tail in E as [<- <-]. rewrite (IH _ D'), (hex_digit_exact _ _ _ B B'). reflexivity.
Qed.
Lemma stands_cases t s : stands_for t s ->
  (t = [] /\ s = []) \/
  (exists b t' s', t = b :: t' /\ s = b :: s' /\ b <> 92 /\ stands_for t' s') \/
  (exists c b t' s', t = 92 :: c :: t' /\ s = b :: s' /\ In (c, b) escapes /\ stands_for t' s') \/
  (exists h n t' s', t = 92 :: 120 :: h ++ t' /\ s = n :: s' /\ length h = 2%nat /\ hex_number h n /\ stands_for t' s') \/
  (exists h n t' s', t = 92 :: 117 :: h ++ t' /\ s = utf8 n ++ s' /\ length h = 4%nat /\ hex_number h n /\ stands_for t' s') \/
  (exists h n t' s', t = 92 :: 85 :: h ++ t' /\ s = utf8 n ++ s' /\ length h = 8%nat /\ hex_number h n /\ stands_for t' s').
Proof.
  intros [|b t' s' A B C H|c b t' s' I H|h n t' s' L N H|h n t' s' L N C H|h n t' s' L N C H].
  - auto.
  - right; left. exists b, t', s'. auto.
  - right; right; left. exists c, b, t', s'. auto.
  - right; right; right; left. exists h, n, t', s'. auto.
  - right; right; right; right; left. exists h, n, t', s'. auto.
  - right; right; right; right; right. exists h, n, t', s'. auto.
Qed.
Lemma same_split (h h' t t' : bytes) : length h = length h' -> h ++ t = h' ++ t' -> h = h' /\ t = t'.
Proof.
  revert h'. induction h as [|a h IH]; intros [|a' h'] L E; try discriminate L; [auto|]. cbn [app length] in *. injection E as -> E. injection L as L.
  destruct (IH h' L E) as [-> ->]. auto.
Qed.
Lemma escape_exact c b b' : In (c, b) escapes -> In (c, b') escapes -> b = b'.
Proof. unfold escapes. cbn. intuition congruence. Qed.
Lemma no_hex_escape c b : In (c, b) escapes -> c <> 120 /\ c <> 117 /\ c <> 85.
Proof. unfold escapes. cbn. intuition congruence. Qed.
Lemma stands_exact t s : stands_for t s -> forall s', stands_for t s' -> s = s'.
Proof.
  induction 1 as [|b t s A B C H IH|c b t s I H IH|h n t s L N H IH|h n t s L N C H IH|h n t s L N C H IH]; intros s' D;
    apply stands_cases in D as [(E & ->)|[(b' & t' & s2 & E & -> & F & D)|[(c' & b' & t' & s2 & E & -> & I' & D)|[(h' & n' & t' & s2 & E & -> & L' & N' & D)|[(h' & n' & t' & s2 & E & -> & L' & N' & D)|(h' & n' & t' & s2 & E & -> & L' & N' & D)]]]]];
    try discriminate E; try congruence.
  all: try (injection E as E1 E2; subst; try (apply no_hex_escape in I as (? & ? & ?)); try (apply no_hex_escape in I' as (? & ? & ?)); congruence).
  - injection E as <- <-. f_equal. auto.
  - injection E as <- <-. rewrite (escape_exact _ _ _ I I'). f_equal. auto.
  - injection E as E. apply same_split in E as [<- <-]; [|congruence]. rewrite (hex_exact _ _ N _ N'). f_equal. auto.
  - injection E as E. apply same_split in E as [<- <-]; [|congruence]. rewrite (hex_exact _ _ N _ N'). f_equal. auto.
  - injection E as E. apply same_split in E as [<- <-]; [|congruence]. rewrite (hex_exact _ _ N _ N'). f_equal. auto.
Qed.
