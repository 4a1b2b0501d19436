(** The reader of Spec/ArmorSpec.v reads what armor.Encode writes. *)
From Coq Require Import Lia ZifyBool ZifyNat.
From Verif.Model Require Import GoBase Env.
From Verif.Spec Require Import EnvSpec ArmorSpec GoArmor.
From Verif.Proofs Require Import BitsP.
Ltac Zify.zify_post_hook ::= Z.div_mod_to_equations.

(** lines of 64 characters, each ended by a newline; at most [fuel] of them *)
Fixpoint broken (fuel : nat) (t : bytes) : bytes :=
  match fuel, t with
  | _, [] => []
  | O, _ => t ++ [10]
  | S f, _ => firstn 64 t ++ [10] ++ broken f (skipn 64 t)
  end.
Definition armor (kind data : bytes) : bytes :=
  bs "-----BEGIN " ++ kind ++ bs "-----" ++ [10] ++ [10] ++
  broken (length (base64 data)) (base64 data) ++
  [pad] ++ base64 (be_bytes 3 (crc24 data)) ++ [10] ++
  bs "-----END " ++ kind ++ bs "-----".

Lemma sextet_char x : 0 <= x < 64 -> sextet (base64_char x) = Some x /\ base64_char x <> pad /\ base64_char x <> 10.
Proof.
  intros H. assert (K : forallb (fun x => match sextet (base64_char x) with Some y => y =? x | None => false end &&
     negb (base64_char x =? pad) && negb (base64_char x =? 10)) (map Z.of_nat (seq 0 64)) = true) by (vm_compute; reflexivity).
  rewrite forallb_forall in K. specialize (K x). assert (I : In x (map Z.of_nat (seq 0 64))).
  { apply in_map_iff. exists (Z.to_nat x). split; [lia|]. apply in_seq. lia. }
  specialize (K I). destruct (sextet (base64_char x)); [|discriminate]. split; [f_equal; lia|lia].
Qed.

Lemma list_ind3 {A} (P : list A -> Prop) : P [] -> (forall a, P [a]) -> (forall a b, P [a; b]) ->
  (forall a b c l, P l -> P (a :: b :: c :: l)) -> forall l, P l.
Proof.
  intros H0 H1 H2 H3. fix IH 1. intros [|a [|b [|c l]]]; [exact H0|apply H1|apply H2|apply H3, IH].
Qed.

Lemma unbase64_base64 l : Forall byte l -> unbase64 (base64 l) = Some l.
Proof.
  induction l as [|a|a b|a b c l IH] using list_ind3; intros F.
  - reflexivity.
  - inversion F; subst. unfold byte in *. cbn [base64 unbase64].
    destruct (sextet_char (a / 4) ltac:(lia)) as (-> & _). destruct (sextet_char (a mod 4 * 16) ltac:(lia)) as (-> & _).
    cbn [Z.eqb Pos.eqb andb pad]. replace (a mod 4 * 16 mod 16 =? 0) with true by lia. do 2 f_equal. lia.
  - inversion F as [|? ? Ha F2]; subst. inversion F2 as [|? ? Hb _]; subst. unfold byte in *. cbn [base64 unbase64].
    destruct (sextet_char (a / 4) ltac:(lia)) as (-> & _). destruct (sextet_char (a mod 4 * 16 + b / 16) ltac:(lia)) as (-> & _).
    destruct (sextet_char (b mod 16 * 4) ltac:(lia)) as (-> & N & _). replace (base64_char (b mod 16 * 4) =? pad) with false by lia.
    cbn [Z.eqb Pos.eqb andb pad]. replace (b mod 16 * 4 mod 4 =? 0) with true by lia. do 2 f_equal; [lia|]. f_equal. lia.
  - inversion F as [|? ? Ha F2]; subst. inversion F2 as [|? ? Hb F3]; subst. inversion F3 as [|? ? Hc F4]; subst. unfold byte in Ha, Hb, Hc. cbn [base64 unbase64].
    destruct (sextet_char (a / 4) ltac:(lia)) as (-> & _). destruct (sextet_char (a mod 4 * 16 + b / 16) ltac:(lia)) as (-> & _).
    destruct (sextet_char (b mod 16 * 4 + c / 64) ltac:(lia)) as (-> & N & _). replace (base64_char (b mod 16 * 4 + c / 64) =? pad) with false by lia.
    destruct (sextet_char (c mod 64) ltac:(lia)) as (-> & N' & _). replace (base64_char (c mod 64) =? pad) with false by lia.
    cbn [andb]. rewrite (IH F4). do 2 f_equal; [lia|]. f_equal; [lia|]. f_equal. lia.
Qed.
(** the characters of base64 *)
Lemma base64_chars l : Forall byte l -> Forall (fun c => c <> 10) (base64 l).
Proof.
  induction l as [|a|a b|a b c l IH] using list_ind3; intros F; cbn [base64].
  - constructor.
  - inversion F; subst. unfold byte in *. repeat constructor; try (apply sextet_char; lia); discriminate.
  - inversion F as [|? ? Ha F2]; subst. inversion F2 as [|? ? Hb _]; subst. unfold byte in *.
    repeat constructor; try (apply sextet_char; lia); discriminate.
  - inversion F as [|? ? Ha F2]; subst. inversion F2 as [|? ? Hb F3]; subst. inversion F3 as [|? ? Hc F4]; subst. unfold byte in Ha, Hb, Hc.
    repeat (apply Forall_cons; [apply sextet_char; lia|]). auto.
Qed.
(** the first character of a group is never the padding character *)
Lemma base64_group l k : Forall byte l -> (4 * k < length (base64 l))%nat -> nth (4 * k) (base64 l) 0 <> pad.
Proof.
  revert k. induction l as [|a|a b|a b c l IH] using list_ind3; intros k F H; cbn [base64 length] in H.
  - lia.
  - assert (k = 0)%nat as -> by lia. inversion F; subst. unfold byte in *. cbn [Nat.mul nth base64]. apply sextet_char. lia.
  - assert (k = 0)%nat as -> by lia. inversion F; subst. unfold byte in *. cbn [Nat.mul nth base64]. apply sextet_char. lia.
  - inversion F as [|? ? Ha F2]; subst. inversion F2 as [|? ? Hb F3]; subst. inversion F3 as [|? ? Hc F4]; subst. unfold byte in Ha.
    destruct k as [|k]; [cbn [Nat.mul nth base64]; apply sextet_char; lia|].
    replace (4 * S k)%nat with (S (S (S (S (4 * k))))) by lia. cbn [base64 nth]. apply IH; [exact F4|lia].
Qed.

Lemma lines_text l r : Forall (fun c => c <> 10) l -> text_lines (l ++ [10] ++ r) = l :: text_lines r.
Proof.
  induction 1 as [|c l N F IH]; [reflexivity|]. cbn [app text_lines]. replace (c =? 10) with false by lia.
  change (l ++ 10 :: r) with (l ++ [10] ++ r). rewrite IH. reflexivity.
Qed.
Lemma lines_last l : Forall (fun c => c <> 10) l -> text_lines l = [l].
Proof. induction 1 as [|c l N F IH]; [reflexivity|]. cbn [text_lines]. replace (c =? 10) with false by lia. rewrite IH. reflexivity. Qed.

Lemma strip_prefix_app p l : strip_prefix p (p ++ l) = Some l.
Proof. induction p as [|x p IH]; [destruct l; reflexivity|]. cbn [app strip_prefix]. rewrite Z.eqb_refl. exact IH. Qed.
Lemma marker_ok word kind : marker word (bs "-----" ++ word ++ kind ++ bs "-----") = Some kind.
Proof.
  unfold marker. rewrite app_assoc, strip_prefix_app. unfold strip_suffix. rewrite rev_app_distr, strip_prefix_app.
  cbn [option_map]. rewrite rev_involutive. reflexivity.
Qed.

Lemma body_ok fuel : forall t k sum rest, (length t <= 64 * fuel)%nat -> Forall (fun c => c <> 10) t ->
  (forall j, (j < length t)%nat -> (Nat.modulo j 4 = 0)%nat -> nth j t 0 <> pad) ->
  Forall (fun c => c <> 10) sum ->
  armor_body (text_lines (broken fuel t ++ [pad] ++ sum ++ [10] ++ rest) ++ k) = Some (t, sum, text_lines rest ++ k).
Proof.
  assert (E : forall k sum rest, Forall (fun c => c <> 10) sum ->
     armor_body (text_lines ([pad] ++ sum ++ [10] ++ rest) ++ k) = Some ([], sum, text_lines rest ++ k)).
  { intros k sum rest Fs. rewrite app_assoc, (lines_text ([pad] ++ sum)) by (apply Forall_app; split; [repeat constructor; discriminate|exact Fs]).
    reflexivity. }
  induction fuel as [|f IH]; intros t k sum rest L F G Fs.
  - destruct t; [|cbn [length] in L; lia]. cbn [broken]. apply E; auto.
  - destruct t as [|c t]; [apply E; auto|]. cbn [broken]. set (u := c :: t) in *.
    rewrite <- app_assoc, <- (app_assoc [10]), lines_text.
    2: { apply Forall_forall. intros x Hx. rewrite Forall_forall in F. apply F. rewrite <- (firstn_skipn 64 u). apply in_or_app. left. exact Hx. }
    change (armor_body (firstn 64 u :: (text_lines (broken f (skipn 64 u) ++ [pad] ++ sum ++ [10] ++ rest) ++ k)) =
            Some (u, sum, text_lines rest ++ k)). cbn [armor_body].
    assert (N : exists x y, firstn 64 u = x :: y /\ x <> pad).
    { exists c, (firstn 63 t). split; [reflexivity|]. apply (G 0%nat); [unfold u; cbn; lia|reflexivity]. }
    destruct N as (x & y & N & P).
    assert (Z64 : zlen (firstn 64 u) >? 76 = false).
    { unfold zlen. pose proof (firstn_le_length 64 u). lia. }
    pose proof (IH (skipn 64 u) k sum rest) as H. rewrite skipn_length in H. specialize (H ltac:(lia)).
    assert (HB : armor_body (text_lines (broken f (skipn 64 u) ++ [pad] ++ sum ++ [10] ++ rest) ++ k) =
                 Some (skipn 64 u, sum, text_lines rest ++ k)).
    { apply H; [| |exact Fs].
      - apply Forall_forall. intros z Hz. rewrite Forall_forall in F. apply F. rewrite <- (firstn_skipn 64 u). apply in_or_app. right. exact Hz.
      - intros j Hj Mj. assert (X : nth j (skipn 64 u) 0 = nth (64 + j) u 0).
        { rewrite <- (firstn_skipn 64 u) at 2. rewrite app_nth2; rewrite firstn_length_le by lia; [|lia]. f_equal. lia. }
        rewrite X. apply G; [lia|]. rewrite Nat.add_comm. change 64%nat with (16 * 4)%nat. rewrite Nat.mod_add by lia. exact Mj. }
    clear H. revert HB. generalize (text_lines (broken f (skipn 64 u) ++ [pad] ++ sum ++ [10] ++ rest) ++ k). intros ls HB.
    assert (Q : firstn 64 u ++ skipn 64 u = u) by apply firstn_skipn. rewrite N in *.
    revert HB Q. generalize (skipn 64 u). intros tl HB Q. rewrite Z64.
    assert (R : (match armor_body ls with Some (data, sum0, rest0) => Some ((x :: y) ++ data, sum0, rest0) | None => None end) = Some (u, sum, text_lines rest ++ k)).
    { rewrite HB, Q. reflexivity. }
    destruct x as [|p|p]; [exact R| |exact R].
    do 6 (destruct p as [p|p|]; try exact R). exfalso. apply P. reflexivity.
Qed.

Lemma crc24_bound d : 0 <= crc24 d < 2 ^ 24.
Proof. unfold crc24. apply Z.mod_pos_bound. reflexivity. Qed.

Lemma armor_read kind data : Forall (fun b => 32 <= b <= 126) kind -> Forall byte data ->
  dearmor (armor kind data) = Some (kind, data).
Proof.
  intros K D. unfold dearmor, armor.
  assert (NK : Forall (fun c => c <> 10) kind) by (eapply Forall_impl; [|exact K]; cbn; lia).
  assert (Q : forall x, (bs "-----BEGIN " ++ kind ++ bs "-----" ++ [10] ++ x) = (bs "-----BEGIN " ++ kind ++ bs "-----") ++ [10] ++ x)
    by (intros; rewrite <- !app_assoc; reflexivity).
  rewrite Q, lines_text.
  2: { apply Forall_app. split; [repeat constructor; discriminate|]. apply Forall_app. split; [exact NK|repeat constructor; discriminate]. }
  assert (Q0 : forall x, text_lines ([10] ++ x) = [] :: text_lines x) by reflexivity. rewrite Q0. clear Q0.
  match goal with |- dearmor_lines (drop_blank (?a :: ?b)) = _ => change (drop_blank (a :: b)) with (a :: b) end.
  unfold dearmor_lines.
  change (bs "-----BEGIN " ++ kind ++ bs "-----") with (bs "-----" ++ bs "BEGIN " ++ kind ++ bs "-----"). rewrite marker_ok.
  cbn [after_headers].
  assert (C : Forall byte (be_bytes 3 (crc24 data))) by apply be_bytes_byte.
  pose proof (body_ok (length (base64 data)) (base64 data) [] (base64 (be_bytes 3 (crc24 data))) (bs "-----END " ++ kind ++ bs "-----")) as B.
  rewrite !app_nil_r in B. change bytes with (list Z) in *. rewrite B.
  2: lia. 2: apply base64_chars; auto. 3: apply base64_chars; auto.
  2: { intros j Hj Mj. apply Nat.mod_divides in Mj as (k & ->); [|lia]. apply base64_group; auto. }
  assert (NN : Forall (fun c => c <> 10) (bs "-----END " ++ kind ++ bs "-----")).
  { apply Forall_app. split; [repeat constructor; discriminate|]. apply Forall_app. split; [exact NK|repeat constructor; discriminate]. }
  rewrite (lines_last _ NN). change (bs "-----END " ++ kind ++ bs "-----") with (bs "-----" ++ bs "END " ++ kind ++ bs "-----").
  rewrite unbase64_base64 by auto. rewrite unbase64_base64 by auto. rewrite marker_ok.
  rewrite be_uint_be_bytes_small by (pose proof (crc24_bound data); change (256 ^ Z.of_nat 3) with (2 ^ 24); lia).
  assert (G : bytes_eqb kind kind && (zlen (be_bytes 3 (crc24 data)) =? 3) && (crc24 data =? crc24 data) && forallb (fun l => bytes_eqb l []) [] = true).
  { rewrite bytes_eqb_refl, Z.eqb_refl. assert (LB : zlen (be_bytes 3 (crc24 data)) = 3) by (unfold zlen; rewrite (be_bytes_length 3 (crc24 data)); reflexivity). clear B. cbn [forallb]. lia. }
  match goal with |- (if ?c then _ else _) = _ => replace c with true by (symmetry; exact G) end. reflexivity.
Qed.

(** blank lines around do not matter *)
Lemma lines_nonempty t : text_lines t <> [].
Proof. destruct t as [|c t]; [discriminate|]. cbn [text_lines]. destruct (c =? 10); [discriminate|]. destruct (text_lines t); discriminate. Qed.
Lemma lines_newline t : text_lines (t ++ [10]) = text_lines t ++ [[]].
Proof.
  induction t as [|c t IH]; [reflexivity|]. cbn [app text_lines]. destruct (c =? 10); [rewrite IH; reflexivity|].
  rewrite IH. pose proof (lines_nonempty t). destruct (text_lines t); [congruence|reflexivity].
Qed.
Lemma headers_app ls k r : after_headers ls = Some r -> after_headers (ls ++ k) = Some (r ++ k).
Proof.
  induction ls as [|l ls IH]; [discriminate|]. cbn [app after_headers]. destruct l as [|c l]; [intros [= <-]; reflexivity|].
  destruct (existsb (Z.eqb 58) (c :: l)); [exact IH|discriminate].
Qed.
Lemma body_app ls k : forall d s r, armor_body ls = Some (d, s, r) -> armor_body (ls ++ k) = Some (d, s, r ++ k).
Proof.
  induction ls as [|l ls IH]; intros d s r; [discriminate|]. cbn [app armor_body].
  assert (R : (if zlen l >? 76 then None else match armor_body ls with Some (data, sum, rest) => Some (l ++ data, sum, rest) | None => None end) = Some (d, s, r) ->
     (if zlen l >? 76 then None else match armor_body (ls ++ k) with Some (data, sum, rest) => Some (l ++ data, sum, rest) | None => None end) = Some (d, s, r ++ k)).
  { destruct (zlen l >? 76); [discriminate|]. destruct (armor_body ls) as [[[d' s'] r']|]; [|discriminate]. intros [= <- <- <-]. rewrite (IH d' s' r' eq_refl). reflexivity. }
  destruct l as [|c l]; [exact R|]. destruct c as [|p|p]; [exact R| |exact R].
  do 6 (destruct p as [p|p|]; try exact R). intros [= <- <- <-]. reflexivity.
Qed.
Lemma dearmor_lines_app ls k x : Forall (fun l => l = []) k -> dearmor_lines ls = Some x -> dearmor_lines (ls ++ k) = Some x.
Proof.
  intros F. destruct ls as [|first ls]; [discriminate|]. cbn [app]. unfold dearmor_lines.
  destruct (marker (bs "BEGIN ") first) as [kind|]; [|discriminate].
  destruct (after_headers ls) as [r|] eqn:H; [|discriminate]. rewrite (headers_app _ k _ H).
  destruct (armor_body r) as [[[d s] r']|] eqn:B; [|discriminate]. rewrite (body_app _ k _ _ _ B).
  destruct r' as [|last trailer]; [discriminate|]. cbn [app].
  destruct (unbase64 d); [|discriminate]. destruct (unbase64 s); [|discriminate]. destruct (marker (bs "END ") last); [|discriminate].
  rewrite forallb_app. replace (forallb (fun l => bytes_eqb l []) k) with true; [rewrite andb_true_r; auto|].
  symmetry. apply forallb_forall. rewrite Forall_forall in F. intros l Hl. rewrite (F l Hl). reflexivity.
Qed.
Lemma drop_blank_app ls k x : Forall (fun l => l = []) k -> dearmor_lines (drop_blank ls) = Some x -> dearmor_lines (drop_blank (ls ++ k)) = Some x.
Proof.
  intros F. induction ls as [|l ls IH]; [discriminate|]. destruct l as [|c l]; [exact IH|].
  cbn [app drop_blank]. apply (dearmor_lines_app ((c :: l) :: ls)). exact F.
Qed.
Lemma dearmor_newlines t x a b : dearmor t = Some x -> dearmor (repeat 10 a ++ t ++ repeat 10 b) = Some x.
Proof.
  intros H. assert (B : dearmor (t ++ repeat 10 b) = Some x).
  { unfold dearmor in *. assert (L : exists k, text_lines (t ++ repeat 10 b) = text_lines t ++ k /\ Forall (fun l => l = []) k).
    { induction b as [|b (k & IH & F)]; [exists []; rewrite !app_nil_r; auto|]. exists (k ++ [[]]).
      assert (R : repeat 10 (S b) = repeat 10 b ++ [10]) by (clear; induction b as [|b IH]; [reflexivity|]; change (repeat 10 (S (S b))) with (10 :: repeat 10 (S b)); rewrite IH at 1; reflexivity).
      rewrite R, app_assoc, lines_newline, IH, <- app_assoc. split; [reflexivity|]. apply Forall_app. auto. }
    destruct L as (k & -> & F). apply drop_blank_app; auto. }
  induction a as [|a IH]; [exact B|]. unfold dearmor in *. cbn [repeat app text_lines]. exact IH.
Qed.

Lemma lines64_broken fuel : forall t, t <> [] -> (length t <= fuel)%nat -> lines64 fuel t ++ [10] = broken fuel t.
Proof.
  induction fuel as [|f IH]; intros t N L; [destruct t; [congruence|cbn [length] in L; lia]|].
  destruct t as [|c t]; [congruence|]. cbn [lines64 broken]. set (u := c :: t) in *. destruct (zlen u <=? 64) eqn:B.
  - unfold zlen in B. rewrite firstn_all2, skipn_all2 by lia. destruct f; reflexivity.
  - unfold zlen in B. rewrite <- !app_assoc, IH; [reflexivity| |rewrite skipn_length; lia].
    intros E. apply (f_equal (@length Z)) in E. rewrite skipn_length in E. cbn [length] in E. lia.
Qed.
Lemma base64_nil l : base64 l = [] -> l = [].
Proof. destruct l as [|a [|b [|c l]]]; [reflexivity|discriminate..]. Qed.
Lemma std_armor_shape kind data : data <> [] -> std_armor kind data = armor kind data.
Proof.
  intros N. unfold std_armor, armor. rewrite <- (lines64_broken (length (base64 data))); [|intros E; apply N, base64_nil, E|lia].
  rewrite <- !app_assoc. reflexivity.
Qed.
Lemma std_armor_read kind data : Forall (fun b => 32 <= b <= 126) kind -> Forall byte data ->
  dearmor (std_armor kind data) = Some (kind, data).
Proof.
  intros K D. destruct data as [|b data]; [|rewrite std_armor_shape by discriminate; apply armor_read; auto].
  pose proof (armor_read kind [] K D) as R. revert R. unfold dearmor, std_armor, armor.
  assert (NK : Forall (fun c => c <> 10) kind) by (eapply Forall_impl; [|exact K]; cbn; lia).
  assert (Q : forall x, (bs "-----BEGIN " ++ kind ++ bs "-----" ++ [10] ++ x) = (bs "-----BEGIN " ++ kind ++ bs "-----") ++ [10] ++ x)
    by (intros; rewrite <- !app_assoc; reflexivity).
  rewrite !Q, !lines_text.
  2, 3: (apply Forall_app; split; [repeat constructor; discriminate|]; apply Forall_app; split; [exact NK|repeat constructor; discriminate]).
  cbn [base64 length lines64 broken app].
  set (tail := base64 (be_bytes 3 (crc24 [])) ++ _).
  change (text_lines (10 :: 10 :: pad :: tail)) with ([] :: [] :: text_lines (pad :: tail)).
  change (text_lines (10 :: pad :: tail)) with ([] :: text_lines (pad :: tail)).
  generalize (text_lines (pad :: tail)). intros ls.
  change (drop_blank ((bs "-----BEGIN " ++ kind ++ bs "-----") :: [] :: ls)) with ((bs "-----BEGIN " ++ kind ++ bs "-----") :: [] :: ls).
  change (drop_blank ((bs "-----BEGIN " ++ kind ++ bs "-----") :: [] :: [] :: ls)) with ((bs "-----BEGIN " ++ kind ++ bs "-----") :: [] :: [] :: ls).
  unfold dearmor_lines. cbn [after_headers]. destruct (marker _ _); [|discriminate].
  change (armor_body ([] :: ls)) with (match armor_body ls with Some (data, sum, rest) => Some ([] ++ data, sum, rest) | None => None end).
  destruct (armor_body ls) as [[[d s] r]|]; auto.
Qed.
