(** More about phrase entry and passwords: exact results. *)
From Coq Require Import Lia ZifyBool ZifyNat.
From Verif.Model Require Import GoBase Env Version Seed Recovery CliText CliInput CliFlags CliMain.
From Verif.Spec Require Import EnvSpec CliEnvSpec InputSpec.
From Verif.Proofs Require Import BitsP PgpP InputP.
Ltac Zify.zify_post_hook ::= Z.div_mod_to_equations.

Definition plain_key (k : Z) : Prop := ~ In k [3; 4; 68].

Lemma key_submit E s k : k = 13 \/ k = 32 ->
  key E s k =
  match completion E (en_input s) with
  | None => More (mk_entry (en_i s) (en_count s) (en_words s) (en_input s))
  | Some w =>
      if en_i s =? 0 then
        match parse_mnemonic_version E w with
        | Ok v => next_word (en_i s + 1) (mnemonic_size v) (en_words s ++ [w])
        | _ => More (mk_entry (en_i s) (en_count s) (en_words s) (en_input s))
        end
      else next_word (en_i s + 1) (en_count s) (en_words s ++ [w])
  end.
Proof.
  intros K. unfold key, key_ctrl_c, key_ctrl_d, key_left, key_delete.
  assert (B1 : (k =? 3) || (k =? 4) = false) by lia. assert (B2 : (97 <=? k) && (k <=? 122) = false) by lia.
  assert (B3 : k =? 127 = false) by lia. assert (B4 : k =? 68 = false) by lia.
  assert (B5 : k =? 9 = false) by lia. assert (B6 : (k =? 13) || (k =? 32) = true) by lia.
  rewrite B1, B2, B3, B4, B5, B6. unfold completion. destruct (snd (wl_search E (en_input s))); reflexivity.
Qed.
Lemma plain_cases k : plain_key k -> ((k =? 13) || (k =? 32) = true /\ (k = 13 \/ k = 32)) \/ ((k =? 13) || (k =? 32) = false /\ edit_key k).
Proof. unfold plain_key, edit_key. cbn [In]. intros H. destruct ((k =? 13) || (k =? 32)) eqn:B; [left|right]; lia. Qed.

Lemma enter_submitted E keys : Forall plain_key keys -> forall i c ws t, 0 < i < c ->
  let s := submitted E false t keys in
  fst (enter E (mk_entry i c ws t) keys) =
  if i + zlen s <? c then Err ErrInputEOF else Ok (ws ++ firstn (Z.to_nat (c - i)) s).
Proof.
  intros F. induction F as [|k keys P F IH]; intros i c ws t B; cbn [submitted].
  - change (zlen (@nil bytes)) with 0. replace (i + 0 <? c) with true by lia. reflexivity.
  - cbn [enter]. destruct (plain_cases k P) as [[Q K]|[Q K]]; rewrite Q.
    + rewrite key_submit by auto. cbn [en_i en_count en_words en_input].
      destruct (completion E t) as [w|]; [|apply IH; auto].
      replace (i =? 0) with false by lia. cbn [andb]. unfold next_word. rewrite zlen_cons.
      pose proof (zlen_nonneg (submitted E false [] keys)).
      destruct (i + 1 <? c) eqn:N.
      * rewrite IH by lia. replace (i + 1 + zlen (submitted E false [] keys)) with (i + (zlen (submitted E false [] keys) + 1)) by lia.
        destruct (i + (zlen (submitted E false [] keys) + 1) <? c); [reflexivity|]. rewrite <- app_assoc. cbn [app].
        replace (Z.to_nat (c - i)) with (S (Z.to_nat (c - (i + 1)))) by lia. reflexivity.
      * replace (i + (zlen (submitted E false [] keys) + 1) <? c) with false by lia. replace (Z.to_nat (c - i)) with 1%nat by lia. reflexivity.
    + rewrite key_edit by auto. cbn [en_i en_count en_words en_input]. apply IH; auto.
Qed.
Lemma completion_in E t w : search_ok E -> completion E t = Some w -> In w (wl_words E).
Proof.
  intros SO. unfold completion. destruct (SO t) as [_ F]. destruct (snd (wl_search E t)) as [|s l]; [discriminate|].
  intros H. injection H as <-. inversion F; auto.
Qed.
Lemma in_list_true E w : In w (wl_words E) -> in_list E w = true.
Proof. intros H. unfold in_list. apply existsb_exists. exists w. rewrite bytes_eqb_refl. auto. Qed.

Lemma entry_submitted E keys : search_ok E -> Forall plain_key keys -> forall c t,
  fst (enter E (mk_entry 0 c [] t) keys) =
  match submitted E true t keys with
  | [] => Err ErrInputEOF
  | (w :: _) as s => if zlen s <? phrase_size E w then Err ErrInputEOF else Ok (firstn (Z.to_nat (phrase_size E w)) s)
  end.
Proof.
  intros SO F. induction F as [|k keys P F IH]; intros c t; cbn [submitted]; [reflexivity|].
  cbn [enter]. destruct (plain_cases k P) as [[Q K]|[Q K]]; rewrite Q.
  - rewrite key_submit by auto. cbn [en_i en_count en_words en_input].
    destruct (completion E t) as [w|] eqn:C; [|apply IH]. cbn [Z.eqb andb app].
    unfold supported_first. rewrite (in_list_true E w) by (eapply completion_in; eauto).
    destruct (parse_mnemonic_version E w) as [v|e|] eqn:V; cbn [negb]; [|apply IH|apply IH].
    change (0 + 1) with 1. pose proof (size_supported v (parse_version_cases _ _ _ V)) as Z1.
    destruct (parse_version_cases _ _ _ V) as [X|X]; rewrite X in Z1; unfold phrase_size;
    unfold next_word; (replace (1 <? mnemonic_size v) with true by (subst; reflexivity));
    rewrite enter_submitted by (auto; subst; vm_compute; auto); cbv beta iota zeta; rewrite V; rewrite zlen_cons;
    rewrite (Z.add_comm 1); (destruct (_ <? mnemonic_size v); [reflexivity|]);
    subst; reflexivity.
  - rewrite key_edit by auto. cbn [en_i en_count en_words en_input]. apply IH.
Qed.

Lemma enter_abort E a : forall s k b, k = 3 \/ k = 4 -> fst (enter E s a) = Err ErrInputEOF ->
  enter E s (a ++ k :: b) = (Err ErrAborted, b).
Proof.
  induction a as [|x a IH]; intros s k b K H.
  - cbn [app enter]. unfold key, key_ctrl_c, key_ctrl_d. replace ((k =? 3) || (k =? 4)) with true by lia. reflexivity.
  - cbn [app enter] in *. destruct (key E s x); [apply IH; auto|discriminate|discriminate].
Qed.

(** ** Simple mode *)
Lemma text_of_lines_length ls : (length ls <= length (text_of_lines ls))%nat.
Proof.
  induction ls as [|[l cr] ls IH]; cbn [text_of_lines flat_map length]; [lia|]. fold (text_of_lines ls).
  rewrite !app_length. destruct cr; cbn [end_of_line snd length]; lia.
Qed.

(** ** Passwords *)
Lemma read_password_text l rest : ~ In 10 l -> read_password (l ++ 10 :: rest) [] = (Ok (pass_text l), rest).
Proof.
  intros N. destruct (read_password_spec (l ++ 10 :: rest) []) as [(m & r & Q & N2 & R)|(N2 & _)].
  - assert (X : l = m /\ rest = r).
    { clear R. revert m Q N2. induction l as [|x l IH]; intros [|y m] Q N2; cbn in Q.
      - injection Q as Q. auto.
      - injection Q as Q1 Q2. subst y. exfalso. apply N2. left. auto.
      - injection Q as Q1 Q2. subst x. exfalso. apply N. left. auto.
      - injection Q as Q1 Q2. subst y. destruct (IH ltac:(intros X; apply N; right; auto) m Q2 ltac:(intros X; apply N2; right; auto)). subst. auto. }
    destruct X as [-> ->]. rewrite R. reflexivity.
  - exfalso. apply N2. apply in_or_app. right. left. auto.
Qed.
Lemma value_at_prompt confirm l rest : ~ In 10 l ->
  value confirm At_prompt (l ++ 10 :: rest) =
  match pass_text l with
  | [] => value confirm At_prompt rest
  | p => if confirm then value confirm (At_confirm p) rest else (Ok p, rest)
  end.
Proof.
  intros N. destruct (pass_text l) as [|b p] eqn:P.
  - apply value_step. cbn [reader_step]. rewrite read_password_text by auto. rewrite P. reflexivity.
  - destruct confirm.
    + apply value_step. cbn [reader_step]. rewrite read_password_text by auto. rewrite P. reflexivity.
    + rewrite (value_step false At_prompt _ (Sending (b :: p)) rest).
      * unfold value. rewrite !Nat.add_succ_r. reflexivity.
      * cbn [reader_step]. rewrite read_password_text by auto. rewrite P. reflexivity.
Qed.
Lemma value_at_confirm p l rest : ~ In 10 l ->
  value true (At_confirm p) (l ++ 10 :: rest) =
  if bytes_eqb p (pass_text l) then (Ok p, rest) else value true At_prompt rest.
Proof.
  intros N. destruct (bytes_eqb p (pass_text l)) eqn:P.
  - rewrite (value_step true (At_confirm p) _ (Sending p) rest).
    + unfold value. rewrite !Nat.add_succ_r. reflexivity.
    + cbn [reader_step]. rewrite read_password_text by auto. rewrite P. reflexivity.
  - apply value_step. cbn [reader_step]. rewrite read_password_text by auto. rewrite P. reflexivity.
Qed.
Lemma value_end confirm r : r = At_prompt \/ (exists p, r = At_confirm p) -> value confirm r [] = (Err ErrInputEOF, []).
Proof. intros [->|(p & ->)]; reflexivity. Qed.
Lemma value_lines confirm ls : Forall (fun l => ~ In 10 l) ls ->
  fst (value confirm At_prompt (password_lines ls)) =
  match chosen confirm (map pass_text ls) with Some p => Ok p | None => Err ErrInputEOF end.
Proof.
  assert (G : forall n ls, (length ls <= n)%nat -> Forall (fun l => ~ In 10 l) ls ->
    fst (value confirm At_prompt (password_lines ls)) =
    match chosen confirm (map pass_text ls) with Some p => Ok p | None => Err ErrInputEOF end).
  { induction n as [|n IH]; intros [|l l1] L F; cbn [length] in L; try lia; try (rewrite value_end by auto; reflexivity).
    inversion F as [|? ? N F2]; subst. cbn [password_lines flat_map map chosen]. fold (password_lines l1).
    rewrite <- app_assoc. cbn [app]. rewrite value_at_prompt by auto.
    destruct (pass_text l) as [|b p] eqn:P; [apply IH; auto; lia|].
    destruct confirm; [|reflexivity].
    destruct l1 as [|m l2]; [cbn [map]; rewrite value_end by eauto; reflexivity|].
    inversion F2 as [|? ? N3 F3]; subst. cbn [password_lines flat_map map]. fold (password_lines l2).
    rewrite <- app_assoc. cbn [app]. rewrite value_at_confirm by auto.
    destruct (bytes_eqb (b :: p) (pass_text m)); [reflexivity|]. apply IH; auto. cbn [length] in L. lia. }
  intros F. apply (G (length ls)); auto.
Qed.
Lemma user_input_password_value confirm stdin : user_input_password true confirm stdin = value confirm At_prompt stdin.
Proof. reflexivity. Qed.

(** ** The retry loop *)
Lemma ask_line w l rest : w_tty w = true -> w_stdin w = l ++ 10 :: rest -> ~ In 10 l -> pass_text l <> [] ->
  ask_password false w = (Ret (pass_text l), set_prompts (set_stdin w rest) (S (w_prompts w))).
Proof.
  intros T S N P. unfold ask_password. rewrite T, S, user_input_password_value. rewrite value_at_prompt by auto.
  destruct (pass_text l) as [|b p]; [destruct (P eq_refl)|]. cbn [of_res set_stdin w_tty w_prompts]. rewrite T. reflexivity.
Qed.
Lemma ask_blank w l rest : w_tty w = true -> w_stdin w = l ++ 10 :: rest -> ~ In 10 l -> pass_text l = [] ->
  ask_password false w = ask_password false (set_stdin w rest).
Proof.
  intros T S N P. unfold ask_password. cbn [set_stdin w_tty w_stdin w_prompts]. rewrite T, S, user_input_password_value.
  rewrite value_at_prompt by auto. rewrite P. rewrite user_input_password_value. destruct (value false At_prompt rest) as [r r2].
  reflexivity.
Qed.
Definition no_newline (l : bytes) : Prop := ~ In 10 l.
Definition nonblank (l : bytes) : bool := match pass_text l with [] => false | _ => true end.
Definition rejected (E : Env) (dm : decoded) (l : bytes) : Prop :=
  pass_text l = [] \/ dm_decrypt_seed E dm (pass_text l) = Err ErrMnemonicDecryption.

Lemma set_stdin_twice w a b : set_stdin (set_stdin w a) b = set_stdin w b.
Proof. reflexivity. Qed.
Lemma decrypt_loop_unfold E f dm w : dm_encrypted dm = true ->
  decrypt_loop E (S f) dm w =
  match ask_password false w with
  | (Ret p, w') => match dm_decrypt_seed E dm p with
                   | Ok s => (Ret s, w')
                   | Err ErrMnemonicDecryption => decrypt_loop E f dm w'
                   | Err e => (Fail e, w')
                   | Panic => (Crash, w')
                   end
  | (Fail e, w') => (Fail e, w')
  | (Crash, w') => (Crash, w')
  | (Hang, w') => (Hang, w')
  | (Exit c, w') => (Exit c, w')
  end.
Proof. intros H. cbn [decrypt_loop]. unfold andthen. rewrite H. reflexivity. Qed.

Lemma decrypt_lines E dm : dm_encrypted dm = true -> forall ls fuel w rest, w_tty w = true ->
  w_stdin w = password_lines ls ++ rest -> Forall no_newline ls -> Forall (rejected E dm) ls -> (length ls < fuel)%nat ->
  exists fuel', decrypt_loop E fuel dm w =
    decrypt_loop E fuel' dm (set_prompts (set_stdin w rest) (w_prompts w + length (filter nonblank ls))) /\
    (fuel - length ls <= fuel')%nat.
Proof.
  intros EN. induction ls as [|l ls IH]; intros fuel w rest T S N R L.
  - cbn [filter length]. rewrite Nat.add_0_r. cbn [password_lines flat_map app] in S. exists fuel.
    split; [|cbn [length]; lia]. f_equal. destruct w; cbn in *; subst; reflexivity.
  - inversion N as [|? ? N1 N2]; subst. inversion R as [|? ? R1 R2]; subst. cbn [length] in L.
    cbn [password_lines flat_map] in S. fold (password_lines ls) in S. rewrite <- !app_assoc in S. cbn [app] in S.
    destruct fuel as [|fuel]; [lia|]. cbn [filter]. unfold nonblank at 1. destruct (pass_text l) as [|b p] eqn:P.
    + destruct (IH (Datatypes.S fuel) (set_stdin w (password_lines ls ++ rest)) rest T eq_refl N2 R2 ltac:(lia)) as (f' & F & G).
      exists f'. split; [|cbn [length]; lia].
      rewrite decrypt_loop_unfold by auto. rewrite (ask_blank w l _ T S N1 P). rewrite <- decrypt_loop_unfold by auto.
      rewrite F. reflexivity.
    + rewrite decrypt_loop_unfold by auto. rewrite (ask_line w l _ T S N1) by (rewrite P; discriminate).
      destruct R1 as [X|X]; [rewrite P in X; discriminate|]. rewrite X.
      set (w' := set_prompts (set_stdin w (password_lines ls ++ rest)) (Datatypes.S (w_prompts w))).
      destruct (IH fuel w' rest T eq_refl N2 R2 ltac:(lia)) as (f' & F & G).
      exists f'. split; [|cbn [length]; lia]. rewrite F. unfold w'. cbn [set_prompts set_stdin w_prompts length].
      rewrite Nat.add_succ_r. reflexivity.
Qed.
Lemma password_lines_length ls : (length ls <= length (password_lines ls))%nat.
Proof.
  induction ls as [|l ls IH]; cbn [password_lines flat_map length]; [lia|]. fold (password_lines ls).
  rewrite !app_length. cbn [length]. lia.
Qed.
Lemma plain_seed_error dm : dm_encrypted dm = false -> dm_seed dm <> Err ErrMnemonicDecryption.
Proof.
  intros H. unfold dm_seed. rewrite H. unfold new_seed, era_check.
  destruct ((version_era (dm_version dm) >? era_latest) || (version_era (dm_version dm) <? 0)); cbn [bind]; [discriminate|]. destruct (bit_len (dm_entropy dm) >? entropy_bits); discriminate.
Qed.
