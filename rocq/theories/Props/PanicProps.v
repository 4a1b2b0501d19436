(** C96: nil pointers, zero values and changed versions: which calls of the package panic. *)
From Coq Require Import Lia ZifyBool ZifyNat.
From Verif.Model Require Import GoBase Env BitBuffer Crc32 MnemonicPkg Version Seed Encoding GoTime Recovery PgpWire PgpKeys Mnemonikey ZeroValues.
From Verif.Spec Require Import EnvSpec PhraseSpec DecodeSpec KeySpec PanicSpec.
From Verif.Proofs Require Import BitsP PhraseP DecodeP RoundtripP EnvInst SafeP PanicP.
From Verif.Props Require Import PhraseProps.
Ltac Zify.zify_post_hook ::= Z.div_mod_to_equations.

Definition lib_ok (E : Env) : Prop := wordlist_ok E /\ argon_ok E /\ aes_ok E /\ rand_ok E /\ hkdf_ok E.
Lemma toy_lib_ok : lib_ok toy_env.
Proof. split; [apply toy_wordlist_ok|]. split; [apply toy_argon_ok|]. split; [apply toy_aes_ok|]. split; [apply toy_rand_ok|apply toy_hkdf_ok]. Qed.
Definition quiet_history (h : list (n_call * n_seen)) : Prop := forall e, In e h -> snd e <> N_panicked.

(** After any program that has not panicked yet, the next call panics exactly if the table says so. *)
Theorem panic_table : forall E calls h st c, lib_ok E -> Forall n_typed calls -> n_typed c ->
  n_run E [] calls = (h, st) -> quiet_history h ->
  (fst (n_step E st c) = N_panicked <-> panics (known_after h) c = true).
Proof.
  intros E calls h st c (W & A & X & RN & HK) T C R Q.
  destruct (run_told E W A X RN HK calls [] [] h st (Forall2_nil _) T R Q) as [F _].
  exact (proj1 (step_told E W A X RN HK _ _ c F C)).
Qed.
Print Assumptions panic_table.

(** *** programs that keep to the constructors *)
Definition clean (k : known) : Prop :=
  match k with
  | K_nil => True
  | K_seed b | K_key b => b = false
  | K_phrase dec sealed v => dec = true /\ v = (if sealed then 1 else 0)
  | _ => False
  end.
Lemma clean_at ks i : Forall clean ks -> clean (nth i ks K_nil).
Proof. intros F. revert i. induction F as [|k ks K F IH]; intros [|i]; cbn [nth]; auto; exact I. Qed.
Lemma clean_panics ks c : Forall clean ks -> proper ks c -> n_typed c -> panics ks c = false.
Proof.
  intros F P T. destruct c; cbn [proper panics] in *; try reflexivity; try contradiction;
    try (match goal with |- context [nth ?i ks K_nil] => pose proof (clean_at ks i F) as C end);
    repeat match goal with H : _ /\ _ |- _ => destruct H end;
    try (match goal with H : exists b, nth _ ks K_nil = K_seed b |- _ => destruct H as [b Q]; rewrite Q in * end);
    try (match goal with H : exists b, nth _ ks K_nil = K_key b |- _ => destruct H as [b Q]; rewrite Q in * end);
    try (match goal with H : exists a b v, nth _ ks K_nil = K_phrase a b v |- _ => destruct H as (a & b & v & Q); rewrite Q in * end);
    cbn [clean] in *; subst; try reflexivity.
  - destruct entropy; [apply andb_false_r|contradiction].
  - destruct random; [reflexivity|congruence].
  - cbn [n_typed orb] in *. lia.
  - destruct random; [|congruence]. replace (2 ^ 31 <=? offset) with false by lia. rewrite !andb_false_r. reflexivity.
  - destruct C as [-> ->]. reflexivity.
  - destruct C as [-> ->]. destruct b; reflexivity.
  - apply andb_false_r.
  - destruct random; [apply andb_false_r|congruence].
Qed.
Lemma clean_know ks c o : Forall clean ks -> proper ks c -> o <> N_panicked -> Forall clean (know ks (c, o)).
Proof.
  intros F P O. assert (S : forall k, clean k -> Forall clean (ks ++ [k])) by (intros k K; apply Forall_app; auto).
  assert (L : clean (learn ks c)).
  { destruct c; cbn [learn proper] in *; try exact I; try contradiction; try reflexivity.
    - destruct entropy as [v|]; [cbn; lia|contradiction].
    - destruct P as [b Q]. pose proof (clean_at ks s F) as C. rewrite Q in *. exact C.
    - destruct (Nat.eqb _ _); cbn; auto. }
  destruct c; cbn [know]; try contradiction; destruct o; try (apply S; first [exact L|exact I]); congruence.
Qed.
Lemma proper_run E : lib_ok E -> forall calls ks st h st', Forall2 (fits) ks st -> Forall clean ks -> Forall n_typed calls -> n_run E st calls = (h, st') ->
  (forall h1 e h2, h = h1 ++ e :: h2 -> proper (fold_left know h1 ks) (fst e)) -> quiet_history h.
Proof.
  intros (W & A & X & RN & HK). induction calls as [|c calls IH]; intros ks st h st' F C T R P; cbn [n_run] in R.
  - apply pair_equal_spec in R as [<- _]. intros e [].
  - apply Forall_cons_iff in T as [T1 T2]. pose proof (step_told E W A X RN HK ks st c F T1) as [S1 S2]. destruct (n_step E st c) as [o st1] eqn:Q. cbn [fst snd] in *.
    assert (PR : proper ks c). { destruct o; cbn match in R; try (destruct (n_run E st1 calls) as [h1 st2]); apply pair_equal_spec in R as [<- _]; exact (P [] _ _ eq_refl). }
    assert (O : o <> N_panicked). { intros ->. rewrite (clean_panics ks c C PR T1) in S1. destruct S1 as [S1 _]. discriminate (S1 eq_refl). }
    destruct (n_run E st1 calls) as [h1 st2] eqn:R1.
    assert (R' : (c, o) :: h1 = h). { destruct o; cbn match in R; try (apply pair_equal_spec in R as [<- _]; reflexivity). congruence. }
    subst h. intros e [<-|I]; [exact O|].
    refine (IH _ _ _ _ (S2 O) (clean_know ks c o C PR O) T2 R1 _ e I). intros h2 e' h3 ->. exact (P ((c, o) :: h2) e' h3 eq_refl).
Qed.
(** A program that keeps to the constructors, checks their errors and uses 31-bit offsets never sees a panic: every one of
    its calls is made and returns. *)
Theorem proper_programs_never_panic : forall E calls h st, lib_ok E -> Forall n_typed calls -> n_run E [] calls = (h, st) ->
  (forall h1 e h2, h = h1 ++ e :: h2 -> proper (known_after h1) (fst e)) ->
  quiet_history h /\ map fst h = calls.
Proof.
  intros E calls h st L T R P. assert (Q : quiet_history h) by exact (proper_run E L calls [] [] h st (Forall2_nil _) (Forall_nil _) T R P).
  split; [exact Q|]. clear P L T. revert h st R Q. generalize (@nil n_object). induction calls as [|c calls IH]; intros st0 h st R Q; cbn [n_run] in R.
  - apply pair_equal_spec in R as [<- _]. reflexivity.
  - destruct (n_step E st0 c) as [o st1]. destruct (n_run E st1 calls) as [h1 st2] eqn:R1.
    destruct o; cbn match in R; apply pair_equal_spec in R as [<- _]; try (destruct (Q _ (or_introl eq_refl) eq_refl)); cbn [map fst]; f_equal; (eapply IH; [exact R1|]; intros e0 I; apply Q; right; exact I).
Qed.
Print Assumptions proper_programs_never_panic.

(** *** a changed Version *)
Definition shown (E : Env) (calls : list n_call) : list n_seen := map snd (fst (n_run E [] calls)).
(** The 14 words of a plaintext phrase, read as version [v]: as version 1 its seed is refused without a password, and with one
    the package panics; other versions than 0 and 1 have no era. *)
Theorem plaintext_as_version : forall E ws entropy offset v pw, wordlist_ok E ->
  length ws = 14%nat -> spells E ws (plain_int entropy offset) -> 0 <= entropy < 2 ^ 128 -> 0 <= offset < 2 ^ 31 -> 0 <= v ->
  let start := [N_decode ws; N_set_version 0 v] in
  shown E (start ++ [N_dm_seed 0]) = [N_done; N_done; if v =? 0 then N_done else if v =? 1 then N_failed ErrMnemonicDecryption else N_failed ErrInvalidEraNumber] /\
  shown E (start ++ [N_decrypt 0 pw]) = [N_done; N_done; if v =? 0 then N_done else if v =? 1 then N_panicked else N_failed ErrInvalidEraNumber] /\
  (v = 0 -> shown E (start ++ [N_dm_seed 0; N_int 2]) = [N_done; N_done; N_done; N_number entropy] /\
            shown E (start ++ [N_decrypt 0 pw; N_int 2]) = [N_done; N_done; N_done; N_number entropy]).
Proof.
  intros E ws e o v pw W L S B O V start. assert (D : n_decode E ws = Ok (mk_ndec 0 (Some e) None 0 o)).
  { unfold n_decode. rewrite (outcome_sound E W ws _ (O_plain E ws e o B O L S)). reflexivity. }
  unfold start, shown. cbn [app n_run n_step]. rewrite D. cbn [n_makes app phrase_at nth n_run n_step firstn skipn nd_entropy nd_salt nd_verify nd_offset map snd fst].
  unfold n_decrypt, n_dm_seed, n_encrypted. cbn [phrase_at nth deref bind nd_version nd_entropy nd_salt]. unfold version_encrypted.
  pose proof (new_seed_good v e B V) as G. destruct (v =? 1) eqn:V1; [assert (v = 1) by lia; subst v; cbn|].
  - repeat split; try reflexivity; discriminate.
  - cbn [negb]. rewrite G, orb_false_r. destruct (v =? 0) eqn:V0; cbn.
    + repeat split; reflexivity.
    + repeat split; try reflexivity; lia.
Qed.
Print Assumptions plaintext_as_version.

(** The 16 words of an encrypted phrase, read as version [v]: as version 0 the package hands out the encrypted entropy as if
    it were the seed, whatever password is given. *)
Theorem encrypted_as_version : forall E ws entropy salt verify offset v pw, wordlist_ok E -> argon_ok E -> aes_ok E ->
  length ws = 16%nat -> spells E ws (enc_int entropy salt verify offset) ->
  0 <= entropy < 2 ^ 128 -> 0 <= salt < 2 ^ 19 -> 0 <= verify < 2 ^ 5 -> 0 <= offset < 2 ^ 31 -> 0 <= v ->
  let start := [N_decode ws; N_set_version 0 v] in
  let right := key_verify E pw salt offset =? verify in
  shown E (start ++ [N_dm_seed 0]) = [N_done; N_done; if v =? 0 then N_done else if v =? 1 then N_failed ErrMnemonicDecryption else N_failed ErrInvalidEraNumber] /\
  shown E (start ++ [N_decrypt 0 pw]) = [N_done; N_done; if v =? 0 then N_done else if v =? 1 then (if right then N_done else N_failed ErrMnemonicDecryption) else N_failed ErrInvalidEraNumber] /\
  (v = 0 -> shown E (start ++ [N_dm_seed 0; N_int 2]) = [N_done; N_done; N_done; N_number entropy] /\
            shown E (start ++ [N_decrypt 0 pw; N_int 2]) = [N_done; N_done; N_done; N_number entropy]) /\
  (v = 1 -> right = true -> shown E (start ++ [N_decrypt 0 pw; N_int 2]) = [N_done; N_done; N_done; N_number (plain_of_cipher E pw salt offset entropy)]).
Proof.
  intros E ws e s ve o v pw W A X L S B BS BV O V start right. assert (D0 : decode_mnemonic E ws = Ok (mk_decoded 1 e s ve o)) by exact (outcome_sound E W ws _ (O_encrypted E ws e s ve o B BS BV O L S)).
  assert (D : n_decode E ws = Ok (mk_ndec 1 (Some e) (Some s) ve o)) by (unfold n_decode; rewrite D0; reflexivity).
  assert (K : v = 1 -> n_decrypt E (Some (mk_ndec v (Some e) (Some s) ve o)) pw = if right then Ok (mk_nseed 0 (Some (plain_of_cipher E pw s o e))) else Err ErrMnemonicDecryption).
  { intros ->. assert (Q : n_decrypt E (Some (mk_ndec 1 (Some e) (Some s) ve o)) pw = res_map n_of_seed (dm_decrypt_seed E (mk_decoded 1 e s ve o) pw)).
    { unfold n_decrypt, dm_decrypt_seed, n_encrypted, dm_encrypted. cbn [deref bind nd_version nd_salt nd_offset nd_verify nd_entropy dm_version dm_salt dm_offset dm_verify dm_entropy].
      change (version_encrypted 1) with true. cbn [negb]. destruct (enc_seed_key E pw s o) as [key|x|]; cbn [bind res_map]; [|reflexivity|reflexivity].
      destruct (go_index key 16) as [last|x|]; cbn [bind res_map]; [|reflexivity|reflexivity]. destruct (negb _); [reflexivity|]. destruct (negb _); [reflexivity|].
      destruct (fill_bytes e 16) as [b|x|]; cbn [bind res_map]; [|reflexivity|reflexivity]. reflexivity. }
    rewrite Q. destruct (decrypt_seed_exact E ws (mk_decoded 1 e s ve o) pw W A X D0 eq_refl) as [[N R]|[N R]]; cbn [dm_salt dm_offset dm_verify dm_entropy] in *; rewrite R; unfold right.
    - apply Z.eqb_neq in N. rewrite N. reflexivity.
    - apply Z.eqb_eq in N. rewrite N. reflexivity. }
  clearbody right. unfold start, shown. cbn [app n_run n_step]. rewrite D. cbn [n_makes app phrase_at nth n_run n_step firstn skipn nd_entropy nd_salt nd_verify nd_offset map snd fst].
  destruct (v =? 1) eqn:V1.
  - assert (v = 1) by lia. rewrite K by auto. subst v. clear. destruct right; cbn; repeat split; try reflexivity; discriminate.
  - clear K. unfold n_decrypt, n_dm_seed, n_encrypted. cbn [phrase_at nth deref bind nd_version nd_entropy nd_salt]. unfold version_encrypted.
    pose proof (new_seed_good v e B V) as G. rewrite V1. cbn [negb]. rewrite G, V1, orb_false_r. destruct (v =? 0) eqn:V0; cbn.
    + repeat split; try reflexivity. lia.
    + repeat split; try reflexivity; lia.
Qed.
Print Assumptions encrypted_as_version.

(** *** constructed objects are the values of the other theorems *)
Definition n_of_decoded (dm : decoded) : n_decoded :=
  mk_ndec (dm_version dm) (Some (dm_entropy dm)) (if dm_version dm =? 1 then Some (dm_salt dm) else None) (dm_verify dm) (dm_offset dm).
Definition n_of_key (m : mnemonikey) : n_key := mk_nkey (Some (mnk_keys m)) (Some (n_of_seed (mnk_seed m))) (mnk_creation m).
Theorem constructed_as_values : forall E,
  (forall era v, n_new_seed era (Some v) = res_map n_of_seed (new_seed era v)) /\
  (forall s off, n_encode_plaintext E (Some (n_of_seed s)) off = encode_mnemonic_plaintext E s off) /\
  (forall s off pw src, n_encode_encrypted E (Some (n_of_seed s)) off pw (Some src) = encode_mnemonic_encrypted E s off pw src) /\
  (forall s t opts, n_new E (Some (n_of_seed s)) t opts = res_map n_of_key (mnk_new E s t opts)) /\
  (forall ws, n_decode E ws = res_map n_of_decoded (decode_mnemonic E ws)) /\
  (forall dm, n_dm_seed (Some (n_of_decoded dm)) = res_map n_of_seed (dm_seed dm)) /\
  (forall dm pw, n_decrypt E (Some (n_of_decoded dm)) pw = res_map n_of_seed (dm_decrypt_seed E dm pw)) /\
  (forall ws opts, n_recover_plaintext E ws opts = res_map n_of_key (recover_plaintext E ws opts)) /\
  (forall ws pw opts, n_recover_encrypted E ws pw opts = res_map n_of_key (recover_encrypted E ws pw opts)) /\
  (forall m, n_fingerprint E (Some (n_of_key m)) = Ok (mnk_fingerprint E m) /\ n_user_id (Some (n_of_key m)) = Ok (mnk_user_id m) /\
     n_expiry (Some (n_of_key m)) = Ok (mnk_expiry m) /\ n_types (Some (n_of_key m)) = Ok (mnk_subkey_types m) /\ n_created (Some (n_of_key m)) = Ok (mnk_created_at m) /\
     (forall t, n_subkey_fingerprint E (Some (n_of_key m)) t = Ok (mnk_subkey_fingerprint E m t)) /\
     (forall pw tape, n_export E (Some (n_of_key m)) false None pw tape = res_map fst (mnk_encode_pgp E m pw tape)) /\
     (forall pw tape, n_export E (Some (n_of_key m)) true None pw tape = res_map fst (mnk_encode_pgp_armor E m pw tape)) /\
     (forall pw cert tape, n_export E (Some (n_of_key m)) false (Some cert) pw tape = res_map fst (mnk_encode_subkeys_pgp E m pw cert tape)) /\
     (forall pw cert tape, n_export E (Some (n_of_key m)) true (Some cert) pw tape = res_map fst (mnk_encode_subkeys_pgp_armor E m pw cert tape)) /\
     n_key_plaintext E (Some (n_of_key m)) = mnk_encode_plaintext E m /\
     (forall pw src, n_key_encrypted E (Some (n_of_key m)) pw (Some src) = mnk_encode_encrypted E m pw src)).
Proof.
  intros E.
  assert (NS : forall era v, n_new_seed era (Some v) = res_map n_of_seed (new_seed era v)).
  { intros era v. unfold n_new_seed, new_seed. destruct (era_check era) as [[]|e|] eqn:Q; cbn [bind deref res_map]; try reflexivity. }
  assert (NN : forall s t opts, n_new E (Some (n_of_seed s)) t opts = res_map n_of_key (mnk_new E s t opts)).
  { intros [era v] t opts. unfold n_new, mnk_new, n_of_seed, n_seed_era, n_seed_int. cbn [deref bind ns_era ns_value seed_era seed_value]. destruct (era_check era) as [[]|e|]; cbn [bind res_map]; try reflexivity.
    destruct (_ <? 0); [reflexivity|]. destruct (t_after _ _); [reflexivity|]. destruct (t_before _ _); [reflexivity|]. destruct (derive_key_set E _ _ _); reflexivity. }
  assert (ND : forall ws, n_decode E ws = res_map n_of_decoded (decode_mnemonic E ws)) by reflexivity.
  assert (NM : forall dm, n_dm_seed (Some (n_of_decoded dm)) = res_map n_of_seed (dm_seed dm)).
  { intros dm. unfold n_dm_seed, dm_seed, dm_encrypted, n_of_decoded. cbn [deref bind nd_version nd_entropy]. destruct (version_encrypted _); [reflexivity|apply NS]. }
  assert (NC : forall dm pw, n_decrypt E (Some (n_of_decoded dm)) pw = res_map n_of_seed (dm_decrypt_seed E dm pw)).
  { intros dm pw. unfold n_decrypt, dm_decrypt_seed, n_encrypted, dm_encrypted, version_encrypted. cbn [deref bind]. change (nd_version (n_of_decoded dm)) with (dm_version dm).
    destruct (dm_version dm =? 1) eqn:V; cbn [negb]; [|apply NM]. unfold n_of_decoded. rewrite V. cbn [deref bind nd_version nd_salt nd_offset nd_verify nd_entropy].
    destruct (enc_seed_key E pw _ _) as [key|x|]; cbn [bind res_map]; [|reflexivity|reflexivity].
    destruct (go_index key 16) as [last|x|]; cbn [bind res_map]; [|reflexivity|reflexivity]. destruct (negb _); [reflexivity|]. destruct (negb _); [reflexivity|].
    destruct (fill_bytes _ 16) as [b|x|]; cbn [bind res_map]; [|reflexivity|reflexivity]. apply NS. }
  split; [exact NS|]. split.
  { intros [era v] off. unfold n_encode_plaintext, encode_mnemonic_plaintext, n_of_seed, n_seed_era, n_seed_int, seed_int. cbn [deref bind ns_era ns_value seed_era seed_value]. destruct (era_check era); reflexivity. }
  split. { intros [era v] off pw src. reflexivity. }
  split; [exact NN|]. split; [exact ND|]. split; [exact NM|]. split; [exact NC|]. split.
  { intros ws opts. unfold n_recover_plaintext, recover_plaintext. rewrite ND. destruct (decode_mnemonic E ws) as [dm|e|]; cbn [bind res_map]; try reflexivity. rewrite NM.
    destruct (dm_seed dm) as [s|e|]; cbn [bind res_map]; try reflexivity. apply NN. }
  split.
  { intros ws pw opts. unfold n_recover_encrypted, recover_encrypted. rewrite ND. destruct (decode_mnemonic E ws) as [dm|e|]; cbn [bind res_map]; try reflexivity. rewrite NC.
    destruct (dm_decrypt_seed E dm pw) as [s|e|]; cbn [bind res_map]; try reflexivity. apply NN. }
  intros m. do 5 (split; [reflexivity|]). split.
  { intros t. unfold n_subkey_fingerprint, mnk_subkey_fingerprint, n_keys, n_of_key. cbn [deref bind nk_keys]. unfold n_as_key. cbn [mnk_keys].
    destruct (bytes_eqb t type_encryption); [reflexivity|]. destruct (bytes_eqb t type_authentication); [reflexivity|]. destruct (bytes_eqb t type_signing); reflexivity. }
  split. { intros pw tape. unfold n_export, n_keys, n_of_key. cbn [deref bind nk_keys]. unfold mnk_encode_pgp, n_as_key. cbn [mnk_keys]. destruct (encode_packets E _ pw tape) as [[a b]|e|]; reflexivity. }
  split. { intros pw tape. unfold n_export, n_keys, n_of_key. cbn [deref bind nk_keys]. unfold mnk_encode_pgp_armor, mnk_encode_pgp, n_as_key. cbn [mnk_keys]. destruct (encode_packets E _ pw tape) as [[a b]|e|]; reflexivity. }
  split. { intros pw cert tape. unfold n_export, n_keys, n_of_key. cbn [deref bind nk_keys]. unfold mnk_encode_subkeys_pgp, n_as_key. cbn [mnk_keys]. destruct (encode_subkey_packets E _ pw cert tape) as [[a b]|e|]; reflexivity. }
  split. { intros pw cert tape. unfold n_export, n_keys, n_of_key. cbn [deref bind nk_keys]. unfold mnk_encode_subkeys_pgp_armor, mnk_encode_subkeys_pgp, n_as_key. cbn [mnk_keys].
    destruct (encode_subkey_packets E _ pw cert tape) as [[a b]|e|]; reflexivity. }
  split; [|reflexivity]. unfold n_key_plaintext, mnk_encode_plaintext, n_of_key. cbn [deref bind nk_seed]. destruct m as [ks [era v] t]. unfold n_encode_plaintext, encode_mnemonic_plaintext, n_of_seed, n_seed_era, n_seed_int, seed_int.
  cbn [deref bind ns_era ns_value seed_era seed_value mnk_seed]. destruct (era_check era); reflexivity.
Qed.
Print Assumptions constructed_as_values.

(** *** examples *)
Definition case_phrase : list bytes := words_of_int toy_env 16 (enc_int 12345678901234567890 0x70102 9 77).
Ltac spelled := split; [split; vm_compute; first [reflexivity|discriminate]|vm_compute; reflexivity].
Lemma case_spells : spells toy_env case_phrase (enc_int 12345678901234567890 0x70102 9 77).
Proof. spelled. Qed.
(** A 16-word phrase does not stay closed to programs without its password: Version is a field they may assign. *)
Theorem sealed_phrase_refuted :
  ~ (forall E ws v, lib_ok E -> length ws = 16%nat -> 0 <= v -> shown E [N_decode ws; N_set_version 0 v; N_dm_seed 0] <> [N_done; N_done; N_done]).
Proof.
  intros H. apply (H toy_env case_phrase 0 toy_lib_ok (words_of_int_length _ _ _) ltac:(lia)).
  refine (proj1 (encrypted_as_version toy_env case_phrase 12345678901234567890 0x70102 9 77 0 [] toy_wordlist_ok toy_argon_ok toy_aes_ok _ _ _ _ _ _ _)); try lia.
  - apply words_of_int_length.
  - exact case_spells.
Qed.
Print Assumptions sealed_phrase_refuted.

(** What the accessors tell that do not panic: of the zero values, and of a decoded phrase whose Version was changed (when the
    key was made does not depend on it). *)
Theorem zero_values_seen : forall E v,
  shown E [N_zero_decoded v; N_is_encrypted 0; N_creation 0; N_offset 0] =
    [N_done; N_flag (v =? 1); N_number (first_second * 10 ^ 9); N_number 0] /\
  shown E [N_zero_seed; N_era 0] = [N_done; N_number 0] /\
  shown E [N_zero_key; N_created 0] = [N_done; N_number zero_time].
Proof. intros E v. split; [|split]; reflexivity. Qed.
Print Assumptions zero_values_seen.
Theorem changed_version_seen : forall E ws dm v, 0 <= dm_offset dm < 2 ^ 31 -> decode_mnemonic E ws = Ok dm ->
  shown E [N_decode ws; N_set_version 0 v; N_is_encrypted 0; N_creation 0; N_offset 0] =
    [N_done; N_done; N_flag (v =? 1); N_number ((first_second + dm_offset dm) * 10 ^ 9); N_number (dm_offset dm)].
Proof.
  intros E ws dm v B D.
  assert (DC : n_decode E ws = Ok (n_of_decoded dm)) by (unfold n_decode; rewrite D; reflexivity).
  assert (CR : t_add epoch_start (d_mul (nd_offset (n_of_decoded dm)) epoch_increment) = (first_second + dm_offset dm) * 10 ^ 9).
  { change (nd_offset (n_of_decoded dm)) with (dm_offset dm). unfold t_add, d_mul, epoch_start, epoch_increment, second, i64, first_second.
    change (10 ^ 9) with 1000000000. rewrite Z.mod_small; lia. }
  change (dm_offset dm) with (nd_offset (n_of_decoded dm)) in *. revert DC CR. generalize (n_of_decoded dm). intros d DC CR.
  unfold shown. cbn [n_run]. change (n_step E [] (N_decode ws)) with (@n_makes n_decoded [] N_phrase (n_decode E ws)). rewrite DC.
  cbn [n_makes app]. cbn -[n_creation t_add d_mul first_second Z.mul Z.pow]. unfold n_creation. cbn [deref bind nd_offset]. rewrite CR. reflexivity.
Qed.
Print Assumptions changed_version_seen.

(** [encrypted_as_version] and [plaintext_as_version] speak of phrases there are *)
Example as_version_case :
  spells toy_env case_phrase (enc_int 12345678901234567890 0x70102 9 77) /\
  spells toy_env (words_of_int toy_env 14 (plain_int 99 7)) (plain_int 99 7) /\
  shown toy_env [N_decode case_phrase; N_set_version 0 0; N_decrypt 0 []; N_int 2] = [N_done; N_done; N_done; N_number 12345678901234567890] /\
  shown toy_env [N_decode case_phrase; N_decrypt 0 []] = [N_done; N_failed ErrMnemonicDecryption] /\
  shown toy_env [N_decode (words_of_int toy_env 14 (plain_int 99 7)); N_set_version 0 1; N_decrypt 0 []] = [N_done; N_done; N_panicked].
Proof. split; [exact case_spells|]. split; [spelled|]. vm_compute. repeat split; reflexivity. Qed.

(** a program that panics in the end, and what is known before *)
Definition case_before : list n_call :=
  [N_new_seed 0 (Some (-5)); N_zero_seed; N_new_seed 1 None; N_encrypted 0 77 [112; 119] (Some [255; 1; 2; 3]); N_era 1; N_decode case_phrase; N_set_version 5 0; N_dm_seed 5].
Example panic_case : exists h st, n_run toy_env [] case_before = (h, st) /\ quiet_history h /\ Forall n_typed case_before /\
  known_after h = [K_seed true; K_zero_seed; K_nil; K_nil; K_nil; K_phrase true true 0; K_nil; K_seed false] /\
  map (panics (known_after h)) [N_plaintext 0 3; N_plaintext 7 3; N_bytes 1; N_era 2; N_encrypted 0 3 [1] (Some [1; 2; 3]); N_encrypted 7 (2 ^ 31) [1] (Some [1; 2; 3])] = [true; false; true; true; false; true].
Proof.
  eexists. eexists. split; [vm_compute; reflexivity|]. split.
  - intros e I. cbn [In] in I. repeat (destruct I as [<-|I]; [discriminate|]). contradiction.
  - split; [unfold case_before; repeat constructor; cbn; lia|]. split; vm_compute; reflexivity.
Qed.

(** a program that keeps to the constructors *)
Definition case_proper : list n_call :=
  [N_new_seed 0 (Some 12345678901234567890); N_encrypted 0 77 [112; 119] (Some [255; 1; 2; 3]); N_decode case_phrase; N_decrypt 2 []; N_plaintext 0 3;
   N_new 0 (1672531200 * 10 ^ 9) None; N_created 5; N_subkey_fingerprint 5 (bs "nothing")].
Example proper_case : exists h st, n_run toy_env [] case_proper = (h, st) /\ Forall n_typed case_proper /\
  (forall h1 e h2, h = h1 ++ e :: h2 -> proper (known_after h1) (fst e)).
Proof.
  eexists. eexists. split; [vm_compute; reflexivity|]. split; [unfold case_proper; repeat constructor; cbn; lia|].
  intros h1 e h2 Q.
  do 8 (destruct h1 as [|? h1]; [injection Q as <- _; cbn; repeat split; try lia; try discriminate; repeat eexists|injection Q as <- Q]).
  destruct h1; discriminate.
Qed.
