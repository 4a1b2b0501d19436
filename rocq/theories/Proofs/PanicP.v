(** Which calls panic: the state of the program against what is known of its pointers. *)
From Coq Require Import Lia ZifyBool ZifyNat.
From Verif.Model Require Import GoBase Env BitBuffer Crc32 MnemonicPkg Version Seed Encoding GoTime Recovery PgpWire PgpKeys Mnemonikey ZeroValues.
From Verif.Spec Require Import EnvSpec PhraseSpec DecodeSpec KeySpec PanicSpec.
From Verif.Proofs Require Import BitsP PhraseP DecodeP RoundtripP KeysP TalkP SafeP.
From Verif.Props Require Import PhraseProps SeedProps.
Ltac Zify.zify_post_hook ::= Z.div_mod_to_equations.

Lemma fill_abs v n : fill_bytes v n = fill_bytes (Z.abs v) n.
Proof. unfold fill_bytes, bit_len. rewrite Z.abs_involutive. replace (Z.abs v =? 0) with (v =? 0) by lia. reflexivity. Qed.
Lemma fill_16 v : Z.abs v < 2 ^ 128 -> fill_bytes v 16 = Ok (be_bytes 16 (Z.abs v)).
Proof. intros B. rewrite fill_abs. apply fill_bytes_ok. change (256 ^ Z.of_nat 16) with (2 ^ 128). lia. Qed.

(** *** negative integers *)
Lemma loop_negative : forall k p acc, p < 0 -> encode_loop k p acc = Panic.
Proof.
  induction k as [|k IH]; intros p acc P; cbn [encode_loop]; rewrite bit_len_0; replace (negb (p =? 0)) with true by lia; [reflexivity|].
  apply IH. apply Z.shiftr_neg. exact P.
Qed.
Lemma lor_below a b n : 0 <= n -> 0 <= b < 2 ^ n -> a < 0 -> - (2 ^ n * - a) <= Z.lor (Z.shiftl a n) b < 0.
Proof. intros N B A. rewrite lor_shiftl_add by auto. nia. Qed.

Section env.
Variable E : Env.
Hypothesis W : wordlist_ok E.
Hypothesis A : argon_ok E.
Hypothesis X : aes_ok E.
Hypothesis RN : rand_ok E.
Hypothesis HK : hkdf_ok E.

Definition whole (v : Z) : option n_seed := Some (mk_nseed 0 (Some v)).

Lemma plaintext_late s off : s = mk_nseed 0 None \/ (exists v, s = mk_nseed 0 (Some v) /\ Z.abs v < 2 ^ 128 /\ (v < 0 \/ 2 ^ 31 <= off)) ->
  0 <= off < 2 ^ 32 -> n_encode_plaintext E (Some s) off = Panic.
Proof.
  intros S O. destruct S as [->|(v & -> & B & S)]; [reflexivity|].
  unfold n_encode_plaintext, n_seed_era, n_seed_int. cbn [deref bind ns_era ns_value]. change (era_check 0) with (Ok tt). cbn [bind].
  change (new_bitbuf 0 version_bits) with (Ok (mk_bb 0 4)). cbn [bind].
  unfold append_trailing at 1. rewrite bit_len_gtb by (unfold entropy_bits; lia). change (2 ^ entropy_bits) with (2 ^ 128).
  replace (Z.abs v <? 2 ^ 128) with true by lia. cbn [negb bind bb_value bb_nbits]. rewrite Z.shiftl_0_l, Z.lor_0_l.
  unfold append_trailing at 1. rewrite bit_len_gtb by (unfold offset_bits; lia). change (2 ^ offset_bits) with (2 ^ 31).
  destruct (Z.abs off <? 2 ^ 31) eqn:L; cbn [negb bind]; [|reflexivity]. destruct S as [S|S]; [|lia]. cbn [bb_value bb_nbits].
  pose proof (lor_below v off 31 ltac:(lia) ltac:(lia) S) as P. unfold offset_bits. set (p := Z.lor (Z.shiftl v 31) off) in *. clearbody p.
  unfold encode_mnemonic, bb_bytes. cbn [bb_value bb_nbits].
  destruct (fill_bytes p _) as [pb|e|] eqn:F; cbn [bind]; [|unfold fill_bytes in F; destruct (_ >? _); discriminate|reflexivity].
  set (c := Z.land checksum_mask (crc32 pb)). assert (C : 0 <= c < 2 ^ 5).
  { unfold c, checksum_mask, checksum_bits. rewrite land_mask by lia. apply Z.mod_pos_bound. lia. }
  clearbody c. unfold append_trailing. rewrite bit_len_gtb by (unfold checksum_bits; lia). change (2 ^ checksum_bits) with (2 ^ 5).
  replace (Z.abs c <? 2 ^ 5) with true by lia. cbn [negb bind bb_value bb_nbits].
  change (4 + entropy_bits + 31 + checksum_bits =? payload_bit_count 0) with true. cbn [negb].
  pose proof (lor_below p c 5 ltac:(lia) C ltac:(lia)) as P2. unfold checksum_bits. set (q := Z.lor (Z.shiftl p 5) c) in *. clearbody q.
  change (4 + entropy_bits + 31 + 5) with 168. unfold encode_to_indices. rewrite bit_len_gtb by lia.
  replace (Z.abs q <? 2 ^ 168) with true. 2:{ symmetry. apply Z.ltb_lt. change (2 ^ 168) with (2 ^ 5 * 2 ^ 31 * 2 ^ 132). change (2 ^ 132) with (2 ^ 4 * 2 ^ 128). lia. }
  cbn [negb]. change (make_uint16_ok (word_count 168)) with true. cbn [negb]. rewrite loop_negative by lia. reflexivity.
Qed.
Lemma plaintext_whole v off : 0 <= v < 2 ^ 128 -> n_encode_plaintext E (whole v) off = encode_mnemonic_plaintext E (mk_seed 0 v) off.
Proof. reflexivity. Qed.
Lemma plaintext_panics v off : Z.abs v < 2 ^ 128 -> 0 <= off < 2 ^ 32 ->
  (n_encode_plaintext E (whole v) off = Panic <-> (v <? 0) || (2 ^ 31 <=? off) = true) /\ forall e, n_encode_plaintext E (whole v) off <> Err e.
Proof.
  intros B O. destruct ((v <? 0) || (2 ^ 31 <=? off)) eqn:Q.
  - assert (R : n_encode_plaintext E (whole v) off = Panic). { apply plaintext_late; [|exact O]. right. exists v. split; [reflexivity|]. split; [exact B|lia]. }
    rewrite R. split; [split; reflexivity|discriminate].
  - rewrite plaintext_whole by lia. rewrite (plaintext_layout E (mk_seed 0 v) off W); [split; [split; discriminate|discriminate]| |lia]. split; cbn; lia.
Qed.

Lemma encrypted_no_seed s off pw r : s = mk_nseed 0 None -> 0 <= off < 2 ^ 32 -> typed_random r ->
  n_encode_encrypted E (Some s) off pw r = Panic <->
  negb (zlen pw =? 0) && match r with None => true | Some src => Nat.leb 3 (length src) && true end = true.
Proof.
  intros -> O R. unfold n_encode_encrypted, n_seed_era. cbn [deref bind ns_era]. change (era_check 0) with (Ok tt). cbn [bind].
  destruct (zlen pw =? 0); cbn [negb andb]; [split; discriminate|]. change (new_bitbuf 1 version_bits) with (Ok (mk_bb 1 4)). cbn [bind].
  destruct r as [src|]; cbn [deref bind]; [|split; reflexivity]. destruct (Nat.leb_spec 3 (length src)) as [L|L]; cbn [andb].
  - split; [reflexivity|]. intros _. rewrite rand_int_salt by auto. cbn [bind]. pose proof (salt_of_bound src) as HS. fold (salt_of src).
    destruct (Z.ltb_spec off (2 ^ 31)) as [H|H].
    + rewrite enc_seed_key_ok by lia. cbn [bind]. destruct (key16_block E pw (salt_of src) off A) as [Lk Bk]. rewrite aes_key_ok_16 by auto. reflexivity.
    + unfold enc_seed_key, salt_bits, offset_bits. unfold new_bitbuf. rewrite bit_len_gtb_false by lia. cbn [bind].
      unfold append_trailing. rewrite bit_len_gtb by lia. replace (Z.abs off <? 2 ^ 31) with false by lia. reflexivity.
  - rewrite rand_int_salt_short by lia. cbn [bind]. split; discriminate.
Qed.
Lemma encrypted_abs v off pw src : Z.abs v < 2 ^ 128 ->
  n_encode_encrypted E (whole v) off pw (Some src) = encode_mnemonic_encrypted E (mk_seed 0 (Z.abs v)) off pw src.
Proof.
  intros B. unfold n_encode_encrypted, encode_mnemonic_encrypted, n_seed_era, n_seed_bytes, seed_bytes, whole. cbn [deref bind ns_era ns_value seed_era seed_value].
  change (Z.to_nat ((entropy_bits + 7) / 8)) with 16%nat. rewrite (fill_abs v). reflexivity.
Qed.
Lemma encrypted_panics v off pw r : Z.abs v < 2 ^ 128 -> 0 <= off < 2 ^ 32 -> typed_random r ->
  n_encode_encrypted E (whole v) off pw r = Panic <->
  negb (zlen pw =? 0) && match r with None => true | Some src => Nat.leb 3 (length src) && (2 ^ 31 <=? off) end = true.
Proof.
  intros B O R. destruct r as [src|].
  - rewrite encrypted_abs by auto. destruct (zlen pw =? 0) eqn:P; cbn [negb andb].
    + unfold encode_mnemonic_encrypted. cbn [seed_era]. change (era_check 0) with (Ok tt). cbn [bind]. rewrite P. split; discriminate.
    + assert (pw <> []) by (intros ->; discriminate). destruct (Nat.leb_spec 3 (length src)) as [L|L]; cbn [andb].
      * destruct (2 ^ 31 <=? off) eqn:H1.
        -- split; [reflexivity|]. intros _. unfold encode_mnemonic_encrypted. cbn [seed_era]. change (era_check 0) with (Ok tt). cbn [bind]. rewrite P.
           change (new_bitbuf 1 version_bits) with (Ok (mk_bb 1 4)). cbn [bind]. rewrite rand_int_salt by auto. cbn [bind]. pose proof (salt_of_bound src) as HS. fold (salt_of src).
           unfold enc_seed_key, salt_bits, offset_bits. unfold new_bitbuf. rewrite bit_len_gtb_false by lia. cbn [bind].
           unfold append_trailing. rewrite bit_len_gtb by lia. replace (Z.abs off <? 2 ^ 31) with false by lia. reflexivity.
        -- rewrite encrypted_layout; auto; [split; discriminate| |lia]. split; cbn; lia.
      * unfold encode_mnemonic_encrypted. cbn [seed_era]. change (era_check 0) with (Ok tt). cbn [bind]. rewrite P.
        change (new_bitbuf 1 version_bits) with (Ok (mk_bb 1 4)). cbn [bind]. rewrite rand_int_salt_short by lia. split; discriminate.
  - unfold n_encode_encrypted, n_seed_era, whole. cbn [deref bind ns_era]. change (era_check 0) with (Ok tt). cbn [bind].
    destruct (zlen pw =? 0); cbn [negb andb]; [split; discriminate|]. change (new_bitbuf 1 version_bits) with (Ok (mk_bb 1 4)). cbn [bind]. split; reflexivity.
Qed.

(** *** New *)
Lemma derive_abs v t o : derive_key_set E (mk_seed 0 v) t o = derive_key_set E (mk_seed 0 (Z.abs v)) t o.
Proof. unfold derive_key_set, root_key, seed_bytes. cbn [seed_value]. rewrite (fill_abs v). reflexivity. Qed.
Lemma new_abs v t opts : n_new E (whole v) t opts =
  res_map (fun m => mk_nkey (Some (mnk_keys m)) (whole v) (mnk_creation m)) (mnk_new E (mk_seed 0 (Z.abs v)) t opts).
Proof.
  unfold n_new, mnk_new, n_seed_era, n_seed_int, whole. cbn [deref bind ns_era ns_value seed_era]. change (era_check 0) with (Ok tt). cbn [bind].
  destruct (_ <? 0); [reflexivity|]. destruct (t_after _ _); [reflexivity|]. destruct (t_before _ _); [reflexivity|]. rewrite derive_abs.
  destruct (derive_key_set E _ _ _); reflexivity.
Qed.
Definition good_key (v : Z) (k : n_key) : Prop :=
  exists ks t, k = mk_nkey (Some ks) (whole v) t /\ signs ks /\ 0 <= n_creation_offset k < 2 ^ 31.
Lemma new_whole v t opts : Z.abs v < 2 ^ 128 -> typed_options opts ->
  match n_new E (whole v) t opts with Ok k => good_key v k | Err _ => True | Panic => False end.
Proof.
  intros B O. rewrite new_abs. assert (S : seed_ok (mk_seed 0 (Z.abs v))) by (split; cbn; lia).
  assert (O' : opts_ok (opts_of opts)). { destruct opts; [exact O|]. unfold opts_ok; cbn; lia. }
  pose proof (new_cases E HK _ t opts S O') as N. destruct (mnk_new E (mk_seed 0 (Z.abs v)) t opts) as [m|e|] eqn:Q; cbn [res_map bind]; auto.
  exists (mnk_keys m), (mnk_creation m). split; [reflexivity|]. split; [exact (new_signs E _ _ _ _ Q)|]. exact (proj2 N).
Qed.
Lemma new_zero t opts : n_new E (Some (mk_nseed 0 None)) t opts = Panic <->
  (match opts with Some o => 0 <=? ko_ttl o | None => true end) && creation_accepted t = true.
Proof.
  unfold n_new, n_seed_era, n_seed_int. cbn [deref bind ns_era ns_value]. change (era_check 0) with (Ok tt). cbn [bind]. unfold creation_accepted, t_after, t_before.
  change max_creation_time with ((1672531200 + 2 ^ 31 - 1) * 10 ^ 9). change epoch_start with (1672531200 * 10 ^ 9).
  replace (match opts with Some o => 0 <=? ko_ttl o | None => true end) with (0 <=? ko_ttl match opts with None => zero_options | Some o => o end) by (destruct opts; reflexivity).
  set (ttl := ko_ttl _). destruct (ttl <? 0) eqn:L1; [replace (0 <=? ttl) with false by lia; split; discriminate|]. replace (0 <=? ttl) with true by lia. cbn [andb].
  destruct (t >? _) eqn:L2; [split; [discriminate|lia]|]. destruct (t <? _) eqn:L3; [split; [discriminate|lia]|]. split; [lia|reflexivity].
Qed.

(** *** phrases *)
Definition good_phrase (decoded sealed : bool) (version : Z) (d : n_decoded) : Prop :=
  nd_version d = version /\ 0 <= version /\ 0 <= nd_offset d < 2 ^ 31 /\ (sealed = true -> decoded = true) /\
  (if decoded then exists e, nd_entropy d = Some e /\ 0 <= e < 2 ^ 128 else nd_entropy d = None) /\
  (if sealed then exists s, nd_salt d = Some s /\ 0 <= s < 2 ^ 19 else nd_salt d = None).
Lemma decode_good ws : match n_decode E ws with
  | Ok d => if Nat.eqb (length ws) 16 then good_phrase true true 1 d else good_phrase true false 0 d
  | Err _ => True | Panic => False end.
Proof.
  unfold n_decode. destruct (decode_mnemonic E ws) as [dm|e|] eqn:D; cbn [bind]; auto; apply (decode_iff_outcome E W) in D; inversion D; subst; cbn [dm_version dm_entropy dm_salt dm_verify dm_offset Z.eqb].
  - match goal with L : length ws = _ |- _ => rewrite L end. cbn [Nat.eqb]. unfold good_phrase; cbn. repeat split; try lia; try discriminate. exists entropy. auto.
  - match goal with L : length ws = _ |- _ => rewrite L end. cbn [Nat.eqb]. unfold good_phrase; cbn. repeat split; try lia; eauto.
Qed.
Definition good_seed (s : n_seed) : Prop := exists v, s = mk_nseed 0 (Some v) /\ 0 <= v < 2 ^ 128.
Lemma new_seed_good v w : 0 <= w < 2 ^ 128 -> 0 <= v ->
  n_new_seed (version_era v) (Some w) = if (v =? 0) || (v =? 1) then Ok (mk_nseed 0 (Some w)) else Err ErrInvalidEraNumber.
Proof.
  intros B V. unfold n_new_seed, version_era. destruct ((v =? 0) || (v =? 1)); [|reflexivity]. change (era_check 0) with (Ok tt). cbn [deref bind].
  unfold new_seed. change (era_check 0) with (Ok tt). cbn [bind]. rewrite bit_len_gtb_false by (unfold entropy_bits; lia). reflexivity.
Qed.
Lemma dm_seed_good dec sealed v d : good_phrase dec sealed v d ->
  match n_dm_seed (Some d) with
  | Ok s => good_seed s /\ negb dec && (v =? 0) = false
  | Err _ => negb dec && (v =? 0) = false
  | Panic => negb dec && (v =? 0) = true
  end.
Proof.
  intros (V & V0 & O & SD & EN & SA). unfold n_dm_seed. cbn [deref bind]. unfold version_encrypted. rewrite V. destruct (v =? 1) eqn:V1; [lia|].
  destruct dec.
  - destruct EN as (e & EN & B). rewrite EN, new_seed_good by auto. rewrite V1, orb_false_r. destruct (v =? 0); [split; [|reflexivity]; exists e; auto|reflexivity].
  - rewrite EN. unfold n_new_seed, version_era. rewrite V1, orb_false_r. destruct (v =? 0); reflexivity.
Qed.
Lemma decrypt_good dec sealed v d pw : good_phrase dec sealed v d ->
  match n_decrypt E (Some d) pw with
  | Ok s => good_seed s /\ negb dec && (v =? 0) || negb sealed && (v =? 1) = false
  | Err _ => negb dec && (v =? 0) || negb sealed && (v =? 1) = false
  | Panic => negb dec && (v =? 0) || negb sealed && (v =? 1) = true
  end.
Proof.
  intros G. pose proof G as (V & V0 & O & SD & EN & SA). unfold n_decrypt, n_encrypted. cbn [deref bind]. unfold version_encrypted. rewrite V. destruct (v =? 1) eqn:V1; cbn [negb].
  - destruct sealed; [|rewrite SA; cbn [deref bind negb andb]; lia]. rewrite SD in EN by reflexivity. destruct EN as (e & EN & B). destruct SA as (s & SA & BS). rewrite SA. cbn [deref bind].
    rewrite enc_seed_key_ok by auto. cbn [bind]. rewrite go_index_16 by auto. cbn [bind]. rewrite SD by reflexivity. cbn [negb andb orb].
    destruct (negb (Z.land _ _ =? _)); [reflexivity|]. destruct (key16_block E pw s (nd_offset d) A) as [Lk Bk]. rewrite aes_key_ok_16 by auto. cbn [negb].
    rewrite EN. cbn [deref bind]. rewrite fill_16 by lia. cbn [bind].
    set (b := aes_decrypt E _ _). assert (BB : block16 b). { apply X; [split; auto|apply seed_block]. }
    assert (BV : 0 <= be_uint b < 2 ^ 128). { destruct BB as [L F]. pose proof (be_uint_bound b F) as U. unfold zlen in U. rewrite L in U. exact U. }
    rewrite new_seed_good by auto. rewrite V1, orb_true_r. split; [|reflexivity]. exists (be_uint b). auto.
  - pose proof (dm_seed_good _ _ _ _ G) as S. rewrite andb_false_r, orb_false_r. exact S.
Qed.
Lemma recover_good (r : n_decoded -> res n_seed) ws opts : typed_options opts ->
  (forall d sealed, good_phrase true sealed (if sealed then 1 else 0) d -> match r d with Ok s => good_seed s | Err _ => True | Panic => False end) ->
  match (let* d := n_decode E ws in let* s := r d in let* t := n_creation (Some d) in n_new E (Some s) t opts) with
  | Ok k => exists v, 0 <= v < 2 ^ 128 /\ good_key v k | Err _ => True | Panic => False end.
Proof.
  intros O R. pose proof (decode_good ws) as D. destruct (n_decode E ws) as [d|e|]; cbn [bind]; auto.
  assert (G : match r d with Ok s => good_seed s | Err _ => True | Panic => False end) by (destruct (Nat.eqb _ _); [apply (R d true D)|apply (R d false D)]).
  destruct (r d) as [s|e|]; cbn [bind]; auto. destruct G as (v & -> & B). unfold n_creation. cbn [deref bind].
  pose proof (new_whole v (t_add epoch_start (d_mul (nd_offset d) epoch_increment)) opts ltac:(lia) O) as N. unfold whole in N.
  destruct (n_new E _ _ opts); auto. exists v. auto.
Qed.
Lemma recover_plaintext_good ws opts : typed_options opts ->
  match n_recover_plaintext E ws opts with Ok k => exists v, 0 <= v < 2 ^ 128 /\ good_key v k | Err _ => True | Panic => False end.
Proof.
  intros O. apply (recover_good (fun d => n_dm_seed (Some d))); [exact O|]. intros d sealed G. pose proof (dm_seed_good _ _ _ _ G) as S.
  destruct (n_dm_seed (Some d)); auto; [apply S|discriminate].
Qed.
Lemma recover_encrypted_good ws pw opts : typed_options opts ->
  match n_recover_encrypted E ws pw opts with Ok k => exists v, 0 <= v < 2 ^ 128 /\ good_key v k | Err _ => True | Panic => False end.
Proof.
  intros O. apply (recover_good (fun d => n_decrypt E (Some d) pw)); [exact O|]. intros d sealed G. pose proof (decrypt_good _ _ _ _ pw G) as S.
  destruct (n_decrypt E (Some d) pw); auto; [apply S|]. destruct sealed; cbn in S; discriminate.
Qed.
Lemma export_calm ks armor subkeys pw tape v t : signs ks -> calm (n_export E (Some (mk_nkey (Some ks) (whole v) t)) armor subkeys pw tape).
Proof.
  intros S. unfold n_export, n_keys. cbn [deref bind nk_keys]. apply calm_bind; [|intros [out r] _; discriminate].
  pose proof (armor_calm E RN true (n_as_key ks) pw true tape S) as A1.
  destruct subkeys as [cert|].
  - pose proof (armor_calm E RN false (n_as_key ks) pw cert tape S) as A2. cbn match in A2. destruct armor; [exact A2|].
    unfold mnk_encode_subkeys_pgp_armor in A2. intros Q. apply A2. rewrite Q. reflexivity.
  - cbn match in A1. destruct armor; [exact A1|]. unfold mnk_encode_pgp_armor in A1. intros Q. apply A1. rewrite Q. reflexivity.
Qed.

(** *** one call *)
Definition fits (k : known) (o : n_object) : Prop :=
  match k, o with
  | K_nil, N_nil => True
  | K_zero_seed, N_seed s => s = mk_nseed 0 None
  | K_seed b, N_seed s => exists v, s = mk_nseed 0 (Some v) /\ Z.abs v < 2 ^ 128 /\ b = (v <? 0)
  | K_phrase dec sealed v, N_phrase d => good_phrase dec sealed v d
  | K_zero_key, N_key k => k = mk_nkey None None zero_time
  | K_key b, N_key k => exists v, Z.abs v < 2 ^ 128 /\ b = (v <? 0) /\ good_key v k
  | _, _ => False
  end.
Lemma fits_at ks st i : Forall2 fits ks st -> fits (nth i ks K_nil) (nth i st N_nil).
Proof. intros F. revert i. induction F as [|k o ks st K F IH]; intros [|i]; cbn [nth]; auto; exact I. Qed.
Lemma fits_snoc ks st k o : Forall2 fits ks st -> fits k o -> Forall2 fits (ks ++ [k]) (st ++ [o]).
Proof. intros F K. apply Forall2_app; auto. Qed.
Lemma seed_fits ks st i : Forall2 fits ks st ->
  match nth i ks K_nil with
  | K_zero_seed => seed_at st i = Some (mk_nseed 0 None)
  | K_seed b => exists v, seed_at st i = whole v /\ Z.abs v < 2 ^ 128 /\ b = (v <? 0)
  | _ => seed_at st i = None
  end.
Proof.
  intros F. pose proof (fits_at _ _ i F) as K. unfold seed_at, fits in *. destruct (nth i ks K_nil), (nth i st N_nil); auto; try contradiction.
  - rewrite K. reflexivity.
  - destruct K as (v & -> & K). exists v. auto.
Qed.
Lemma phrase_fits ks st i : Forall2 fits ks st ->
  match nth i ks K_nil with
  | K_phrase dec sealed v => exists d, phrase_at st i = Some d /\ good_phrase dec sealed v d
  | _ => phrase_at st i = None
  end.
Proof.
  intros F. pose proof (fits_at _ _ i F) as K. unfold phrase_at, fits in *. destruct (nth i ks K_nil), (nth i st N_nil); auto; try contradiction. eauto.
Qed.
Lemma key_fits ks st i : Forall2 fits ks st ->
  match nth i ks K_nil with
  | K_zero_key => key_at st i = Some (mk_nkey None None zero_time)
  | K_key b => exists v k, key_at st i = Some k /\ Z.abs v < 2 ^ 128 /\ b = (v <? 0) /\ good_key v k
  | _ => key_at st i = None
  end.
Proof.
  intros F. pose proof (fits_at _ _ i F) as K. unfold key_at, fits in *. destruct (nth i ks K_nil), (nth i st N_nil); auto; try contradiction.
  - rewrite K. reflexivity.
  - destruct K as (v & K). exists v. eauto.
Qed.

(** what has to be shown of a call *)
Definition told (ks : list known) (st : n_state) (c : n_call) (r : n_seen * n_state) : Prop :=
  (fst r = N_panicked <-> panics ks c = true) /\ (fst r <> N_panicked -> Forall2 fits (know ks (c, fst r)) (snd r)).
Lemma told_shows {T} ks st c (show : T -> n_seen) (r : res T) : Forall2 fits ks st ->
  (forall a, show a <> N_panicked) -> (forall a e, show a <> N_failed e) -> learn ks c = K_nil -> (forall d v, c <> N_set_version d v) ->
  (r = Panic <-> panics ks c = true) -> told ks st c (n_shows st show r).
Proof.
  intros F S1 S2 L NS P. unfold told, n_shows. destruct r as [a|e|]; cbn [fst snd].
  - split; [rewrite <- P; split; [intros Q; destruct (S1 _ Q)|discriminate]|]. intros _. unfold know. rewrite L.
    specialize (S2 a). destruct (show a); destruct c; try (apply fits_snoc; [exact F|exact I]); try (exfalso; eapply NS; reflexivity).
  - split; [rewrite <- P; split; discriminate|]. intros _. unfold know. destruct c; apply fits_snoc; auto; exact I.
  - split; [rewrite <- P; split; reflexivity|]. intros Q. destruct (Q eq_refl).
Qed.
Lemma told_makes {T} ks st c (wrap : T -> n_object) (r : res T) : Forall2 fits ks st -> (forall d v, c <> N_set_version d v) ->
  match r with Ok a => fits (learn ks c) (wrap a) /\ panics ks c = false | Err _ => panics ks c = false | Panic => panics ks c = true end ->
  told ks st c (n_makes st wrap r).
Proof.
  intros F NS P. unfold told, n_makes. destruct r as [a|e|]; cbn [fst snd].
  - destruct P as [P1 P2]. rewrite P2. split; [split; discriminate|]. intros _. unfold know. destruct c; try (apply fits_snoc; [exact F|exact P1]). exfalso; eapply NS; reflexivity.
  - rewrite P. split; [split; discriminate|]. intros _. unfold know. destruct c; apply fits_snoc; auto; exact I.
  - rewrite P. split; [split; reflexivity|]. intros Q. destruct (Q eq_refl).
Qed.
Lemma change_fits ks st d v dec sealed v0 p : Forall2 fits ks st -> nth d ks K_nil = K_phrase dec sealed v0 -> phrase_at st d = Some p -> 0 <= v ->
  Forall2 fits (change_at ks d v) (firstn d st ++ N_phrase (mk_ndec v (nd_entropy p) (nd_salt p) (nd_verify p) (nd_offset p)) :: skipn (S d) st).
Proof.
  intros F. revert d. induction F as [|k o ks st K F IH]; intros d N P V; [destruct d; discriminate|]. destruct d as [|d]; cbn [nth change_at firstn skipn app] in *.
  - unfold phrase_at in P. cbn [nth] in P. subst k. constructor; [|exact F]. destruct o as [|s|p'|k]; try discriminate. apply some_inj in P. subst p'.
    destruct K as (K1 & K2 & K3 & K4 & K5 & K6). cbn [with_version fits]. unfold good_phrase. cbn [nd_version nd_entropy nd_salt nd_offset]. auto 10.
  - constructor; [exact K|]. apply IH; auto.
Qed.

Ltac look := unfold n_seed_era, n_seed_int, n_seed_bytes, n_encrypted, n_creation, n_offset, n_created, n_expiry, n_user_id, n_fingerprint, n_types, n_export, n_key_plaintext, n_key_encrypted, n_keys, n_encode_plaintext, n_encode_encrypted, whole; cbn [deref bind ns_era ns_value nk_keys nk_seed nk_creation].
Lemma step_told ks st c : Forall2 fits ks st -> n_typed c -> told ks st c (n_step E st c).
Proof.
  intros F T. destruct c; cbn [n_step n_typed] in *.
  - split; cbn [fst snd panics]; [split; discriminate|]. intros _. apply fits_snoc; [exact F|reflexivity].
  - apply told_makes; [exact F|discriminate|]. unfold n_new_seed. cbn [panics learn]. unfold era_check, era_latest. destruct (era =? 0) eqn:Q.
    + assert (era = 0) by lia. subst era. cbn [Z.gtb Z.compare Z.ltb orb bind andb]. destruct entropy as [v|]; cbn [deref bind]; [|reflexivity].
      unfold new_seed. change (era_check 0) with (Ok tt). cbn [bind]. rewrite bit_len_gtb by (unfold entropy_bits; lia). change (2 ^ entropy_bits) with (2 ^ 128).
      destruct (Z.abs v <? 2 ^ 128) eqn:B; cbn [negb bind]; [|reflexivity]. split; [|reflexivity]. exists v. split; [reflexivity|]. split; [lia|reflexivity].
    + replace ((era >? 0) || (era <? 0)) with true by lia. cbn [bind andb]. reflexivity.
  - apply told_makes; [exact F|discriminate|]. unfold n_generate_seed. cbn [panics learn]. destruct random as [src|]; cbn [deref bind]; [|reflexivity].
    pose proof (generate_seed_calm src T) as G. destruct (generate_seed src) as [[s rest]|e|]; cbn [bind]; [|reflexivity|contradiction].
    destruct G as [[G1 G2] _]. split; [|reflexivity]. exists (seed_value s). unfold n_of_seed. rewrite G1. split; [reflexivity|]. lia.
  - apply told_shows; try discriminate; auto. cbn [panics]. pose proof (seed_fits _ _ s F) as S. destruct (nth s ks K_nil); try (rewrite S; look; split; reflexivity || discriminate).
    destruct S as (v & -> & _). look. split; discriminate.
  - apply told_shows; try discriminate; auto. cbn [panics]. pose proof (seed_fits _ _ s F) as S. destruct (nth s ks K_nil); try (rewrite S; look; split; reflexivity || discriminate).
    destruct S as (v & -> & _). look. split; discriminate.
  - apply told_shows; try discriminate; auto. cbn [panics]. pose proof (seed_fits _ _ s F) as S. destruct (nth s ks K_nil); try (rewrite S; look; split; reflexivity || discriminate).
    destruct S as (v & -> & B & _). unfold n_seed_bytes, whole. cbn [deref bind ns_value]. change (Z.to_nat ((entropy_bits + 7) / 8)) with 16%nat. rewrite fill_16 by auto. split; discriminate.
  - apply told_shows; try discriminate; auto. cbn [panics]. pose proof (seed_fits _ _ s F) as S. destruct (nth s ks K_nil); try (rewrite S; look; split; reflexivity || discriminate).
    destruct S as (v & -> & B & ->). apply plaintext_panics; auto.
  - apply told_shows; try discriminate; auto. cbn [panics]. pose proof (seed_fits _ _ s F) as S. destruct T as [T1 T2]. destruct (nth s ks K_nil); try (rewrite S; look; split; reflexivity || discriminate).
    + rewrite S. rewrite (encrypted_no_seed _ offset password random eq_refl T1 T2). destruct random; reflexivity.
    + destruct S as (v & -> & B & ->). rewrite (encrypted_panics v offset password random B T1 T2). destruct random; reflexivity.
  - apply told_makes; [exact F|discriminate|]. cbn [panics learn]. pose proof (seed_fits _ _ s F) as S. destruct (nth s ks K_nil); try (rewrite S; reflexivity).
    + rewrite S. pose proof (new_zero creation opts) as N. pose proof N as N'. destruct (n_new E _ creation opts) as [k|e|] eqn:Q.
      * exfalso. revert Q. unfold n_new, n_seed_era, n_seed_int. cbn [deref bind ns_era ns_value]. change (era_check 0) with (Ok tt). cbn [bind].
        destruct (_ <? 0); [discriminate|]. destruct (t_after _ _); [discriminate|]. destruct (t_before _ _); discriminate.
      * destruct (_ && _); [destruct N as [_ N]; discriminate (N eq_refl)|reflexivity].
      * apply N. reflexivity.
    + destruct S as (v & -> & B & ->). pose proof (new_whole v creation opts B T) as N. destruct (n_new E (whole v) creation opts); [|reflexivity|contradiction].
      split; [|reflexivity]. exists v. auto.
  - split; cbn; [split; discriminate|]. intros _. apply fits_snoc; [exact F|]. cbn. unfold good_phrase. cbn. repeat split; try lia; discriminate.
  - apply told_makes; [exact F|discriminate|]. cbn [panics learn]. pose proof (decode_good words) as D. destruct (n_decode E words); [|reflexivity|contradiction].
    split; [|reflexivity]. destruct (Nat.eqb _ _); exact D.
  - pose proof (phrase_fits _ _ d F) as P. unfold told. cbn [panics]. destruct (nth d ks K_nil) eqn:N; try (rewrite P; cbn; split; [split; reflexivity|congruence]).
    destruct P as (p & P & G). rewrite P. cbn [fst snd]. split; [split; discriminate|]. intros _. cbn [know].
    rewrite app_comm_cons, app_assoc. apply fits_snoc; [|exact I]. eapply change_fits; eauto.
  - apply told_shows; try discriminate; auto. cbn [panics]. pose proof (phrase_fits _ _ d F) as P. destruct (nth d ks K_nil); try (rewrite P; look; split; reflexivity). destruct P as (p & -> & _). look. split; discriminate.
  - apply told_shows; try discriminate; auto. cbn [panics]. pose proof (phrase_fits _ _ d F) as P. destruct (nth d ks K_nil); try (rewrite P; look; split; reflexivity). destruct P as (p & -> & _). look. split; discriminate.
  - apply told_shows; try discriminate; auto. cbn [panics]. pose proof (phrase_fits _ _ d F) as P. destruct (nth d ks K_nil); try (rewrite P; look; split; reflexivity). destruct P as (p & -> & _). look. split; discriminate.
  - apply told_makes; [exact F|discriminate|]. cbn [panics learn]. pose proof (phrase_fits _ _ d F) as P. destruct (nth d ks K_nil); try (rewrite P; reflexivity). destruct P as (p & -> & G).
    pose proof (dm_seed_good _ _ _ _ G) as S. destruct (n_dm_seed (Some p)); auto. destruct S as [(v & -> & B) S]. split; [|exact S]. exists v. split; [reflexivity|]. lia.
  - apply told_makes; [exact F|discriminate|]. cbn [panics learn]. pose proof (phrase_fits _ _ d F) as P. destruct (nth d ks K_nil); try (rewrite P; reflexivity). destruct P as (p & -> & G).
    pose proof (decrypt_good _ _ _ _ password G) as S. destruct (n_decrypt E (Some p) password); auto. destruct S as [(v & -> & B) S]. split; [|exact S]. exists v. split; [reflexivity|]. lia.
  - split; cbn [fst snd panics]; [split; discriminate|]. intros _. apply fits_snoc; [exact F|reflexivity].
  - apply told_makes; [exact F|discriminate|]. cbn [panics learn]. pose proof (recover_plaintext_good words opts T) as R. destruct (n_recover_plaintext E words opts); [|reflexivity|contradiction].
    split; [|reflexivity]. destruct R as (v & B & G). exists v. split; [lia|]. split; [lia|exact G].
  - apply told_makes; [exact F|discriminate|]. cbn [panics learn]. pose proof (recover_encrypted_good words password opts T) as R. destruct (n_recover_encrypted E words password opts); [|reflexivity|contradiction].
    split; [|reflexivity]. destruct R as (v & B & G). exists v. split; [lia|]. split; [lia|exact G].
  - apply told_shows; try discriminate; auto. cbn [panics]. pose proof (key_fits _ _ k F) as K. destruct (nth k ks K_nil); try (rewrite K; look; split; reflexivity || discriminate).
    destruct K as (v & k0 & -> & B & _ & ks0 & t & -> & _). look. split; discriminate.
  - apply told_shows; try discriminate; auto. cbn [panics]. pose proof (key_fits _ _ k F) as K. destruct (nth k ks K_nil); try (rewrite K; look; split; reflexivity || discriminate).
    destruct K as (v & k0 & -> & B & _ & ks0 & t & -> & _). look. split; discriminate.
  - apply told_shows; try discriminate; auto. cbn [panics]. pose proof (key_fits _ _ k F) as K. destruct (nth k ks K_nil); try (rewrite K; look; split; reflexivity || discriminate).
    destruct K as (v & k0 & -> & B & _ & ks0 & t & -> & _). look. split; discriminate.
  - apply told_shows; try discriminate; auto. cbn [panics]. pose proof (key_fits _ _ k F) as K. destruct (nth k ks K_nil); try (rewrite K; look; split; reflexivity || discriminate).
    destruct K as (v & k0 & -> & B & _ & ks0 & t & -> & _). look. split; discriminate.
  - apply told_shows; try discriminate; auto. cbn [panics]. pose proof (key_fits _ _ k F) as K. destruct (nth k ks K_nil); try (rewrite K; look; split; reflexivity || discriminate).
    destruct K as (v & k0 & -> & B & _ & ks0 & t & -> & _). look. split; discriminate.
  - apply told_shows; auto; try (intros []; discriminate); try discriminate. cbn [panics]. unfold n_subkey_fingerprint, subkey_names. cbn [existsb]. rewrite orb_false_r, orb_assoc.
    change (bs "encryption") with type_encryption. change (bs "authentication") with type_authentication. change (bs "signing") with type_signing.
    destruct (bytes_eqb type type_encryption || bytes_eqb type type_authentication || bytes_eqb type type_signing); cbn [andb]; [|split; discriminate].
    pose proof (key_fits _ _ k F) as K. destruct (nth k ks K_nil); try (rewrite K; look; split; reflexivity || discriminate).
    destruct K as (v & k0 & -> & B & _ & ks0 & t & -> & _). look. split; discriminate.
  - apply told_shows; try discriminate; auto. cbn [panics]. pose proof (key_fits _ _ k F) as K. destruct (nth k ks K_nil); try (rewrite K; look; split; reflexivity || discriminate).
    destruct K as (v & k0 & -> & B & _ & ks0 & t & -> & S & _). split; [|discriminate]. intros Q. destruct (export_calm _ armor subkeys password tape v t S Q).
  - apply told_shows; try discriminate; auto. cbn [panics]. pose proof (key_fits _ _ k F) as K. destruct (nth k ks K_nil); try (rewrite K; look; split; reflexivity || discriminate).
    destruct K as (v & k0 & -> & B & -> & ks0 & t & Q & S & O). unfold n_key_plaintext. cbn [deref bind]. rewrite Q at 1. cbn [nk_seed].
    destruct (plaintext_panics v (n_creation_offset k0) B ltac:(lia)) as [P _]. rewrite P. replace (2 ^ 31 <=? n_creation_offset k0) with false by lia. rewrite orb_false_r. reflexivity.
  - apply told_shows; try discriminate; auto. cbn [panics]. pose proof (key_fits _ _ k F) as K. destruct (nth k ks K_nil); try (rewrite K; look; split; reflexivity || discriminate).
    destruct K as (v & k0 & -> & B & -> & ks0 & t & Q & S & O). unfold n_key_encrypted. cbn [deref bind]. rewrite Q at 1. cbn [nk_seed].
    rewrite (encrypted_panics v (n_creation_offset k0) password random B ltac:(lia) T). replace (2 ^ 31 <=? n_creation_offset k0) with false by lia.
    destruct random; [rewrite andb_false_r|]; reflexivity.
Qed.

(** *** whole programs *)
Lemma run_told : forall calls ks st h st', Forall2 fits ks st -> Forall n_typed calls -> n_run E st calls = (h, st') ->
  (forall e, In e h -> snd e <> N_panicked) -> Forall2 fits (fold_left know h ks) st' /\ length h = length calls.
Proof.
  induction calls as [|c calls IH]; intros ks st h st' F T R N; cbn [n_run] in R.
  - apply pair_equal_spec in R as [<- <-]. split; [exact F|reflexivity].
  - apply Forall_cons_iff in T as [T1 T2]. pose proof (step_told ks st c F T1) as [_ S]. destruct (n_step E st c) as [o st1] eqn:Q. cbn [fst snd] in S.
    destruct o; cbn match in R;
      try (destruct (n_run E st1 calls) as [h1 st2] eqn:R1; apply pair_equal_spec in R as [<- <-]; cbn [fold_left length];
           destruct (IH _ _ _ _ (S ltac:(discriminate)) T2 R1 (fun e I => N e (or_intror I))) as [I1 I2]; split; [exact I1|f_equal; exact I2]).
    apply pair_equal_spec in R as [<- <-]. destruct (N (c, N_panicked) (or_introl eq_refl) eq_refl).
Qed.
End env.
