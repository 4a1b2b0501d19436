(** C98: what assigned fields of the package pgp do to exports and certifications, told by the calls alone. *)
From Coq Require Import Lia ZifyBool ZifyNat.
From Verif.Props Require Import SliceProps ExportProps LifeProps FieldProps.
From Verif.Spec Require Import EnvSpec PhraseSpec PgpSpec ExportSpec SliceSpec FieldSpec.
From Verif.Proofs Require Import BitsP EnvInst KeysP PgpP S2kP SignP PgpFieldsP UnreadP MadeKeysP HeldP.
From Verif.Model Require Import GoBase Env GoTime Seed Encoding PgpWire PgpS2k PgpKeys ZeroValues PgpFields.

Lemma after_held E calls h st k : f_run E f_init calls = (h, st) -> no_panic h -> held_of (nth k (f_heap st) F_none) = held_after E calls k.
Proof.
  intros Q N. destruct (run_held E calls f_init h st Q N) as (L & _ & A). cbn [f_init f_heap length Nat.add] in *. unfold held_after.
  destruct (skipn k calls) as [|c after] eqn:S.
  - rewrite nth_overflow; [reflexivity|]. apply (f_equal (@length f_call)) in S. rewrite skipn_length in S. cbn in S. lia.
  - assert (K : (k < length calls)%nat). { apply (f_equal (@length f_call)) in S. rewrite skipn_length in S. cbn in S. lia. }
    specialize (A (firstn k calls) c after). rewrite <- S, firstn_skipn in A. specialize (A eq_refl). cbv zeta in A. rewrite firstn_length, Nat.min_l in A by lia. exact A.
Qed.
Lemma after_base E calls h st before c after master b : f_run E f_init calls = (h, st) -> no_panic h -> calls = before ++ c :: after -> constructs E before c master b ->
  ident (nth (length before) (f_heap st) F_none) = Some (master, Some b).
Proof.
  intros Q N -> C. destruct (run_idents E _ _ _ _ Q N) as (_ & l & L1 & L2 & L3). specialize (L3 before c after eq_refl). cbn [f_init f_heap map app] in L1.
  change (fold_left sets_kdf before (f_kdf f_init)) with (default_after before) in L3.
  change (@None (bool * option ecc_key)) with (ident F_none) in L3. rewrite <- L1, map_nth in L3. rewrite L3. destruct C as [s cr ex x X|s cr ex x X|s cr ex kdf p x P X]; cbn [makes_ident]; [rewrite X; reflexivity..|].
  unfold f_new_curve. assert (Z : zlen s =? 32 = true) by (unfold new_curve_key in X; destruct (zlen s =? 32); [reflexivity|discriminate]). rewrite Z. cbn [negb].
  replace (match kdf with None => default_after before | Some k0 => Some k0 end) with (Some p) by (destruct kdf; congruence). cbn [deref bind]. rewrite X. reflexivity.
Qed.
(** DefaultStringToKeyHashFunc after these calls *)
Definition hash_after (calls : list f_call) : Z := fold_left (fun d c => match c with F_set_default_hash id => id | _ => d end) calls 8.
Lemma run_hash E calls : forall st h st', f_run E st calls = (h, st') -> no_panic h -> f_hash st' = fold_left (fun d c => match c with F_set_default_hash id => id | _ => d end) calls (f_hash st).
Proof.
  induction calls as [|c calls IH]; intros st h st' Q N; cbn [f_run] in Q.
  - apply pair_equal_spec in Q as [_ <-]. reflexivity.
  - assert (A : f_hash (snd (f_step E st c)) = match c with F_set_default_hash id => id | _ => f_hash st end).
    { destruct c; cbn [f_step]; try reflexivity; match goal with |- f_hash (snd (f_makes _ ?r)) = _ => destruct r | |- f_hash (snd (f_shows _ ?r)) = _ => destruct r | |- f_hash (snd (f_assigns _ _ ?r)) = _ => destruct r end; reflexivity. }
    destruct (f_step E st c) as [o st1]. cbn [snd] in A. destruct (f_run E st1 calls) as [h1 st2] eqn:Q1.
    assert (O : (c, o) :: h1 = h /\ st2 = st').
    { destruct o; try (apply pair_equal_spec in Q as [<- <-]; split; reflexivity). apply pair_equal_spec in Q as [<- _]. exfalso. exact (N _ (or_introl eq_refl) eq_refl). }
    destruct O as [<- <-]. rewrite (IH _ _ _ Q1 (fun e I => N e (or_intror I))), A. reflexivity.
Qed.

(** the key that call number k made with a constructor, and what its fields hold after all calls *)
Inductive key_after (E : Env) (calls : list f_call) (k : nat) (kind : kind_of_key) : ecc_key -> bytes -> Z -> Z -> Prop :=
| key_is before c after b private creation expiry : calls = before ++ c :: after -> length before = k ->
    constructs E before c (match kind with Master_key => true | _ => false end) b -> held_after E calls k = Held_key kind private creation expiry ->
    key_after E calls k kind b private creation expiry.
Inductive ed_after (E : Env) (calls : list f_call) (k : nat) : option ed_key -> Prop :=
| ed_nil : (length calls <= k)%nat -> ed_after E calls k None
| ed_there b private creation expiry : key_after E calls k Ed_subkey b private creation expiry -> ed_after E calls k (Some (mk_ed b private expiry)).
Inductive curve_after (E : Env) (calls : list f_call) (k : nat) : option curve_key -> Prop :=
| curve_nil : (length calls <= k)%nat -> curve_after E calls k None
| curve_there b private creation expiry kdf : key_after E calls k Curve_subkey b private creation expiry -> curve_after E calls k (Some (mk_curve b private expiry kdf)).

(** After any calls and assignments: exporting a key set of constructed keys whose master key's Creation is that of its
    making gives what PgpKeys.v has for the keys as made, with the Private of the master key, the Expiry of all, the user ID
    and the pointers of the set as last assigned. *)
Theorem sets_as_assigned : forall E calls h st s ks u b private creation expiry enc auth sign, sizes_ok E -> rand_ok E -> f_run E f_init calls = (h, st) -> no_panic h ->
  held_after E calls s = Held_keys ks -> held_after E calls (fs_uid ks) = Held_user u ->
  key_after E calls (fs_master ks) Master_key b private creation expiry -> length private = 64%nat -> creation = ec_creation b ->
  curve_after E calls (fs_enc ks) enc -> ed_after E calls (fs_auth ks) auth -> ed_after E calls (fs_sign ks) sign ->
  hash_after calls = 8 -> forall password tape, let v := mk_set u (mk_ed b private expiry) enc auth sign in
  fst (f_step E st (F_packets s password tape)) = shown (encode_packets E v password tape) /\
  forall with_cert, fst (f_step E st (F_subkey_packets s password with_cert tape)) = shown (encode_subkey_packets E v password with_cert tape).
Proof.
  intros E calls h st s ks u b private creation expiry enc auth sign S R Q N HS HU HM P C HE HA HG HH pw tape v.
  pose proof (run_held E calls f_init h st Q N) as (L & _). cbn [f_init f_heap length Nat.add] in L.
  assert (KEY : forall k kind kb kp kc kx, key_after E calls k kind kb kp kc kx ->
    match kind with
    | Curve_subkey => exists o, nth k (f_heap st) F_none = F_curve_key o /\ fc_base o = Some kb /\ fc_private o = kp /\ fc_creation o = kc /\ fc_expiry o = kx
    | Master_key => exists o, nth k (f_heap st) F_none = F_master_key o /\ fe_base o = Some kb /\ fe_private o = kp /\ fe_creation o = kc /\ fe_expiry o = kx
    | Ed_subkey => exists o, nth k (f_heap st) F_none = F_ed_subkey o /\ fe_base o = Some kb /\ fe_private o = kp /\ fe_creation o = kc /\ fe_expiry o = kx
    end).
  { intros k kind kb kp kc kx [before c after b0 p0 c0 x0 E1 E2 E3 E4]. pose proof (after_base E calls h st before c after _ b0 Q N E1 E3) as I. pose proof (after_held E calls h st k Q N) as A. rewrite E2 in I. rewrite E4 in A.
    destruct kind, (nth k (f_heap st) F_none) as [|o|o|o| | | |]; cbn [held_of ident] in A, I; try discriminate; exists o; (split; [reflexivity|]); injection A as A1 A2 A3; injection I as I; auto. }
  apply (sets_as_values E calls h st s v S R Q N); [|rewrite (run_hash E calls f_init h st Q N); exact HH].
  destruct (KEY _ _ _ _ _ _ HM) as (m & M1 & M2 & M3 & M4 & M5).
  assert (V : v = mk_set u (ed_value m b) enc auth sign) by (unfold v, ed_value; rewrite M3, M5; reflexivity). rewrite V. apply (set_is (f_heap st) s ks m b u enc auth sign).
  - pose proof (after_held E calls h st s Q N) as A. rewrite HS in A. unfold keys_at. destruct (nth s (f_heap st) F_none); try discriminate. cbn [held_of] in A. injection A as ->. reflexivity.
  - pose proof (after_held E calls h st (fs_uid ks) Q N) as A. rewrite HU in A. unfold user_at. destruct (nth (fs_uid ks) (f_heap st) F_none); try discriminate. cbn [held_of] in A. injection A as ->. reflexivity.
  - unfold master_at. rewrite M1. reflexivity.
  - exact M2.
  - rewrite M3. exact P.
  - rewrite M4. exact C.
  - destruct HE as [G|b1 p1 c1 x1 kdf HE]; [apply curve_absent; unfold curve_at; rewrite nth_overflow by lia; reflexivity|].
    destruct (KEY _ _ _ _ _ _ HE) as (o & O1 & O2 & <- & O4 & <-). apply (curve_present _ _ o b1 kdf); [unfold curve_at; rewrite O1; reflexivity|exact O2].
  - destruct HA as [G|b1 p1 c1 x1 HE1]; [apply ed_absent; unfold subkey_at; rewrite nth_overflow by lia; reflexivity|].
    destruct (KEY _ _ _ _ _ _ HE1) as (o & O1 & O2 & <- & O4 & <-). apply (ed_present _ _ o b1); [unfold subkey_at; rewrite O1; reflexivity|exact O2].
  - destruct HG as [G|b1 p1 c1 x1 HE1]; [apply ed_absent; unfold subkey_at; rewrite nth_overflow by lia; reflexivity|].
    destruct (KEY _ _ _ _ _ _ HE1) as (o & O1 & O2 & <- & O4 & <-). apply (ed_present _ _ o b1); [unfold subkey_at; rewrite O1; reflexivity|exact O2].
Qed.
Print Assumptions sets_as_assigned.

(** *** cases *)
(** Expiry and Private of the master key, Expiry of a subkey, the user ID and the set assigned; one subkey nil *)
Definition assigned_calls : list f_call :=
  field_keys ++ [F_set_expiry 0 (GoTime.second * 1900000000); F_set_private 0 (repeat 3 64); F_set_expiry 3 zero_time; F_set_user 4 (mk_uid (bs "Bo") []); F_set_creation 1 5; F_set_keys 5 (mk_fset 4 0 1 99 3)].
Example assigned_case : quietly (history assigned_calls) = true /\ held_after field_env assigned_calls 5 = Held_keys (mk_fset 4 0 1 99 3) /\ held_after field_env assigned_calls 4 = Held_user (mk_uid (bs "Bo") []) /\
  (exists b, key_after field_env assigned_calls 0 Master_key b (repeat 3 64) (ec_creation b) (GoTime.second * 1900000000)) /\
  (exists b p, curve_after field_env assigned_calls 1 (Some (mk_curve b p (FieldProps.second 1800000000) default_kdf))) /\
  ed_after field_env assigned_calls 99 None /\ (exists b p, ed_after field_env assigned_calls 3 (Some (mk_ed b p zero_time))) /\ hash_after assigned_calls = 8.
Proof.
  split; [vm_compute; reflexivity|]. split; [vm_compute; reflexivity|]. split; [vm_compute; reflexivity|]. split.
  { eexists. eapply (key_is _ _ _ _ []); [reflexivity|reflexivity|eapply constructs_master; reflexivity|vm_compute; reflexivity]. }
  split.
  { do 2 eexists. eapply curve_there. eapply (key_is _ _ _ _ (firstn 1 field_keys)); [reflexivity|reflexivity|eapply constructs_encryption; reflexivity|vm_compute; reflexivity]. }
  split; [apply ed_nil; vm_compute; lia|]. split; [|reflexivity].
  do 2 eexists. eapply ed_there. eapply (key_is _ _ _ _ (firstn 3 field_keys)); [reflexivity|reflexivity|eapply constructs_subkey; reflexivity|vm_compute; reflexivity].
Qed.

(** ** Creation of a master key *)
(** The certification of a master key whose Private was not assigned verifies with the key as made, over the user ID as
    assigned last; it is dated to Creation as assigned last, and its lifetime is what lies between that and Expiry.  The time
    in the key packet stays. *)
Theorem certifications_as_assigned : forall E edv calls h st before seed created expires after u v creation expiry,
  sizes_ok E -> hash_ok E -> ed25519_ok E edv -> seconds_ok E -> f_run E f_init calls = (h, st) -> no_panic h ->
  let k := length before in calls = before ++ F_new_master seed created expires :: after -> block32 seed -> 0 <= t_unix created < 2 ^ 32 ->
  held_after E calls k = Held_key Master_key (seed ++ ed25519_public E seed) creation expiry -> held_after E calls u = Held_user v -> 0 <= t_unix creation < 2 ^ 32 ->
  exists pk packet raw sg, fst (f_step E st (F_public_packet k)) = F_bytes packet /\ read_packet packet = Some (6, raw, []) /\ read_public raw = Some (pk, []) /\ pk_time pk = t_unix created /\
    fst (f_step E (snd (f_step E st (F_self_certify k u))) (F_sig_encode (length calls))) = F_bytes sg /\
    exists s, read_signature sg = Some s /\ sp_type s = 0x13 /\
      verifies E edv pk (key_hash_input pk ++ uid_hash_input (uid_encode v)) s = true /\
      option_map number (find_sub 2 (sp_hashed s)) = Some (t_unix creation) /\
      (is_zero_time expiry = true -> lifetime s = None) /\
      (forall n, is_zero_time expiry = false -> expiry = creation + n * GoTime.second -> 1 <= n < 2 ^ 32 -> lifetime s = Some n).
Proof.
  intros E edv calls h st before seed created expires after u v creation expiry S HH HS SO Q N k QC B32 CR HK HU CN.
  assert (L32 : length seed = 32%nat) by apply B32.
  assert (C : constructs E before (F_new_master seed created expires) true (ed_base (ed_of E seed created expires))) by (apply constructs_master, new_ed_key_ok, L32).
  set (b := ed_base (ed_of E seed created expires)) in *.
  assert (KO : ecc_ok b). { apply (ed_base_ok E edv (ed_of E seed created expires) HS). exists seed, created, expires. auto. }
  pose proof (after_base E calls h st before _ after true b Q N QC C) as I. fold k in I. pose proof (after_held E calls h st k Q N) as A. rewrite HK in A.
  pose proof (after_held E calls h st u Q N) as AU. rewrite HU in AU. pose proof (run_held E calls f_init h st Q N) as (L & _). cbn [f_init f_heap length Nat.add] in L.
  rewrite QC in Q. destruct (keys_stay_as_made E before _ after h st true b Q N C) as (_ & K & _). fold k in K.
  exists (public_of b), (public_packet b), (encode_public b).
  destruct (nth k (f_heap st) F_none) as [|m| | | | | |] eqn:M; cbn [held_of ident] in A, I; try discriminate. injection A as A1 A2 A3. injection I as I.
  assert (MM : master_at (f_heap st) k = Some m) by (unfold master_at; rewrite M; reflexivity). assert (UU : user_at (f_heap st) u = Some v).
  { unfold user_at. destruct (nth u (f_heap st) F_none); try discriminate. cbn [held_of] in AU. injection AU as ->. reflexivity. }
  set (rq := mk_req (fingerprint_v4 E b) hash_sha256 (certify_data b (uid_encode v)) sig_positive_certification
      ([mk_sub sub_key_flags [flag_certify]] ++ expiry_subpackets E creation expiry ++
       [mk_sub sub_pref_cipher [cipher_aes256; cipher_aes192; cipher_aes128; cipher_des];
        mk_sub sub_pref_hash [hash_sha512; hash_sha384; hash_sha256; hash_sha224; hash_sha1];
        mk_sub sub_pref_compression [compression_zlib; compression_bzip2; compression_zip];
        mk_sub sub_features [1]; mk_sub sub_key_server [key_server_no_modify]]) [] creation).
  destruct (expiry_subs_small E creation expiry) as [X1 X2].
  destruct (SignP.sign_ok E edv seed rq HH HS B32) as (sg & G1 & G2 & G3 & G4 & G5 & _ & G7); unfold rq; cbn [rq_hash rq_type rq_fingerprint rq_hashed rq_unhashed rq_data rq_time] in *.
  { reflexivity. }
  { vm_compute. split; congruence. }
  { apply fingerprint_20. exact HH. }
  { rewrite expiry_subs_spec. apply Forall_app. split; [repeat constructor; vm_compute; congruence|]. apply Forall_app. split; [exact X1|]. repeat constructor; vm_compute; congruence. }
  { rewrite expiry_subs_spec. rewrite !subs_size_app. match goal with |- subs_size ?a + (_ + subs_size ?b) <= _ => change (subs_size a) with 3; change (subs_size b) with 24 end. lia. }
  { constructor. }
  { cbn. lia. }
  assert (P64 : length (fe_private m) = 64%nat) by (rewrite A1, app_length, (size_public E S seed L32); lia).
  destruct (sign_value E S (f_heap st) (fe_private m) (fingerprint_v4 E b) (certify_data b (uid_encode v)) sig_positive_certification (rq_hashed rq) [] creation P64 (size_sha1 E S _)) as (sg' & V1 & V2 & V3).
  rewrite A1 in V1. change (sign E (seed ++ ed25519_public E seed) rq = Ok sg') in V1. rewrite G1 in V1. apply SafeP.ok_inj in V1. subst sg'.
  assert (F : f_self_certify E (f_heap st) (Some m) (Some v) = Ok (own_sig sg)).
  { unfold f_self_certify. cbn [deref bind]. rewrite I, A2, A3. cbn [deref bind f_encode_public f_uid_encode f_fingerprint]. exact V3. }
  exists (sig_encode sg). split; [exact K|]. split.
  { change (public_packet b) with (encode_packet 6 (encode_public b)). rewrite <- (app_nil_r (encode_packet 6 (encode_public b))). apply read_packet_encode; [lia|]. pose proof (zlen_public b KO). lia. }
  split; [rewrite <- (app_nil_r (encode_public b)) at 1; apply read_public_encode, KO|]. split; [reflexivity|]. split.
  { cbn [f_step]. rewrite MM, UU, F. cbn [bind f_makes snd f_heap]. replace (signature_at (f_heap st ++ [F_signature (own_sig sg)]) (length calls)) with (Some (own_sig sg)) by (unfold signature_at; rewrite <- L, nth_middle; reflexivity).
    rewrite encode_value by exact V2. reflexivity. }
  exists (sig_of sg). split; [apply read_signature_encode, G2|]. unfold rq in G3, G4. cbn [rq_type rq_fingerprint rq_hashed rq_time] in G3, G4. rewrite expiry_subs_spec in G4.
  split; [exact G3|]. split; [rewrite <- certify_data_spec; apply G7; reflexivity|]. split.
  { unfold sig_of. cbn [sp_hashed]. rewrite G4. change (option_map number (find_sub 2 _)) with (Some (number (bytes_of_bits 32 (t_unix creation)))). rewrite number_32 by exact CN. reflexivity. }
  assert (LF := lifetime_subs E (fingerprint_v4 E b) creation 1 creation expiry pref_subs eq_refl (sig_of sg)). assert (HD : sp_hashed (sig_of sg) = map sub_pair (stamp_subs (fingerprint_v4 E b) creation ++ [mk_sub 27 [1]] ++ expiry_subs E creation expiry ++ pref_subs)).
  { unfold sig_of. cbn [sp_hashed]. rewrite G4. reflexivity. }
  specialize (LF HD SO). rewrite LF. split; [intros ->; reflexivity|]. intros n Z X R. rewrite Z. cbv zeta.
  replace (t_sub expiry creation) with (n * 10 ^ 9).
  - rewrite (proj1 SO) by lia. replace (n =? 0) with false by lia. reflexivity.
  - rewrite X. unfold t_sub. change GoTime.second with 1000000000. replace (creation + n * 1000000000 - creation) with (n * 1000000000) by lia. replace (n * 1000000000 >? 2 ^ 63 - 1) with false by lia. replace (n * 1000000000 <? - 2 ^ 63) with false by lia. reflexivity.
Qed.
Print Assumptions certifications_as_assigned.
(** a key made for 1700000000 and dated to 1750000000 *)
Definition dated_calls : list f_call := [F_lit_user alice] ++ F_new_master (repeat 7 32) (FieldProps.second 1700000000) (FieldProps.second 1800000000) :: [F_set_creation 1 (FieldProps.second 1750000000); F_set_user 0 (mk_uid (bs "Bo") [])].
Example dated_case : hash_ok field_env /\ seconds_ok field_env /\ quietly (history dated_calls) = true /\ block32 (repeat 7 32) /\
  held_after field_env dated_calls 1 = Held_key Master_key (repeat 7 32 ++ ed25519_public field_env (repeat 7 32)) (FieldProps.second 1750000000) (FieldProps.second 1800000000) /\
  held_after field_env dated_calls 0 = Held_user (mk_uid (bs "Bo") []) /\ FieldProps.second 1800000000 = FieldProps.second 1750000000 + 50000000 * GoTime.second.
Proof.
  split; [intros x; split; (split; [apply be_bytes_length|apply be_bytes_byte])|]. split; [exact toy_seconds_ok|]. split; [vm_compute; reflexivity|]. split; [split; [reflexivity|apply Forall_forall; intros x I; apply repeat_spec in I; subst x; unfold byte; lia]|].
  split; [vm_compute; reflexivity|]. split; vm_compute; reflexivity.
Qed.
