From Coq Require Import Lia ZifyBool ZifyNat.
From Verif.Model Require Import GoBase Env GoTime Seed Encoding PgpWire PgpS2k PgpKeys.
From Verif.Spec Require Import EnvSpec PhraseSpec PgpSpec.
From Verif.Proofs Require Import BitsP EnvInst RoundtripP KeysP PgpP S2kP.
Ltac Zify.zify_post_hook ::= Z.div_mod_to_equations.

Lemma be_u16 x : be_bytes 2 (u16 x) = bytes_of_bits 16 x.
Proof. change 16%nat with (8 * 2)%nat. rewrite bytes_of_bits_be. unfold u16. apply (be_bytes_mod 2 2). auto. Qed.
Lemma be_u32 x : be_bytes 4 (u32 x) = bytes_of_bits 32 x.
Proof. change 32%nat with (8 * 4)%nat. rewrite bytes_of_bits_be. unfold u32. apply (be_bytes_mod 4 4). auto. Qed.

(** sizes of subpacket areas *)
Definition small_sub (s : subpacket) : Prop := 0 <= sub_type s < 256 /\ zlen (sub_body s) <= 190.
Definition subs_size (l : list subpacket) : Z := fold_right (fun s n => zlen (sub_body s) + 2 + n) 0 l.
Lemma small_sub_size l : Forall small_sub l -> zlen (concat (map sub_encode l)) = subs_size l.
Proof.
  induction 1 as [|s l [_ B] _ IH]; [reflexivity|]. cbn [map concat subs_size fold_right]. fold (subs_size l).
  rewrite zlen_app, IH. unfold sub_encode, packet_length_encode. pose proof (zlen_nonneg (sub_body s)).
  replace (zlen (sub_body s) + 1 <=? 191) with true by lia. cbn [app]. rewrite !zlen_cons. lia.
Qed.
Lemma subs_size_app a b : subs_size (a ++ b) = subs_size a + subs_size b.
Proof. induction a as [|s a IH]; [reflexivity|]. cbn [app subs_size fold_right]. fold (subs_size (a ++ b)). fold (subs_size a). lia. Qed.
Lemma small_subs_ok l : Forall small_sub l -> subs_size l < 65536 -> subs_ok l.
Proof.
  intros H L. split; [|rewrite small_sub_size; auto].
  eapply Forall_impl; [|apply H]. intros s [T B]. split; auto. lia.
Qed.

Definition stamp_subs (fp : bytes) (time : Z) : list subpacket :=
  [mk_sub 33 (4 :: fp); mk_sub 2 (bytes_of_bits 32 (t_unix time))].
Definition issuer_subs (fp : bytes) : list subpacket := [mk_sub 16 (skipn (length fp - 8) fp)].

Lemma sign_ok E edv sd rq : hash_ok E -> ed25519_ok E edv -> block32 sd -> rq_hash rq = 8 ->
  0 <= rq_type rq < 256 -> length (rq_fingerprint rq) = 20%nat ->
  Forall small_sub (rq_hashed rq) -> subs_size (rq_hashed rq) <= 1000 ->
  Forall small_sub (rq_unhashed rq) -> subs_size (rq_unhashed rq) <= 1000 ->
  exists s, sign E (sd ++ ed25519_public E sd) rq = Ok s /\ sig_ok s /\ sg_type s = rq_type rq /\
    sg_hashed s = stamp_subs (rq_fingerprint rq) (rq_time rq) ++ rq_hashed rq /\
    sg_unhashed s = issuer_subs (rq_fingerprint rq) ++ rq_unhashed rq /\
    (zlen (sig_encode s) = zlen (encode_subpackets (sg_hashed s)) + zlen (encode_subpackets (sg_unhashed s)) + 6
       + zlen (encode_mpi (sg_r s)) + zlen (encode_mpi (sg_s s))) /\
    forall pk, pk_point pk = ed25519_public E sd -> pk_alg pk = 22 ->
      verifies E edv pk (rq_data rq) (sig_of s) = true.
Proof.
  intros HH HS Hsd H8 Ht Hf F1 S1 F2 S2. destruct (HS sd Hsd) as [Hpub Hsign].
  unfold sign. rewrite H8. change (hash_new E 8) with (Some (sha256 E)). cbv iota beta zeta.
  rewrite be_u32. fold (issuer_subs (rq_fingerprint rq)).
  change ([mk_sub sub_issuer_fingerprint (key_packet_version :: rq_fingerprint rq);
           mk_sub sub_creation_time (bytes_of_bits 32 (t_unix (rq_time rq)))])
    with (stamp_subs (rq_fingerprint rq) (rq_time rq)).
  change ([mk_sub sub_issuer (skipn (length (rq_fingerprint rq) - 8) (rq_fingerprint rq))])
    with (issuer_subs (rq_fingerprint rq)).
  set (hashed := stamp_subs _ _ ++ rq_hashed rq). set (unhashed := issuer_subs _ ++ rq_unhashed rq).
  set (pre := sig_preimage (rq_type rq) 8 hashed). rewrite be_u32.
  set (digest := sha256 E _). destruct (Hsign digest) as (L64 & B64 & V).
  set (sg := ed25519_sign E (sd ++ ed25519_public E sd) digest) in *.
  assert (Hr : block32 (firstn 32 sg)).
  { split; [rewrite firstn_length; lia|apply firstn_byte; auto]. }
  assert (Hs : block32 (skipn 32 sg)).
  { split; [rewrite skipn_length; lia|apply skipn_byte; auto]. }
  assert (Ld : length digest = 32%nat) by apply HH.
  assert (OK1 : subs_ok hashed).
  { apply small_subs_ok; unfold hashed.
    - apply Forall_app. split; auto. unfold stamp_subs. repeat constructor; cbn [sub_type sub_body]; try lia.
      + rewrite zlen_cons, zlen_eq, Hf. lia.
      + rewrite zlen_eq. change 32%nat with (8 * 4)%nat. rewrite bytes_of_bits_be, be_bytes_length. lia.
    - unfold subs_size, stamp_subs. rewrite fold_right_app. cbn [fold_right sub_body]. fold (subs_size (rq_hashed rq)).
      rewrite zlen_cons, !zlen_eq, Hf. change 32%nat with (8 * 4)%nat. rewrite bytes_of_bits_be, be_bytes_length. lia. }
  assert (OK2 : subs_ok unhashed).
  { apply small_subs_ok; unfold unhashed.
    - apply Forall_app. split; auto. unfold issuer_subs. repeat constructor; cbn [sub_type sub_body]; try lia.
      rewrite zlen_eq, skipn_length, Hf. lia.
    - unfold subs_size, issuer_subs. rewrite fold_right_app. cbn [fold_right sub_body]. fold (subs_size (rq_unhashed rq)).
      rewrite zlen_eq, skipn_length, Hf. lia. }
  eexists. split; [reflexivity|]. split; [|split; [reflexivity|split; [reflexivity|split; [reflexivity|split]]]].
  - unfold sig_ok. cbn [sg_type sg_hash sg_hashed sg_unhashed sg_digest sg_r sg_s].
    pose proof (be_uint_32 _ Hr). pose proof (be_uint_32 _ Hs). repeat split; try tauto; try lia; try apply OK1; try apply OK2.
  - unfold sig_encode, sig_preimage. cbn [sg_type sg_hash sg_hashed sg_unhashed sg_digest sg_r sg_s].
    rewrite !zlen_app. rewrite (zlen_eq (firstn 2 digest)), firstn_length, Ld.
    match goal with |- context [zlen [?a;?b;?x;?d]] => change (zlen [a;b;x;d]) with 4 end. lia.
  - intros pk Hp Ha. unfold verifies, sig_of, sig_trailer. cbn [sp_prefix sp_alg sp_hash sp_left16 sp_r sp_s sg_type sg_hash sg_hashed sg_digest sg_r sg_s].
    fold pre. change ([4; 255]) with signature_trailer. fold digest. rewrite Hp, Ha, bytes_eqb_refl.
    pose proof (be_uint_32 _ Hr). pose proof (be_uint_32 _ Hs).
    rewrite !bytes_of_bits_256 by auto. rewrite firstn_skipn.
    change (22 =? 22) with true. change (8 =? 8) with true.
    replace (0 <=? be_uint (firstn 32 sg)) with true by lia. replace (be_uint (firstn 32 sg) <? 2 ^ 256) with true by lia.
    replace (0 <=? be_uint (skipn 32 sg)) with true by lia. replace (be_uint (skipn 32 sg) <? 2 ^ 256) with true by lia.
    exact V.
Qed.

(** what is signed *)
Lemma certify_data_spec k u : certify_data k u = key_hash_input (public_of k) ++ uid_hash_input u.
Proof.
  unfold certify_data, key_hash_input, uid_hash_input, public_of. cbn [pk_raw]. rewrite be_u16, be_u32. cbn [app].
  rewrite <- app_assoc. reflexivity.
Qed.
Lemma bind_data_spec k s : bind_data k s = key_hash_input (public_of k) ++ key_hash_input (public_of s).
Proof.
  unfold bind_data, key_hash_input, public_of. cbn [pk_raw]. rewrite !be_u16. cbn [app]. rewrite <- app_assoc. reflexivity.
Qed.
Lemma fingerprint_spec E k : fingerprint_v4 E k = fingerprint E (public_of k).
Proof. unfold fingerprint_v4, fingerprint, key_hash_input, public_of. cbn [pk_raw]. rewrite be_u16. reflexivity. Qed.
Lemma fingerprint_20 E k : hash_ok E -> length (fingerprint_v4 E k) = 20%nat.
Proof. intros H. apply H. Qed.

(** keys as built by the constructors *)
Definition ed_ok (E : Env) (k : ed_key) : Prop :=
  exists sd c x, block32 sd /\ 0 <= t_unix c < 2 ^ 32 /\ k = ed_of E sd c x.
Definition curve_ok (E : Env) (k : curve_key) : Prop :=
  exists sd c x p, block32 sd /\ 0 <= t_unix c < 2 ^ 32 /\ new_curve_key E sd c x p = Ok k.

Lemma ed_base_ok E edv k : ed25519_ok E edv -> ed_ok E k -> ecc_ok (ed_base k) /\ block32 (ec_private (ed_base k)).
Proof.
  intros HS (sd & c & x & Hsd & Hc & ->). destruct (HS sd Hsd) as [Hp _]. unfold ed_of. cbn [ed_base].
  split; [|exact Hsd]. unfold ecc_ok. cbn [ec_creation ec_public ec_oid ec_alg ec_extra].
  split; [exact Hc|]. split; [exact Hp|]. split; [reflexivity|]. split; [split; [discriminate|reflexivity]|].
  right. split; [discriminate|reflexivity].
Qed.

Definition expiry_subs (E : Env) (c x : Z) : list subpacket :=
  if is_zero_time x then [] else [mk_sub 9 (bytes_of_bits 32 (seconds_u32 E (t_sub x c)))].
Lemma expiry_subs_spec E c x : expiry_subpackets E c x = expiry_subs E c x.
Proof.
  unfold expiry_subpackets, expiry_subs. destruct (is_zero_time x); [reflexivity|].
  change 32%nat with (8 * 4)%nat. rewrite bytes_of_bits_be. reflexivity.
Qed.
Lemma expiry_subs_small E c x : Forall small_sub (expiry_subs E c x) /\ 0 <= subs_size (expiry_subs E c x) <= 6.
Proof.
  unfold expiry_subs. destruct (is_zero_time x); [split; [constructor|cbn; lia]|].
  assert (L : zlen (bytes_of_bits 32 (seconds_u32 E (t_sub x c))) = 4).
  { rewrite zlen_eq. change 32%nat with (8 * 4)%nat. rewrite bytes_of_bits_be, be_bytes_length. reflexivity. }
  split; [repeat constructor; cbn [sub_type sub_body]; lia|]. cbn [subs_size fold_right sub_body]. lia.
Qed.

Definition pref_subs : list subpacket :=
  [mk_sub 11 [9; 8; 7; 2]; mk_sub 21 [10; 9; 8; 11; 2]; mk_sub 22 [2; 3; 1]; mk_sub 30 [1]; mk_sub 23 [128]].

Lemma certify_ok E edv m u : hash_ok E -> ed25519_ok E edv -> ed_ok E m ->
  exists s, self_certify E m u = Ok s /\ sig_ok s /\ sg_type s = 0x13 /\
    sg_hashed s = stamp_subs (fingerprint E (public_of (ed_base m))) (ec_creation (ed_base m)) ++
      [mk_sub 27 [1]] ++ expiry_subs E (ec_creation (ed_base m)) (ed_expiry m) ++ pref_subs /\
    sg_unhashed s = issuer_subs (fingerprint E (public_of (ed_base m))) /\
    zlen (sig_encode s) < 2 ^ 32 /\
    verifies E edv (public_of (ed_base m)) (key_hash_input (public_of (ed_base m)) ++ uid_hash_input (uid_encode u))
      (sig_of s) = true.
Proof.
  intros HH HS Hm. pose proof Hm as (sd & c & x & Hsd & Hc & ->). unfold self_certify.
  rewrite certify_data_spec, expiry_subs_spec. set (k := ed_of E sd c x) in *.
  destruct (expiry_subs_small E (ec_creation (ed_base k)) (ed_expiry k)) as [X1 X2].
  change (ed_private k) with (sd ++ ed25519_public E sd).
  match goal with |- context [sign E _ ?r] => destruct (sign_ok E edv sd r HH HS Hsd) as (s & A & B & C & D & F & G & H) end;
    cbn [rq_hash rq_type rq_fingerprint rq_hashed rq_unhashed rq_data rq_time] in *.
  - reflexivity.
  - vm_compute. split; congruence.
  - apply fingerprint_20; auto.
  - apply Forall_app. split; [repeat constructor; vm_compute; congruence|]. apply Forall_app. split; auto.
    repeat constructor; vm_compute; congruence.
  - rewrite !subs_size_app.
    match goal with |- subs_size ?a + (_ + subs_size ?b) <= _ =>
      change (subs_size a) with 3; change (subs_size b) with 24 end. lia.
  - constructor.
  - cbn. lia.
  - exists s. rewrite A. rewrite fingerprint_spec in *. split; [reflexivity|]. split; auto. split; [auto|]. split; [exact D|].
    split; [rewrite F, app_nil_r; reflexivity|]. split.
    + destruct B as (_ & _ & [_ O1] & [_ O2] & _ & R & S).
      pose proof (zlen_mpi_256 (sg_r s) 256 ltac:(lia) R). pose proof (zlen_mpi_256 (sg_s s) 256 ltac:(lia) S).
      change ((256 + 7) / 8) with 32 in *. unfold encode_subpackets in G. rewrite !zlen_app, !zlen_be in G. lia.
    + apply H; reflexivity.
Qed.

Lemma stamp_small fp t : length fp = 20%nat -> Forall small_sub (stamp_subs fp t) /\ subs_size (stamp_subs fp t) = 29.
Proof.
  intros H. assert (L : zlen (bytes_of_bits 32 (t_unix t)) = 4).
  { rewrite zlen_eq. change 32%nat with (8 * 4)%nat. rewrite bytes_of_bits_be, be_bytes_length. reflexivity. }
  assert (F : zlen (4 :: fp) = 21) by (rewrite zlen_cons, zlen_eq, H; reflexivity).
  unfold stamp_subs. split; [repeat constructor; cbn [sub_type sub_body]; lia|].
  cbn [subs_size fold_right sub_body]. lia.
Qed.
Lemma issuer_small fp : length fp = 20%nat -> Forall small_sub (issuer_subs fp) /\ subs_size (issuer_subs fp) = 10.
Proof.
  intros H. assert (F : zlen (skipn (length fp - 8) fp) = 8) by (rewrite zlen_eq, skipn_length, H; reflexivity).
  unfold issuer_subs. split; [repeat constructor; cbn [sub_type sub_body]; lia|].
  cbn [subs_size fold_right sub_body]. lia.
Qed.

(** the embedded signature of a signing subkey *)
Definition cross_ok (E : Env) (edv : bytes -> bytes -> bytes -> bool) (m sub : ecc_key) (e : signature) : Prop :=
  sig_ok e /\ sg_type e = 0x19 /\ sg_hashed e = stamp_subs (fingerprint E (public_of sub)) (ec_creation sub) /\
  sg_unhashed e = issuer_subs (fingerprint E (public_of sub)) /\
  verifies E edv (public_of sub) (key_hash_input (public_of m) ++ key_hash_input (public_of sub)) (sig_of e) = true.

Lemma bind_ok E edv m sub flags x : hash_ok E -> ed25519_ok E edv -> ed_ok E m -> ecc_ok sub ->
  (Z.land flags 2 <> 0 -> exists sd, block32 sd /\ ec_signing sub = Some (sd ++ ed25519_public E sd) /\
     ec_public sub = ed25519_public E sd /\ ec_alg sub = 22) ->
  exists s emb, bind_subkey E m sub flags x = Ok s /\ sig_ok s /\ sg_type s = 0x18 /\
    sg_hashed s = stamp_subs (fingerprint E (public_of (ed_base m))) (ec_creation sub) ++
      [mk_sub 27 [flags]] ++ expiry_subs E (ec_creation sub) x /\
    sg_unhashed s = issuer_subs (fingerprint E (public_of (ed_base m))) ++ emb /\
    zlen (sig_encode s) < 2 ^ 32 /\
    verifies E edv (public_of (ed_base m)) (key_hash_input (public_of (ed_base m)) ++ key_hash_input (public_of sub))
      (sig_of s) = true /\
    if Z.land flags 2 =? 0 then emb = []
    else exists e, emb = [mk_sub 32 (sig_encode e)] /\ cross_ok E edv (ed_base m) sub e.
Proof.
  intros HH HS Hm Hsub Hsg. unfold bind_subkey. rewrite bind_data_spec. cbv zeta.
  change flag_sign with 2.
  set (data := key_hash_input _ ++ key_hash_input _).
  assert (EMB : exists emb,
    (if negb (Z.land flags 2 =? 0) then
       match ec_signing sub with
       | None => Panic
       | Some private =>
           let* sg := sign E private (mk_req (fingerprint_v4 E sub) hash_sha256 data
                        sig_primary_key_binding [] [] (ec_creation sub)) in
           Ok [mk_sub sub_embedded_signature (sig_encode sg)]
       end
     else Ok []) = Ok emb /\ Forall small_sub emb /\ subs_size emb <= 192 /\
    if Z.land flags 2 =? 0 then emb = []
    else exists e, emb = [mk_sub 32 (sig_encode e)] /\ cross_ok E edv (ed_base m) sub e).
  { destruct (Z.land flags 2 =? 0) eqn:Q; cbn [negb].
    - exists []. repeat split; auto. cbn. lia.
    - destruct Hsg as (sd & Hsd & Es & Ep & Ea); [lia|]. rewrite Es.
      match goal with |- context [sign E _ ?r] => destruct (sign_ok E edv sd r HH HS Hsd) as (s & A & B & C & D & F & G & H) end;
        cbn [rq_hash rq_type rq_fingerprint rq_hashed rq_unhashed rq_data rq_time] in *;
        [reflexivity|vm_compute; split; congruence|apply fingerprint_20; auto|constructor|cbn; lia|constructor|cbn; lia|].
      rewrite A. cbn [bind]. rewrite fingerprint_spec, app_nil_r in *.
      pose proof (fingerprint_20 E sub HH) as L20. rewrite fingerprint_spec in L20.
      destruct (stamp_small (fingerprint E (public_of sub)) (ec_creation sub) L20) as [Z1 Z2].
      destruct (issuer_small (fingerprint E (public_of sub)) L20) as [Z3 Z4].
      assert (LS : zlen (sig_encode s) <= 190).
      { rewrite D, F in G. unfold encode_subpackets in G. rewrite !zlen_app, !zlen_be, !small_sub_size in G by auto.
        destruct B as (_ & _ & _ & _ & _ & R & S).
        pose proof (zlen_mpi_256 (sg_r s) 256 ltac:(lia) R). pose proof (zlen_mpi_256 (sg_s s) 256 ltac:(lia) S).
        change ((256 + 7) / 8) with 32 in *. lia. }
      eexists. split; [reflexivity|]. split; [|split].
      + repeat constructor; cbn [sub_type sub_body]; auto; vm_compute; congruence.
      + cbn [subs_size fold_right sub_body]. lia.
      + exists s. split; [reflexivity|]. unfold cross_ok. repeat split; auto; try apply B. }
  destruct EMB as (emb & -> & E1 & E2 & E3). cbn [bind].
  pose proof Hm as (sd & c & x' & Hsd & Hc & ->). rewrite expiry_subs_spec. set (k := ed_of E sd c x') in *.
  destruct (expiry_subs_small E (ec_creation sub) x) as [X1 X2].
  change (ed_private k) with (sd ++ ed25519_public E sd).
  match goal with |- context [sign E _ ?r] => destruct (sign_ok E edv sd r HH HS Hsd) as (s & A & B & C & D & F & G & H) end;
    cbn [rq_hash rq_type rq_fingerprint rq_hashed rq_unhashed rq_data rq_time] in *.
  - reflexivity.
  - vm_compute. split; congruence.
  - apply fingerprint_20; auto.
  - apply Forall_app. split; [repeat constructor; vm_compute; congruence|]. auto.
  - rewrite !subs_size_app.
    match goal with |- subs_size ?a + _ <= _ => change (subs_size a) with 3 end. lia.
  - auto.
  - lia.
  - exists s, emb. rewrite A. rewrite fingerprint_spec in *. split; [reflexivity|]. split; auto. split; [auto|]. split; [exact D|].
    split; [exact F|]. split; [|split; auto].
    + destruct B as (_ & _ & [_ O1] & [_ O2] & _ & R & S).
      pose proof (zlen_mpi_256 (sg_r s) 256 ltac:(lia) R). pose proof (zlen_mpi_256 (sg_s s) 256 ltac:(lia) S).
      change ((256 + 7) / 8) with 32 in *. unfold encode_subpackets in G. rewrite !zlen_app, !zlen_be in G. lia.
Qed.
