(** Exports are made of bytes. *)
From Coq Require Import Lia ZifyBool ZifyNat Permutation.
From Verif.Model Require Import GoBase Env GoTime Seed Encoding PgpWire PgpS2k PgpKeys.
From Verif.Spec Require Import EnvSpec PhraseSpec KeySpec PgpSpec ExportSpec.
From Verif.Proofs Require Import BitsP EnvInst RoundtripP KeysP PgpP S2kP SignP ExportP.
Ltac Zify.zify_post_hook ::= Z.div_mod_to_equations.

Lemma ok_pair {A B} (a c : A) (b d : B) : Ok (a, b) = Ok (c, d) -> a = c /\ b = d.
Proof. intros H. split; congruence. Qed.
Lemma ok_one {A} (a c : A) : Ok a = Ok c -> a = c.
Proof. congruence. Qed.
Lemma app_byte (a b : bytes) : Forall byte a -> Forall byte b -> Forall byte (a ++ b).
Proof. intros. apply Forall_app. auto. Qed.
Lemma u8_byte x : byte (u8 x).
Proof. unfold u8, byte. change (2 ^ 8) with 256. lia. Qed.
Lemma mpi_bytes n : Forall byte (encode_mpi n).
Proof. unfold encode_mpi, big_bytes. apply app_byte; apply be_bytes_byte. Qed.
Lemma packet_length_bytes n : Forall byte (packet_length_encode n).
Proof.
  unfold packet_length_encode. destruct (n <=? 191); [|destruct (n <=? 8383)].
  - repeat constructor; apply u8_byte.
  - repeat constructor; apply u8_byte.
  - constructor; [unfold byte; lia|apply be_bytes_byte].
Qed.
Lemma lor_c0_byte t : byte (Z.lor 192 (u8 t)).
Proof.
  assert (C : forallb (fun x => (0 <=? Z.lor 192 x) && (Z.lor 192 x <? 256)) (map Z.of_nat (seq 0 256)) = true) by (vm_compute; reflexivity).
  rewrite forallb_forall in C. specialize (C (u8 t)). pose proof (u8_byte t) as B. unfold byte in *.
  assert (I : In (u8 t) (map Z.of_nat (seq 0 256))) by (apply in_map_iff; exists (Z.to_nat (u8 t)); split; [lia|]; apply in_seq; lia).
  specialize (C I). lia.
Qed.
Lemma packet_bytes t p : Forall byte p -> Forall byte (encode_packet t p).
Proof. intros H. unfold encode_packet. constructor; [apply lor_c0_byte|]. apply app_byte; [apply packet_length_bytes|exact H]. Qed.

Definition sub_bytes (s : subpacket) : Prop := Forall byte (sub_body s).
Lemma subpackets_bytes l : Forall sub_bytes l -> Forall byte (encode_subpackets l).
Proof.
  intros H. unfold encode_subpackets. apply app_byte; [apply be_bytes_byte|].
  induction H as [|s l B _ IH]; [constructor|]. cbn [map concat]. apply app_byte; [|exact IH].
  unfold sub_encode. apply app_byte; [apply packet_length_bytes|]. constructor; [apply u8_byte|exact B].
Qed.
Lemma sign_bytes E private rq s : hash_ok E -> rq_hash rq = hash_sha256 -> Forall byte (rq_fingerprint rq) ->
  Forall sub_bytes (rq_hashed rq) -> Forall sub_bytes (rq_unhashed rq) -> sign E private rq = Ok s -> Forall byte (sig_encode s).
Proof.
  intros HH H8 F A B H. unfold sign in H. rewrite H8 in H. change (hash_new E hash_sha256) with (Some (sha256 E)) in H. cbv zeta in H.
  pose proof (be_bytes_byte 4 (u32 (t_unix (rq_time rq)))) as SB. remember (be_bytes 4 (u32 (t_unix (rq_time rq)))) as stamp eqn:ES. clear ES.
  injection H as <-. unfold sig_encode. cbn [sg_type sg_hash sg_hashed sg_unhashed sg_digest sg_r sg_s].
  apply app_byte; [|apply app_byte; [|apply app_byte; [|apply app_byte; apply mpi_bytes]]].
  - unfold sig_preimage. apply app_byte.
    + repeat (apply Forall_cons; [apply u8_byte||(unfold byte, sig_packet_version, alg_eddsa; lia)|]). constructor.
    + apply subpackets_bytes. constructor; [constructor; [unfold byte, key_packet_version; lia|exact F]|].
      constructor; [exact SB|exact A].
  - apply subpackets_bytes. constructor; [apply skipn_byte; exact F|exact B].
  - apply firstn_byte, HH.
Qed.

Definition ecc_bytes (k : ecc_key) : Prop := byte (ec_alg k) /\ Forall byte (ec_oid k) /\ Forall byte (ec_extra k).
Lemma public_bytes k : ecc_bytes k -> Forall byte (encode_public k).
Proof.
  intros (A & O & X). unfold encode_public. repeat apply app_byte; auto; try apply be_bytes_byte; try apply mpi_bytes.
  - repeat constructor; unfold key_packet_version; lia.
  - constructor; [apply u8_byte|constructor].
Qed.
Lemma cfb_bytes E key : aes256_ok E -> block32 key -> forall fuel prev text, block16 prev -> Forall byte text ->
  Forall byte (cfb_encrypt E key fuel prev text).
Proof.
  intros HE HK. induction fuel as [|fuel IH]; intros prev text Hp Ht; [destruct text; constructor|].
  destruct text as [|x text]; [constructor|]. cbn [cfb_encrypt]. set (t := x :: text) in *.
  destruct (cfb_step E key prev t HE HK Hp Ht) as (L & B & _). apply app_byte; [exact B|].
  destruct (Nat.le_gt_cases (length t) 16).
  - rewrite (skipn_all2 t) by lia.
    match goal with |- context [cfb_encrypt E key fuel ?c []] =>
        replace (cfb_encrypt E key fuel c []) with (@nil Z) by (destruct fuel; reflexivity) end. constructor.
  - apply IH; [split; [rewrite L; lia|exact B]|apply skipn_byte; exact Ht].
Qed.
Lemma read_full_bytes tape n a b : Forall byte tape -> read_full tape n = Ok (a, b) -> length a = n /\ Forall byte a /\ Forall byte b.
Proof.
  intros H X. unfold read_full in X. destruct (Nat.ltb (length tape) n) eqn:Q; [discriminate|]. injection X as <- <-.
  apply Nat.ltb_ge in Q. rewrite firstn_length_le by exact Q. split; [reflexivity|]. split; [apply firstn_byte|apply skipn_byte]; exact H.
Qed.
Lemma private_bytes E k pw tape p rest : hash_ok E -> aes256_ok E -> ecc_bytes k -> Forall byte tape ->
  encode_private E k pw tape = Ok (p, rest) -> Forall byte p /\ Forall byte rest.
Proof.
  intros HH HA HK HT H. pose proof (public_bytes k HK) as PB. unfold encode_private in H. destruct (zlen pw >? 0).
  - unfold encrypt_s2k in H. destruct (read_full tape 8) as [[salt t1]| |] eqn:R1; cbn [bind] in H; try discriminate.
    destruct (read_full_bytes _ _ _ _ HT R1) as (L1 & B1 & HT1).
    destruct (read_full t1 16) as [[iv t2]| |] eqn:R2; cbn [bind] in H; try discriminate.
    destruct (read_full_bytes _ _ _ _ HT1 R2) as (L2 & B2 & HT2).
    unfold string_to_key in H. change (hash_new E default_s2k_hash) with (Some (sha256 E)) in H. cbv iota in H.
    destruct (zlen (salt ++ pw) =? 0); cbn [bind] in H; [discriminate|].
    revert H. generalize (s2k_preimage pw salt (s2k_count_decode s2k_count_maximum)). intros inp H.
    destruct (negb (aes_key_ok (sha256 E inp))); cbn [bind] in H; [discriminate|].
    change (hash_size default_s2k_hash) with 32 in H. cbn [Z.eqb Pos.eqb bind] in H. apply ok_pair in H as [<- <-].
    split; [|exact HT2]. apply app_byte; [exact PB|]. apply (app_byte [_; _; _; _]); [repeat (apply Forall_cons; [apply u8_byte || (unfold byte, s2k_specifier, cipher_aes256, s2k_usage_iterated; lia)|]); constructor|].
    apply app_byte; [exact B1|]. apply (app_byte [_]); [repeat constructor; unfold s2k_count_maximum; lia|].
    apply app_byte; [exact B2|]. apply cfb_bytes; [exact HA|apply HH|split; assumption|]. apply app_byte; [apply mpi_bytes|apply HH].
  - apply ok_pair in H as [<- <-]. split; [|exact HT]. apply app_byte; [exact PB|]. apply (app_byte [0]); [repeat constructor; lia|].
    apply app_byte; [apply mpi_bytes|apply be_bytes_byte].
Qed.
Lemma fingerprint_bytes E k : hash_ok E -> Forall byte (fingerprint_v4 E k).
Proof. intros H. unfold fingerprint_v4. apply H. Qed.
Lemma expiry_bytes E c x : Forall sub_bytes (expiry_subpackets E c x).
Proof. unfold expiry_subpackets. destruct (is_zero_time x); [constructor|]. constructor; [apply be_bytes_byte|constructor]. Qed.
Lemma bind_bytes E m k fl x s : hash_ok E -> byte fl -> bind_subkey E m k fl x = Ok s -> Forall byte (sig_encode s).
Proof.
  intros HH HF H. unfold bind_subkey in H. cbv zeta in H.
  match type of H with bind ?u _ = _ => destruct u as [un| |] eqn:U end; cbn [bind] in H; try discriminate.
  assert (UN : Forall sub_bytes un).
  { destruct (negb (Z.land fl flag_sign =? 0)); [|injection U as <-; constructor].
    destruct (ec_signing k) as [private|]; [|discriminate]. match type of U with bind ?u _ = _ => destruct u as [sg| |] eqn:SG end; cbn [bind] in U; try discriminate.
    injection U as <-. constructor; [|constructor]. eapply sign_bytes; [exact HH| | | | |exact SG]; [reflexivity|apply fingerprint_bytes; exact HH|constructor|constructor]. }
  eapply sign_bytes; [exact HH| | | | |exact H]; [reflexivity|apply fingerprint_bytes; exact HH| |exact UN].
  constructor; [constructor; [exact HF|constructor]|apply expiry_bytes].
Qed.
Lemma group_bytes E m k fl x pw tape p rest : hash_ok E -> aes256_ok E -> ecc_bytes k -> byte fl -> Forall byte tape ->
  subkey_packets E m k fl x pw tape = Ok (p, rest) -> Forall byte p /\ Forall byte rest.
Proof.
  intros HH HA HK HF HT H. unfold subkey_packets, private_packet in H.
  destruct (encode_private E k pw tape) as [[q t]| |] eqn:P; cbn [bind] in H; try discriminate.
  destruct (private_bytes _ _ _ _ _ _ HH HA HK HT P) as [P1 P2].
  destruct (bind_subkey E m k fl x) as [s| |] eqn:B; cbn [bind] in H; try discriminate. apply ok_pair in H as [<- <-].
  split; [|exact P2]. apply app_byte; [apply packet_bytes; exact P1|]. apply packet_bytes. eapply bind_bytes; eauto.
Qed.
Lemma built_ed_bytes E k : built_ed E k -> ecc_bytes (ed_base k).
Proof.
  intros (sd & c & x & Hsd & Hc & H). rewrite new_ed_key_ok in H by apply Hsd. inversion H. unfold ecc_bytes. cbn. split; [unfold byte, alg_eddsa; lia|].
  split; [repeat constructor; lia|constructor].
Qed.
Lemma built_curve_bytes E k : built_curve E k -> ecc_bytes (cv_base k).
Proof.
  intros (sd & c & x & Hsd & Hc & H). rewrite new_curve_key_ok in H by apply Hsd. inversion H. unfold ecc_bytes. cbn. split; [unfold byte, alg_ecdh; lia|].
  split; repeat constructor; unfold byte, u8; cbn; lia.
Qed.
Lemma one_group_bytes E ks pw k tape p rest : hash_ok E -> aes256_ok E -> built E ks -> Forall byte tape ->
  one_group E ks pw k tape = Ok (p, rest) -> Forall byte p /\ Forall byte rest.
Proof.
  intros HH HA [Bm Be Ba Bs _] HT H. unfold one_group in H.
  destruct (subkey ks k) as [[base x]|] eqn:S; [|apply ok_pair in H as [<- <-]; split; [constructor|exact HT]].
  eapply group_bytes; [exact HH|exact HA| | |exact HT|exact H].
  - destruct k; cbn [subkey] in S.
    + destruct (ks_enc ks) as [q|] eqn:Q; [|discriminate]. injection S as <- <-. apply (built_curve_bytes E), Be; reflexivity.
    + destruct (ks_auth ks) as [q|] eqn:Q; [|discriminate]. injection S as <- <-. apply (built_ed_bytes E), Ba; reflexivity.
    + destruct (ks_sign ks) as [q|] eqn:Q; [|discriminate]. injection S as <- <-. apply (built_ed_bytes E), Bs; reflexivity.
  - destruct k; cbn; unfold byte; lia.
Qed.
Lemma all_groups_bytes E ks pw tape p rest : hash_ok E -> aes256_ok E -> rand_ok E -> built E ks -> Forall byte tape ->
  all_subkey_packets E ks pw tape = Ok (p, rest) -> Forall byte p /\ Forall byte rest.
Proof.
  intros HH HA HR HB HT H. rewrite all_subkey_groups in H.
  destruct (one_group E ks pw Encryption tape) as [[g0 t0]| |] eqn:G0; cbn [bind] in H; try discriminate.
  destruct (one_group_bytes _ _ _ _ _ _ _ HH HA HB HT G0) as [B0 T0].
  destruct (one_group E ks pw Authentication t0) as [[g1 t1]| |] eqn:G1; cbn [bind] in H; try discriminate.
  destruct (one_group_bytes _ _ _ _ _ _ _ HH HA HB T0 G1) as [B1 T1].
  destruct (one_group E ks pw Signing t1) as [[g2 t2]| |] eqn:G2; cbn [bind] in H; try discriminate.
  destruct (one_group_bytes _ _ _ _ _ _ _ HH HA HB T1 G2) as [B2 T2].
  set (g := fun k => match k with Encryption => g0 | Authentication => g1 | Signing => g2 end).
  change [g0; g1; g2] with (map g all_kinds) in H. destruct (shuffle_pick E (shuffle_seed E (ed_private (ks_master ks))) HR) as [_ SP].
  rewrite SP in H. cbn [bind] in H. apply ok_pair in H as [<- <-]. split; [|exact T2].
  generalize (order_of E (shuffle_seed E (ed_private (ks_master ks)))). induction l as [|k l IH]; [constructor|].
  cbn [map concat]. apply app_byte; [|exact IH]. destruct k; assumption.
Qed.
Lemma closed_subs l : forallb (fun s => forallb (fun b => (0 <=? b) && (b <? 256)) (sub_body s)) l = true -> Forall sub_bytes l.
Proof.
  intros H. rewrite forallb_forall in H. apply Forall_forall. intros s Hs. specialize (H s Hs). cbv beta in H. rewrite forallb_forall in H.
  apply Forall_forall. intros b Hb. specialize (H b Hb). unfold byte. lia.
Qed.
Lemma certification_bytes E ks p : hash_ok E -> self_certification E ks = Ok p -> Forall byte p.
Proof.
  intros HH H. unfold self_certification in H. destruct (self_certify E (ks_master ks) (ks_uid ks)) as [s| |] eqn:S; cbn [bind] in H; try discriminate.
  injection H as <-. apply packet_bytes. unfold self_certify in S. eapply sign_bytes; [exact HH| | | | |exact S]; [reflexivity|apply fingerprint_bytes; exact HH| |constructor].
  cbn [rq_hashed]. repeat (apply Forall_app; split); try apply expiry_bytes; apply closed_subs; reflexivity.
Qed.
Lemma export_bytes E f ks pw tape out rest : hash_ok E -> aes256_ok E -> rand_ok E -> built E ks -> Forall byte tape ->
  Forall byte (uid_encode (ks_uid ks)) -> export E f ks pw tape = Ok (out, rest) -> Forall byte out /\ Forall byte rest.
Proof.
  intros HH HA HR HB HT HU H. pose proof (built_ed_bytes E _ (built_master _ _ HB)) as MB.
  destruct f as [|c]; cbn [export] in H.
  - unfold encode_packets, private_packet in H.
    destruct (encode_private E (ed_base (ks_master ks)) pw tape) as [[m t]| |] eqn:P; cbn [bind] in H; try discriminate.
    destruct (private_bytes _ _ _ _ _ _ HH HA MB HT P) as [P1 P2].
    destruct (self_certification E ks) as [ce| |] eqn:C; cbn [bind] in H; try discriminate.
    destruct (all_subkey_packets E ks pw t) as [[s t']| |] eqn:G; cbn [bind] in H; try discriminate. apply ok_pair in H as [<- <-].
    destruct (all_groups_bytes _ _ _ _ _ _ HH HA HR HB P2 G) as [G1 G2]. split; [|exact G2].
    repeat apply app_byte; [apply packet_bytes; exact P1|apply packet_bytes; exact HU|eapply certification_bytes; eauto|exact G1].
  - unfold encode_subkey_packets in H. cbv zeta in H.
    match type of H with bind ?u _ = _ => destruct u as [ce| |] eqn:C end; cbn [bind] in H; try discriminate.
    destruct (all_subkey_packets E ks pw tape) as [[s t']| |] eqn:G; cbn [bind] in H; try discriminate. apply ok_pair in H as [<- <-].
    destruct (all_groups_bytes _ _ _ _ _ _ HH HA HR HB HT G) as [G1 G2]. split; [|exact G2].
    repeat apply app_byte; [|apply packet_bytes; exact HU| |exact G1].
    + apply packet_bytes. unfold encode_private_dummy. apply app_byte; [apply public_bytes; exact MB|].
      repeat constructor; unfold byte, s2k_specifier, s2k_gnu_dummy; lia.
    + destruct c; [eapply certification_bytes; eauto|injection C as <-; constructor].
Qed.
