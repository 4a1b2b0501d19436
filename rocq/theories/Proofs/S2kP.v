From Coq Require Import Lia ZifyBool ZifyNat.
From Verif.Model Require Import GoBase Env GoTime Seed Encoding PgpWire PgpS2k PgpKeys.
From Verif.Spec Require Import EnvSpec PhraseSpec PgpSpec.
From Verif.Proofs Require Import BitsP EnvInst RoundtripP KeysP PgpP.
Ltac Zify.zify_post_hook ::= Z.div_mod_to_equations.

(** the two xor functions *)
Lemma xor_pad_zip a b : xor_pad a b = zip_xor a b.
Proof. reflexivity. Qed.
Lemma zip_xor_bytes a b : zip_xor a b = xor_bytes a b.
Proof. reflexivity. Qed.

Lemma skipn_byte n (l : bytes) : Forall byte l -> Forall byte (skipn n l).
Proof. intros H. revert n. induction H; intros [|n]; cbn; auto. Qed.

Lemma cfb_step E key prev text : aes256_ok E -> block32 key -> block16 prev -> Forall byte text ->
  let c := xor_pad (firstn 16 text) (aes_encrypt E key prev) in
  length c = Nat.min 16 (length text) /\ Forall byte c /\ zip_xor c (aes_encrypt E key prev) = firstn 16 text.
Proof.
  intros HE HK Hp Ht c. destruct (HE key prev HK Hp) as [L B]. unfold c. rewrite xor_pad_zip, !zip_xor_bytes.
  assert (X : (length (firstn 16 text) <= length (aes_encrypt E key prev))%nat) by (rewrite firstn_length; lia).
  rewrite xor_bytes_length by auto. rewrite firstn_length. split; [auto|]. split.
  - apply xor_bytes_byte; auto. apply firstn_byte; auto.
  - apply xor_bytes_twice; auto.
Qed.

Lemma cfb_encrypt_length E key fuel prev text : aes256_ok E -> block32 key -> (length text <= fuel)%nat -> block16 prev -> Forall byte text ->
  length (cfb_encrypt E key fuel prev text) = length text.
Proof.
  intros HE HK. revert prev text. induction fuel as [|fuel IH]; intros prev text Hl Hp Ht.
  - destruct text; [reflexivity|cbn in Hl; lia].
  - destruct text as [|x text]; [reflexivity|]. cbn [cfb_encrypt]. set (t := x :: text) in *.
    destruct (cfb_step E key prev t HE HK Hp Ht) as (L & B & _). rewrite app_length, L.
    destruct (Nat.le_gt_cases (length t) 16).
    + rewrite (skipn_all2 t) by lia.
      match goal with |- context [cfb_encrypt E key fuel ?c []] =>
        replace (cfb_encrypt E key fuel c []) with (@nil Z) by (destruct fuel; reflexivity) end.
      cbn [length]. lia.
    + rewrite IH; [rewrite skipn_length; lia|rewrite skipn_length; lia| |apply skipn_byte; auto].
      split; auto. rewrite L. lia.
Qed.

Lemma cfb_roundtrip E key fuel prev text : aes256_ok E -> block32 key -> (length text <= fuel)%nat -> block16 prev -> Forall byte text ->
  forall blocks, blocks = ((length text + 15) / 16)%nat ->
  cfb_decrypt (aes_encrypt E key) blocks prev (cfb_encrypt E key fuel prev text) = text.
Proof.
  intros HE HK. revert prev text. induction fuel as [|fuel IH]; intros prev text Hl Hp Ht blocks ->.
  - destruct text; [reflexivity|cbn in Hl; lia].
  - destruct text as [|x text]; [reflexivity|]. cbn [cfb_encrypt]. set (t := x :: text) in *.
    assert (Lt : (1 <= length t)%nat) by (cbn; lia).
    destruct (cfb_step E key prev t HE HK Hp Ht) as (L & B & ZX). set (c := xor_pad (firstn 16 t) (aes_encrypt E key prev)) in *.
    destruct (Nat.le_gt_cases (length t) 16).
    + rewrite (skipn_all2 t) by lia.
      replace (cfb_encrypt E key fuel c []) with (@nil Z) by (destruct fuel; reflexivity). rewrite app_nil_r.
      assert (D : ((length t + 15) / 16)%nat = 1%nat).
      { symmetry. apply (Nat.div_unique _ 16 1 (length t - 1)); lia. }
      rewrite D.
      cbn [cfb_decrypt]. rewrite app_nil_r. rewrite (firstn_all2 c) by lia. rewrite ZX.
      apply firstn_all2. lia.
    + replace ((length t + 15) / 16)%nat with (S ((length (skipn 16 t) + 15) / 16))%nat.
      2:{ rewrite skipn_length. replace (length t + 15)%nat with ((length t - 16 + 15) + 1 * 16)%nat by lia.
          rewrite Nat.div_add by lia. lia. }
      cbn [cfb_decrypt]. rewrite firstn_app, skipn_app. replace (16 - length c)%nat with 0%nat by lia.
      rewrite firstn_O, app_nil_r, (firstn_all2 c) by lia. rewrite (skipn_all2 c) by lia. cbn [app skipn].
      rewrite ZX, (IH c (skipn 16 t)).
      * apply firstn_skipn.
      * rewrite skipn_length. lia.
      * split; auto. rewrite L. lia.
      * apply skipn_byte; auto.
      * reflexivity.
Qed.

(** the iterated hash input *)
Lemma cycle_shift (p : bytes) n : (0 < length p)%nat ->
  map (fun i => nth (i mod length p) p 0) (seq 0 (length p + n)) =
  p ++ map (fun i => nth (i mod length p) p 0) (seq 0 n).
Proof.
  intros H. rewrite seq_app, map_app. f_equal.
  - apply nth_ext with 0 0; [rewrite map_length, seq_length; reflexivity|].
    intros i Hi. rewrite map_length, seq_length in Hi.
    rewrite (nth_indep _ 0 (nth (0 mod length p) p 0)) by (rewrite map_length, seq_length; auto).
    rewrite (map_nth (fun i => nth (i mod length p) p 0)). rewrite seq_nth by auto. cbn [plus].
    rewrite Nat.mod_small by auto. reflexivity.
  - cbn [plus]. clear H.
    assert (G : forall k, map (fun i => nth (i mod length p) p 0) (seq (length p + k) n) =
                          map (fun i => nth (i mod length p) p 0) (seq k n)).
    { induction n as [|n IH]; intros k; [reflexivity|]. cbn [seq map]. rewrite <- Nat.add_succ_r, IH. f_equal.
      destruct (Nat.eq_dec (length p) 0) as [Q|Q].
      - destruct p; [|discriminate]. cbn. destruct k; reflexivity.
      - replace (length p + k)%nat with (k + 1 * length p)%nat by lia. rewrite Nat.mod_add by auto. reflexivity. }
    specialize (G 0%nat). rewrite Nat.add_0_r in G. exact G.
Qed.
Lemma cycle_firstn (p : bytes) n : (n <= length p)%nat ->
  map (fun i => nth (i mod length p) p 0) (seq 0 n) = firstn n p.
Proof.
  intros H. apply nth_ext with 0 0.
  { rewrite map_length, seq_length, firstn_length. lia. }
  intros i Hi. rewrite map_length, seq_length in Hi.
  rewrite (nth_indep _ 0 (nth (0 mod length p) p 0)) by (rewrite map_length, seq_length; auto).
  rewrite (map_nth (fun i => nth (i mod length p) p 0)). rewrite seq_nth by auto. cbn [plus].
  rewrite Nat.mod_small by lia. clear -Hi. revert i n Hi. induction p as [|x p IH]; intros i n Hi.
  - destruct n; destruct i; reflexivity.
  - destruct n; [lia|]. destruct i; [reflexivity|]. cbn. apply IH. lia.
Qed.
Lemma cycle_repeat (p : bytes) m n : (0 < length p)%nat -> (n <= length p)%nat ->
  concat (repeat p m) ++ firstn n p = map (fun i => nth (i mod length p) p 0) (seq 0 (m * length p + n)).
Proof.
  intros H Hn. induction m as [|m IH]; cbn [repeat concat].
  - rewrite <- cycle_firstn by auto. reflexivity.
  - rewrite <- app_assoc, IH. replace (S m * length p + n)%nat with (length p + (m * length p + n))%nat by lia.
    rewrite cycle_shift by auto. reflexivity.
Qed.
Lemma s2k_preimage_ok pw salt count : 0 < zlen (salt ++ pw) <= count ->
  s2k_preimage pw salt count = s2k_input salt pw count.
Proof.
  intros H. unfold s2k_preimage, s2k_input. set (p := salt ++ pw) in *. rewrite zlen_eq in *.
  rewrite cycle_repeat by lia. do 2 f_equal. rewrite Z.max_l by lia.
  set (n := Z.of_nat (length p)) in *. assert (N : length p = Z.to_nat n) by (unfold n; rewrite Nat2Z.id; auto).
  rewrite N. rewrite <- Z2Nat.inj_mul, <- Z2Nat.inj_add.
  - f_equal. pose proof (Z.div_mod count n ltac:(lia)). nia.
  - pose proof (Z.div_pos count n ltac:(lia) ltac:(lia)). nia.
  - apply Z.mod_pos_bound. lia.
  - apply Z.div_pos; lia.
  - lia.
Qed.

(** * Secret key packets *)
Lemma bytes_eqb_refl l : bytes_eqb l l = true.
Proof. apply bytes_eqb_eq. reflexivity. Qed.

Lemma zlen_mpi n : 0 <= n -> zlen (encode_mpi n) = 2 + (bit_len n + 7) / 8.
Proof.
  intros H. unfold encode_mpi. rewrite zlen_app, zlen_be. destruct (big_bytes_spec n H) as [-> _]. reflexivity.
Qed.
Lemma zlen_mpi_256 n k : 0 <= k -> 0 <= n < 2 ^ k -> 2 <= zlen (encode_mpi n) <= 2 + (k + 7) / 8.
Proof.
  intros Hk H. rewrite zlen_mpi by lia. pose proof (bit_len_small n k Hk H). pose proof (bit_len_nonneg n). lia.
Qed.
Lemma mpi_byte n : 0 <= n -> Forall byte (encode_mpi n).
Proof. intros H. unfold encode_mpi, big_bytes. apply Forall_app. split; apply be_bytes_byte. Qed.

Lemma checksum_fold l c : 0 <= c < 65536 ->
  fold_left (fun c b => u16 (c + b)) l c = (c + fold_right Z.add 0 l) mod 65536.
Proof.
  revert c. induction l as [|b l IH]; intros c H; cbn [fold_left fold_right].
  - rewrite Z.add_0_r, Z.mod_small by auto. reflexivity.
  - unfold u16 at 2. change (2 ^ 16) with 65536. rewrite IH by (apply Z.mod_pos_bound; lia).
    rewrite Zplus_mod_idemp_l. f_equal. lia.
Qed.
Lemma checksum_spec l : fold_left (fun c b => u16 (c + b)) l 0 = fold_right Z.add 0 l mod 65536.
Proof. rewrite checksum_fold by lia. reflexivity. Qed.

Lemma skipn_more {A} n m (l : list A) : skipn n (skipn m l) = skipn (m + n) l.
Proof. revert l. induction m; intros l; [reflexivity|]. destruct l; [cbn; apply skipn_nil|]. cbn. apply IHm. Qed.
Definition need (pw : bytes) : nat := match pw with [] => 0 | _ => 24 end.
(** salt, IV and how the packet is protected *)
Definition sealed (pw tape : bytes) (sp : secret_part) : Prop :=
  match pw with
  | [] => exists body, sp = Cleartext body
  | _ => exists body, sp = Protected 9 8 (firstn 8 tape) 255 (firstn 16 (skipn 8 tape)) body
  end.
Definition pw_ok (pw : bytes) : Prop := zlen pw <= 65011704.

Lemma zlen_public k : ecc_ok k -> zlen (encode_public k) <= 301.
Proof.
  intros (T & P & O & A & X). unfold encode_public. rewrite !zlen_app, zlen_be.
  destruct (point_bounds _ P) as [[B1 B2] _].
  assert (zlen (encode_mpi (be_uint (mpi_prefix_eddsa :: ec_public k))) <= 35).
  { pose proof (zlen_mpi_256 (be_uint (mpi_prefix_eddsa :: ec_public k)) 263). change ((263 + 7) / 8) with 33 in *. lia. }
  assert (zlen (ec_extra k) <= 4).
  { destruct X as [(_ & h & c & ->)|[_ ->]]; cbn; lia. }
  cbn [zlen]. repeat match goal with |- context [zlen (?x :: [])] => change (zlen [x]) with 1 end. lia.
Qed.

Lemma read_secret_cleartext r : read_secret_part (0 :: r) = Some (Cleartext r).
Proof. unfold read_secret_part. rewrite read_int_1. reflexivity. Qed.

Lemma unlock_cleartext E pw n : 0 <= n < 2 ^ 256 ->
  unlock E pw (Cleartext (encode_mpi n ++ checksum_mpi (encode_mpi n))) = Some n.
Proof.
  intros H. unfold unlock. pose proof (bit_len_small n 256 ltac:(lia) H).
  rewrite read_mpi_encode by lia. cbn [obind]. unfold checksum_mpi. rewrite checksum_spec.
  set (s := fold_right Z.add 0 (encode_mpi n) mod 65536).
  rewrite <- (app_nil_r (be_bytes 2 s)) at 1.
  rewrite read_int_be; [|reflexivity|apply Z.mod_pos_bound; reflexivity].
  cbn [obind]. rewrite bytes_eqb_refl. cbn [andb].
  replace (firstn _ _) with (encode_mpi n); [fold s; rewrite Z.eqb_refl; reflexivity|].
  rewrite app_length, be_bytes_length, Nat.add_sub, firstn_app, Nat.sub_diag, firstn_all, firstn_O, app_nil_r. reflexivity.
Qed.

Lemma s2k_count : s2k_count_decode s2k_count_maximum = 65011712.
Proof. reflexivity. Qed.
Lemma s2k_octets_max : s2k_octets 255 = 65011712.
Proof. reflexivity. Qed.

Lemma unlock_protected E pw salt iv n : hash_ok E -> aes256_ok E -> pw <> [] -> pw_ok pw ->
  zlen salt = 8 -> block16 iv -> 0 <= n < 2 ^ 256 ->
  let text := encode_mpi n ++ sha1 E (encode_mpi n) in
  unlock E pw (Protected 9 8 salt 255 iv
    (cfb_encrypt E (sha256 E (s2k_input salt pw 65011712)) (length text) iv text)) = Some n.
Proof.
  intros HH HA Hp Hw Hs Hi Hn text. unfold unlock. rewrite s2k_octets_max. change ((9 =? 9) && (8 =? 8)) with true.
  cbn [check obind]. generalize (s2k_input salt pw 65011712). intros inp.
  assert (K : block32 (sha256 E inp)) by apply HH.
  assert (B : Forall byte text).
  { apply Forall_app. split; [apply mpi_byte; lia|apply HH]. }
  rewrite cfb_encrypt_length, cfb_roundtrip by auto. unfold text at 1.
  pose proof (bit_len_small n 256 ltac:(lia) Hn).
  rewrite read_mpi_encode by lia. cbn [obind].
  replace (firstn _ text) with (encode_mpi n); [rewrite bytes_eqb_refl; reflexivity|].
  unfold text. rewrite app_length. destruct (HH (encode_mpi n)) as [[-> _] _].
  rewrite Nat.add_sub, firstn_app, Nat.sub_diag, firstn_all, firstn_O, app_nil_r. reflexivity.
Qed.

Lemma encode_private_ok E k pw tape : hash_ok E -> aes256_ok E -> ecc_ok k -> block32 (ec_private k) ->
  Forall byte tape -> pw_ok pw -> (need pw <= length tape)%nat ->
  exists payload sp, encode_private E k pw tape = Ok (payload, skipn (need pw) tape) /\
    read_secret_key payload = Some (public_of k, sp) /\
    unlock E pw sp = Some (be_uint (ec_private k)) /\ sealed pw tape sp /\ zlen payload < 2 ^ 32.
Proof.
  intros HH HA Hk Hb Ht Hp Hn. pose proof (be_uint_32 _ Hb) as Hv. pose proof (zlen_public k Hk) as Hz.
  set (n := be_uint (ec_private k)) in *.
  pose proof (zlen_mpi_256 n 256 ltac:(lia) Hv) as Hm. change ((256 + 7) / 8) with 32 in Hm.
  unfold encode_private. fold n. destruct pw as [|p0 pw'].
  - cbn [zlen need]. change (zlen [] >? 0) with false. cbv iota.
    exists (encode_public k ++ [0] ++ encode_mpi n ++ checksum_mpi (encode_mpi n)).
    exists (Cleartext (encode_mpi n ++ checksum_mpi (encode_mpi n))).
    split; [reflexivity|]. split; [|split; [|split]].
    + unfold read_secret_key. rewrite read_public_encode by auto. cbn [obind app]. rewrite read_secret_cleartext. reflexivity.
    + apply unlock_cleartext; auto.
    + eexists; reflexivity.
    + rewrite !zlen_app. unfold checksum_mpi. rewrite zlen_be. change (zlen [0]) with 1. lia.
  - set (pw := p0 :: pw') in *. assert (Hpw : pw <> []) by discriminate.
    assert (Lp : 0 < zlen pw) by (unfold pw; rewrite zlen_cons; pose proof (zlen_nonneg pw'); lia).
    replace (zlen pw >? 0) with true by lia. unfold encrypt_s2k, read_full.
    change (need pw) with 24%nat in *.
    replace (Nat.ltb (length tape) 8) with false by (symmetry; apply Nat.ltb_ge; lia). cbn [bind].
    rewrite skipn_length. replace (Nat.ltb (length tape - 8) 16) with false by (symmetry; apply Nat.ltb_ge; lia).
    cbn [bind]. set (salt := firstn 8 tape). set (iv := firstn 16 (skipn 8 tape)).
    assert (Ls : zlen salt = 8) by (rewrite zlen_eq; unfold salt; rewrite firstn_length; lia).
    assert (Hi : block16 iv).
    { split; [unfold iv; rewrite firstn_length, skipn_length; lia|]. apply firstn_byte, skipn_byte. auto. }
    unfold string_to_key. change (hash_new E default_s2k_hash) with (Some (sha256 E)).
    rewrite zlen_app, Ls. replace (8 + zlen pw =? 0) with false by lia. cbn [bind].
    rewrite s2k_count, s2k_preimage_ok by (rewrite zlen_app, Ls; unfold pw_ok in Hp; lia).
    fold n. set (key := sha256 E (s2k_input salt pw 65011712)).
    assert (K : block32 key) by apply HH.
    replace (aes_key_ok key) with true by (unfold aes_key_ok; destruct K as [K _]; rewrite zlen_eq, K; reflexivity).
    cbn [negb bind]. change (hash_size default_s2k_hash =? 16) with false. change (hash_size default_s2k_hash =? 24) with false.
    change (hash_size default_s2k_hash =? 32) with true. cbv iota. cbn [bind].
    set (text := encode_mpi n ++ sha1 E (encode_mpi n)).
    set (c := cfb_encrypt E key (length text) iv text).
    rewrite skipn_more. change (8 + 16)%nat with 24%nat.
    exists (encode_public k ++ [s2k_specifier; cipher_aes256; s2k_usage_iterated; u8 default_s2k_hash] ++
            salt ++ [s2k_count_maximum] ++ iv ++ c).
    exists (Protected 9 8 salt 255 iv c). split; [reflexivity|]. split; [|split; [|split]].
    + unfold read_secret_key. rewrite read_public_encode by auto. cbn [obind]. unfold read_secret_part.
      cbn [app]. rewrite read_int_1. cbn [obind]. change (s2k_specifier =? 0) with false. cbv iota.
      change (s2k_specifier =? 254) with true. cbn [check obind]. rewrite !read_int_1. cbn [obind].
      rewrite !read_int_1. cbn [obind]. rewrite !read_int_1. cbn [obind].
      change (s2k_usage_iterated =? 3) with true. cbv iota. rewrite take_app by auto. cbn [obind].
      rewrite read_int_1. cbn [obind]. rewrite take_app by (rewrite zlen_eq; destruct Hi as [-> _]; reflexivity).
      reflexivity.
    + apply unlock_protected; auto.
    + exists c. reflexivity.
    + rewrite !zlen_app. change (zlen [s2k_count_maximum]) with 1. rewrite Ls.
      assert (zlen iv = 16) by (rewrite zlen_eq; destruct Hi as [-> _]; reflexivity).
      assert (zlen c = zlen text).
      { rewrite !zlen_eq. unfold c. rewrite cfb_encrypt_length; auto.
        apply Forall_app. split; [apply mpi_byte; lia|apply HH]. }
      assert (zlen text <= 60).
      { unfold text. rewrite zlen_app. destruct (HH (encode_mpi n)) as [[L _] _]. rewrite (zlen_eq (sha1 E _)), L. lia. }
      match goal with |- context [zlen [?a;?b;?x;?d]] => change (zlen [a;b;x;d]) with 4 end. lia.
Qed.

Lemma encode_private_short E k pw tape : hash_ok E -> (length tape < need pw)%nat ->
  encode_private E k pw tape = Err ErrRandomSource.
Proof.
  intros HH H. destruct pw as [|p0 pw']; [cbn in H; lia|]. unfold encode_private.
  replace (zlen (p0 :: pw') >? 0) with true by (rewrite zlen_cons; pose proof (zlen_nonneg pw'); lia).
  change (need (p0 :: pw')) with 24%nat in H. unfold encrypt_s2k, read_full.
  destruct (Nat.ltb (length tape) 8) eqn:A; [reflexivity|]. cbn [bind]. rewrite skipn_length.
  replace (Nat.ltb (length tape - 8) 16) with true; [reflexivity|]. symmetry. apply Nat.ltb_lt.
  apply Nat.ltb_ge in A. lia.
Qed.

Lemma read_dummy k : ecc_ok k -> read_secret_key (encode_private_dummy k) = Some (public_of k, Stub).
Proof.
  intros Hk. unfold encode_private_dummy, read_secret_key. rewrite read_public_encode by auto. reflexivity.
Qed.
Lemma zlen_dummy k : ecc_ok k -> zlen (encode_private_dummy k) < 2 ^ 32.
Proof.
  intros Hk. unfold encode_private_dummy. rewrite zlen_app. pose proof (zlen_public k Hk).
  match goal with |- _ + zlen ?x < _ => change (zlen x) with 8 end. lia.
Qed.
