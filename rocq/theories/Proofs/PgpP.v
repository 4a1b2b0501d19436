From Coq Require Import Lia ZifyBool ZifyNat.
From Verif.Model Require Import GoBase Env GoTime Seed PgpWire PgpS2k PgpKeys.
From Verif.Spec Require Import EnvSpec PhraseSpec PgpSpec.
From Verif.Proofs Require Import BitsP KeysP.
Ltac Zify.zify_post_hook ::= Z.div_mod_to_equations.

Lemma zlen_app {A} (a b : list A) : zlen (a ++ b) = zlen a + zlen b.
Proof. rewrite !zlen_eq, app_length. lia. Qed.
Lemma zlen_cons {A} (a : A) l : zlen (a :: l) = zlen l + 1.
Proof. rewrite !zlen_eq. cbn [length]. lia. Qed.
Lemma zlen_nil {A} : zlen (@nil A) = 0. Proof. reflexivity. Qed.
Lemma zlen_be n x : zlen (be_bytes n x) = Z.of_nat n.
Proof. rewrite zlen_eq, be_bytes_length. reflexivity. Qed.

Lemma number_be l : number l = be_uint l.
Proof. induction l as [|b l IH]; [reflexivity|]. rewrite be_uint_cons, <- IH. reflexivity. Qed.

Lemma take_app n a r : zlen a = n -> take n (a ++ r) = Some (a, r).
Proof.
  intros H. unfold take. rewrite zlen_app, H.
  assert (0 <= n) by (rewrite zlen_eq in H; lia). pose proof (zlen_nonneg r).
  replace ((0 <=? n) && (n <=? n + zlen r)) with true by lia.
  rewrite zlen_eq in H.
  assert (L : Z.to_nat n = length a) by lia. rewrite L.
  rewrite firstn_app, skipn_app, firstn_all, skipn_all, Nat.sub_diag. cbn. rewrite app_nil_r. reflexivity.
Qed.
Lemma take_all n a : zlen a = n -> take n a = Some (a, []).
Proof. intros H. rewrite <- (app_nil_r a) at 1. apply take_app. auto. Qed.
Lemma read_int_app k a r : zlen a = k -> read_int k (a ++ r) = Some (be_uint a, r).
Proof. intros H. unfold read_int. rewrite take_app by auto. cbn [obind]. rewrite number_be. reflexivity. Qed.
Lemma read_int_be k n x r : k = Z.of_nat n -> 0 <= x < 256 ^ k -> read_int k (be_bytes n x ++ r) = Some (x, r).
Proof.
  intros -> H. rewrite read_int_app by apply zlen_be. rewrite be_uint_be_bytes_small by auto. reflexivity.
Qed.
Lemma read_int_1 b r : read_int 1 (b :: r) = Some (b, r).
Proof. change (b :: r) with ([b] ++ r). rewrite read_int_app by reflexivity. reflexivity. Qed.

(** packet lengths *)
Lemma read_length_encode n r : 0 <= n < 2 ^ 32 -> read_length (packet_length_encode n ++ r) = Some (n, r).
Proof.
  intros H. unfold packet_length_encode, read_length, u8, u32. change (2 ^ 8) with 256.
  destruct (n <=? 191) eqn:A; [|destruct (n <=? 8383) eqn:B].
  - cbn [app]. rewrite read_int_1. cbn [obind]. replace (n mod 256 <? 192) with true by lia.
    f_equal. f_equal. lia.
  - cbn [app]. rewrite read_int_1. cbn [obind]. rewrite Z.shiftr_div_pow2 by lia. change (2 ^ 8) with 256.
    replace (((n - 192) / 256 mod 256 + 192) mod 256) with ((n - 192) / 256 + 192) by lia.
    replace ((n - 192) / 256 + 192 <? 192) with false by lia.
    replace ((n - 192) / 256 + 192 <? 224) with true by lia.
    rewrite read_int_1. cbn [obind]. f_equal. f_equal. lia.
  - cbn [app]. rewrite read_int_1. cbn [obind Z.ltb Z.compare Pos.compare Pos.compare_cont].
    change (255 =? 255) with true. cbn [Z.ltb]. rewrite Z.mod_small by lia. apply read_int_be; [reflexivity|].
    change (256 ^ 4) with (2 ^ 32). lia.
Qed.
Lemma read_sublength_encode n r : 0 <= n < 2 ^ 32 -> read_sublength (packet_length_encode n ++ r) = Some (n, r).
Proof.
  intros H. unfold packet_length_encode, read_sublength, u8, u32. change (2 ^ 8) with 256.
  destruct (n <=? 191) eqn:A; [|destruct (n <=? 8383) eqn:B].
  - cbn [app]. rewrite read_int_1. cbn [obind]. replace (n mod 256 <? 192) with true by lia.
    f_equal. f_equal. lia.
  - cbn [app]. rewrite read_int_1. cbn [obind]. rewrite Z.shiftr_div_pow2 by lia. change (2 ^ 8) with 256.
    replace (((n - 192) / 256 mod 256 + 192) mod 256) with ((n - 192) / 256 + 192) by lia.
    replace ((n - 192) / 256 + 192 <? 192) with false by lia.
    replace ((n - 192) / 256 + 192 <? 255) with true by lia.
    rewrite read_int_1. cbn [obind]. f_equal. f_equal. lia.
  - cbn [app]. rewrite read_int_1. cbn [obind].
    change (255 <? 192) with false. change (255 <? 255) with false. cbv iota.
    rewrite Z.mod_small by lia. apply read_int_be; [reflexivity|].
    change (256 ^ 4) with (2 ^ 32). lia.
Qed.

Lemma lor_tag t : 0 <= t < 64 -> Z.lor 192 (u8 t) = 192 + t.
Proof.
  intros H. unfold u8. rewrite Z.mod_small by lia. change 192 with (Z.shiftl 3 6).
  rewrite lor_shiftl_add by lia. reflexivity.
Qed.

Lemma read_packet_encode t p r : 0 <= t < 64 -> zlen p < 2 ^ 32 ->
  read_packet (encode_packet t p ++ r) = Some ((t, p), r).
Proof.
  intros Ht Hp. unfold encode_packet, read_packet. rewrite lor_tag by auto. cbn [app].
  rewrite read_int_1. cbn [obind]. replace (192 <=? 192 + t) with true by lia. cbn [check obind].
  rewrite <- app_assoc. rewrite read_length_encode by (pose proof (zlen_nonneg p); lia). cbn [obind].
  rewrite take_app by reflexivity. cbn [obind]. f_equal. f_equal. f_equal. lia.
Qed.

Lemma length_encode_pos n : (1 <= length (packet_length_encode n))%nat.
Proof. unfold packet_length_encode. destruct (n <=? 191); [|destruct (n <=? 8383)]; cbn [length]; lia. Qed.
Lemma encode_packet_length t p : (2 + length p <= length (encode_packet t p))%nat.
Proof.
  unfold encode_packet. cbn [length]. rewrite app_length. pose proof (length_encode_pos (zlen p)). lia.
Qed.

Definition packet_ok (p : Z * bytes) : Prop := 0 <= fst p < 64 /\ zlen (snd p) < 2 ^ 32.
Definition encode_pairs (ps : list (Z * bytes)) : bytes := concat (map (fun p => encode_packet (fst p) (snd p)) ps).

Lemma read_packets_fuel_encode ps : Forall packet_ok ps -> forall fuel, (length (encode_pairs ps) <= fuel)%nat ->
  read_packets_fuel fuel (encode_pairs ps) = Some ps.
Proof.
  intros H. induction H as [|[t p] ps [Ht Hp] Hps IH]; intros fuel Hf.
  - destruct fuel; reflexivity.
  - unfold encode_pairs in *. cbn [map concat fst snd] in *. fold (encode_pairs ps) in *.
    rewrite app_length in Hf. pose proof (encode_packet_length t p).
    destruct fuel as [|fuel]; [lia|].
    assert (N : exists x y, encode_packet t p ++ encode_pairs ps = x :: y) by (unfold encode_packet; cbn; eauto).
    destruct N as (x & y & N). cbn [read_packets_fuel]. rewrite N. rewrite <- N.
    rewrite read_packet_encode by auto. cbn [obind]. rewrite IH by lia. reflexivity.
Qed.
Lemma read_packets_encode ps : Forall packet_ok ps -> read_packets (encode_pairs ps) = Some ps.
Proof. intros H. apply read_packets_fuel_encode; auto. Qed.

(** MPIs *)
Lemma bit_len_bound n : 0 <= n -> n < 2 ^ bit_len n /\ (bit_len n = 0 \/ 2 ^ (bit_len n - 1) <= n).
Proof.
  intros H. unfold bit_len. destruct (n =? 0) eqn:Q.
  - split; [|auto]. change (2 ^ 0) with 1. lia.
  - rewrite Z.abs_eq by auto. replace (Z.log2 n + 1 - 1) with (Z.log2 n) by lia.
    pose proof (Z.log2_spec n ltac:(lia)). split; [|right]; [unfold Z.succ in *; lia|lia].
Qed.
Lemma big_bytes_spec n : 0 <= n -> zlen (big_bytes n) = (bit_len n + 7) / 8 /\ be_uint (big_bytes n) = n.
Proof.
  intros H. unfold big_bytes. rewrite zlen_be. pose proof (bit_len_nonneg n).
  rewrite Z2Nat.id by lia. split; auto. rewrite Z.abs_eq by auto. apply be_uint_be_bytes_small.
  rewrite Z2Nat.id by lia. rewrite <- pow256 by lia. split; auto.
  eapply Z.lt_le_trans; [apply bit_len_bound; auto|]. apply Z.pow_le_mono_r; lia.
Qed.
Lemma read_mpi_encode n r : 0 <= n -> bit_len n < 65536 -> read_mpi (encode_mpi n ++ r) = Some (n, r).
Proof.
  intros Hn Hb. unfold encode_mpi, read_mpi. rewrite <- app_assoc. pose proof (bit_len_nonneg n).
  unfold u16. rewrite Z.mod_small by (change (2 ^ 16) with 65536; lia).
  rewrite read_int_be; [|reflexivity|change (256 ^ 2) with 65536; lia]. cbn [obind].
  destruct (big_bytes_spec n Hn) as [L V]. rewrite take_app by auto. cbn [obind].
  rewrite number_be, V. destruct (bit_len_bound n Hn) as [B1 B2].
  replace ((n <? 2 ^ bit_len n) && ((bit_len n =? 0) || (2 ^ (bit_len n - 1) <=? n))) with true.
  - reflexivity.
  - symmetry. apply andb_true_intro. split; [lia|]. apply orb_true_iff. destruct B2; [left|right]; lia.
Qed.
Lemma bit_len_small n k : 0 <= k -> 0 <= n < 2 ^ k -> bit_len n <= k.
Proof. intros Hk H. apply bit_len_le; auto. rewrite Z.abs_eq; lia. Qed.

Lemma be_uint_32 l : block32 l -> 0 <= be_uint l < 2 ^ 256.
Proof.
  intros [L B]. pose proof (be_uint_bound l B) as X. rewrite zlen_eq, L in X.
  change (256 ^ Z.of_nat 32) with (2 ^ 256) in X. auto.
Qed.
Lemma bytes_of_bits_256 l : block32 l -> bytes_of_bits 256 (be_uint l) = l.
Proof.
  intros [L B]. change 256%nat with (8 * 32)%nat. rewrite bytes_of_bits_be. rewrite <- L. apply be_bytes_be_uint. auto.
Qed.

(** public keys *)
Definition kdf_of (k : ecc_key) : option (Z * Z) :=
  match ec_extra k with [_; _; h; c] => Some (h, c) | _ => None end.
Definition ecc_ok (k : ecc_key) : Prop :=
  0 <= t_unix (ec_creation k) < 2 ^ 32 /\ block32 (ec_public k) /\ zlen (ec_oid k) < 256 /\
  0 <= ec_alg k < 256 /\
  (ec_alg k = 18 /\ (exists h c, ec_extra k = [3; 1; h; c]) \/ ec_alg k <> 18 /\ ec_extra k = []).
Definition public_of (k : ecc_key) : public_key :=
  mk_pk (t_unix (ec_creation k)) (ec_alg k) (ec_oid k) (ec_public k) (kdf_of k) (encode_public k).

Lemma point_bounds l : block32 l -> 2 ^ 262 <= be_uint (mpi_prefix_eddsa :: l) < 2 ^ 263 /\
  be_uint (mpi_prefix_eddsa :: l) / 2 ^ 256 = 64 /\ be_uint (mpi_prefix_eddsa :: l) mod 2 ^ 256 = be_uint l.
Proof.
  intros H. pose proof (be_uint_32 l H) as B. destruct H as [L _].
  rewrite be_uint_cons, zlen_eq, L. change (256 ^ Z.of_nat 32) with (2 ^ 256). unfold mpi_prefix_eddsa. lia.
Qed.

Lemma firstn_prefix {A} (a r : list A) : firstn (length (a ++ r) - length r) (a ++ r) = a.
Proof.
  rewrite app_length, Nat.add_sub. rewrite firstn_app, Nat.sub_diag, firstn_all, firstn_O, app_nil_r. reflexivity.
Qed.

Lemma read_public_encode k r : ecc_ok k -> read_public (encode_public k ++ r) = Some (public_of k, r).
Proof.
  intros (T & P & O & A & X). unfold read_public.
  set (l := encode_public k ++ r). unfold l at 1. unfold encode_public. cbn [app]. rewrite read_int_1.
  cbn [obind]. change (key_packet_version =? 4) with true. cbn [check obind].
  unfold u32. rewrite Z.mod_small by auto. rewrite <- !app_assoc.
  rewrite read_int_be; [|reflexivity|auto]. cbn [obind app]. rewrite read_int_1. cbn [obind]. rewrite read_int_1. cbn [obind].
  unfold u8. rewrite Z.mod_small by (pose proof (zlen_nonneg (ec_oid k)); change (2 ^ 8) with 256; lia).
  rewrite <- !app_assoc. rewrite take_app by reflexivity. cbn [obind].
  destruct (point_bounds _ P) as (B1 & B2 & B3).
  rewrite read_mpi_encode; [|lia|].
  2:{ apply Z.le_lt_trans with 263; [|reflexivity]. apply bit_len_small; lia. }
  cbn [obind]. rewrite B2. change (64 =? 0x40) with true. cbn [check obind]. rewrite B3, bytes_of_bits_256 by auto.
  destruct X as [[Q (h & c & Xe)]|[Q Xe]].
  - rewrite Q. change (18 =? 18) with true. cbv iota. rewrite Xe. cbn [app]. rewrite read_int_1. cbn [obind].
    change (3 =? 3) with true. cbn [check obind]. rewrite read_int_1. cbn [obind].
    change (1 =? 1) with true. cbn [check obind]. rewrite read_int_1. cbn [obind]. rewrite read_int_1. cbn [obind].
    unfold public_of, kdf_of. rewrite Xe, Q. unfold l. rewrite firstn_prefix. reflexivity.
  - replace (ec_alg k =? 18) with false by lia. rewrite Xe. cbn [app obind].
    unfold public_of, kdf_of. rewrite Xe. unfold l. rewrite firstn_prefix. reflexivity.
Qed.

(** subpackets and signatures *)
Definition sub_ok (s : subpacket) : Prop := 0 <= sub_type s < 256 /\ zlen (sub_body s) + 1 < 2 ^ 32.
Definition sub_pair (s : subpacket) : Z * bytes := (sub_type s, sub_body s).
Lemma read_subpackets_encode l : Forall sub_ok l -> forall fuel,
  (length (concat (map sub_encode l)) <= fuel)%nat ->
  read_subpackets_fuel fuel (concat (map sub_encode l)) = Some (map sub_pair l).
Proof.
  intros H. induction H as [|s l [Ht Hb] Hl IH]; intros fuel Hf.
  - destruct fuel; reflexivity.
  - cbn [map concat] in *. rewrite app_length in Hf.
    assert (N : exists x y, sub_encode s = x :: y).
    { unfold sub_encode. pose proof (length_encode_pos (zlen (sub_body s) + 1)).
      destruct (packet_length_encode (zlen (sub_body s) + 1)); [cbn in *; lia|]. cbn. eauto. }
    destruct N as (x & y & N). destruct fuel as [|fuel]; [rewrite N in Hf; cbn in Hf; lia|].
    assert (N' : sub_encode s ++ concat (map sub_encode l) = x :: (y ++ concat (map sub_encode l))) by (rewrite N; reflexivity).
    cbn [read_subpackets_fuel]. rewrite N' at 1. cbv iota beta.
    unfold sub_encode at 1. rewrite <- app_assoc. cbn [app].
    rewrite read_sublength_encode by (pose proof (zlen_nonneg (sub_body s)); lia). cbn [obind].
    change (u8 (sub_type s) :: sub_body s ++ concat (map sub_encode l))
      with ((u8 (sub_type s) :: sub_body s) ++ concat (map sub_encode l)).
    rewrite take_app by apply zlen_cons. cbn [obind]. rewrite read_int_1. cbn [obind].
    rewrite IH by (rewrite N in Hf; cbn in Hf; lia). cbn [obind]. unfold sub_pair at 2. f_equal. f_equal. f_equal.
    unfold u8. apply Z.mod_small. change (2 ^ 8) with 256. auto.
Qed.
Definition subs_ok (l : list subpacket) : Prop := Forall sub_ok l /\ zlen (concat (map sub_encode l)) < 65536.
Lemma read_area_encode l r : subs_ok l -> read_area (encode_subpackets l ++ r) = Some (map sub_pair l, r).
Proof.
  intros [H L]. unfold encode_subpackets, read_area. rewrite <- app_assoc.
  unfold u16. rewrite Z.mod_small by (pose proof (zlen_nonneg (concat (map sub_encode l))); change (2 ^ 16) with 65536; lia).
  rewrite read_int_be; [|reflexivity|pose proof (zlen_nonneg (concat (map sub_encode l))); change (256 ^ 2) with 65536; lia].
  cbn [obind]. rewrite take_app by reflexivity. cbn [obind]. rewrite read_subpackets_encode by auto. reflexivity.
Qed.

Definition sig_ok (s : signature) : Prop :=
  0 <= sg_type s < 256 /\ 0 <= sg_hash s < 256 /\ subs_ok (sg_hashed s) /\ subs_ok (sg_unhashed s) /\
  (2 <= length (sg_digest s))%nat /\ 0 <= sg_r s < 2 ^ 256 /\ 0 <= sg_s s < 2 ^ 256.
Definition sig_of (s : signature) : PgpSpec.sig_packet :=
  mk_sp (sg_type s) 22 (sg_hash s) (map sub_pair (sg_hashed s)) (map sub_pair (sg_unhashed s))
        (firstn 2 (sg_digest s)) (sg_r s) (sg_s s) (sig_preimage (sg_type s) (sg_hash s) (sg_hashed s)).

Lemma read_signature_encode s : sig_ok s -> read_signature (sig_encode s) = Some (sig_of s).
Proof.
  intros (T & Hh & H1 & H2 & D & R & S). unfold read_signature.
  set (l := sig_encode s). unfold l at 1. unfold sig_encode, sig_preimage, u8. cbn [app]. rewrite read_int_1. cbn [obind].
  change (sig_packet_version =? 4) with true. cbn [check obind].
  rewrite !Z.mod_small by (change (2 ^ 8) with 256; auto).
  rewrite read_int_1. cbn [obind]. rewrite read_int_1. cbn [obind]. rewrite read_int_1. cbn [obind].
  rewrite <- ?app_assoc. rewrite read_area_encode by auto. cbn [obind].
  rewrite read_area_encode by auto. cbn [obind]. rewrite take_app.
  2:{ rewrite zlen_eq, firstn_length. lia. }
  cbn [obind]. pose proof (bit_len_small (sg_r s) 256 ltac:(lia) R). pose proof (bit_len_small (sg_s s) 256 ltac:(lia) S).
  rewrite read_mpi_encode by lia. cbn [obind]. rewrite <- (app_nil_r (encode_mpi (sg_s s))).
  rewrite read_mpi_encode by lia. cbn [obind bytes_eqb check]. rewrite app_nil_r.
  unfold sig_of, l, sig_encode. rewrite firstn_prefix. reflexivity.
Qed.
