(** Facts about the standard algorithms of Spec/Sha.v, Aes.v, Curve25519.v and Argon2.v: lengths
    and byte ranges of what they return, AES decryption inverting encryption, and the bits
    X25519 ignores. *)
From Coq Require Import Lia ZifyBool ZifyNat Btauto.
From Verif.Model Require Import GoBase Env.
From Verif.Spec Require Import EnvSpec Sha Aes Curve25519 Argon2.
Ltac Zify.zify_post_hook ::= Z.div_mod_to_equations.

(** ** Numbers as bytes *)
Lemma num_be_length : forall n x, length (num_be n x) = n.
Proof. induction n; intros; cbn; [reflexivity|]. rewrite app_length, IHn. cbn. lia. Qed.
Lemma num_be_byte : forall n x, Forall byte (num_be n x).
Proof.
  induction n; intros; cbn; [constructor|]. apply Forall_app. split; [apply IHn|].
  repeat constructor; apply Z.mod_pos_bound; lia.
Qed.
Lemma num_le_length : forall n x, length (num_le n x) = n.
Proof. intros. unfold num_le. rewrite rev_length. apply num_be_length. Qed.
Lemma num_le_byte : forall n x, Forall byte (num_le n x).
Proof. intros. unfold num_le. apply Forall_rev, num_be_byte. Qed.

Definition nbytes (n : nat) (l : bytes) : Prop := length l = n /\ Forall byte l.
Lemma nbytes_app : forall n m a b, nbytes n a -> nbytes m b -> nbytes (n + m) (a ++ b).
Proof.
  intros n m a b [La Fa] [Lb Fb]. split; [rewrite app_length; lia|apply Forall_app; auto].
Qed.
Lemma nbytes_be : forall n x, nbytes n (num_be n x).
Proof. split; [apply num_be_length|apply num_be_byte]. Qed.
Lemma nbytes_le : forall n x, nbytes n (num_le n x).
Proof. split; [apply num_le_length|apply num_le_byte]. Qed.
Lemma firstn_bytes : forall n m l, nbytes m l -> (n <= m)%nat -> nbytes n (firstn n l).
Proof.
  intros n m l [L F] H. split; [rewrite firstn_length; lia|].
  rewrite Forall_forall in *. intros x Hx. apply F. rewrite <- (firstn_skipn n l). apply in_or_app. auto.
Qed.

(** ** Hashes *)
Lemma sha2_bytes : forall wb w a b c d k iv m, Z.to_nat (w / 8) = wb ->
  nbytes (wb + (wb + (wb + (wb + (wb + (wb + (wb + wb))))))) (sha2 w a b c d k iv m).
Proof.
  intros wb w a b c d k iv m E. unfold sha2. rewrite E.
  destruct (fold_left _ _ iv) as [[[[[[[h1 h2] h3] h4] h5] h6] h7] h8].
  repeat apply nbytes_app; apply nbytes_be.
Qed.
Lemma sha256_bytes : forall m, nbytes 32 (std_sha256 m).
Proof. intros. apply (sha2_bytes 4). reflexivity. Qed.
Lemma sha512_bytes : forall m, nbytes 64 (std_sha512 m).
Proof. intros. apply (sha2_bytes 8). reflexivity. Qed.
Lemma sha384_bytes : forall m, nbytes 48 (std_sha384 m).
Proof. intros. apply (firstn_bytes 48 64); [|lia]. apply (sha2_bytes 8). reflexivity. Qed.
Lemma sha1_bytes : forall m, nbytes 20 (std_sha1 m).
Proof.
  intros. unfold std_sha1. destruct (fold_left _ _ _) as [[[[a b] c] d] e].
  change 20%nat with (4 + (4 + (4 + (4 + 4))))%nat. repeat apply nbytes_app; apply nbytes_be.
Qed.
Lemma hmac_bytes : forall k m, nbytes 32 (hmac_sha256 k m).
Proof. intros. apply sha256_bytes. Qed.
Lemma hkdf_t_bytes : forall n key info i prev, nbytes (32 * n) (hkdf_t n key info i prev).
Proof.
  induction n as [|n IH]; intros; [split; [reflexivity|constructor]|].
  cbn [hkdf_t]. replace (32 * S n)%nat with (32 + 32 * n)%nat by lia.
  apply nbytes_app; [apply hmac_bytes|apply IH].
Qed.
Lemma hkdf_bytes : forall key info n, nbytes n (std_hkdf_expand key info n).
Proof.
  intros. unfold std_hkdf_expand. apply (firstn_bytes n (32 * Nat.div (n + 31) 32)).
  - apply hkdf_t_bytes.
  - pose proof (Nat.div_mod (n + 31) 32). pose proof (Nat.mod_upper_bound (n + 31) 32). lia.
Qed.

(** ** BLAKE2b and Argon2 *)
Lemma flat_map_bytes : forall A (f : A -> bytes) k l, (forall x, nbytes k (f x)) ->
  nbytes (k * length l) (flat_map f l).
Proof.
  intros A f k l H. induction l as [|x l IH]; cbn [flat_map length].
  - rewrite Nat.mul_0_r. split; [reflexivity|constructor].
  - replace (k * S (length l))%nat with (k + k * length l)%nat by lia. apply nbytes_app; auto.
Qed.
Lemma blake2b_bytes : forall n m, (n <= 64)%nat -> nbytes n (blake2b n m).
Proof.
  intros n m H. unfold blake2b. apply (firstn_bytes n 64); [|exact H].
  apply (flat_map_bytes _ _ 8 (seq 0 8)). intro. apply nbytes_le.
Qed.
Lemma hprime_rest_bytes : forall r k v, (k <= 64)%nat -> nbytes (32 * r + k) (hprime_rest r k v).
Proof.
  induction r as [|r IH]; intros k v H; cbn [hprime_rest].
  - apply blake2b_bytes. exact H.
  - replace (32 * S r + k)%nat with (32 + (32 * r + k))%nat by lia.
    apply nbytes_app; [|apply IH; exact H]. apply (firstn_bytes 32 64); [|lia]. apply blake2b_bytes. lia.
Qed.
Lemma hprime_bytes : forall n a, nbytes n (hprime n a).
Proof.
  intros. unfold hprime. destruct (Nat.leb_spec n 64); [apply blake2b_bytes; assumption|].
  set (r := (Nat.div (n + 31) 32 - 2)%nat).
  assert (32 * r <= n /\ n - 32 * r <= 64)%nat.
  { unfold r. pose proof (Nat.div_mod (n + 31) 32). pose proof (Nat.mod_upper_bound (n + 31) 32). lia. }
  replace n with (32 * r + (n - 32 * r))%nat at 1 by lia. apply hprime_rest_bytes. lia.
Qed.
Lemma argon2_bytes : forall secret extra pw salt t m p n,
  nbytes (Z.to_nat n) (argon2_general secret extra pw salt t m p n).
Proof. intros. unfold argon2_general. cbv zeta. apply hprime_bytes. Qed.

(** ** AES *)
Definition all_bytes : list Z := map Z.of_nat (seq 0 256).
Lemma byte_in : forall x, byte x -> In x all_bytes.
Proof.
  intros x [H H']. unfold all_bytes. replace x with (Z.of_nat (Z.to_nat x)) by lia.
  apply in_map, in_seq. lia.
Qed.
Lemma sweep : forall f, forallb f all_bytes = true -> forall x, byte x -> f x = true.
Proof. intros f H x Hx. rewrite forallb_forall in H. apply H, byte_in, Hx. Qed.

Definition byteb (x : Z) : bool := (0 <=? x) && (x <? 256).
Lemma byteb_spec : forall x, byteb x = true -> byte x.
Proof. unfold byteb, byte. intros. lia. Qed.

Lemma sbox_ok : forall x, byte x -> byte (sbox x) /\ inv_sbox (sbox x) = x.
Proof.
  intros x Hx.
  pose proof (sweep (fun x => byteb (sbox x) && (inv_sbox (sbox x) =? x))) as S.
  cbv beta in S. assert (Q : forallb (fun x => byteb (sbox x) && (inv_sbox (sbox x) =? x)) all_bytes = true) by (vm_compute; reflexivity).
  specialize (S Q x Hx). apply andb_prop in S. destruct S as [S1 S2].
  split; [apply byteb_spec; exact S1|apply Z.eqb_eq; exact S2].
Qed.
Lemma inv_sbox_ok : forall x, byte x -> byte (inv_sbox x) /\ sbox (inv_sbox x) = x.
Proof.
  intros x Hx.
  pose proof (sweep (fun x => byteb (inv_sbox x) && (sbox (inv_sbox x) =? x))) as S.
  cbv beta in S. assert (Q : forallb (fun x => byteb (inv_sbox x) && (sbox (inv_sbox x) =? x)) all_bytes = true) by (vm_compute; reflexivity).
  specialize (S Q x Hx). apply andb_prop in S. destruct S as [S1 S2].
  split; [apply byteb_spec; exact S1|apply Z.eqb_eq; exact S2].
Qed.
Lemma map_sbox : forall l, Forall byte l -> Forall byte (map sbox l) /\ map inv_sbox (map sbox l) = l.
Proof.
  induction 1 as [|x l Hx _ [IH1 IH2]]; cbn [map]; [split; [constructor|reflexivity]|].
  destruct (sbox_ok x Hx). split; [constructor; auto|congruence].
Qed.
Lemma map_inv_sbox : forall l, Forall byte l -> Forall byte (map inv_sbox l) /\ map sbox (map inv_sbox l) = l.
Proof.
  induction 1 as [|x l Hx _ [IH1 IH2]]; cbn [map]; [split; [constructor|reflexivity]|].
  destruct (inv_sbox_ok x Hx). split; [constructor; auto|congruence].
Qed.

Lemma byte_bits : forall x, byte x <-> (0 <= x /\ forall j, 8 <= j -> Z.testbit x j = false).
Proof.
  intro x. split.
  - intros [H H']. split; [exact H|]. intros j Hj.
    destruct (Z.eq_dec x 0) as [->|N]; [apply Z.testbit_0_l|].
    apply Z.bits_above_log2; [exact H|]. assert (Z.log2 x < 8) by (apply Z.log2_lt_pow2; lia). lia.
  - intros [H B]. split; [exact H|]. destruct (Z_lt_le_dec x 256) as [L|L]; [exact L|exfalso].
    assert (8 <= Z.log2 x) by (apply Z.log2_le_pow2; lia).
    pose proof (B (Z.log2 x)). rewrite Z.bit_log2 in *; [|lia]. intuition discriminate.
Qed.
Lemma lxor_byte : forall a b, byte a -> byte b -> byte (Z.lxor a b).
Proof.
  intros a b Ha Hb. apply byte_bits in Ha, Hb. apply byte_bits. split.
  - apply Z.lxor_nonneg. tauto.
  - intros j Hj. rewrite Z.lxor_spec. destruct Ha as [_ Ha], Hb as [_ Hb]. rewrite Ha, Hb by exact Hj. reflexivity.
Qed.

Lemma xtime_bit : forall a, byte a -> xtime a = Z.lxor (2 * a) (if Z.testbit a 7 then 0x11b else 0).
Proof.
  intros a Ha. apply Z.eqb_eq.
  apply (sweep (fun a => xtime a =? Z.lxor (2 * a) (if Z.testbit a 7 then 0x11b else 0))); [vm_compute; reflexivity|exact Ha].
Qed.
Lemma xtime_byte : forall a, byte a -> byte (xtime a).
Proof.
  intros a Ha. apply byteb_spec. apply (sweep (fun a => byteb (xtime a))); [vm_compute; reflexivity|exact Ha].
Qed.
Lemma xtime_lxor : forall a b, byte a -> byte b -> xtime (Z.lxor a b) = Z.lxor (xtime a) (xtime b).
Proof.
  intros a b Ha Hb. rewrite !xtime_bit by auto using lxor_byte. rewrite Z.lxor_spec.
  replace (2 * Z.lxor a b) with (Z.lxor (2 * a) (2 * b)).
  2:{ rewrite !(Z.mul_comm 2). change 2 with (2 ^ 1). rewrite <- !Z.shiftl_mul_pow2 by lia.
      symmetry. apply Z.shiftl_lxor. }
  apply Z.bits_inj'. intros n Hn. rewrite !Z.lxor_spec.
  destruct (Z.testbit a 7), (Z.testbit b 7); cbn [xorb]; rewrite ?Z.testbit_0_l; btauto.
Qed.
Lemma gmul_byte : forall c a, byte a -> byte (gmul c a).
Proof.
  intros c a Ha. assert (Z0 : byte 0) by (unfold byte; lia). unfold gmul.
  assert (B : forall i v, byte v -> byte (if Z.testbit c i then v else 0)) by (intros; destruct (Z.testbit c i); auto).
  auto 8 using lxor_byte, xtime_byte.
Qed.
Lemma gmul_lxor : forall c a b, byte a -> byte b -> gmul c (Z.lxor a b) = Z.lxor (gmul c a) (gmul c b).
Proof.
  intros c a b Ha Hb. unfold gmul. rewrite !xtime_lxor by auto using xtime_byte.
  apply Z.bits_inj'. intros n Hn. rewrite !Z.lxor_spec.
  destruct (Z.testbit c 0), (Z.testbit c 1), (Z.testbit c 2), (Z.testbit c 3);
    rewrite ?Z.lxor_spec, ?Z.testbit_0_l; btauto.
Qed.
Lemma dot4_byte : forall c0 c1 c2 c3 a b c d, byte a -> byte b -> byte c -> byte d ->
  byte (dot4 c0 c1 c2 c3 a b c d).
Proof. intros. unfold dot4. auto using lxor_byte, gmul_byte. Qed.
Lemma gmul_dot4 : forall k c0 c1 c2 c3 a b c d, byte a -> byte b -> byte c -> byte d ->
  gmul k (dot4 c0 c1 c2 c3 a b c d) =
  Z.lxor (Z.lxor (gmul k (gmul c0 a)) (gmul k (gmul c1 b))) (Z.lxor (gmul k (gmul c2 c)) (gmul k (gmul c3 d))).
Proof. intros. unfold dot4. rewrite !gmul_lxor by auto using lxor_byte, gmul_byte. reflexivity. Qed.

(** [coef4 k0..k3 c0..c3 a]: what the byte [a] contributes, through four coefficients [c] and
    then four [k]. *)
Definition coef4 (k0 k1 k2 k3 c0 c1 c2 c3 a : Z) : Z :=
  Z.lxor (Z.lxor (gmul k0 (gmul c0 a)) (gmul k1 (gmul c1 a)))
         (Z.lxor (gmul k2 (gmul c2 a)) (gmul k3 (gmul c3 a))).
Lemma dot4_mix : forall k0 k1 k2 k3 c0 c1 c2 c3 a b c d, byte a -> byte b -> byte c -> byte d ->
  dot4 k0 k1 k2 k3 (dot4 c0 c1 c2 c3 a b c d) (dot4 c3 c0 c1 c2 a b c d)
    (dot4 c2 c3 c0 c1 a b c d) (dot4 c1 c2 c3 c0 a b c d) =
  Z.lxor (Z.lxor (coef4 k0 k1 k2 k3 c0 c3 c2 c1 a) (coef4 k0 k1 k2 k3 c1 c0 c3 c2 b))
         (Z.lxor (coef4 k0 k1 k2 k3 c2 c1 c0 c3 c) (coef4 k0 k1 k2 k3 c3 c2 c1 c0 d)).
Proof.
  intros. unfold dot4 at 1. rewrite !gmul_dot4 by assumption. unfold coef4.
  apply Z.bits_inj'. intros n Hn. rewrite !Z.lxor_spec. btauto.
Qed.
(** A circulant of coefficients inverting another. *)
Definition circ_inverse (k0 k1 k2 k3 c0 c1 c2 c3 : Z) : Prop :=
  forall a, byte a ->
    coef4 k0 k1 k2 k3 c0 c3 c2 c1 a = a /\ coef4 k0 k1 k2 k3 c1 c0 c3 c2 a = 0 /\
    coef4 k0 k1 k2 k3 c2 c1 c0 c3 a = 0 /\ coef4 k0 k1 k2 k3 c3 c2 c1 c0 a = 0.
Definition circ_check (k0 k1 k2 k3 c0 c1 c2 c3 a : Z) : bool :=
  (coef4 k0 k1 k2 k3 c0 c3 c2 c1 a =? a) && (coef4 k0 k1 k2 k3 c1 c0 c3 c2 a =? 0) &&
  (coef4 k0 k1 k2 k3 c2 c1 c0 c3 a =? 0) && (coef4 k0 k1 k2 k3 c3 c2 c1 c0 a =? 0).
Lemma circ_sweep : forall k0 k1 k2 k3 c0 c1 c2 c3,
  forallb (circ_check k0 k1 k2 k3 c0 c1 c2 c3) all_bytes = true -> circ_inverse k0 k1 k2 k3 c0 c1 c2 c3.
Proof.
  intros k0 k1 k2 k3 c0 c1 c2 c3 H a Ha. pose proof (sweep _ H a Ha) as S. unfold circ_check in S.
  rewrite !andb_true_iff, !Z.eqb_eq in S. tauto.
Qed.
Lemma coef4_perm : forall k0 k1 k2 k3 c0 c1 c2 c3 a,
  coef4 k3 k0 k1 k2 c3 c0 c1 c2 a = coef4 k0 k1 k2 k3 c0 c1 c2 c3 a.
Proof. intros. unfold coef4. apply Z.bits_inj'. intros n Hn. rewrite !Z.lxor_spec. btauto. Qed.
Lemma mix_col_inverse : forall k0 k1 k2 k3 c0 c1 c2 c3 a b c d,
  circ_inverse k0 k1 k2 k3 c0 c1 c2 c3 -> byte a -> byte b -> byte c -> byte d ->
  mix_col k0 k1 k2 k3 (dot4 c0 c1 c2 c3 a b c d) (dot4 c3 c0 c1 c2 a b c d)
    (dot4 c2 c3 c0 c1 a b c d) (dot4 c1 c2 c3 c0 a b c d) = [a; b; c; d].
Proof.
  intros k0 k1 k2 k3 c0 c1 c2 c3 a b c d H Ha Hb Hc Hd. unfold mix_col.
  rewrite !dot4_mix by assumption.
  destruct (H a Ha) as (A1 & A2 & A3 & A4), (H b Hb) as (B1 & B2 & B3 & B4),
    (H c Hc) as (C1 & C2 & C3 & C4), (H d Hd) as (D1 & D2 & D3 & D4).
  assert (P : forall x c0 c1 c2 c3, coef4 k3 k0 k1 k2 c0 c1 c2 c3 x = coef4 k0 k1 k2 k3 c1 c2 c3 c0 x)
    by (intros; apply coef4_perm).
  assert (P2 : forall x c0 c1 c2 c3, coef4 k2 k3 k0 k1 c0 c1 c2 c3 x = coef4 k0 k1 k2 k3 c2 c3 c0 c1 x)
    by (intros; rewrite coef4_perm; apply P).
  assert (P3 : forall x c0 c1 c2 c3, coef4 k1 k2 k3 k0 c0 c1 c2 c3 x = coef4 k0 k1 k2 k3 c3 c0 c1 c2 x)
    by (intros; rewrite coef4_perm; apply P2).
  rewrite !P3, !P2, !P. rewrite A1, A2, A3, A4, B1, B2, B3, B4, C1, C2, C3, C4, D1, D2, D3, D4.
  rewrite ?Z.lxor_0_r, ?Z.lxor_0_l, ?Z.lxor_0_r. reflexivity.
Qed.
Lemma inverse_enc : circ_inverse 14 11 13 9 2 3 1 1.
Proof. apply circ_sweep. vm_compute. reflexivity. Qed.
Lemma inverse_dec : circ_inverse 2 3 1 1 14 11 13 9.
Proof. apply circ_sweep. vm_compute. reflexivity. Qed.

(** The state: sixteen bytes. *)
Lemma block16_cases : forall s, block16 s -> exists a0 a1 a2 a3 a4 a5 a6 a7 a8 a9 a10 a11 a12 a13 a14 a15,
  s = [a0; a1; a2; a3; a4; a5; a6; a7; a8; a9; a10; a11; a12; a13; a14; a15] /\
  (byte a0 /\ byte a1 /\ byte a2 /\ byte a3) /\ (byte a4 /\ byte a5 /\ byte a6 /\ byte a7) /\
  (byte a8 /\ byte a9 /\ byte a10 /\ byte a11) /\ (byte a12 /\ byte a13 /\ byte a14 /\ byte a15).
Proof.
  intros s [L F].
  do 16 (destruct s as [|? s]; [discriminate L|]). destruct s; [|discriminate L].
  repeat match goal with H : Forall _ (_ :: _) |- _ => inversion H; clear H; subst end.
  do 16 eexists. split; [reflexivity|]. tauto.
Qed.
Lemma shift_rows_ok : forall s, block16 s ->
  block16 (shift_rows s) /\ block16 (inv_shift_rows s) /\
  inv_shift_rows (shift_rows s) = s /\ shift_rows (inv_shift_rows s) = s.
Proof.
  intros s H. destruct (block16_cases s H) as (a0 & a1 & a2 & a3 & a4 & a5 & a6 & a7 & a8 & a9 & a10 & a11 & a12 & a13 & a14 & a15 & -> & B1 & B2 & B3 & B4).
  assert (F : forall l : bytes, length l = 16%nat -> Forall byte l -> block16 l) by (split; assumption).
  split; [|split; [|split; reflexivity]]; (apply F; [reflexivity|]); cbn;
    repeat (apply Forall_cons; [tauto|]); apply Forall_nil.
Qed.
Lemma mix_ok : forall k0 k1 k2 k3 c0 c1 c2 c3 s, circ_inverse k0 k1 k2 k3 c0 c1 c2 c3 -> block16 s ->
  block16 (mix_with c0 c1 c2 c3 s) /\ mix_with k0 k1 k2 k3 (mix_with c0 c1 c2 c3 s) = s.
Proof.
  intros k0 k1 k2 k3 c0 c1 c2 c3 s I H. destruct (block16_cases s H) as (a0 & a1 & a2 & a3 & a4 & a5 & a6 & a7 & a8 & a9 & a10 & a11 & a12 & a13 & a14 & a15 & -> & (? & ? & ? & ?) & (? & ? & ? & ?) & (? & ? & ? & ?) & (? & ? & ? & ?)).
  split.
  - split; [reflexivity|]. cbn [mix_with mix_col app]. repeat apply Forall_cons; try apply Forall_nil; apply dot4_byte; assumption.
  - cbn [mix_with]. unfold mix_col. cbn [app mix_with].
    rewrite !mix_col_inverse by assumption. reflexivity.
Qed.
Lemma xor_block : forall s k, block16 s -> block16 k -> block16 (xor_list s k).
Proof.
  intros s k [L F] [L' F']. split.
  - unfold xor_list. rewrite map_length, combine_length. lia.
  - clear L L'. revert k F'. induction F as [|x s Hx F IH]; intros k F'; [constructor|].
    destruct F' as [|y k Hy F']; [constructor|]. constructor; [apply lxor_byte; assumption|apply IH; assumption].
Qed.
Lemma xor_twice : forall s k, length s = length k -> xor_list (xor_list s k) k = s.
Proof.
  induction s as [|x s IH]; intros [|y k] L; try discriminate; [reflexivity|].
  cbn. f_equal; [|apply IH; cbn in L; lia]. rewrite Z.lxor_assoc, Z.lxor_nilpotent. apply Z.lxor_0_r.
Qed.
Lemma map_block : forall f s, (forall l, Forall byte l -> Forall byte (map f l)) -> block16 s -> block16 (map f s).
Proof. intros f s H [L F]. split; [rewrite map_length; exact L|apply H; exact F]. Qed.
Lemma sub_block : forall s, block16 s -> block16 (map sbox s).
Proof. intros. apply map_block; [|assumption]. intros. apply map_sbox. assumption. Qed.
Lemma inv_sub_block : forall s, block16 s -> block16 (map inv_sbox s).
Proof. intros. apply map_block; [|assumption]. intros. apply map_inv_sbox. assumption. Qed.
Lemma block16_length : forall s k, block16 s -> block16 k -> length s = length k.
Proof. intros s k [L _] [L' _]. congruence. Qed.

Lemma enc_round_ok : forall s k, block16 s -> block16 k ->
  block16 (enc_round s k) /\ dec_round (enc_round s k) k = s.
Proof.
  intros s k Hs Hk. pose proof (sub_block s Hs) as H1. destruct (shift_rows_ok _ H1) as (H2 & _ & H3 & _).
  destruct (mix_ok _ _ _ _ _ _ _ _ _ inverse_enc H2) as [H4 H5]. unfold enc_round, dec_round, mix_columns, inv_mix_columns.
  split; [apply xor_block; assumption|].
  rewrite xor_twice by (apply block16_length; assumption). rewrite H5, H3. apply map_sbox, Hs.
Qed.
Lemma dec_round_ok : forall s k, block16 s -> block16 k ->
  block16 (dec_round s k) /\ enc_round (dec_round s k) k = s.
Proof.
  intros s k Hs Hk. pose proof (xor_block s k Hs Hk) as H1.
  destruct (mix_ok _ _ _ _ _ _ _ _ _ inverse_dec H1) as [H2 H3]. destruct (shift_rows_ok _ H2) as (_ & H4 & _ & H5).
  unfold enc_round, dec_round, mix_columns, inv_mix_columns. split; [apply inv_sub_block; assumption|].
  destruct (map_inv_sbox _ (proj2 H4)) as [_ H6]. rewrite H6, H5, H3. apply xor_twice, block16_length; assumption.
Qed.
Lemma enc_last_ok : forall s k, block16 s -> block16 k ->
  block16 (enc_last s k) /\ dec_last (enc_last s k) k = s.
Proof.
  intros s k Hs Hk. pose proof (sub_block s Hs) as H1. destruct (shift_rows_ok _ H1) as (H2 & _ & H3 & _).
  unfold enc_last, dec_last. split; [apply xor_block; assumption|].
  rewrite xor_twice by (apply block16_length; assumption). rewrite H3. apply map_sbox, Hs.
Qed.
Lemma dec_last_ok : forall s k, block16 s -> block16 k ->
  block16 (dec_last s k) /\ enc_last (dec_last s k) k = s.
Proof.
  intros s k Hs Hk. pose proof (xor_block s k Hs Hk) as H1. destruct (shift_rows_ok _ H1) as (_ & H4 & _ & H5).
  unfold enc_last, dec_last. split; [apply inv_sub_block; assumption|].
  destruct (map_inv_sbox _ (proj2 H4)) as [_ H6]. rewrite H6, H5. apply xor_twice, block16_length; assumption.
Qed.
Lemma fold_rounds : forall f g : bytes -> bytes -> bytes,
  (forall s k, block16 s -> block16 k -> block16 (f s k) /\ g (f s k) k = s) ->
  forall ks s, Forall block16 ks -> block16 s ->
    block16 (fold_left f ks s) /\ fold_left g (rev ks) (fold_left f ks s) = s.
Proof.
  intros f g H. induction ks as [|k ks IH]; intros s Fk Hs; [split; [exact Hs|reflexivity]|].
  inversion Fk as [|? ? Hk Hks]; subst. cbn [fold_left rev]. destruct (H s k Hs Hk) as [H1 H2].
  destruct (IH (f s k) Hks H1) as [H3 H4]. split; [exact H3|].
  rewrite fold_left_app, H4. cbn. exact H2.
Qed.

(** Key expansion. *)
Definition word4 (w : bytes) : Prop := length w = 4%nat /\ Forall byte w.
Lemma word4_cases : forall w, word4 w -> exists a b c d, w = [a; b; c; d] /\ byte a /\ byte b /\ byte c /\ byte d.
Proof.
  intros w [L F]. do 4 (destruct w as [|? w]; [discriminate L|]). destruct w; [|discriminate L].
  repeat match goal with H : Forall _ (_ :: _) |- _ => inversion H; clear H; subst end. eauto 12.
Qed.
Lemma word4_intro : forall a b c d, byte a -> byte b -> byte c -> byte d -> word4 [a; b; c; d].
Proof. intros. split; [reflexivity|]. auto. Qed.
Lemma xor_word : forall a b, word4 a -> word4 b -> word4 (xor_list a b).
Proof.
  intros a b Ha Hb. destruct (word4_cases a Ha) as (? & ? & ? & ? & -> & ? & ? & ? & ?), (word4_cases b Hb) as (? & ? & ? & ? & -> & ? & ? & ? & ?).
  apply word4_intro; apply lxor_byte; assumption.
Qed.
Lemma rcon_byte : forall i, byte (rcon i).
Proof. unfold rcon. induction i; cbn; [unfold byte; lia|]. apply xtime_byte. exact IHi. Qed.
Lemma sub_word4 : forall w, word4 w -> word4 (sub_word w).
Proof. intros w [L F]. split; [unfold sub_word; rewrite map_length; exact L|apply map_sbox; exact F]. Qed.
Lemma rot_word4 : forall w, word4 w -> word4 (rot_word w).
Proof.
  intros w H. destruct (word4_cases w H) as (? & ? & ? & ? & -> & ? & ? & ? & ?). apply word4_intro; assumption.
Qed.
Lemma nth_word4 : forall i ws, Forall word4 ws -> (i < length ws)%nat -> word4 (nth i ws []).
Proof. intros i ws F H. rewrite Forall_forall in F. apply F, nth_In, H. Qed.
Lemma expand_ok : forall n nk i ws, (0 < nk)%nat -> (nk <= length ws)%nat -> Forall word4 ws ->
  Forall word4 (expand n nk i ws) /\ length (expand n nk i ws) = (n + length ws)%nat.
Proof.
  induction n as [|n IH]; intros nk i ws Hn Hl F; [split; [exact F|reflexivity]|].
  cbn [expand]. assert (T : word4 (nth 0 ws [])) by (apply nth_word4; [exact F|lia]).
  match goal with |- Forall word4 (expand _ _ _ (?x :: _)) /\ _ => assert (X : word4 x) end.
  { apply xor_word; [apply nth_word4; [exact F|lia]|].
    destruct (Nat.eqb _ 0).
    - apply xor_word; [apply sub_word4, rot_word4, T|].
      assert (byte 0) by (unfold byte; lia). apply word4_intro; [apply rcon_byte|assumption..].
    - destruct (_ && _); [apply sub_word4, T|exact T]. }
  edestruct (IH nk (S i)) as [I1 I2]; [exact Hn| |constructor; [exact X|exact F]|].
  - cbn [length]. lia.
  - split; [exact I1|]. rewrite I2. cbn [length]. lia.
Qed.
Lemma quads_word4 : forall k l, length l = (4 * k)%nat -> Forall byte l ->
  Forall word4 (quads l) /\ length (quads l) = k.
Proof.
  induction k as [|k IH]; intros l L F; [destruct l; [split; [constructor|reflexivity]|discriminate]|].
  do 4 (destruct l as [|? l]; [cbn in L; lia|]). cbn [quads].
  repeat match goal with H : Forall _ (_ :: _) |- _ => inversion H; clear H; subst end.
  destruct (IH l) as [I1 I2]; [cbn in L; lia|assumption|]. split; [|cbn; congruence].
  constructor; [apply word4_intro; assumption|exact I1].
Qed.
Lemma quads_keys : forall k ws, length ws = (4 * k)%nat -> Forall word4 ws ->
  Forall block16 (map (@concat Z) (quads ws)) /\ length (quads ws) = k.
Proof.
  induction k as [|k IH]; intros ws L F; [destruct ws; [split; [constructor|reflexivity]|discriminate]|].
  do 4 (destruct ws as [|? ws]; [cbn in L; lia|]). cbn [quads map].
  repeat match goal with H : Forall _ (_ :: _) |- _ => inversion H; clear H; subst end.
  destruct (IH ws) as [I1 I2]; [cbn in L; lia|assumption|]. split; [|cbn; congruence].
  constructor; [|exact I1]. cbn [concat].
  repeat match goal with H : word4 _ |- _ => destruct H as [? ?] end. split.
  - rewrite !app_length. cbn. lia.
  - rewrite !Forall_app. auto 8.
Qed.
Lemma round_keys_ok : forall nk key, (0 < nk)%nat -> length key = (4 * nk)%nat -> Forall byte key ->
  Forall block16 (round_keys key) /\ length (round_keys key) = (nk + 7)%nat.
Proof.
  intros nk key Hn L F. unfold round_keys. rewrite L, (Nat.mul_comm 4 nk), Nat.div_mul by lia.
  destruct (quads_word4 nk key L F) as [Q1 Q2].
  destruct (expand_ok (4 * (nk + 7) - nk) nk nk (rev (quads key))) as [E1 E2].
  - exact Hn.
  - rewrite rev_length. lia.
  - apply Forall_rev, Q1.
  - destruct (quads_keys (nk + 7) (rev (expand (4 * (nk + 7) - nk) nk nk (rev (quads key))))) as [K1 K2].
    + rewrite rev_length, E2, rev_length. lia.
    + apply Forall_rev, E1.
    + split; [exact K1|rewrite map_length; exact K2].
Qed.

Section Cipher.
Variables (nk : nat) (key : bytes).
Hypotheses (Hn : (0 < nk)%nat) (L : length key = (4 * nk)%nat) (F : Forall byte key).
Lemma keys_parts : exists k0 ks kl,
  round_keys key = k0 :: ks ++ [kl] /\ block16 k0 /\ Forall block16 ks /\ block16 kl.
Proof.
  destruct (round_keys_ok nk key Hn L F) as [K1 K2].
  destruct (round_keys key) as [|k0 ks]; [cbn in K2; lia|].
  destruct (exists_last (l := ks)) as (ks' & kl & E); [intros ->; cbn in K2; lia|]. subst ks.
  inversion K1 as [|? ? H1 H2]; subst. apply Forall_app in H2. destruct H2 as [H2 H3]. inversion H3; subst.
  exists k0, ks', kl. auto.
Qed.
Lemma cipher_ok : forall blk, block16 blk ->
  block16 (std_aes_encrypt key blk) /\ block16 (std_aes_decrypt key blk) /\
  std_aes_decrypt key (std_aes_encrypt key blk) = blk /\
  std_aes_encrypt key (std_aes_decrypt key blk) = blk.
Proof.
  intros blk Hb. destruct keys_parts as (k0 & ks & kl & E & H0 & Hks & Hl).
  unfold std_aes_encrypt, std_aes_decrypt. rewrite E. cbn [tl hd].
  replace (last (k0 :: ks ++ [kl]) []) with kl by (rewrite app_comm_cons, last_last; reflexivity).
  rewrite removelast_last.
  pose proof (xor_block _ _ Hb H0) as X.
  destruct (fold_rounds enc_round dec_round enc_round_ok ks _ Hks X) as [R1 R2].
  destruct (enc_last_ok _ _ R1 Hl) as [L1 L2].
  destruct (dec_last_ok _ _ Hb Hl) as [D1 D2].
  destruct (fold_rounds dec_round enc_round dec_round_ok (rev ks) _ (Forall_rev Hks) D1) as [S1 S2].
  rewrite rev_involutive in S2.
  split; [exact L1|]. split; [apply xor_block; assumption|]. split.
  - rewrite L2, R2. apply xor_twice, block16_length; assumption.
  - rewrite xor_twice by (apply block16_length; assumption). rewrite S2. exact D2.
Qed.
End Cipher.

(** ** Curve25519 *)
Lemma fold_mod : forall x, 0 <= x -> fold25519 x mod prime25519 = x mod prime25519.
Proof.
  intros x Hx. unfold fold25519. rewrite Z.land_ones, Z.shiftr_div_pow2 by lia.
  pose proof (Z.div_mod x (2 ^ 255) ltac:(lia)) as D.
  rewrite D at 3. set (u := x / 2 ^ 255). set (v := x mod 2 ^ 255).
  replace (2 ^ 255 * u + v) with (v + 19 * u + u * prime25519) by (unfold prime25519; ring).
  symmetry. apply Z_mod_plus_full.
Qed.
Lemma reduce_mod : forall x, 0 <= x < 2 ^ 512 -> reduce x = x mod prime25519.
Proof.
  intros x Hx.
  assert (B : forall x n, 0 <= x < 2 ^ (255 + n) -> 0 <= n -> 0 <= fold25519 x < 2 ^ 255 + 19 * 2 ^ n).
  { clear. intros x n Hx Hn. unfold fold25519. rewrite Z.land_ones, Z.shiftr_div_pow2 by lia.
    pose proof (Z.mod_pos_bound x (2 ^ 255) ltac:(lia)).
    assert (0 <= x / 2 ^ 255) by (apply Z.div_pos; lia).
    assert (x / 2 ^ 255 < 2 ^ n) by (apply Z.div_lt_upper_bound; [lia|]; rewrite <- Z.pow_add_r; lia). lia. }
  pose proof (B x 257 ltac:(change (255 + 257) with 512; lia) ltac:(lia)) as B1.
  pose proof (B (fold25519 x) 7) as B2.
  assert (Q : 2 ^ 255 + 19 * 2 ^ 257 < 2 ^ (255 + 7)) by (vm_compute; reflexivity).
  specialize (B2 ltac:(lia) ltac:(lia)).
  assert (E : fold25519 (fold25519 x) mod prime25519 = x mod prime25519)
    by (rewrite !fold_mod by lia; reflexivity).
  unfold reduce. set (y := fold25519 (fold25519 x)) in *.
  assert (P : prime25519 = 2 ^ 255 - 19) by reflexivity.
  change (2 ^ 7) with 128 in B2.
  destruct (Z.ltb_spec y prime25519) as [H|H].
  - rewrite <- E. symmetry. apply Z.mod_small. lia.
  - rewrite <- E. clearbody y. apply (Z.mod_unique _ _ 1); [left|]; lia.
Qed.

Lemma x25519_bytes : forall k u, nbytes 32 (x25519 k u).
Proof.
  intros. unfold x25519. destruct (fold_left _ _ _) as [[[[x2 z2] x3] z3] sw].
  unfold cswap. destruct sw; apply nbytes_le.
Qed.
Lemma byte_bits_eq : forall x y, byte x -> byte y ->
  (forall j, 0 <= j < 8 -> Z.testbit x j = Z.testbit y j) -> x = y.
Proof.
  intros x y Hx Hy H. apply byte_bits in Hx, Hy. apply Z.bits_inj'. intros n Hn.
  destruct (Z_lt_le_dec n 8); [apply H; lia|]. rewrite (proj2 Hx), (proj2 Hy) by lia. reflexivity.
Qed.
Lemma first_byte_eq : forall x y, byte x -> byte y ->
  (forall j, 3 <= j < 8 -> Z.testbit x j = Z.testbit y j) -> Z.land x 248 = Z.land y 248.
Proof.
  intros x y Hx Hy H. apply byte_bits in Hx, Hy. apply Z.bits_inj'. intros n Hn. rewrite !Z.land_spec.
  destruct (Z_lt_le_dec n 8); [|rewrite (proj2 Hx), (proj2 Hy) by lia; reflexivity].
  destruct (Z_lt_le_dec n 3); [|rewrite H by lia; reflexivity].
  assert (n = 0 \/ n = 1 \/ n = 2) as [->|[->| ->]] by lia; cbn; rewrite !andb_false_r; reflexivity.
Qed.
Lemma last_byte_eq : forall x y, byte x -> byte y ->
  (forall j, 0 <= j < 6 -> Z.testbit x j = Z.testbit y j) ->
  Z.lor (Z.land x 127) 64 = Z.lor (Z.land y 127) 64.
Proof.
  intros x y Hx Hy H. apply byte_bits in Hx, Hy. apply Z.bits_inj'. intros n Hn. rewrite !Z.lor_spec, !Z.land_spec.
  destruct (Z_lt_le_dec n 8); [|rewrite (proj2 Hx), (proj2 Hy) by lia; reflexivity].
  destruct (Z_lt_le_dec n 6); [rewrite H by lia; reflexivity|].
  assert (n = 6 \/ n = 7) as [->| ->] by lia; cbn; rewrite ?orb_true_r, ?andb_false_r; reflexivity.
Qed.
Lemma clamp_same : forall a b, block32 a -> block32 b -> same_scalar_bits a b -> clamp a = clamp b.
Proof.
  intros a b [La Fa] [Lb Fb] [_ S]. rewrite La in S.
  destruct a as [|a0 a]; [discriminate|]. destruct b as [|b0 b]; [discriminate|].
  destruct (exists_last (l := a)) as (a' & al & ->); [intros ->; discriminate|].
  destruct (exists_last (l := b)) as (b' & bl & ->); [intros ->; discriminate|].
  cbn [length] in La, Lb. rewrite app_length in La, Lb. cbn [length] in La, Lb.
  assert (La' : length a' = 30%nat) by lia. assert (Lb' : length b' = 30%nat) by lia.
  inversion Fa as [|? ? Ha0 Fa']; subst. inversion Fb as [|? ? Hb0 Fb']; subst.
  apply Forall_app in Fa', Fb'. destruct Fa' as [Fa1 Fa2], Fb' as [Fb1 Fb2].
  inversion Fa2; subst. inversion Fb2; subst.
  unfold clamp. rewrite !removelast_last, !last_last. f_equal.
  - apply first_byte_eq; [assumption..|]. intros j Hj. apply (S 0%nat ltac:(lia) j). exact Hj.
  - f_equal.
    + apply (nth_ext _ _ 0 0); [congruence|]. intros n Hn.
      apply byte_bits_eq; [rewrite Forall_forall in Fa1; apply Fa1, nth_In; lia
                          |rewrite Forall_forall in Fb1; apply Fb1, nth_In; lia|].
      intros j Hj. specialize (S (Datatypes.S n) ltac:(lia) j).
      cbn [nth] in S. rewrite !app_nth1 in S by lia. apply S.
      replace (Nat.eqb (Datatypes.S n) 0) with false by reflexivity.
      replace (Nat.eqb (Datatypes.S n) 31) with false by (symmetry; apply Nat.eqb_neq; lia). exact Hj.
    + f_equal. apply last_byte_eq; [assumption..|]. intros j Hj.
      specialize (S 31%nat ltac:(lia) j). cbn [nth] in S.
      rewrite !app_nth2 in S by lia. rewrite La', Lb' in S. apply S. exact Hj.
Qed.
Lemma ed25519_public_bytes : forall sd, nbytes 32 (std_ed25519_public sd).
Proof.
  intros. unfold std_ed25519_public, pt_encode. destruct (pt_mul _ _) as [[[x y] z] t]. apply nbytes_le.
Qed.
Lemma ed25519_sign_bytes : forall k m, nbytes 64 (std_ed25519_sign k m).
Proof.
  intros. unfold std_ed25519_sign. cbv zeta. apply (nbytes_app 32 32); [|apply nbytes_le].
  unfold pt_encode. destruct (pt_mul _ _) as [[[x y] z] t]. apply nbytes_le.
Qed.
