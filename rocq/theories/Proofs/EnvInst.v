(** A concrete environment meeting the hypotheses of Spec/EnvSpec.v, used by the examples that show
    theorems are not vacuous.  The word list is all three-letter words over a..p; the
    "cryptography" is a toy with the right shapes and inverses. *)
From Coq Require Import Lia ZifyBool ZifyNat.
From Verif.Model Require Import GoBase Env.
From Verif.Spec Require Import EnvSpec.
From Verif.Proofs Require Import BitsP.
From Verif.Spec Require GoArmor.
From Verif.Proofs Require ArmorP.
From Verif.Spec Require ArmorSpec.

Definition letters16 : list Z := map (fun i => 97 + Z.of_nat i) (seq 0 16).
Definition toy_words : list bytes :=
  flat_map (fun a => flat_map (fun b => map (fun c => [a; b; c]) letters16) letters16) letters16.

Definition toy_mix (l : bytes) : Z := fold_left (fun a b => (a * 257 + b + 1) mod (2 ^ 61 - 1)) l 7.
Definition toy_hash (n : nat) (l : bytes) : bytes := be_bytes n (toy_mix l ^ 9).

Fixpoint xor_bytes (a b : bytes) : bytes :=
  match a, b with
  | x :: a', y :: b' => Z.lxor x y :: xor_bytes a' b'
  | _, _ => []
  end.

Definition has_prefix (p w : bytes) : bool := bytes_eqb (firstn (length p) w) p.
Definition toy_search (q : bytes) : bool * list bytes :=
  (existsb (bytes_eqb q) toy_words,
   map (skipn (length q)) (filter (has_prefix q) toy_words)).

Definition is_space (b : Z) : bool := existsb (Z.eqb b) [32; 9; 10; 11; 12; 13].
Fixpoint trim_left (l : bytes) : bytes :=
  match l with
  | [] => []
  | b :: l' => if is_space b then trim_left l' else l
  end.
Definition toy_trim (l : bytes) : bytes := rev (trim_left (rev (trim_left l))).

(** drop the bits RFC 7748 ignores *)
Definition toy_scalar (s : bytes) : bytes :=
  map (fun p => let b := snd p in
         if Nat.eqb (fst p) 0 then b / 8 * 8 else if Nat.eqb (fst p) 31 then b mod 64 else b)
      (combine (seq 0 (length s)) s).

Definition toy_sign (pub msg : bytes) : bytes := toy_hash 64 (pub ++ msg).

Definition toy_env : Env := {|
  wl_words := toy_words;
  wl_search := toy_search;
  unicode_lower := fun s => s;
  trim_space := toy_trim;
  argon2id := fun p s _ _ _ n => toy_hash (Z.to_nat n) (p ++ 255 :: s);
  aes_encrypt := fun k b => xor_bytes b k;
  aes_decrypt := fun k b => xor_bytes b k;
  sha1 := toy_hash 20;
  sha256 := toy_hash 32;
  sha384 := toy_hash 48;
  sha512 := toy_hash 64;
  hkdf_expand_sha256 := fun k i n => toy_hash n (k ++ i);
  ed25519_public := fun s => map (fun b => (b + 1) mod 256) s;
  ed25519_sign := fun priv msg => toy_sign (skipn 32 priv) msg;
  x25519_base := fun s => map (fun b => (b + 3) mod 256) (toy_scalar s);
  rand_int31n := fun seed k n => (seed + Z.of_nat k) mod n;
  seconds_u32 := fun d => (d / 10 ^ 9) mod 2 ^ 32;
  armor_encode := GoArmor.std_armor
|}.

(** strictly increasing lists have no duplicates *)
Fixpoint bytes_ltb (a b : bytes) : bool :=
  match a, b with
  | [], _ :: _ => true
  | x :: a', y :: b' => (x <? y) || ((x =? y) && bytes_ltb a' b')
  | _, _ => false
  end.
Fixpoint increasing (l : list bytes) : bool :=
  match l with
  | a :: ((b :: _) as l') => bytes_ltb a b && increasing l'
  | _ => true
  end.

Lemma bytes_ltb_trans a b c : bytes_ltb a b = true -> bytes_ltb b c = true -> bytes_ltb a c = true.
Proof.
  revert b c. induction a as [|x a IH]; intros [|y b] [|z c]; cbn; try congruence.
  intros H1 H2. apply orb_true_iff in H1, H2. apply orb_true_iff.
  destruct H1 as [H1|H1], H2 as [H2|H2]; try (apply andb_true_iff in H1 as [? H1]);
    try (apply andb_true_iff in H2 as [? H2]); try (left; lia).
  right. apply andb_true_iff. split; [lia|]. eauto.
Qed.
Lemma bytes_ltb_irrefl a : bytes_ltb a a = false.
Proof. induction a as [|x a IH]; auto. cbn. rewrite IH. lia. Qed.

Lemma increasing_nodup l : increasing l = true -> NoDup l.
Proof.
  assert (A : forall l a, increasing (a :: l) = true -> forall b, In b l -> bytes_ltb a b = true).
  { induction l0 as [|x l0 IH]; intros a H b Hb; [destruct Hb|].
    cbn [increasing] in H. apply andb_true_iff in H as [H1 H2].
    destruct Hb as [<-|Hb]; auto. eapply bytes_ltb_trans; eauto. }
  induction l as [|a l IH]; intros H; constructor.
  - intros Hin. specialize (A _ _ H _ Hin). rewrite bytes_ltb_irrefl in A. discriminate.
  - apply IH. destruct l; auto. cbn [increasing] in H. apply andb_true_iff in H. tauto.
Qed.

Lemma toy_wordlist_ok : wordlist_ok toy_env.
Proof.
  constructor.
  - vm_compute. reflexivity.
  - apply increasing_nodup. vm_compute. reflexivity.
  - apply Forall_forall. intros w Hw.
    assert (H : forallb (fun w => negb (bytes_eqb w [])) toy_words = true) by (vm_compute; reflexivity).
    rewrite forallb_forall in H. specialize (H w Hw). intros ->. discriminate.
  - apply Forall_forall. intros w Hw. apply Forall_forall. intros b Hb.
    assert (H : forallb (forallb (fun b => (97 <=? b) && (b <=? 122))) toy_words = true) by (vm_compute; reflexivity).
    rewrite forallb_forall in H. specialize (H w Hw). rewrite forallb_forall in H. specialize (H b Hb).
    unfold lower_letter. lia.
Qed.

Lemma toy_hash_ok n l : length (toy_hash n l) = n /\ Forall byte (toy_hash n l).
Proof. unfold toy_hash. split; [apply be_bytes_length|apply be_bytes_byte]. Qed.

Lemma toy_argon_ok : argon_ok toy_env.
Proof. intros p s t m th n Hn. apply toy_hash_ok. Qed.

Lemma lxor_byte a b : byte a -> byte b -> byte (Z.lxor a b).
Proof.
  unfold byte. intros Ha Hb. change 256 with (2 ^ 8) in *.
  assert (0 <= Z.lxor a b) by (apply Z.lxor_nonneg; lia).
  split; auto. destruct (Z.eq_dec (Z.lxor a b) 0) as [->|]; [lia|].
  apply Z.log2_lt_pow2; [lia|].
  eapply Z.le_lt_trans; [apply Z.log2_lxor; lia|].
  apply Z.max_lub_lt.
  - destruct (Z.eq_dec a 0) as [->|]; [cbn; lia|]. apply Z.log2_lt_pow2; lia.
  - destruct (Z.eq_dec b 0) as [->|]; [cbn; lia|]. apply Z.log2_lt_pow2; lia.
Qed.

Lemma xor_bytes_length a b : (length a <= length b)%nat -> length (xor_bytes a b) = length a.
Proof. revert b. induction a as [|x a IH]; intros [|y b]; cbn; auto; intros; try lia. rewrite IH; lia. Qed.
Lemma xor_bytes_byte a b : Forall byte a -> Forall byte b -> Forall byte (xor_bytes a b).
Proof.
  intros Ha. revert b. induction Ha; intros b Hb; [constructor|]. destruct Hb; cbn; constructor; auto.
  apply lxor_byte; auto.
Qed.
Lemma xor_bytes_twice a k : (length a <= length k)%nat -> xor_bytes (xor_bytes a k) k = a.
Proof.
  revert k. induction a as [|x a IH]; intros [|y k]; cbn; auto; intros; try lia.
  rewrite IH by lia. rewrite Z.lxor_assoc, Z.lxor_nilpotent, Z.lxor_0_r. reflexivity.
Qed.

Lemma toy_aes_ok : aes_ok toy_env.
Proof.
  intros key blk [Lk Bk] [Lb Bb]. cbn. unfold block16.
  rewrite !xor_bytes_length by lia. rewrite xor_bytes_twice by lia.
  repeat split; auto; apply xor_bytes_byte; auto.
Qed.

Lemma toy_hkdf_ok : hkdf_ok toy_env.
Proof. intros k i n. apply toy_hash_ok. Qed.
Lemma toy_hash_env_ok : hash_ok toy_env.
Proof. intros m. split; apply toy_hash_ok. Qed.
Lemma toy_rand_ok : rand_ok toy_env.
Proof. intros sd k n Hn. cbn. apply Z.mod_pos_bound. auto. Qed.
Lemma toy_seconds_ok : seconds_ok toy_env.
Proof.
  split.
  - intros q Hq. cbn [seconds_u32 toy_env]. rewrite Z.div_mul by discriminate. apply Z.mod_small. auto.
  - intros d. cbn [seconds_u32 toy_env]. apply Z.mod_pos_bound. reflexivity.
Qed.
Lemma toy_aes256_ok : aes256_ok toy_env.
Proof.
  intros key blk [Lk Bk] [Lb Bb]. cbn. unfold block16. rewrite xor_bytes_length by lia.
  split; auto. apply xor_bytes_byte; auto.
Qed.

Lemma map_mod_block (f : Z -> Z) l n : length l = n -> length (map (fun b => f b mod 256) l) = n /\ Forall byte (map (fun b => f b mod 256) l).
Proof.
  intros H. rewrite map_length. split; auto. apply Forall_forall. intros x Hx. apply in_map_iff in Hx as (y & <- & _).
  unfold byte. apply Z.mod_pos_bound. reflexivity.
Qed.

Definition toy_verify (pub msg sg : bytes) : bool := bytes_eqb sg (toy_sign pub msg).
Lemma toy_ed25519_ok : ed25519_ok toy_env toy_verify.
Proof.
  intros sd [L B]. split; [apply (map_mod_block (fun b => b + 1)); auto|].
  intros m. cbn [ed25519_sign toy_env]. rewrite skipn_app, L, Nat.sub_diag, skipn_all2 by lia. cbn [app].
  destruct (toy_hash_ok 64 (ed25519_public toy_env sd ++ m)). unfold toy_sign, toy_verify.
  split; [auto|]. split; [auto|]. apply bytes_eqb_refl.
Qed.

Lemma toy_scalar_nth s i : (i < length s)%nat ->
  nth i (toy_scalar s) 0 = if Nat.eqb i 0 then nth i s 0 / 8 * 8 else if Nat.eqb i 31 then nth i s 0 mod 64 else nth i s 0.
Proof.
  intros H. unfold toy_scalar.
  set (f := fun p : nat * Z => _).
  rewrite (nth_indep _ 0 (f (i, nth i s 0))) by (rewrite map_length, combine_length, seq_length; lia).
  rewrite map_nth. f_equal.
  rewrite (nth_indep _ _ (0%nat, 0)) by (rewrite combine_length, seq_length; lia).
  rewrite combine_nth by apply seq_length. rewrite seq_nth by auto. reflexivity.
Qed.
Lemma toy_scalar_length s : length (toy_scalar s) = length s.
Proof. unfold toy_scalar. rewrite map_length, combine_length, seq_length. lia. Qed.

Lemma toy_x25519_ok : x25519_ok toy_env.
Proof.
  split.
  - intros sd [L B]. cbn [x25519_base toy_env].
    apply (map_mod_block (fun b => b + 3)). rewrite toy_scalar_length. auto.
  - intros a b [La Ba] [Lb Bb] [_ H]. cbn [x25519_base toy_env]. f_equal.
    apply nth_ext with 0 0; rewrite !toy_scalar_length; [congruence|]. intros i Hi.
    specialize (H i Hi). rewrite !toy_scalar_nth by lia.
    assert (Xa : byte (nth i a 0)) by (rewrite Forall_forall in Ba; apply Ba, nth_In; lia).
    assert (Xb : byte (nth i b 0)) by (rewrite Forall_forall in Bb; apply Bb, nth_In; lia).
    assert (High : forall x, byte x -> forall j, 8 <= j -> Z.testbit x j = false).
    { unfold byte. intros x Hx j Hj. destruct (Z.eq_dec x 0) as [->|]; [apply Z.bits_0|].
      apply Z.bits_above_log2; [lia|]. apply Z.lt_le_trans with 8; auto. apply Z.log2_lt_pow2; lia. }
    destruct (Nat.eqb i 0) eqn:E0; [|destruct (Nat.eqb i 31) eqn:E31].
    + replace (Nat.eqb i 31) with false in H by (apply Nat.eqb_eq in E0; subst; reflexivity). cbn in H.
      change 8 with (2 ^ 3). rewrite <- !Z.shiftr_div_pow2, <- !Z.shiftl_mul_pow2 by lia.
      apply Z.bits_inj'. intros j Hj. destruct (Z.lt_ge_cases j 3).
      * rewrite !Z.shiftl_spec_low by lia. reflexivity.
      * rewrite !Z.shiftl_spec, !Z.shiftr_spec by lia. replace (j - 3 + 3) with j by lia.
        destruct (Z.lt_ge_cases j 8); [apply H; lia|]. rewrite !High by auto. reflexivity.
    + cbn in H. change 64 with (2 ^ 6). apply Z.bits_inj'. intros j Hj. destruct (Z.lt_ge_cases j 6).
      * rewrite !Z.mod_pow2_bits_low by lia. apply H. lia.
      * rewrite !Z.mod_pow2_bits_high by lia. reflexivity.
    + cbn in H. apply Z.bits_inj'. intros j Hj. destruct (Z.lt_ge_cases j 8); [apply H; lia|].
      rewrite !High by auto. reflexivity.
Qed.

Lemma toy_armor_ok : ArmorSpec.armor_ok toy_env.
Proof. intros kind data K D. change (armor_encode toy_env kind data) with (GoArmor.std_armor kind data). apply ArmorP.std_armor_read; auto. Qed.
