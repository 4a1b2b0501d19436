(** 2^255 - 19 is prime: Fermat's little theorem, Pocklington's criterion and a certificate. *)
From Coq Require Import ZArith Znumtheory Zpow_facts List Permutation Lia.
Import ListNotations.
Open Scope Z_scope.

(** ** Congruences *)
Definition cong (n a b : Z) : Prop := (n | a - b).
Lemma cong_refl n a : cong n a a.
Proof. exists 0. lia. Qed.
Lemma cong_sym n a b : cong n a b -> cong n b a.
Proof. intros [k H]. exists (- k). lia. Qed.
Lemma cong_trans n a b c : cong n a b -> cong n b c -> cong n a c.
Proof. intros [k H] [j J]. exists (k + j). lia. Qed.
Lemma cong_mul n a b c d : cong n a b -> cong n c d -> cong n (a * c) (b * d).
Proof. intros [k H] [j J]. exists (k * c + b * j). nia. Qed.
Lemma cong_mod n a : 0 < n -> cong n (a mod n) a.
Proof. intros H. exists (- (a / n)). pose proof (Z.div_mod a n). lia. Qed.
Lemma cong_pow n a b : forall e, 0 <= e -> cong n a b -> cong n (a ^ e) (b ^ e).
Proof.
  intros e He H. revert e He. apply natlike_ind; [apply cong_refl|].
  intros e He IH. rewrite !Z.pow_succ_r by lia. apply cong_mul; assumption.
Qed.
Lemma cong_1_pow n a e : 0 <= e -> cong n a 1 -> cong n (a ^ e) 1.
Proof. intros He H. rewrite <- (Z.pow_1_l e) by lia. apply cong_pow; assumption. Qed.
Lemma cong_cancel q a b c : prime q -> ~ (q | c) -> cong q (c * a) (c * b) -> cong q a b.
Proof.
  intros P N [k H]. apply Gauss with c; [|apply prime_rel_prime; assumption]. exists k. lia.
Qed.

(** ** Fermat *)
Definition prod (l : list Z) : Z := fold_right Z.mul 1 l.
Lemma prod_perm l l' : Permutation l l' -> prod l = prod l'.
Proof. unfold prod. induction 1; cbn [fold_right]; [reflexivity|congruence|ring|congruence]. Qed.
Definition upto (q : Z) : list Z := map Z.of_nat (seq 1 (Z.to_nat (q - 1))).
Lemma upto_in q x : 1 < q -> (In x (upto q) <-> 0 < x < q).
Proof.
  intros Q. unfold upto. rewrite in_map_iff. split.
  - intros (y & <- & H). apply in_seq in H. lia.
  - intros H. exists (Z.to_nat x). split; [lia|]. apply in_seq. lia.
Qed.
Lemma upto_nodup q : NoDup (upto q).
Proof. apply FinFun.Injective_map_NoDup; [intros x y; lia|apply seq_NoDup]. Qed.
Lemma not_div_mod q x : 0 < q -> ~ (q | x) -> 0 < x mod q < q.
Proof.
  intros Q N. pose proof (Z.mod_pos_bound x q Q).
  assert (x mod q <> 0) by (intros E; apply N, Z.mod_divide; lia). lia.
Qed.
Lemma small_not_div q x : 0 < x < q -> ~ (q | x).
Proof. intros H D. apply Z.divide_pos_le in D; lia. Qed.
Theorem fermat q a : prime q -> ~ (q | a) -> cong q (a ^ (q - 1)) 1.
Proof.
  intros P N. pose proof (prime_ge_2 q P) as Q.
  set (f := fun x => (a * x) mod q).
  assert (M : forall x, 0 < x < q -> ~ (q | a * x)).
  { intros x X D. apply prime_mult in D; [|exact P]. destruct D as [D|D]; [tauto|]. exact (small_not_div q x X D). }
  assert (PM : Permutation (map f (upto q)) (upto q)).
  { apply NoDup_Permutation_bis.
    - (* injective on the list *)
      assert (G : forall l, incl l (upto q) -> NoDup l -> NoDup (map f l)).
      { induction l as [|x l IH]; intros I ND; [constructor|]. inversion ND as [|? ? N1 N2]; subst. cbn. constructor.
        - rewrite in_map_iff. intros (y & E & Hy). assert (Y : 0 < y < q) by (apply upto_in; [lia|apply I; cbn; auto]).
          assert (X : 0 < x < q) by (apply upto_in; [lia|apply I; cbn; auto]).
          assert (C : cong q y x).
          { apply (cong_cancel q y x a P N). apply cong_trans with (f y); [apply cong_sym, cong_mod; lia|].
            rewrite E. apply cong_mod. lia. }
          assert (y = x); [|subst; tauto]. destruct C as [k C].
          assert (k < 1) by nia. assert (-1 < k) by nia. assert (k = 0) by lia. subst k. lia.
        - apply IH; [intros z Hz; apply I; cbn; auto|exact N2]. }
      apply G; [apply incl_refl|apply upto_nodup].
    - rewrite map_length. lia.
    - intros y Hy. apply in_map_iff in Hy as (x & <- & Hx). apply upto_in in Hx; [|lia]. apply upto_in; [lia|].
      apply not_div_mod; [lia|]. apply M, Hx. }
  assert (K : forall l, incl l (upto q) ->
     cong q (prod (map f l)) (a ^ Z.of_nat (length l) * prod l) /\ ~ (q | prod l)).
  { induction l as [|x l IH]; intros I.
    - cbn. split; [apply cong_refl|]. intros D. apply Z.divide_pos_le in D; lia.
    - destruct IH as [I1 I2]; [intros z Hz; apply I; cbn; auto|].
      assert (X : 0 < x < q) by (apply upto_in; [lia|apply I; cbn; auto]).
      cbn [map prod fold_right length]. fold (prod l) (prod (map f l)). split.
      + rewrite Nat2Z.inj_succ, Z.pow_succ_r by lia.
        replace (a * a ^ Z.of_nat (length l) * (x * prod l)) with (a * x * (a ^ Z.of_nat (length l) * prod l)) by ring.
        apply cong_mul; [apply cong_mod; lia|exact I1].
      + intros D. apply prime_mult in D; [|exact P]. destruct D as [D|D]; [exact (small_not_div q x X D)|tauto]. }
  destruct (K (upto q) (incl_refl _)) as [K1 K2]. rewrite (prod_perm _ _ PM) in K1.
  unfold upto in K1 at 2. rewrite map_length, seq_length, Z2Nat.id in K1 by lia.
  apply (cong_cancel q _ _ (prod (upto q)) P K2). apply cong_sym.
  rewrite Z.mul_1_r. rewrite Z.mul_comm. exact K1.
Qed.

(** ** Pocklington *)
(** what divides a prime's neighbour: an element of order exactly r *)
Lemma order_divides q r g : prime q -> prime r -> ~ (q | g) -> cong q (g ^ r) 1 -> ~ cong q g 1 -> (r | q - 1).
Proof.
  intros Q R N G1 G2. pose proof (prime_ge_2 q Q). pose proof (prime_ge_2 r R).
  destruct (Zdivide_dec r (q - 1)) as [D|D]; [exact D|]. exfalso. apply G2.
  pose proof (prime_rel_prime r R (q - 1) D) as RP. destruct (rel_prime_bezout _ _ RP) as [u v B].
  (* u r = 1 + w (q - 1) with u >= 0 and w >= 0 *)
  set (k := Z.abs u + 1). set (U := u + k * (q - 1)). set (W := k * r - v).
  assert (UE : U * r = 1 + W * (q - 1)) by (unfold U, W; nia).
  assert (U0 : 1 <= U).
  { unfold U, k. assert ((Z.abs u + 1) * 1 <= (Z.abs u + 1) * (q - 1)) by (apply Z.mul_le_mono_nonneg_l; lia). lia. }
  clearbody U W.
  assert (0 <= W * (q - 1)) by nia. assert (0 <= W) by nia.
  assert (E1 : cong q (g ^ (U * r)) 1).
  { rewrite Z.mul_comm, Z.pow_mul_r by lia. apply cong_1_pow; [lia|assumption]. }
  assert (E2 : cong q (g ^ (U * r)) g).
  { rewrite UE, Z.pow_add_r, Z.pow_1_r by nia. rewrite <- (Z.mul_1_r g) at 3. apply cong_mul; [apply cong_refl|].
    rewrite Z.mul_comm, Z.pow_mul_r by lia. apply cong_1_pow; [lia|]. apply fermat; assumption. }
  apply cong_trans with (g ^ (U * r)); [apply cong_sym, E2|exact E1].
Qed.
Lemma prime_divisor : forall n, 1 < n -> exists q, prime q /\ (q | n).
Proof.
  intros n Hn. assert (H : 0 <= n) by lia. revert Hn. pattern n.
  apply Z_lt_induction; [clear n H; intros n IH Hn|exact H].
  destruct (prime_dec n) as [P|P]; [exists n; split; [exact P|apply Z.divide_refl]|].
  destruct (not_prime_divide n Hn P) as (m & M & D). destruct (IH m) as (q & Q & QD); [lia|lia|].
  exists q. split; [exact Q|]. apply Z.divide_trans with m; assumption.
Qed.
Lemma prime_by_divisors n : 1 < n -> (forall q, prime q -> (q | n) -> n < q * q) -> prime n.
Proof.
  intros Hn H. destruct (prime_dec n) as [P|P]; [exact P|]. exfalso.
  destruct (not_prime_divide n Hn P) as (m & M & [j J]).
  assert (exists s, 1 < s /\ s * s <= n /\ (s | n)) as (s & S1 & S2 & S3).
  { destruct (Z_le_gt_dec m j); [exists m|exists j]; (split; [nia|split; [nia|]]); [exists j|exists m]; lia. }
  destruct (prime_divisor s S1) as (q & Q & D). assert (D' : (q | n)) by (apply Z.divide_trans with s; assumption).
  specialize (H q Q D'). apply Z.divide_pos_le in D; [|lia]. pose proof (prime_ge_2 q Q). nia.
Qed.
Lemma distinct_primes l x : Forall prime l -> NoDup l -> Forall (fun r => (r | x)) l -> (prod l | x).
Proof.
  induction l as [|r l IH]; intros P N D; [exists x; cbn; lia|].
  inversion P as [|? ? P1 P2]; inversion N as [|? ? N1 N2]; inversion D as [|? ? D1 D2]; subst.
  destruct (IH P2 N2 D2) as [k K]. cbn [prod fold_right]. fold (prod l).
  assert (RP : rel_prime r (prod l)).
  { clear - P1 P2 N1. induction l as [|s l IH]; [apply rel_prime_sym, rel_prime_1|].
    inversion P2; subst. cbn [prod fold_right]. fold (prod l). apply rel_prime_mult.
    - apply prime_rel_prime; [exact P1|]. intros D. apply prime_div_prime in D; [|assumption|assumption]. subst. apply N1. cbn. auto.
    - apply IH; [assumption|intros I; apply N1; cbn; auto]. }
  assert (D' : (r | k)).
  { apply Gauss with (prod l); [|exact RP]. rewrite Z.mul_comm, <- K. exact D1. }
  destruct D' as [j J]. exists j. rewrite K, J. ring.
Qed.
Definition pock_ok (n a r : Z) : bool :=
  ((n - 1) mod r =? 0) && (Z.gcd (Zpow_mod a ((n - 1) / r) n - 1) n =? 1).
Theorem pocklington n a l : 1 < n -> Forall prime l -> NoDup l -> n < prod l * prod l ->
  andb (Zpow_mod a (n - 1) n =? 1) (forallb (pock_ok n a) l) = true -> prime n.
Proof.
  intros Hn P N F C. apply andb_prop in C as [C2 C]. apply prime_by_divisors; [exact Hn|]. intros q Q D.
  pose proof (prime_ge_2 q Q). rewrite forallb_forall in C. rewrite Forall_forall in P.
  assert (K : Forall (fun r => (r | q - 1)) l).
  { apply Forall_forall. intros r Hr. specialize (C r Hr). specialize (P r Hr). pose proof (prime_ge_2 r P).
    unfold pock_ok in C. apply andb_prop in C as [C1 C3].
    rewrite Z.eqb_eq in C1, C2, C3. rewrite Zpow_mod_correct in C2, C3 by lia.
    assert (NE : n - 1 = r * ((n - 1) / r)) by (apply Z_div_exact_2; lia).
    set (e := (n - 1) / r) in *. assert (0 <= e) by nia.
    assert (A1 : cong q (a ^ (n - 1)) 1).
    { apply Z.divide_trans with n; [exact D|]. apply cong_trans with (a ^ (n - 1) mod n); [apply cong_sym, cong_mod; lia|rewrite C2; apply cong_refl]. }
    apply (order_divides q r (a ^ e) Q P).
    - intros DA. assert (DB : (q | a ^ (n - 1))).
      { rewrite NE, Z.mul_comm, Z.pow_mul_r by lia. replace r with (1 + (r - 1)) by lia. rewrite Z.pow_add_r, Z.pow_1_r by lia.
        apply Z.divide_mul_l. exact DA. }
      destruct A1 as [k A1]. destruct DB as [j DB]. assert (E : (q | 1)) by (exists (j - k); lia). apply Z.divide_pos_le in E; lia.
    - rewrite <- Z.pow_mul_r by lia. rewrite Z.mul_comm, <- NE. exact A1.
    - intros G. assert (DG : (q | Z.gcd (a ^ e mod n - 1) n)).
      { apply Z.gcd_greatest; [|exact D]. apply cong_trans with (a ^ e); [|exact G].
        apply Z.divide_trans with n; [exact D|]. apply cong_mod. lia. }
      rewrite C3 in DG. apply Z.divide_pos_le in DG; lia. }
  apply Forall_forall in P. pose proof (distinct_primes l (q - 1) P N K) as [k E].
  assert (PP : 0 < prod l).
  { clear - P. induction P as [|r l Hr _ IH]; cbn; [lia|]. fold (prod l). pose proof (prime_ge_2 r Hr). nia. }
  assert (prod l <= q - 1) by (apply Z.divide_pos_le; [lia|exists k; exact E]). nia.
Qed.

(** ** Small primes by trial division *)
Definition trial_ok (n : Z) : bool :=
  (1 <? n) && forallb (fun k => negb (n mod Z.of_nat k =? 0)) (seq 2 (Z.to_nat (Z.sqrt n - 1))).
Lemma trial n : trial_ok n = true -> prime n.
Proof.
  unfold trial_ok. intros H. apply andb_prop in H as [H1 H2]. rewrite Z.ltb_lt in H1. rewrite forallb_forall in H2.
  apply prime_by_divisors; [exact H1|]. intros q Q D. pose proof (prime_ge_2 q Q).
  destruct (Z_lt_le_dec n (q * q)) as [L|L]; [exact L|]. exfalso.
  assert (q <= Z.sqrt n) by (apply Z.sqrt_le_square; lia).
  assert (B : negb (n mod Z.of_nat (Z.to_nat q) =? 0) = true) by (apply H2, in_seq; lia).
  rewrite Z2Nat.id in B by lia. apply Bool.negb_true_iff, Z.eqb_neq in B. apply B. apply Z.mod_divide; [lia|exact D].
Qed.

(** ** The certificate *)
Ltac by_distinct := repeat apply NoDup_cons; [cbn [In]; intuition discriminate ..|apply NoDup_nil].
Ltac by_trial := apply trial; vm_compute; reflexivity.
Lemma prime_8574133 : prime 8574133.
Proof. apply (pocklington _ 2 [991; 103]); [reflexivity|repeat apply Forall_cons; [by_trial ..|apply Forall_nil]|by_distinct|vm_compute; reflexivity|vm_compute; reflexivity]. Qed.
Lemma prime_1919519569386763 : prime 1919519569386763.
Proof. apply (pocklington _ 2 [8574133; 127]); [reflexivity|apply Forall_cons; [exact prime_8574133|apply Forall_cons; [by_trial|apply Forall_nil]]|by_distinct|vm_compute; reflexivity|vm_compute; reflexivity]. Qed.
Lemma prime_569003 : prime 569003.
Proof. apply (pocklington _ 2 [419; 97]); [reflexivity|repeat apply Forall_cons; [by_trial ..|apply Forall_nil]|by_distinct|vm_compute; reflexivity|vm_compute; reflexivity]. Qed.
Lemma prime_2773320623 : prime 2773320623.
Proof. apply (pocklington _ 2 [569003]); [reflexivity|repeat apply Forall_cons; [exact prime_569003|apply Forall_nil]|by_distinct|vm_compute; reflexivity|vm_compute; reflexivity]. Qed.
Lemma prime_72106336199 : prime 72106336199.
Proof. apply (pocklington _ 2 [2773320623]); [reflexivity|repeat apply Forall_cons; [exact prime_2773320623|apply Forall_nil]|by_distinct|vm_compute; reflexivity|vm_compute; reflexivity]. Qed.
Lemma prime_s : prime 75445702479781427272750846543864801.
Proof.
  apply (pocklington _ 2 [1919519569386763; 72106336199]);
    [reflexivity|apply Forall_cons; [exact prime_1919519569386763|apply Forall_cons; [exact prime_72106336199|apply Forall_nil]]|by_distinct|vm_compute; reflexivity|vm_compute; reflexivity].
Qed.
Lemma prime_430751 : prime 430751.
Proof. apply (pocklington _ 2 [1723]); [reflexivity|repeat apply Forall_cons; [by_trial ..|apply Forall_nil]|by_distinct|vm_compute; reflexivity|vm_compute; reflexivity]. Qed.
Lemma prime_31757755568855353 : prime 31757755568855353.
Proof. apply (pocklington _ 2 [430751; 4153]); [reflexivity|apply Forall_cons; [exact prime_430751|apply Forall_cons; [by_trial|apply Forall_nil]]|by_distinct|vm_compute; reflexivity|vm_compute; reflexivity]. Qed.
Lemma prime_r : prime 74058212732561358302231226437062788676166966415465897661863160754340907.
Proof.
  apply (pocklington _ 2 [75445702479781427272750846543864801; 31757755568855353]);
    [reflexivity|apply Forall_cons; [exact prime_s|apply Forall_cons; [exact prime_31757755568855353|apply Forall_nil]]|by_distinct|vm_compute; reflexivity|vm_compute; reflexivity].
Qed.
Theorem prime_25519 : prime (2 ^ 255 - 19).
Proof.
  apply (pocklington _ 2 [74058212732561358302231226437062788676166966415465897661863160754340907]);
    [reflexivity|repeat apply Forall_cons; [exact prime_r|apply Forall_nil]|by_distinct|vm_compute; reflexivity|vm_compute; reflexivity].
Qed.
