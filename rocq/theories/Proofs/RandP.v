(** The generator of math/rand (Spec/GoRand.v) draws below the bound it is given. *)
From Coq Require Import Lia ZifyBool ZifyNat.
From Verif.Model Require Import GoBase Env.
From Verif.Spec Require Import GoRand.
Ltac Zify.zify_post_hook ::= Z.div_mod_to_equations.

Lemma uint32_range r : 0 <= fst (uint32 r) < 2 ^ 32.
Proof.
  unfold uint32. destruct (uint64 r) as [x r']. cbn [fst].
  pose proof (Z.mod_pos_bound x (2 ^ 63) ltac:(reflexivity)) as B.
  split; [apply Z.div_pos; [apply B|reflexivity]|]. apply Z.div_lt_upper_bound; [reflexivity|].
  change (2 ^ 31 * 2 ^ 32) with (2 ^ 63). apply B.
Qed.
Lemma redraw_range fuel n th : forall p r, 0 < n -> 0 <= p < 2 ^ 32 * n -> 0 <= fst (redraw fuel n th p r) < 2 ^ 32 * n.
Proof.
  induction fuel as [|f IH]; intros p r N P; [exact P|]. cbn [redraw].
  destruct (p mod 2 ^ 32 <? th); [|exact P]. pose proof (uint32_range r) as U. destruct (uint32 r) as [v r']. cbn [fst] in U.
  apply IH; [exact N|]. nia.
Qed.
Lemma int31n_range n r : 0 < n -> 0 <= fst (int31n n r) < n.
Proof.
  intros N. unfold int31n. pose proof (uint32_range r) as U. destruct (uint32 r) as [v r']. cbn [fst] in U.
  assert (P : 0 <= v * n < 2 ^ 32 * n) by nia.
  assert (D : forall p, 0 <= p < 2 ^ 32 * n -> 0 <= p / 2 ^ 32 < n).
  { intros p Hp. split; [apply Z.div_pos; lia|apply Z.div_lt_upper_bound; lia]. }
  destruct ((v * n) mod 2 ^ 32 <? n).
  - pose proof (redraw_range 1000 n (2 ^ 32 mod n) (v * n) r' N P) as R. destruct (redraw 1000 n _ _ r') as [p r'']. exact (D p R).
  - exact (D (v * n) P).
Qed.
Lemma rand_range sd k n : 0 < n -> 0 <= std_rand_int31n sd k n < n.
Proof.
  intros N. unfold std_rand_int31n. generalize (new_source sd). induction k as [|k IH]; intros r; cbn [shuffle_draw]; [apply int31n_range, N|apply IH].
Qed.

(** Only the seed modulo 2^31 - 1 matters. *)
Lemma seed_residue sd : new_source sd = new_source (sd mod 2147483647).
Proof.
  unfold new_source.
  assert (H : forall s, (let r := Z.rem s 2147483647 in if r <? 0 then r + 2147483647 else r) = s mod 2147483647).
  { intros s. cbv zeta. pose proof (Z.quot_rem' s 2147483647) as Q. pose proof (Z.rem_bound_abs s 2147483647 ltac:(lia)) as A.
    pose proof (Z.rem_sign_nz s 2147483647) as G. pose proof (Z.rem_nonneg s 2147483647 ltac:(lia)) as P.
    destruct (Z.rem s 2147483647 <? 0) eqn:B.
    - apply (Z.mod_unique_pos s 2147483647 (Z.quot s 2147483647 - 1)); lia.
    - apply (Z.mod_unique_pos s 2147483647 (Z.quot s 2147483647)); lia. }
  cbv zeta in H |- *. rewrite (H sd), (H (sd mod 2147483647)), Z.mod_mod by lia. reflexivity.
Qed.
