(** Argon2id version 19 (RFC 9106) over BLAKE2b (RFC 7693), as golang.org/x/crypto/argon2
    computes it for the code (derive.go:66, encoding.go:93, recovery.go:85; no secret, no
    associated data).  In the model this is a field of [Env]; Props/RealProps.v proves the
    assumed shape and tests a published vector.  The lanes, which run in parallel, are filled one
    after another: a slice reads other lanes only outside the slice being written. *)
From Verif.Model Require Import GoBase.
From Verif.Spec Require Import Sha Curve25519.

Definition w64 (x : Z) : Z := Z.land x (Z.ones 64).
Definition w32 (x : Z) : Z := Z.land x (Z.ones 32).
Definition ror64 (n x : Z) : Z := Z.lor (Z.shiftr x n) (w64 (Z.shiftl x (64 - n))).

(** ** BLAKE2b *)
Definition get (l : list Z) (i : nat) : Z := nth i l 0.
Fixpoint put {A} (l : list A) (i : nat) (x : A) : list A :=
  match l, i with
  | [], _ => []
  | _ :: l', O => x :: l'
  | y :: l', S i' => y :: put l' i' x
  end.
(** The two kinds of mixing step: BLAKE2b adds a message word, Argon2 a product. *)
Definition quarter (add1 add2 : Z -> Z -> Z) (q : Z * Z * Z * Z) : Z * Z * Z * Z :=
  let '(a, b, c, d) := q in
  let a := add1 a b in
  let d := ror64 32 (Z.lxor d a) in
  let c := add2 c d in
  let b := ror64 24 (Z.lxor b c) in
  (a, b, c, d).
Definition quarter2 (add1 add2 : Z -> Z -> Z) (q : Z * Z * Z * Z) : Z * Z * Z * Z :=
  let '(a, b, c, d) := q in
  let a := add1 a b in
  let d := ror64 16 (Z.lxor d a) in
  let c := add2 c d in
  let b := ror64 63 (Z.lxor b c) in
  (a, b, c, d).
(** Columns and diagonals of the 4 by 4 matrix of words. *)
Definition mix_indices : list (nat * nat * nat * nat) :=
  [(0, 4, 8, 12); (1, 5, 9, 13); (2, 6, 10, 14); (3, 7, 11, 15);
   (0, 5, 10, 15); (1, 6, 11, 12); (2, 7, 8, 13); (3, 4, 9, 14)]%nat.
Definition mix_at (f : Z * Z * Z * Z -> Z * Z * Z * Z) (v : list Z) (ix : nat * nat * nat * nat) : list Z :=
  let '(a, b, c, d) := ix in
  let '(va, vb, vc, vd) := f (get v a, get v b, get v c, get v d) in
  put (put (put (put v a va) b vb) c vc) d vd.

Definition blake_sigma : list (list nat) :=
  [[0;1;2;3;4;5;6;7;8;9;10;11;12;13;14;15];
   [14;10;4;8;9;15;13;6;1;12;0;2;11;7;5;3];
   [11;8;12;0;5;2;15;13;10;14;3;6;7;1;9;4];
   [7;9;3;1;13;12;11;14;2;6;5;10;4;0;15;8];
   [9;0;5;7;2;4;10;15;14;1;11;12;6;8;3;13];
   [2;12;6;10;0;11;8;3;4;13;7;5;15;14;1;9];
   [12;5;1;15;14;13;4;10;0;7;6;3;9;2;8;11];
   [13;11;7;14;12;1;3;9;5;0;15;4;8;6;2;10];
   [6;15;14;9;11;3;0;8;12;2;13;7;1;4;10;5];
   [10;2;8;4;7;6;1;5;15;11;9;14;3;12;13;0];
   [0;1;2;3;4;5;6;7;8;9;10;11;12;13;14;15];
   [14;10;4;8;9;15;13;6;1;12;0;2;11;7;5;3]]%nat.
Definition blake_iv : list Z :=
  let '(a, b, c, d, e, f, g, h) := iv512 in [a; b; c; d; e; f; g; h].
Definition blake_mix (x y : Z) (q : Z * Z * Z * Z) : Z * Z * Z * Z :=
  let plus a b := w64 (a + b) in
  quarter2 (fun a b => w64 (a + b + y)) plus (quarter (fun a b => w64 (a + b + x)) plus q).
Fixpoint mix_all (ixs : list (nat * nat * nat * nat)) (sg : list nat) (m v : list Z) : list Z :=
  match ixs, sg with
  | ix :: ixs', s1 :: s2 :: sg' => mix_all ixs' sg' m (mix_at (blake_mix (get m s1) (get m s2)) v ix)
  | _, _ => v
  end.
Definition le_words (l : bytes) : list Z := map le_num (pieces (length l) 8 l).
Definition blake_compress (h m : list Z) (t : Z) (final : bool) : list Z :=
  let v0 := h ++ blake_iv in
  let v1 := put v0 12 (Z.lxor (get v0 12) (w64 t)) in
  let v2 := if final then put v1 14 (Z.lxor (get v1 14) (Z.ones 64)) else v1 in
  let v := fold_left (fun v sg => mix_all mix_indices sg m v) blake_sigma v2 in
  map (fun i => Z.lxor (get h i) (Z.lxor (get v i) (get v (i + 8)))) (seq 0 8).
(** Blocks of 128 bytes; the last one, possibly empty only for the empty message, is padded. *)
Fixpoint blake_run (blocks : list bytes) (h : list Z) (t : Z) : list Z :=
  match blocks with
  | [] => h
  | [b] => blake_compress h (le_words (b ++ repeat 0 (128 - length b))) (t + zlen b) true
  | b :: bs => blake_run bs (blake_compress h (le_words b) (t + 128) false) (t + 128)
  end.
Definition blake2b (n : nat) (msg : bytes) : bytes :=
  let h0 := put blake_iv 0 (Z.lxor (get blake_iv 0) (Z.lxor 0x01010000 (Z.of_nat n))) in
  let blocks := match msg with [] => [[]] | _ => pieces (length msg) 128 msg end in
  let h := blake_run blocks h0 0 in
  firstn n (flat_map (fun i => num_le 8 (get h i)) (seq 0 8)).

(** Variable-length hash H' (RFC 9106, 3.3). *)
Fixpoint hprime_rest (r : nat) (lastlen : nat) (v : bytes) : bytes :=
  match r with
  | O => blake2b lastlen v
  | S r' => let v' := blake2b 64 v in firstn 32 v' ++ hprime_rest r' lastlen v'
  end.
Definition hprime (n : nat) (a : bytes) : bytes :=
  let x := num_le 4 (Z.of_nat n) ++ a in
  if Nat.leb n 64 then blake2b n x
  else let r := (Nat.div (n + 31) 32 - 2)%nat in
       (* V1 is hashed from the input, the others from their predecessors *)
       hprime_rest r (n - 32 * r) x.

(** ** Blocks of 128 words *)
Definition bla_add (a b : Z) : Z := w64 (a + b + 2 * (w32 a * w32 b)).
Definition perm_p (v : list Z) : list Z :=
  fold_left (mix_at (fun q => quarter2 bla_add bla_add (quarter bla_add bla_add q))) mix_indices v.
Definition xor_words (a b : list Z) : list Z := map (fun p => Z.lxor (fst p) (snd p)) (combine a b).
Definition rows (r : list Z) : list Z := flat_map (fun i => perm_p (firstn 16 (skipn (16 * i) r))) (seq 0 8).
(** Words of column [i]: two of each row. *)
Definition column (i : nat) (r : list Z) : list Z :=
  flat_map (fun k => [get r (16 * k + 2 * i); get r (16 * k + 2 * i + 1)]) (seq 0 8).
Definition columns (r : list Z) : list Z :=
  let cs := map (fun i => perm_p (column i r)) (seq 0 8) in
  flat_map (fun k => flat_map (fun c => [get c (2 * k); get c (2 * k + 1)]) cs) (seq 0 8).
Definition compress_g (x y : list Z) : list Z :=
  let r := xor_words x y in xor_words (columns (rows r)) r.
Definition zero_block : list Z := repeat 0 128.

(** ** Filling the memory *)
Section Fill.
(** lanes, columns, passes; a segment is a quarter of a lane *)
Variables (p q t : Z).
Let seg : Z := q / 4.
Definition memory : Type := list (list (list Z)).
Definition block_at (mem : memory) (lane col : Z) : list Z :=
  nth (Z.to_nat col) (nth (Z.to_nat lane) mem []) [].
Definition set_block (mem : memory) (lane col : Z) (b : list Z) : memory :=
  put mem (Z.to_nat lane) (put (nth (Z.to_nat lane) mem []) (Z.to_nat col) b).
(** Data-independent addresses: word [idx] of the stream. *)
Definition address (pass lane slice idx : Z) : Z :=
  let input := [pass; lane; slice; p * q; t; 2; idx / 128 + 1] ++ repeat 0 121 in
  get (compress_g zero_block (compress_g zero_block input)) (Z.to_nat (idx mod 128)).
Definition reference (pass slice lane idx j12 : Z) : Z * Z :=
  let j1 := w32 j12 in
  let j2 := Z.shiftr j12 32 in
  let rl := if (pass =? 0) && (slice =? 0) then lane else j2 mod p in
  let done := if pass =? 0 then slice * seg else 3 * seg in
  let area := if rl =? lane then done + idx - 1 else if idx =? 0 then done - 1 else done in
  let x := Z.shiftr (j1 * j1) 32 in
  let zz := area - 1 - Z.shiftr (area * x) 32 in
  let start := if (pass =? 0) || (slice =? 3) then 0 else (slice + 1) * seg in
  (rl, (start + zz) mod q).
Definition fill_one (mem : memory) (pos : Z * Z * Z * Z) : memory :=
  let '(pass, slice, lane, idx) := pos in
  if (pass =? 0) && (slice =? 0) && (idx <? 2) then mem
  else
    let col := slice * seg + idx in
    let prev := block_at mem lane (if col =? 0 then q - 1 else col - 1) in
    let j := if (pass =? 0) && (slice <? 2) then address pass lane slice idx else get prev 0 in
    let '(rl, rc) := reference pass slice lane idx j in
    let g := compress_g prev (block_at mem rl rc) in
    set_block mem lane col (if pass =? 0 then g else xor_words g (block_at mem lane col)).
Definition upto (n : Z) : list Z := map Z.of_nat (seq 0 (Z.to_nat n)).
Definition positions : list (Z * Z * Z * Z) :=
  flat_map (fun pass => flat_map (fun slice => flat_map (fun lane =>
    map (fun idx => (pass, slice, lane, idx)) (upto seg)) (upto p)) (upto 4)) (upto t).
Definition first_blocks (h0 : bytes) : memory :=
  map (fun lane => map (fun col =>
    if col <? 2 then le_words (hprime 1024 (h0 ++ num_le 4 col ++ num_le 4 lane)) else zero_block)
    (upto q)) (upto p).
Definition final_block (mem : memory) : list Z :=
  fold_left xor_words (map (fun lane => block_at mem lane (q - 1)) (upto p)) zero_block.
End Fill.

(** argon2.IDKey with its adjustment of the memory size; the initial hash of RFC 9106, 3.2,
    may be given key and associated data (empty in IDKey). *)
Definition argon2_general (secret extra pw salt : bytes) (t m p n : Z) : bytes :=
  let h0 := blake2b 64 (num_le 4 p ++ num_le 4 n ++ num_le 4 m ++ num_le 4 t ++ num_le 4 0x13 ++
    num_le 4 2 ++ num_le 4 (zlen pw) ++ pw ++ num_le 4 (zlen salt) ++ salt ++
    num_le 4 (zlen secret) ++ secret ++ num_le 4 (zlen extra) ++ extra) in
  let m' := Z.max (m / (4 * p) * (4 * p)) (8 * p) in
  let q := m' / p in
  let mem := fold_left (fill_one p q t) (positions p q t) (first_blocks p q h0) in
  hprime (Z.to_nat n) (flat_map (num_le 8) (final_block p q mem)).
Definition std_argon2id : bytes -> bytes -> Z -> Z -> Z -> Z -> bytes := argon2_general [] [].
