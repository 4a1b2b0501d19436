(** Model of /repo/seed.go and of crypto/rand.Int, which it and encoding.go call. *)
From Verif.Model Require Import GoBase Version.

(** seed.go:18-21.  The stored *big.Int is shared with the caller of NewSeed (line 42);
    here the value; BigHeap.v has the sharing. *)
Record seed := mk_seed { seed_era : Z; seed_value : Z }.

(** seed.go:28-46 *)
Definition new_seed (era entropy : Z) : res seed :=
  let* _ := era_check era in
  if bit_len entropy >? entropy_bits then Err ErrEntropyTooLarge
  else Ok (mk_seed era entropy).

(** seed.go:54-56 *)
Definition seed_int (s : seed) : Z := seed_value s.

(** seed.go:59-61 *)
Definition seed_bytes (s : seed) : res bytes :=
  fill_bytes (seed_value s) (Z.to_nat ((entropy_bits + 7) / 8)).

(** io.ReadFull from a source whose remaining content is [src]. *)
Definition read_full (src : bytes) (n : nat) : res (bytes * bytes) :=
  if Nat.ltb (length src) n then Err ErrRandomSource
  else Ok (firstn n src, skipn n src).

(** crypto/rand.Int(source, max) (Go standard library): reads k = ceil(bitlen(max-1)/8) bytes, masks the
    excess high bits of the first one, retries while the number is not below max.  [fuel]
    bounds the retries; each consumes k > 0 bytes, so length src + 1 is always enough. *)
Definition mask_first (b : Z) (l : bytes) : bytes :=
  match l with
  | [] => []
  | x :: l' => Z.land x (Z.shiftl 1 b - 1) :: l'
  end.
Fixpoint rand_int_loop (fuel : nat) (src : bytes) (k : nat) (b max : Z) : res (Z * bytes) :=
  match fuel with
  | O => Err ErrRandomSource
  | S fuel' =>
      let* (buf, rest) := read_full src k in
      let n := be_uint (mask_first b buf) in
      if n <? max then Ok (n, rest) else rand_int_loop fuel' rest k b max
  end.
Definition rand_int (src : bytes) (max : Z) : res (Z * bytes) :=
  if max <=? 0 then Panic
  else
    let bl := bit_len (max - 1) in
    if bl =? 0 then Ok (0, src)
    else
      let b := if bl mod 8 =? 0 then 8 else bl mod 8 in
      rand_int_loop (S (length src)) src (Z.to_nat ((bl + 7) / 8)) b max.

(** seed.go:66-77.  [src] is the content of the random source; the rest of it is returned. *)
Definition generate_seed (src : bytes) : res (seed * bytes) :=
  let* (n, rest) := rand_int src (Z.shiftl 1 entropy_bits) in
  let* s := new_seed era_latest n in
  Ok (s, rest).
