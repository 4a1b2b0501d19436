(** Go run-time vocabulary shared by all model files: byte strings, error values,
    fixed-width integer conversions, math/big integers.  No proofs here. *)
From Coq Require Export ZArith List Bool.
From Coq Require Ascii String.
Export (notations) Coq.Strings.String.
Export ListNotations.
Global Open Scope Z_scope.

(** A Go [[]byte] or [string] as the list of its byte values. *)
Definition bytes := list Z.

(** Go string literal -> bytes. *)
Fixpoint bs (s : String.string) : bytes :=
  match s with
  | String.EmptyString => []
  | String.String c s' => Z.of_N (Ascii.N_of_ascii c) :: bs s'
  end.
Arguments bs s%string_scope.

Fixpoint bytes_eqb (a b : bytes) : bool :=
  match a, b with
  | [], [] => true
  | x :: a', y :: b' => (x =? y) && bytes_eqb a' b'
  | _, _ => false
  end.

(** length as Z (Go's [len]) *)
Definition zlen {A} (l : list A) : Z := Z.of_nat (length l).

(** The error values the modelled code can return.  Wrapping with %w keeps the
    identity of the wrapped error, so the wrapping is not represented. *)
Inductive err :=
| ErrInvalidEraNumber            (* version.go:12 *)
| ErrInvalidVersionNumber        (* version.go:17 *)
| ErrInvalidChecksum             (* recovery.go:19 *)
| ErrInvalidWordCount            (* recovery.go:23 *)
| ErrMnemonicDecryption          (* recovery.go:27 *)
| ErrExtraBits                   (* recovery.go:241 *)
| ErrInvalidWord                 (* mnemonic/decode.go:14 *)
| ErrInvalidIndex                (* mnemonic/encode.go:20 *)
| ErrPayloadTooLarge             (* mnemonic/encode.go:33 *)
| ErrPayloadBitLen               (* encoding.go:25 *)
| ErrEntropyTooLarge             (* seed.go:34 *)
| ErrEmptyPassword               (* encoding.go:78 *)
| ErrRandomSource                (* io.ReadFull failure inside crypto/rand.Int / rand.Read *)
| ErrTTLInvalid                  (* mnemonikey.go:27 *)
| ErrCreationTooLate             (* mnemonikey.go:31 *)
| ErrCreationTooEarly            (* mnemonikey.go:35 *)
| ErrSeedLength                  (* pgp/master_key.go:29, ed25519_subkey.go:22, encryption_subkey.go:36 *)
| ErrAESKeySize                  (* crypto/aes.KeySizeError, pgp/s2k.go:53,71 *)
| ErrInvalidDuration             (* cmd/mnemonikey/expiry.go:11 *)
| ErrPrintUsage                  (* cmd/mnemonikey/command.go:11 *)
| ErrPrintUsageGraceful          (* cmd/mnemonikey/command.go:12 *)
| ErrSubkeyIndex                 (* cmd/mnemonikey/recover.go:157 *)
| ErrFileNotFound                (* os.Open failure *)
| ErrFileExists                  (* cmd/mnemonikey/generate.go:203 *)
| ErrFileInaccessible            (* cmd/mnemonikey/generate.go:205,210 *)
| ErrWordFileWord                (* cmd/mnemonikey/recover.go:219 *)
| ErrWordFileFormat              (* cmd/mnemonikey/recover.go:224 *)
| ErrWordFileEmpty               (* cmd/mnemonikey/recover.go:228 *)
| ErrWordFileCount               (* cmd/mnemonikey/recover.go:233 *)
| ErrAborted                     (* cmd/mnemonikey/word_input.go:76,282 *)
| ErrInputEOF                    (* cmd/mnemonikey/word_input.go:71,187; password read failures 253,266 *)
| ErrFlagParse                   (* flag.FlagSet.Parse failure *)
| ErrOther.

(** Outcome of a Go call: value, non-nil error, or panic. *)
Inductive res (A : Type) :=
| Ok (a : A)
| Err (e : err)
| Panic.
Arguments Ok {A} a.
Arguments Err {A} e.
Arguments Panic {A}.

Definition bind {A B} (x : res A) (f : A -> res B) : res B :=
  match x with
  | Ok a => f a
  | Err e => Err e
  | Panic => Panic
  end.

Notation "'let*' p ':=' a 'in' b" := (bind a (fun p => b))
  (at level 200, p as pattern, a at level 100, b at level 200).

Definition res_map {A B} (f : A -> B) (x : res A) : res B := bind x (fun a => Ok (f a)).

(** Fixed-width conversions. *)
Definition u8  (x : Z) : Z := x mod 2 ^ 8.
Definition u16 (x : Z) : Z := x mod 2 ^ 16.
Definition u32 (x : Z) : Z := x mod 2 ^ 32.
Definition u64 (x : Z) : Z := x mod 2 ^ 64.
Definition i64 (x : Z) : Z := (x + 2 ^ 63) mod 2 ^ 64 - 2 ^ 63.

(** binary.BigEndian.PutUintN / FillBytes of a non-negative number: the [n] low-order
    bytes of [x], most significant first. *)
Fixpoint be_bytes (n : nat) (x : Z) : bytes :=
  match n with
  | O => []
  | S n' => (x / 2 ^ (8 * Z.of_nat n')) mod 256 :: be_bytes n' x
  end.

(** big.Int.SetBytes / binary.BigEndian.UintN *)
Definition be_uint (l : bytes) : Z := fold_left (fun a b => a * 256 + b) l 0.

(** big.Int.BitLen: length of the absolute value in bits; 0 for 0. *)
Definition bit_len (x : Z) : Z := if x =? 0 then 0 else Z.log2 (Z.abs x) + 1.

(** big.Int.Uint64: low 64 bits of the absolute value.  (The Go documentation leaves the result
    undefined when it does not fit; the callers here only use it on small values.) *)
Definition big_uint64 (x : Z) : Z := u64 (Z.abs x).

(** big.Int.FillBytes into a fresh buffer of [n] bytes: panics if |x| does not fit. *)
Definition fill_bytes (x : Z) (n : nat) : res bytes :=
  if bit_len x >? 8 * Z.of_nat n then Panic else Ok (be_bytes n (Z.abs x)).

(** big.Int.Bytes: minimal big-endian form of |x|. *)
Definition big_bytes (x : Z) : bytes := be_bytes (Z.to_nat ((bit_len x + 7) / 8)) (Z.abs x).

(** A Go index expression l[i] with run-time bounds check. *)
Definition go_index {A} (l : list A) (i : nat) : res A :=
  match nth_error l i with Some a => Ok a | None => Panic end.
