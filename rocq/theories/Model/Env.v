(** Everything the repository calls but does not contain: the wordlist4096 module, the
    cryptographic primitives, Unicode tables, math/rand and the armor encoder.  Model functions
    take an [Env]; theorems state what they assume of it as explicit hypotheses
    (Spec/EnvSpec.v). *)
From Verif.Model Require Import GoBase.

Record Env := {
  (** wordlist4096.WordList *)
  wl_words : list bytes;
  (** wordlist4096.Search: (ExactMatch, Suffixes) *)
  wl_search : bytes -> bool * list bytes;
  (** strings.Map(unicode.ToLower, s): what strings.ToLower does on non-ASCII strings *)
  unicode_lower : bytes -> bytes;
  (** strings.TrimSpace *)
  trim_space : bytes -> bytes;
  (** argon2.IDKey password salt time memory threads keyLen *)
  argon2id : bytes -> bytes -> Z -> Z -> Z -> Z -> bytes;
  (** one AES block: key, 16-byte block *)
  aes_encrypt : bytes -> bytes -> bytes;
  aes_decrypt : bytes -> bytes -> bytes;
  sha1 : bytes -> bytes;
  sha256 : bytes -> bytes;
  sha384 : bytes -> bytes;
  sha512 : bytes -> bytes;
  (** hkdf.Expand(sha256.New, key, info) read for [size] bytes *)
  hkdf_expand_sha256 : bytes -> bytes -> nat -> bytes;
  (** public key of an Ed25519 seed *)
  ed25519_public : bytes -> bytes;
  (** ed25519.Sign privateKey message *)
  ed25519_sign : bytes -> bytes -> bytes;
  (** curve25519.X25519(scalar, Basepoint) *)
  x25519_base : bytes -> bytes;
  (** result of the k-th draw below n (the unexported int31n that Shuffle calls) of
      rand.New(rand.NewSource(seed)) : seed, k, n *)
  rand_int31n : Z -> nat -> Z -> Z;
  (** uint32(d.Seconds()) for a time.Duration d in nanoseconds *)
  seconds_u32 : Z -> Z;
  (** armor.Encode(blockType, nil) of data *)
  armor_encode : bytes -> bytes -> bytes
}.

(** wordlist4096.WordMap[w]: position of the word in WordList. *)
Fixpoint index_from (w : bytes) (l : list bytes) (i : Z) : option Z :=
  match l with
  | [] => None
  | x :: l' => if bytes_eqb w x then Some i else index_from w l' (i + 1)
  end.
Definition word_map (E : Env) (w : bytes) : option Z := index_from w (wl_words E) 0.

(** strings.ToLower: ASCII fast path, otherwise rune by rune. *)
Definition is_ascii (s : bytes) : bool := forallb (fun b => b <? 128) s.
Definition ascii_lower_byte (b : Z) : Z := if (65 <=? b) && (b <=? 90) then b + 32 else b.
Definition to_lower (E : Env) (s : bytes) : bytes :=
  if is_ascii s then map ascii_lower_byte s else unicode_lower E s.

(** wordlist4096.BitsPerWord *)
Definition bits_per_word : Z := 12.
