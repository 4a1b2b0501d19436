(** Model of /repo/pgp/s2k.go. *)
From Verif.Model Require Import GoBase Env Seed Encoding PgpWire.

(** pgp/constants.go:99-109.  None is the nil interface. *)
Definition hash_new (E : Env) (id : Z) : option (bytes -> bytes) :=
  if id =? hash_sha256 then Some (sha256 E)
  else if id =? hash_sha384 then Some (sha384 E)
  else if id =? hash_sha512 then Some (sha512 E)
  else None.
(** Size() of the same hashes *)
Definition hash_size (id : Z) : Z :=
  if id =? hash_sha256 then 32 else if id =? hash_sha384 then 48 else 64.

(** pgp/s2k.go:13-25: the input of the hash.  The writes to the running hash are represented by
    the concatenation of what is written. *)
Definition s2k_preimage (password salt : bytes) (count : Z) : bytes :=
  let p := salt ++ password in
  let m := Z.to_nat (count / zlen p) in
  concat (repeat p m) ++ firstn (Z.to_nat (count mod zlen p)) p.
(** Division by the length of an empty preimage panics; so does calling a nil hash. *)
Definition string_to_key (E : Env) (hash : Z) (password salt : bytes) (count : Z) : res bytes :=
  match hash_new E hash with
  | None => Panic
  | Some h => if zlen (salt ++ password) =? 0 then Panic else Ok (h (s2k_preimage password salt count))
  end.

(** pgp/s2k.go:28-30 *)
Definition s2k_count_decode (coded : Z) : Z :=
  Z.shiftl (16 + Z.land coded 15) (Z.shiftr coded 4 + 6).

(** crypto/cipher.NewCFBEncrypter(block, iv).XORKeyStream: the key stream for a block is the
    encryption of the previous ciphertext block (the IV for the first one). *)
Fixpoint xor_pad (a b : bytes) : bytes :=
  match a, b with
  | x :: a', y :: b' => Z.lxor x y :: xor_pad a' b'
  | _, _ => []
  end.
Fixpoint cfb_encrypt (E : Env) (key : bytes) (fuel : nat) (prev text : bytes) : bytes :=
  match fuel, text with
  | S fuel', _ :: _ =>
      let c := xor_pad (firstn 16 text) (aes_encrypt E key prev) in
      c ++ cfb_encrypt E key fuel' c (skipn 16 text)
  | _, _ => []
  end.

(** pgp/s2k.go:35-81.  [tape] is what crypto/rand will deliver; the rest of it is returned. *)
Definition encrypt_s2k (E : Env) (hash : Z) (plaintext password tape : bytes) : res (bytes * bytes) :=
  let* (salt, tape) := read_full tape 8 in
  let* (iv, tape) := read_full tape 16 in
  let* key := string_to_key E hash password salt (s2k_count_decode s2k_count_maximum) in
  let mpi := encode_mpi (be_uint plaintext) in
  let text := mpi ++ sha1 E mpi in
  if negb (aes_key_ok key) then Err ErrAESKeySize
  else
    let ciphertext := cfb_encrypt E key (length text) iv text in
    let* cipher :=
      (if hash_size hash =? 16 then Ok cipher_aes128
       else if hash_size hash =? 24 then Ok cipher_aes192
       else if hash_size hash =? 32 then Ok cipher_aes256
       else Err ErrAESKeySize) in
    Ok ([s2k_specifier; cipher; s2k_usage_iterated; u8 hash] ++ salt ++ [s2k_count_maximum] ++
        iv ++ ciphertext, tape).
