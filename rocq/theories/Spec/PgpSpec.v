(** An OpenPGP reader, written from RFC 4880 (and RFC 6637 / rfc4880bis for ECC) and independent of the
    encoder in the model.  Functions return None on malformed input. *)
From Verif.Model Require Import GoBase Env.
From Verif.Spec Require Import PhraseSpec.

Definition obind {A B} (x : option A) (f : A -> option B) : option B :=
  match x with Some a => f a | None => None end.
Notation "'let?' p ':=' a 'in' b" := (obind a (fun p => b))
  (at level 200, p as pattern, a at level 100, b at level 200).
Definition check (b : bool) : option unit := if b then Some tt else None.

(** big-endian number *)
Fixpoint number (l : bytes) : Z :=
  match l with
  | [] => 0
  | b :: l' => b * 256 ^ zlen l' + number l'
  end.
Definition take (n : Z) (l : bytes) : option (bytes * bytes) :=
  if (0 <=? n) && (n <=? zlen l) then Some (firstn (Z.to_nat n) l, skipn (Z.to_nat n) l) else None.
Definition read_int (k : Z) (l : bytes) : option (Z * bytes) :=
  let? (d, r) := take k l in Some (number d, r).

(** RFC 4880 4.2.2, new-format body lengths.  224..254 announce partial bodies, which are only
    allowed for data packets: refused. *)
Definition read_length (l : bytes) : option (Z * bytes) :=
  let? (a, r) := read_int 1 l in
  if a <? 192 then Some (a, r)
  else if a <? 224 then let? (b, r) := read_int 1 r in Some ((a - 192) * 256 + b + 192, r)
  else if a =? 255 then read_int 4 r
  else None.
(** RFC 4880 5.2.3.1, subpacket lengths *)
Definition read_sublength (l : bytes) : option (Z * bytes) :=
  let? (a, r) := read_int 1 l in
  if a <? 192 then Some (a, r)
  else if a <? 255 then let? (b, r) := read_int 1 r in Some ((a - 192) * 256 + b + 192, r)
  else read_int 4 r.

(** RFC 4880 4.2: bits 7 and 6 set, tag in bits 5-0 *)
Definition read_packet (l : bytes) : option ((Z * bytes) * bytes) :=
  let? (h, r) := read_int 1 l in
  let? _ := check (192 <=? h) in
  let? (n, r) := read_length r in
  let? (body, r) := take n r in
  Some ((h - 192, body), r).
Fixpoint read_packets_fuel (fuel : nat) (l : bytes) : option (list (Z * bytes)) :=
  match l, fuel with
  | [], _ => Some []
  | _, O => None
  | _, S fuel' =>
      let? (p, r) := read_packet l in
      let? ps := read_packets_fuel fuel' r in
      Some (p :: ps)
  end.
(** every packet has at least two bytes, so the length of the input is enough fuel *)
Definition read_packets (l : bytes) : option (list (Z * bytes)) := read_packets_fuel (length l) l.

(** RFC 4880 3.2: a bit count, then the number without leading zero bits *)
Definition read_mpi (l : bytes) : option (Z * bytes) :=
  let? (n, r) := read_int 2 l in
  let? (d, r) := take ((n + 7) / 8) r in
  let v := number d in
  let? _ := check ((v <? 2 ^ n) && ((n =? 0) || (2 ^ (n - 1) <=? v))) in
  Some (v, r).

(** Public key material, version 4: creation time, algorithm, curve, point in the 0x40-prefixed
    native form of 32 bytes, and for ECDH (18) the KDF parameters.  [pk_raw] keeps the bytes read. *)
Record public_key := mk_pk {
  pk_time : Z;
  pk_alg : Z;
  pk_oid : bytes;
  pk_point : bytes;
  pk_kdf : option (Z * Z);
  pk_raw : bytes
}.
Definition read_public (l : bytes) : option (public_key * bytes) :=
  let? (v, r) := read_int 1 l in
  let? _ := check (v =? 4) in
  let? (time, r) := read_int 4 r in
  let? (alg, r) := read_int 1 r in
  let? (n, r) := read_int 1 r in
  let? (oid, r) := take n r in
  let? (p, r) := read_mpi r in
  let? _ := check (p / 2 ^ 256 =? 0x40) in
  let? (kdf, r) :=
    (if alg =? 18 then
       let? (n, r) := read_int 1 r in
       let? _ := check (n =? 3) in
       let? (one, r) := read_int 1 r in
       let? _ := check (one =? 1) in
       let? (h, r) := read_int 1 r in
       let? (c, r) := read_int 1 r in
       Some (Some (h, c), r)
     else Some (None, r)) in
  Some (mk_pk time alg oid (bytes_of_bits 256 (p mod 2 ^ 256)) kdf
              (firstn (length l - length r) l), r).

(** what follows the public part of a secret key packet *)
Inductive secret_part :=
| Cleartext (body : bytes)                                        (* usage 0: MPI and checksum *)
| Protected (cipher hash : Z) (salt : bytes) (count : Z) (iv body : bytes)  (* usage 254, S2K type 3 *)
| Stub.                                                           (* GnuPG: no secret present *)
Definition read_secret_part (l : bytes) : option secret_part :=
  let? (usage, r) := read_int 1 l in
  if usage =? 0 then Some (Cleartext r)
  else
    let? _ := check (usage =? 254) in
    let? (cipher, r) := read_int 1 r in
    let? (s2k, r) := read_int 1 r in
    let? (hash, r) := read_int 1 r in
    if s2k =? 3 then
      let? (salt, r) := take 8 r in
      let? (count, r) := read_int 1 r in
      let? (iv, r) := take 16 r in
      Some (Protected cipher hash salt count iv r)
    else
      let? _ := check ((s2k =? 101) && (cipher =? 0) && (hash =? 0) && bytes_eqb r (bs "GNU" ++ [1])) in
      Some Stub.
Definition read_secret_key (l : bytes) : option (public_key * secret_part) :=
  let? (pk, r) := read_public l in
  let? sp := read_secret_part r in
  Some (pk, sp).

(** RFC 4880 3.7.1.3: number of octets hashed, and the octets: the endless repetition of salt and
    password cut at that number, but never less than one salt and password *)
Definition s2k_octets (coded : Z) : Z := (16 + coded mod 16) * 2 ^ (coded / 16 + 6).
Definition s2k_input (salt pw : bytes) (count : Z) : bytes :=
  let p := salt ++ pw in
  map (fun i => nth (i mod length p)%nat p 0) (seq 0 (Z.to_nat (Z.max count (zlen p)))).

(** CFB decryption (full blocks, last one cut): C_i xor E(C_{i-1}) *)
Fixpoint zip_xor (a b : bytes) : bytes :=
  match a, b with
  | x :: a', y :: b' => Z.lxor x y :: zip_xor a' b'
  | _, _ => []
  end.
Fixpoint cfb_decrypt (enc : bytes -> bytes) (blocks : nat) (prev c : bytes) : bytes :=
  match blocks with
  | O => []
  | S n => zip_xor (firstn 16 c) (enc prev) ++ cfb_decrypt enc n (firstn 16 c) (skipn 16 c)
  end.

(** the secret number, given the password: None if an integrity check fails.  Only AES-256 (9) with
    SHA-256 (8) is understood. *)
Definition unlock (E : Env) (pw : bytes) (s : secret_part) : option Z :=
  match s with
  | Cleartext body =>
      let? (v, r) := read_mpi body in
      let? (sum, r') := read_int 2 r in
      let? _ := check (bytes_eqb r' [] && (sum =? fold_right Z.add 0 (firstn (length body - 2) body) mod 65536)) in
      Some v
  | Protected cipher hash salt count iv body =>
      let? _ := check ((cipher =? 9) && (hash =? 8)) in
      let key := sha256 E (s2k_input salt pw (s2k_octets count)) in
      let plain := cfb_decrypt (aes_encrypt E key) ((length body + 15) / 16) iv body in
      let? (v, r) := read_mpi plain in
      let? _ := check (bytes_eqb r (sha1 E (firstn (length plain - 20) plain))) in
      Some v
  | Stub => None
  end.

(** signature packets, version 4 *)
Record sig_packet := mk_sp {
  sp_type : Z;
  sp_alg : Z;
  sp_hash : Z;
  sp_hashed : list (Z * bytes);
  sp_unhashed : list (Z * bytes);
  sp_left16 : bytes;
  sp_r : Z;
  sp_s : Z;
  sp_prefix : bytes      (* the packet up to the end of the hashed subpackets *)
}.
Fixpoint read_subpackets_fuel (fuel : nat) (l : bytes) : option (list (Z * bytes)) :=
  match l, fuel with
  | [], _ => Some []
  | _, O => None
  | _, S fuel' =>
      let? (n, r) := read_sublength l in
      let? (body, r) := take n r in
      let? (t, b) := read_int 1 body in
      let? rest := read_subpackets_fuel fuel' r in
      Some ((t, b) :: rest)
  end.
Definition read_area (l : bytes) : option (list (Z * bytes) * bytes) :=
  let? (n, r) := read_int 2 l in
  let? (a, r) := take n r in
  let? sp := read_subpackets_fuel (length a) a in
  Some (sp, r).
Definition read_signature (l : bytes) : option sig_packet :=
  let? (v, r) := read_int 1 l in
  let? _ := check (v =? 4) in
  let? (ty, r) := read_int 1 r in
  let? (alg, r) := read_int 1 r in
  let? (h, r) := read_int 1 r in
  let? (hashed, r) := read_area r in
  let prefix := firstn (length l - length r) l in
  let? (unhashed, r) := read_area r in
  let? (l16, r) := take 2 r in
  let? (sr, r) := read_mpi r in
  let? (ss, r) := read_mpi r in
  let? _ := check (bytes_eqb r []) in
  Some (mk_sp ty alg h hashed unhashed l16 sr ss prefix).

(** RFC 4880 5.2.4: what is hashed *)
Definition key_hash_input (pk : public_key) : bytes :=
  0x99 :: bytes_of_bits 16 (zlen (pk_raw pk)) ++ pk_raw pk.
Definition uid_hash_input (uid : bytes) : bytes := 0xB4 :: bytes_of_bits 32 (zlen uid) ++ uid.
Definition sig_trailer (s : sig_packet) : bytes := [4; 255] ++ bytes_of_bits 32 (zlen (sp_prefix s)).
Definition fingerprint (E : Env) (pk : public_key) : bytes := sha1 E (key_hash_input pk).

(** an EdDSA (22) / SHA-256 (8) signature by [pk] over [data] verifies *)
Definition verifies (E : Env) (ed_verify : bytes -> bytes -> bytes -> bool) (pk : public_key)
    (data : bytes) (s : sig_packet) : bool :=
  let digest := sha256 E (data ++ sp_prefix s ++ sig_trailer s) in
  (sp_alg s =? 22) && (sp_hash s =? 8) && (pk_alg pk =? 22) &&
  bytes_eqb (sp_left16 s) (firstn 2 digest) &&
  (0 <=? sp_r s) && (sp_r s <? 2 ^ 256) && (0 <=? sp_s s) && (sp_s s <? 2 ^ 256) &&
  ed_verify (pk_point pk) digest (bytes_of_bits 256 (sp_r s) ++ bytes_of_bits 256 (sp_s s)).

(** value of the first subpacket of a type in the hashed (resp. unhashed) area *)
Definition find_sub (t : Z) (l : list (Z * bytes)) : option bytes :=
  option_map snd (find (fun p => fst p =? t) l).

(** transferable secret key: RFC 4880 11.2 *)
Record subkey_block := mk_block { sb_key : public_key; sb_secret : secret_part; sb_binding : sig_packet }.
Record transferable := mk_tsk {
  tk_key : public_key;
  tk_secret : secret_part;
  tk_uid : bytes;
  tk_cert : option sig_packet;
  tk_subkeys : list subkey_block
}.
Fixpoint read_blocks (ps : list (Z * bytes)) : option (list subkey_block) :=
  match ps with
  | [] => Some []
  | (7, k) :: (2, s) :: rest =>
      let? (pk, sec) := read_secret_key k in
      let? sg := read_signature s in
      let? bl := read_blocks rest in
      Some (mk_block pk sec sg :: bl)
  | _ => None
  end.
Definition read_transferable (l : bytes) : option transferable :=
  let? ps := read_packets l in
  match ps with
  | (5, k) :: (13, uid) :: rest =>
      let? (pk, sec) := read_secret_key k in
      let? (cert, rest) :=
        (match rest with
         | (2, s) :: rest' => let? sg := read_signature s in Some (Some sg, rest')
         | _ => Some (None, rest)
         end) in
      let? bl := read_blocks rest in
      Some (mk_tsk pk sec uid cert bl)
  | _ => None
  end.
