(** Model of /repo/mnemonic/encode.go and /repo/mnemonic/decode.go. *)
From Verif.Model Require Import GoBase Env.

(** mnemonic/encode.go:16 *)
Definition word_mask : Z := Z.shiftl 1 bits_per_word - 1.

(** mnemonic/encode.go:38-41: the loop "for i := nWords-1; payloadInt.BitLen() > 0; i--".
    [k] is i+1, so running out of it is the out-of-range index panic; [acc] holds the entries
    already written after position i and the untouched entries before it are zero. *)
Fixpoint encode_loop (k : nat) (payload : Z) (acc : list Z) : res (list Z * Z) :=
  if bit_len payload >? 0 then
    match k with
    | O => Panic
    | S k' =>
        encode_loop k' (Z.shiftr payload bits_per_word)
                    (u16 (big_uint64 (Z.land payload word_mask)) :: acc)
    end
  else Ok (repeat 0 k ++ acc, payload).

(** mnemonic/encode.go:36: the number of words, in arithmetic modulo 2^64 (uint on a 64-bit
    machine) *)
Definition word_count (bit_size : Z) : Z := u64 (bit_size + bits_per_word - 1) / bits_per_word.
(** make([]uint16, n) of mnemonic/encode.go:37: the runtime (makeslice) panics when the slice
    would take more than 2^48 bytes, the limit of the 64-bit platforms with 48-bit addresses.
    That the machine has the memory for the smaller ones is assumed. *)
Definition make_uint16_ok (n : Z) : bool := 2 * n <=? 2 ^ 48.

(** mnemonic/encode.go:31-43.  Returns the indices and the value left in the caller's
    *big.Int, which the function shifts in place (line 40). *)
Definition encode_to_indices (payload bit_size : Z) : res (list Z * Z) :=
  if bit_len payload >? bit_size then Err ErrPayloadTooLarge
  else if negb (make_uint16_ok (word_count bit_size)) then Panic
  else encode_loop (Z.to_nat (word_count bit_size)) payload [].

(** mnemonic/encode.go:50-59 *)
Fixpoint encode_to_words (E : Env) (indices : list Z) : res (list bytes) :=
  match indices with
  | [] => Ok []
  | i :: rest =>
      if bit_len i >? bits_per_word then Err ErrInvalidIndex
      else
        let* w := go_index (wl_words E) (Z.to_nat i) in
        let* ws := encode_to_words E rest in
        Ok (w :: ws)
  end.

(** mnemonic/decode.go:20-32 *)
Fixpoint decode_indices_from (acc : Z) (indices : list Z) : res Z :=
  match indices with
  | [] => Ok acc
  | i :: rest =>
      if bit_len i >? bits_per_word then Err ErrInvalidIndex
      else decode_indices_from (Z.lor (Z.shiftl acc bits_per_word) i) rest
  end.
Definition decode_indices (indices : list Z) : res Z := decode_indices_from 0 indices.

(** mnemonic/decode.go:38-48 *)
Fixpoint decode_words (E : Env) (words : list bytes) : res (list Z) :=
  match words with
  | [] => Ok []
  | w :: rest =>
      match word_map E (to_lower E w) with
      | None => Err ErrInvalidWord
      | Some i => let* is := decode_words E rest in Ok (i :: is)
      end
  end.
