(** Model of /repo/bit_buffer.go. *)
From Verif.Model Require Import GoBase.

(** bit_buffer.go:10-13.  nBits is a Go uint; sizes here stay far below 2^63, so its
    wrap-around and the int(nBits) conversions are not represented. *)
Record bitbuf := mk_bb { bb_value : Z; bb_nbits : Z }.

(** bit_buffer.go:15-24 *)
Definition new_bitbuf (value nbits : Z) : res bitbuf :=
  if bit_len value >? nbits then Panic else Ok (mk_bb value nbits).

(** bit_buffer.go:28-51.  Returns the popped bits and the updated buffer. *)
Definition pop_trailing (bb : bitbuf) (n : Z) : res (Z * bitbuf) :=
  if n >? bb_nbits bb then Panic
  else
    let mask := Z.shiftl 1 n - 1 in
    let bits := Z.land mask (bb_value bb) in
    Ok (bits, mk_bb (Z.shiftr (bb_value bb) n) (bb_nbits bb - n)).

(** bit_buffer.go:55-80 *)
Definition pop_leading (bb : bitbuf) (n : Z) : res (Z * bitbuf) :=
  if n >? bb_nbits bb then Panic
  else
    let mask := Z.shiftl 1 n - 1 in
    let bits := Z.land mask (Z.shiftr (bb_value bb) (bb_nbits bb - n)) in
    let mask' := Z.shiftl bits (bb_nbits bb - n) in
    Ok (bits, mk_bb (Z.lxor (bb_value bb) mask') (bb_nbits bb - n)).

(** bit_buffer.go:83-95 *)
Definition append_leading (bb : bitbuf) (value nbits : Z) : res bitbuf :=
  if bit_len value >? nbits then Panic
  else Ok (mk_bb (Z.lor (bb_value bb) (Z.shiftl value (bb_nbits bb))) (bb_nbits bb + nbits)).

(** bit_buffer.go:98-110 *)
Definition append_trailing (bb : bitbuf) (value nbits : Z) : res bitbuf :=
  if bit_len value >? nbits then Panic
  else Ok (mk_bb (Z.lor (Z.shiftl (bb_value bb) nbits) value) (bb_nbits bb + nbits)).

(** bit_buffer.go:115-117 *)
Definition bb_bytes (bb : bitbuf) : res bytes :=
  fill_bytes (bb_value bb) (Z.to_nat ((bb_nbits bb + 7) / 8)).

(** bit_buffer.go:125-127 *)
Definition bb_len (bb : bitbuf) : Z := bb_nbits bb.
