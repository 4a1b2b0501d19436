(** hash/crc32.ChecksumIEEE (used at encoding.go:19 and recovery.go:218), modelled concretely:
    reflected polynomial 0xEDB88320, register initialised to and finally xored with 0xFFFFFFFF. *)
From Verif.Model Require Import GoBase.

Definition crc_poly : Z := 0xEDB88320.
Definition crc_mask : Z := 0xFFFFFFFF.

Definition crc_shift (c : Z) : Z :=
  if Z.odd c then Z.lxor (Z.shiftr c 1) crc_poly else Z.shiftr c 1.

Definition crc_byte (c b : Z) : Z :=
  crc_shift (crc_shift (crc_shift (crc_shift
  (crc_shift (crc_shift (crc_shift (crc_shift (Z.lxor c b)))))))).

Definition crc_register (init : Z) (l : bytes) : Z := fold_left crc_byte l init.

Definition crc32 (l : bytes) : Z := Z.lxor (crc_register crc_mask l) crc_mask.
