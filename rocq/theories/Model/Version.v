(** Model of /repo/parameters.go and /repo/version.go. *)
From Verif.Model Require Import GoBase Env.

(** parameters.go:21,24 *)
Definition version_latest : Z := 1.
Definition era_latest : Z := 0.

(** parameters.go:29-44 *)
Definition version_bits : Z := 4.
Definition offset_bits : Z := 31.
Definition checksum_bits : Z := 5.
Definition entropy_bits : Z := 128.
Definition salt_bits : Z := 19.
Definition verify_bits : Z := 5.

(** parameters.go:48-49 *)
Definition checksum_mask : Z := Z.shiftl 1 checksum_bits - 1.
Definition verify_mask : Z := Z.shiftl 1 verify_bits - 1.

(** version.go:30-35 *)
Definition era_check (era : Z) : res unit :=
  if (era >? era_latest) || (era <? 0) then Err ErrInvalidEraNumber else Ok tt.

(** version.go:59-65 *)
Definition version_era (v : Z) : Z := if (v =? 0) || (v =? 1) then 0 else -1.

(** version.go:67-72 *)
Definition version_check (v : Z) : res unit :=
  if v >? version_latest then Err ErrInvalidVersionNumber else Ok tt.

(** version.go:74-92 *)
Definition payload_bit_count (v : Z) : Z :=
  if v =? 0 then version_bits + offset_bits + checksum_bits + entropy_bits
  else if v =? 1 then
    version_bits + offset_bits + checksum_bits + entropy_bits + salt_bits + verify_bits
  else 0.

(** version.go:96-98 *)
Definition mnemonic_size (v : Z) : Z := payload_bit_count v / bits_per_word.

(** version.go:102-104 *)
Definition version_encrypted (v : Z) : bool := v =? 1.
