(** Packages encoding/base64 of Go and golang.org/x/crypto/openpgp/armor (encode.go): the text armor.Encode
    produces for a block type, no headers and [data].  The line breaker puts a newline between lines of 64
    characters, and Close writes a newline, the checksum and the last line, without a newline after it. *)
From Verif.Model Require Import GoBase.
From Verif.Spec Require Import ArmorSpec.

Definition base64_char (x : Z) : Z :=
  if x <? 26 then 65 + x else if x <? 52 then 71 + x else if x <? 62 then x - 4 else if x =? 62 then 43 else 47.
Fixpoint base64 (l : bytes) : bytes :=
  match l with
  | [] => []
  | [a] => [base64_char (a / 4); base64_char (a mod 4 * 16); pad; pad]
  | [a; b] => [base64_char (a / 4); base64_char (a mod 4 * 16 + b / 16); base64_char (b mod 16 * 4); pad]
  | a :: b :: c :: l' =>
      base64_char (a / 4) :: base64_char (a mod 4 * 16 + b / 16) :: base64_char (b mod 16 * 4 + c / 64) ::
      base64_char (c mod 64) :: base64 l'
  end.
Fixpoint lines64 (fuel : nat) (t : bytes) : bytes :=
  match fuel with
  | O => t
  | S f => if zlen t <=? 64 then t else firstn 64 t ++ [10] ++ lines64 f (skipn 64 t)
  end.
Definition std_armor (kind data : bytes) : bytes :=
  bs "-----BEGIN " ++ kind ++ bs "-----" ++ [10] ++ [10] ++
  lines64 (length (base64 data)) (base64 data) ++
  [10; pad] ++ base64 (be_bytes 3 (crc24 data)) ++ [10] ++
  bs "-----END " ++ kind ++ bs "-----".
