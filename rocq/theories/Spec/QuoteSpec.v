(** Interpreted string literals (The Go Programming Language Specification, "String literals" and "Rune
    literals"), without octal escapes: which bytes a text between quotes stands for. *)
From Verif.Model Require Import GoBase.
From Verif.Spec Require Import SpaceSpec.

Definition hex_digit (c n : Z) : Prop := (48 <= c <= 57 /\ n = c - 48) \/ (97 <= c <= 102 /\ n = c - 87) \/ (65 <= c <= 70 /\ n = c - 55).
Inductive hex_number : bytes -> Z -> Prop :=
| Hex_none : hex_number [] 0
| Hex_more t n c d : hex_number t n -> hex_digit c d -> hex_number (t ++ [c]) (n * 16 + d).
(** the single-character escapes: a b f n r t v, the backslash and the double quote *)
Definition escapes : list (Z * Z) := [(97, 7); (98, 8); (102, 12); (110, 10); (114, 13); (116, 9); (118, 11); (92, 92); (34, 34)].
Inductive stands_for : bytes -> bytes -> Prop :=
| Stands_end : stands_for [] []
| Stands_plain b t s : b <> 34 -> b <> 92 -> b <> 10 -> stands_for t s -> stands_for (b :: t) (b :: s)
| Stands_escape c b t s : In (c, b) escapes -> stands_for t s -> stands_for (92 :: c :: t) (b :: s)
| Stands_byte h n t s : length h = 2%nat -> hex_number h n -> stands_for t s -> stands_for (92 :: 120 :: h ++ t) (n :: s)
| Stands_short h n t s : length h = 4%nat -> hex_number h n -> code_point n -> stands_for t s -> stands_for (92 :: 117 :: h ++ t) (utf8 n ++ s)
| Stands_long h n t s : length h = 8%nat -> hex_number h n -> code_point n -> stands_for t s -> stands_for (92 :: 85 :: h ++ t) (utf8 n ++ s).
Definition literal (text s : bytes) : Prop := exists t, text = bs """" ++ t ++ bs """" /\ stands_for t s.

(** characters that show: no control characters of ASCII or Latin-1, no soft hyphen or no-break space, and
    above them what [above] says *)
Definition shows (above : Z -> bool) (c : Z) : Prop :=
  0x20 <= c <= 0x7E \/ (0xA1 <= c <= 0xFF /\ c <> 0xAD) \/ (0x100 <= c /\ code_point c /\ above c = true).
