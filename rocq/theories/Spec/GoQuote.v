(** fmt's verb %q for a string: strconv.Quote of Go 1.20 (strconv/quote.go).  [above] is strconv.IsPrint
    for the code points from U+0100 on, a table of the Unicode version of the Go release. *)
From Verif.Model Require Import GoBase.
From Verif.Spec Require Import SpaceSpec GoText.

(** strconv.IsPrint *)
Definition is_print (above : Z -> bool) (r : Z) : bool :=
  if r <=? 0xFF then
    if (0x20 <=? r) && (r <? 0x7F) then true
    else if (0xA1 <=? r) && (r <=? 0xFF) then negb (r =? 0xAD) else false
  else above r.
(** lowerhex *)
Definition lower_hex (n : Z) : Z := nth (Z.to_nat n) (bs "0123456789abcdef") 0.
Definition hex_from (r : Z) (shifts : list Z) : bytes := map (fun s => lower_hex (Z.land (Z.shiftr r s) 0xF)) shifts.
(** appendEscapedRune with a double quote as quote, ASCIIonly = graphicOnly = false *)
Definition escaped_rune (above : Z -> bool) (r : Z) : bytes :=
  if (r =? 34) || (r =? 92) then [92; r]
  else if is_print above r then utf8 r
  else if r =? 7 then bs "\a"
  else if r =? 8 then bs "\b"
  else if r =? 12 then bs "\f"
  else if r =? 10 then bs "\n"
  else if r =? 13 then bs "\r"
  else if r =? 9 then bs "\t"
  else if r =? 11 then bs "\v"
  else if (r <? 32) || (r =? 0x7F) then bs "\x" ++ hex_from r [4; 0]
  else if r <? 0x10000 then bs "\u" ++ hex_from r [12; 8; 4; 0]
  else bs "\U" ++ hex_from r [28; 24; 20; 16; 12; 8; 4; 0].
(** the loop of appendQuotedWith *)
Fixpoint quoted_runes (above : Z -> bool) (fuel : nat) (s : bytes) : bytes :=
  match fuel, s with
  | S f, b :: _ =>
      let (r, width) := decode_rune s in
      (if Nat.eqb width 1 && (r =? rune_error) then bs "\x" ++ hex_from b [4; 0] else escaped_rune above r) ++
      quoted_runes above f (skipn width s)
  | _, _ => []
  end.
Definition go_quote (above : Z -> bool) (s : bytes) : bytes := [34] ++ quoted_runes above (length s) s ++ [34].
