(** Packages unicode/utf8, unicode and strings of Go, as far as strings.ToLower and strings.TrimSpace use
    them.  A rune is a code point; bytes that are no UTF-8 count as U+FFFD, one byte each. *)
From Verif.Model Require Import GoBase.
From Verif.Spec Require Import SpaceSpec.

Definition rune_error : Z := 0xFFFD.
Definition is_tail (b : Z) : bool := (0x80 <=? b) && (b <=? 0xBF).
(** utf8.DecodeRune: the first rune and its width *)
Definition decode_rune (s : bytes) : Z * nat :=
  match s with
  | [] => (rune_error, 0%nat)
  | b0 :: s1 =>
      if b0 <? 0x80 then (b0, 1%nat)
      else if (b0 <? 0xC2) || (0xF4 <? b0) then (rune_error, 1%nat)
      else
        let lo := if b0 =? 0xE0 then 0xA0 else if b0 =? 0xF0 then 0x90 else 0x80 in
        let hi := if b0 =? 0xED then 0x9F else if b0 =? 0xF4 then 0x8F else 0xBF in
        match s1 with
        | [] => (rune_error, 1%nat)
        | b1 :: s2 =>
            if negb ((lo <=? b1) && (b1 <=? hi)) then (rune_error, 1%nat)
            else if b0 <? 0xE0 then (b0 mod 32 * 64 + b1 mod 64, 2%nat)
            else
              match s2 with
              | [] => (rune_error, 1%nat)
              | b2 :: s3 =>
                  if negb (is_tail b2) then (rune_error, 1%nat)
                  else if b0 <? 0xF0 then (b0 mod 16 * 4096 + b1 mod 64 * 64 + b2 mod 64, 3%nat)
                  else
                    match s3 with
                    | [] => (rune_error, 1%nat)
                    | b3 :: _ =>
                        if negb (is_tail b3) then (rune_error, 1%nat)
                        else (b0 mod 8 * 262144 + b1 mod 64 * 4096 + b2 mod 64 * 64 + b3 mod 64, 4%nat)
                    end
              end
        end
  end.
(** utf8.DecodeLastRune: from the last byte back to the start of a rune, at most four bytes.
    [back] counts the bytes, given the ones before the last in reverse. *)
Fixpoint back (r : bytes) (fuel k : nat) : nat :=
  match r with
  | [] => k
  | x :: r' =>
      match fuel with
      | O => S k
      | S f => if is_tail x then back r' f (S k) else S k
      end
  end.
Definition decode_last_rune (s : bytes) : Z * nat :=
  match rev s with
  | [] => (rune_error, 0%nat)
  | b :: r =>
      if b <? 0x80 then (b, 1%nat)
      else
        let k := back r 3 1 in
        let (c, n) := decode_rune (skipn (length s - k) s) in
        if Nat.eqb n k then (c, n) else (rune_error, 1%nat)
  end.

(** unicode.IsSpace *)
Definition is_space (r : Z) : bool :=
  if r <=? 0xFF then ((9 <=? r) && (r <=? 13)) || (r =? 32) || (r =? 0x85) || (r =? 0xA0)
  else (r =? 0x1680) || ((0x2000 <=? r) && (r <=? 0x200A)) || (r =? 0x2028) || (r =? 0x2029) ||
       (r =? 0x202F) || (r =? 0x205F) || (r =? 0x3000).
(** strings.TrimSpace: TrimLeftFunc, then TrimRightFunc.  (Its fast paths for ASCII give the same.) *)
Fixpoint trim_left (fuel : nat) (s : bytes) : bytes :=
  match fuel, s with
  | S f, _ :: _ => let (r, n) := decode_rune s in if is_space r then trim_left f (skipn n s) else s
  | _, _ => s
  end.
Fixpoint trim_right (fuel : nat) (s : bytes) : bytes :=
  match fuel, s with
  | S f, _ :: _ =>
      let (r, n) := decode_last_rune s in if is_space r then trim_right f (firstn (length s - n) s) else s
  | _, _ => s
  end.
Definition std_trim (s : bytes) : bytes :=
  let s := trim_left (length s) s in trim_right (length s) s.

(** The simple lower case mappings of UnicodeData.txt (field 13) beyond ASCII, version 14: first, last, step,
    difference.  Other versions, and so other Go releases, differ in scripts added later, none of which has a
    mapping to ASCII. *)
Definition lower_table : list (Z * Z * Z * Z) :=
  [
   (0x00C0, 0x00D6, 1, 32); (0x00D8, 0x00DE, 1, 32); (0x0100, 0x012E, 2, 1); (0x0130, 0x0130, 1, (-199));
   (0x0132, 0x0136, 2, 1); (0x0139, 0x0147, 2, 1); (0x014A, 0x0176, 2, 1); (0x0178, 0x0178, 1, (-121));
   (0x0179, 0x017D, 2, 1); (0x0181, 0x0181, 1, 210); (0x0182, 0x0184, 2, 1); (0x0186, 0x0186, 1, 206);
   (0x0187, 0x0187, 1, 1); (0x0189, 0x018A, 1, 205); (0x018B, 0x018B, 1, 1); (0x018E, 0x018E, 1, 79);
   (0x018F, 0x018F, 1, 202); (0x0190, 0x0190, 1, 203); (0x0191, 0x0191, 1, 1); (0x0193, 0x0193, 1, 205);
   (0x0194, 0x0194, 1, 207); (0x0196, 0x0196, 1, 211); (0x0197, 0x0197, 1, 209); (0x0198, 0x0198, 1, 1);
   (0x019C, 0x019C, 1, 211); (0x019D, 0x019D, 1, 213); (0x019F, 0x019F, 1, 214); (0x01A0, 0x01A4, 2, 1);
   (0x01A6, 0x01A6, 1, 218); (0x01A7, 0x01A7, 1, 1); (0x01A9, 0x01A9, 1, 218); (0x01AC, 0x01AC, 1, 1);
   (0x01AE, 0x01AE, 1, 218); (0x01AF, 0x01AF, 1, 1); (0x01B1, 0x01B2, 1, 217); (0x01B3, 0x01B5, 2, 1);
   (0x01B7, 0x01B7, 1, 219); (0x01B8, 0x01B8, 1, 1); (0x01BC, 0x01BC, 1, 1); (0x01C4, 0x01C4, 1, 2);
   (0x01C5, 0x01C5, 1, 1); (0x01C7, 0x01C7, 1, 2); (0x01C8, 0x01C8, 1, 1); (0x01CA, 0x01CA, 1, 2);
   (0x01CB, 0x01DB, 2, 1); (0x01DE, 0x01EE, 2, 1); (0x01F1, 0x01F1, 1, 2); (0x01F2, 0x01F4, 2, 1);
   (0x01F6, 0x01F6, 1, (-97)); (0x01F7, 0x01F7, 1, (-56)); (0x01F8, 0x021E, 2, 1); (0x0220, 0x0220, 1, (-130));
   (0x0222, 0x0232, 2, 1); (0x023A, 0x023A, 1, 10795); (0x023B, 0x023B, 1, 1); (0x023D, 0x023D, 1, (-163));
   (0x023E, 0x023E, 1, 10792); (0x0241, 0x0241, 1, 1); (0x0243, 0x0243, 1, (-195)); (0x0244, 0x0244, 1, 69);
   (0x0245, 0x0245, 1, 71); (0x0246, 0x024E, 2, 1); (0x0370, 0x0372, 2, 1); (0x0376, 0x0376, 1, 1);
   (0x037F, 0x037F, 1, 116); (0x0386, 0x0386, 1, 38); (0x0388, 0x038A, 1, 37); (0x038C, 0x038C, 1, 64);
   (0x038E, 0x038F, 1, 63); (0x0391, 0x03A1, 1, 32); (0x03A3, 0x03AB, 1, 32); (0x03CF, 0x03CF, 1, 8);
   (0x03D8, 0x03EE, 2, 1); (0x03F4, 0x03F4, 1, (-60)); (0x03F7, 0x03F7, 1, 1); (0x03F9, 0x03F9, 1, (-7));
   (0x03FA, 0x03FA, 1, 1); (0x03FD, 0x03FF, 1, (-130)); (0x0400, 0x040F, 1, 80); (0x0410, 0x042F, 1, 32);
   (0x0460, 0x0480, 2, 1); (0x048A, 0x04BE, 2, 1); (0x04C0, 0x04C0, 1, 15); (0x04C1, 0x04CD, 2, 1);
   (0x04D0, 0x052E, 2, 1); (0x0531, 0x0556, 1, 48); (0x10A0, 0x10C5, 1, 7264); (0x10C7, 0x10C7, 1, 7264);
   (0x10CD, 0x10CD, 1, 7264); (0x13A0, 0x13EF, 1, 38864); (0x13F0, 0x13F5, 1, 8); (0x1C90, 0x1CBA, 1, (-3008));
   (0x1CBD, 0x1CBF, 1, (-3008)); (0x1E00, 0x1E94, 2, 1); (0x1E9E, 0x1E9E, 1, (-7615)); (0x1EA0, 0x1EFE, 2, 1);
   (0x1F08, 0x1F0F, 1, (-8)); (0x1F18, 0x1F1D, 1, (-8)); (0x1F28, 0x1F2F, 1, (-8)); (0x1F38, 0x1F3F, 1, (-8));
   (0x1F48, 0x1F4D, 1, (-8)); (0x1F59, 0x1F5F, 2, (-8)); (0x1F68, 0x1F6F, 1, (-8)); (0x1F88, 0x1F8F, 1, (-8));
   (0x1F98, 0x1F9F, 1, (-8)); (0x1FA8, 0x1FAF, 1, (-8)); (0x1FB8, 0x1FB9, 1, (-8)); (0x1FBA, 0x1FBB, 1, (-74));
   (0x1FBC, 0x1FBC, 1, (-9)); (0x1FC8, 0x1FCB, 1, (-86)); (0x1FCC, 0x1FCC, 1, (-9)); (0x1FD8, 0x1FD9, 1, (-8));
   (0x1FDA, 0x1FDB, 1, (-100)); (0x1FE8, 0x1FE9, 1, (-8)); (0x1FEA, 0x1FEB, 1, (-112));
   (0x1FEC, 0x1FEC, 1, (-7)); (0x1FF8, 0x1FF9, 1, (-128)); (0x1FFA, 0x1FFB, 1, (-126));
   (0x1FFC, 0x1FFC, 1, (-9)); (0x2126, 0x2126, 1, (-7517)); (0x212A, 0x212A, 1, (-8383));
   (0x212B, 0x212B, 1, (-8262)); (0x2132, 0x2132, 1, 28); (0x2160, 0x216F, 1, 16); (0x2183, 0x2183, 1, 1);
   (0x24B6, 0x24CF, 1, 26); (0x2C00, 0x2C2F, 1, 48); (0x2C60, 0x2C60, 1, 1); (0x2C62, 0x2C62, 1, (-10743));
   (0x2C63, 0x2C63, 1, (-3814)); (0x2C64, 0x2C64, 1, (-10727)); (0x2C67, 0x2C6B, 2, 1);
   (0x2C6D, 0x2C6D, 1, (-10780)); (0x2C6E, 0x2C6E, 1, (-10749)); (0x2C6F, 0x2C6F, 1, (-10783));
   (0x2C70, 0x2C70, 1, (-10782)); (0x2C72, 0x2C72, 1, 1); (0x2C75, 0x2C75, 1, 1);
   (0x2C7E, 0x2C7F, 1, (-10815)); (0x2C80, 0x2CE2, 2, 1); (0x2CEB, 0x2CED, 2, 1); (0x2CF2, 0x2CF2, 1, 1);
   (0xA640, 0xA66C, 2, 1); (0xA680, 0xA69A, 2, 1); (0xA722, 0xA72E, 2, 1); (0xA732, 0xA76E, 2, 1);
   (0xA779, 0xA77B, 2, 1); (0xA77D, 0xA77D, 1, (-35332)); (0xA77E, 0xA786, 2, 1); (0xA78B, 0xA78B, 1, 1);
   (0xA78D, 0xA78D, 1, (-42280)); (0xA790, 0xA792, 2, 1); (0xA796, 0xA7A8, 2, 1);
   (0xA7AA, 0xA7AA, 1, (-42308)); (0xA7AB, 0xA7AB, 1, (-42319)); (0xA7AC, 0xA7AC, 1, (-42315));
   (0xA7AD, 0xA7AD, 1, (-42305)); (0xA7AE, 0xA7AE, 1, (-42308)); (0xA7B0, 0xA7B0, 1, (-42258));
   (0xA7B1, 0xA7B1, 1, (-42282)); (0xA7B2, 0xA7B2, 1, (-42261)); (0xA7B3, 0xA7B3, 1, 928);
   (0xA7B4, 0xA7C2, 2, 1); (0xA7C4, 0xA7C4, 1, (-48)); (0xA7C5, 0xA7C5, 1, (-42307));
   (0xA7C6, 0xA7C6, 1, (-35384)); (0xA7C7, 0xA7C9, 2, 1); (0xA7D0, 0xA7D0, 1, 1); (0xA7D6, 0xA7D8, 2, 1);
   (0xA7F5, 0xA7F5, 1, 1); (0xFF21, 0xFF3A, 1, 32); (0x10400, 0x10427, 1, 40); (0x104B0, 0x104D3, 1, 40);
   (0x10570, 0x1057A, 1, 39); (0x1057C, 0x1058A, 1, 39); (0x1058C, 0x10592, 1, 39); (0x10594, 0x10595, 1, 39);
   (0x10C80, 0x10CB2, 1, 64); (0x118A0, 0x118BF, 1, 32); (0x16E40, 0x16E5F, 1, 32); (0x1E900, 0x1E921, 1, 34)
  ].
Fixpoint find_range (t : list (Z * Z * Z * Z)) (r : Z) : Z :=
  match t with
  | [] => r
  | (lo, hi, step, d) :: t' => if (lo <=? r) && (r <=? hi) && ((r - lo) mod step =? 0) then r + d else find_range t' r
  end.
(** unicode.ToLower *)
Definition lower_rune (r : Z) : Z :=
  if r <? 0x80 then (if (65 <=? r) && (r <=? 90) then r + 32 else r)
  else find_range lower_table r.
(** strings.Map(unicode.ToLower, s) *)
Fixpoint runes (fuel : nat) (s : bytes) : list Z :=
  match fuel, s with
  | S f, _ :: _ => let (r, n) := decode_rune s in r :: runes f (skipn n s)
  | _, _ => []
  end.
Definition std_lower (s : bytes) : bytes := flat_map (fun r => utf8 (lower_rune r)) (runes (length s) s).
