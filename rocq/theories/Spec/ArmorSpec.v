(** A reader of ASCII armor, written from RFC 4880 section 6. *)
From Verif.Model Require Import GoBase Env.
From Verif.Spec Require Import EnvSpec.

(** section 6.3 *)
Definition sextet (c : Z) : option Z :=
  if (65 <=? c) && (c <=? 90) then Some (c - 65)
  else if (97 <=? c) && (c <=? 122) then Some (c - 71)
  else if (48 <=? c) && (c <=? 57) then Some (c + 4)
  else if c =? 43 then Some 62
  else if c =? 47 then Some 63
  else None.
Definition pad : Z := 61.
(** groups of four characters; only the last one may be padded, and its unused bits must be 0 *)
Fixpoint unbase64 (t : bytes) : option bytes :=
  match t with
  | [] => Some []
  | a :: b :: c :: d :: t' =>
      match sextet a, sextet b with
      | Some x, Some y =>
          if (c =? pad) && (d =? pad) then
            match t' with [] => if y mod 16 =? 0 then Some [x * 4 + y / 16] else None | _ => None end
          else
            match sextet c with
            | None => None
            | Some z =>
                if d =? pad then
                  match t' with
                  | [] => if z mod 4 =? 0 then Some [x * 4 + y / 16; y mod 16 * 16 + z / 4] else None
                  | _ => None
                  end
                else
                  match sextet d, unbase64 t' with
                  | Some v, Some l => Some (x * 4 + y / 16 :: y mod 16 * 16 + z / 4 :: z mod 4 * 64 + v :: l)
                  | _, _ => None
                  end
            end
      | _, _ => None
      end
  | _ => None
  end.

(** section 6.1 *)
Definition crc24_shift (crc : Z) : Z :=
  let crc := crc * 2 in
  if Z.testbit crc 24 then Z.lxor crc 0x1864CFB else crc.
Definition crc24 (data : bytes) : Z :=
  fold_left (fun crc b => Nat.iter 8 crc24_shift (Z.lxor crc (b * 65536))) data 0xB704CE mod 2 ^ 24.

Fixpoint text_lines (t : bytes) : list bytes :=
  match t with
  | [] => [[]]
  | c :: t' =>
      if c =? 10 then [] :: text_lines t'
      else match text_lines t' with l :: ls => (c :: l) :: ls | [] => [[c]] end
  end.
Fixpoint strip_prefix (p l : bytes) : option bytes :=
  match p, l with
  | [], _ => Some l
  | x :: p', y :: l' => if x =? y then strip_prefix p' l' else None
  | _, [] => None
  end.
Definition strip_suffix (p l : bytes) : option bytes := option_map (@rev Z) (strip_prefix (rev p) (rev l)).
(** section 6.2: five dashes on both sides of the header line text *)
Definition marker (kind line : bytes) : option bytes :=
  match strip_prefix (bs "-----" ++ kind) line with
  | Some l => strip_suffix (bs "-----") l
  | None => None
  end.
(** armor headers up to a blank line *)
Fixpoint after_headers (ls : list bytes) : option (list bytes) :=
  match ls with
  | [] => None
  | [] :: ls' => Some ls'
  | l :: ls' => if existsb (Z.eqb 58) l then after_headers ls' else None
  end.
(** lines of data, the checksum line, and the rest; lines hold at most 76 characters *)
Fixpoint armor_body (ls : list bytes) : option (bytes * bytes * list bytes) :=
  match ls with
  | [] => None
  | l :: ls' =>
      match l with
      | 61 :: sum => Some ([], sum, ls')
      | _ => if zlen l >? 76 then None
             else match armor_body ls' with
                  | Some (data, sum, rest) => Some (l ++ data, sum, rest)
                  | None => None
                  end
      end
  end.
(** blank lines before the header line and after the tail line are ignored *)
Fixpoint drop_blank (ls : list bytes) : list bytes :=
  match ls with [] :: ls' => drop_blank ls' | _ => ls end.
Definition dearmor_lines (ls : list bytes) : option (bytes * bytes) :=
  match ls with
  | [] => None
  | first :: ls =>
      match marker (bs "BEGIN ") first, after_headers ls with
      | Some kind, Some ls =>
          match armor_body ls with
          | Some (data, sum, last :: trailer) =>
              match unbase64 data, unbase64 sum, marker (bs "END ") last with
              | Some d, Some s, Some kind' =>
                  if bytes_eqb kind kind' && (zlen s =? 3) && (be_uint s =? crc24 d) && forallb (fun l => bytes_eqb l []) trailer
                  then Some (kind, d) else None
              | _, _, _ => None
              end
          | _ => None
          end
      | _, _ => None
      end
  end.
Definition dearmor (text : bytes) : option (bytes * bytes) := dearmor_lines (drop_blank (text_lines text)).

(** golang.org/x/crypto/openpgp/armor: what Encode writes is read back. *)
Definition armor_ok (E : Env) : Prop :=
  forall kind data, Forall (fun b => 32 <= b <= 126) kind -> Forall byte data ->
    dearmor (armor_encode E kind data) = Some (kind, data).
