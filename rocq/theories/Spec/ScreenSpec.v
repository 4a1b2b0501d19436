(** A terminal, written from ECMA-48 and the DEC/SCO save and restore sequences, independent of the
    program that writes to it.  Characters are single bytes. *)
From Verif.Model Require Import GoBase.

(** The sheet of paper behind the window: every cell ever shown, by row and column.  The window shows the
    rows [s_top, s_top + height); rows scrolled out above stay in the scrollback.  [s_crowded] records that
    something was printed in the last column, after which a line wraps. *)
Inductive mode := Ground | Escape | Control (params : bytes).
Record screen := mk_screen {
  s_cell : Z -> Z -> Z;
  s_top : Z;
  s_row : Z;
  s_col : Z;
  s_saved : Z * Z;
  s_mode : mode;
  s_crowded : bool
}.
Definition blank : Z := 32.

Definition set_cell (cell : Z -> Z -> Z) (r c b : Z) : Z -> Z -> Z :=
  fun r' c' => if (r' =? r) && (c' =? c) then b else cell r' c'.
Definition erase_from (cell : Z -> Z -> Z) (r c : Z) : Z -> Z -> Z :=
  fun r' c' => if (r' =? r) && (c <=? c') then blank else cell r' c'.

(** down one row; on the last row the window moves and a blank row comes in *)
Definition line_feed (height : Z) (s : screen) : screen :=
  let r := s_row s + 1 in
  if r <? s_top s + height then mk_screen (s_cell s) (s_top s) r (s_col s) (s_saved s) Ground (s_crowded s)
  else mk_screen (erase_from (s_cell s) r 0) (s_top s + 1) r (s_col s) (s_saved s) Ground (s_crowded s).
Definition move (s : screen) (r c : Z) : screen :=
  mk_screen (s_cell s) (s_top s) r c (s_saved s) Ground (s_crowded s).
Definition print (width height : Z) (s : screen) (b : Z) : screen :=
  let cell := set_cell (s_cell s) (s_row s) (s_col s) b in
  if s_col s + 1 <? width then mk_screen cell (s_top s) (s_row s) (s_col s + 1) (s_saved s) Ground (s_crowded s)
  else line_feed height (mk_screen cell (s_top s) (s_row s) 0 (s_saved s) Ground true).
Definition set_mode (s : screen) (m : mode) : screen :=
  mk_screen (s_cell s) (s_top s) (s_row s) (s_col s) (s_saved s) m (s_crowded s).
Definition save (s : screen) : screen :=
  mk_screen (s_cell s) (s_top s) (s_row s) (s_col s) (s_row s - s_top s, s_col s) Ground (s_crowded s).
Definition restore (s : screen) : screen := move s (s_top s + fst (s_saved s)) (snd (s_saved s)).

(** Terminals know one or both of the two ways to save and restore the position: ESC 7 and ESC 8 of DEC,
    CSI s and CSI u of SCO.  They skip the one they do not know. *)
Inductive kind := DecOnly | ScoOnly | Both.
Existing Class kind.
Definition knows_dec (k : kind) : bool := match k with ScoOnly => false | _ => true end.
Definition knows_sco (k : kind) : bool := match k with DecOnly => false | _ => true end.

(** CPL (F), EL (K) with parameter 0 or none, SCO save (s) and restore (u); SGR (m) and all others change
    no cell and no position *)
Definition control {k : kind} (s : screen) (params : bytes) (final : Z) : screen :=
  if final =? 70 then
    match params with
    | [] => move s (Z.max (s_top s) (s_row s - 1)) 0
    | _ => set_mode s Ground
    end
  else if final =? 75 then
    if bytes_eqb params [] || bytes_eqb params [48] then
      mk_screen (erase_from (s_cell s) (s_row s) (s_col s)) (s_top s) (s_row s) (s_col s) (s_saved s) Ground (s_crowded s)
    else set_mode s Ground
  else if (final =? 115) && knows_sco k then save s
  else if (final =? 117) && knows_sco k then restore s
  else set_mode s Ground.
Definition receive {k : kind} (width height : Z) (s : screen) (b : Z) : screen :=
  match s_mode s with
  | Ground =>
      if b =? 27 then set_mode s Escape
      else if b =? 13 then move s (s_row s) 0
      else if b =? 10 then line_feed height s
      else if b =? 8 then move s (s_row s) (Z.max 0 (s_col s - 1))
      else if (b <? 32) || (b =? 127) then s
      else print width height s b
  | Escape =>
      if b =? 91 then set_mode s (Control [])
      else if (b =? 55) && knows_dec k then save s
      else if (b =? 56) && knows_dec k then restore s
      else set_mode s Ground
  | Control params =>
      if (48 <=? b) && (b <=? 63) then set_mode s (Control (params ++ [b]))
      else control s params b
  end.
Definition play {k : kind} (width height : Z) (s : screen) (l : bytes) : screen := fold_left (receive width height) l s.

(** the last column stays free while [l] is written *)
Definition roomy {k : kind} (width height : Z) (s : screen) (l : bytes) : Prop :=
  s_crowded (play width height (mk_screen (s_cell s) (s_top s) (s_row s) (s_col s) (s_saved s) (s_mode s) false) l) = false.

(** the normal mode of a terminal line: a new line starts in the first column *)
Definition cooked (l : bytes) : bytes := flat_map (fun b => if b =? 10 then [13; 10] else [b]) l.

(** the cursor is in the window *)
Definition in_window (width height : Z) (s : screen) : Prop :=
  s_top s <= s_row s < s_top s + height /\ 0 <= s_col s < width /\ s_mode s = Ground /\
  (forall r c, s_top s + height <= r -> s_cell s r c = blank).

(** texts written one over the other from the first column of a row, the last one first *)
Fixpoint overlay (base : Z -> Z) (texts : list bytes) (c : Z) : Z :=
  match texts with
  | [] => base c
  | t :: rest => if (0 <=? c) && (c <? zlen t) then nth (Z.to_nat c) t 0 else overlay base rest c
  end.
(** the notices of phrase entry, which tell nothing about the words but the version number of an
    unsupported phrase *)
Definition digit_text (t : bytes) : Prop := Forall (fun d => 48 <= d <= 57) t.
Definition notice (t : bytes) : Prop :=
  t = bs "No matching words found in the wordlist!" \/
  exists n, t = bs "invalid version number in recovery phrase: " ++ n /\ digit_text n /\ zlen n <= 2.

(** The characters a text shows: everything but escape sequences. *)
Fixpoint visible (m : mode) (l : bytes) : bytes :=
  match l with
  | [] => []
  | b :: l' =>
      match m with
      | Ground => if b =? 27 then visible Escape l' else b :: visible Ground l'
      | Escape => if b =? 91 then visible (Control []) l' else visible Ground l'
      | Control _ => if (48 <=? b) && (b <=? 63) then visible m l' else visible Ground l'
      end
  end.
Definition as_lines (lines : list bytes) : bytes := concat (map (fun l => l ++ [10]) lines).
(** label, colon, at least one space, value; the value starts in column [col] *)
Definition table_row (col : Z) (label value line : bytes) : Prop :=
  exists n, line = label ++ bs ":" ++ repeat 32 (S n) ++ value /\ zlen label + 2 + Z.of_nat n = col.
(** the number a text in decimal denotes *)
Definition decimal (t : bytes) : option Z :=
  match t with
  | [] => None
  | _ => if forallb (fun d => (48 <=? d) && (d <=? 57)) t then Some (fold_left (fun n d => 10 * n + (d - 48)) t 0) else None
  end.
(** the bytes a text in hexadecimal denotes *)
Definition hex_value (c : Z) : option Z :=
  if (48 <=? c) && (c <=? 57) then Some (c - 48) else if (65 <=? c) && (c <=? 70) then Some (c - 55) else None.
Fixpoint unhex (t : bytes) : option bytes :=
  match t with
  | [] => Some []
  | a :: b :: t' =>
      match hex_value a, hex_value b, unhex t' with
      | Some x, Some y, Some l => Some (16 * x + y :: l)
      | _, _, _ => None
      end
  | _ => None
  end.
