(** Text as Unicode code points, and the words in it. *)
From Verif.Model Require Import GoBase.

Definition code_point (c : Z) : Prop := 0 <= c < 0xD800 \/ 0xE000 <= c < 0x110000.
(** UTF-8 (RFC 3629, section 3) *)
Definition utf8 (c : Z) : bytes :=
  if c <? 0x80 then [c]
  else if c <? 0x800 then [0xC0 + c / 64; 0x80 + c mod 64]
  else if c <? 0x10000 then [0xE0 + c / 4096; 0x80 + c / 64 mod 64; 0x80 + c mod 64]
  else [0xF0 + c / 262144; 0x80 + c / 4096 mod 64; 0x80 + c / 64 mod 64; 0x80 + c mod 64].
Definition utf8_text (l : list Z) : bytes := flat_map utf8 l.
(** the code points with the property White_Space (Unicode 15, PropList.txt) *)
Definition white (c : Z) : Prop :=
  In c ([0x9; 0xA; 0xB; 0xC; 0xD; 0x20; 0x85; 0xA0; 0x1680] ++
        [0x2000; 0x2001; 0x2002; 0x2003; 0x2004; 0x2005; 0x2006; 0x2007; 0x2008; 0x2009; 0x200A] ++
        [0x2028; 0x2029; 0x202F; 0x205F; 0x3000]).
(** a word: code points that are no white space, of less than 64 KiB with the following separator *)
Definition word_of (t : list Z) : Prop :=
  t <> [] /\ Forall (fun c => code_point c /\ ~ white c) t /\ zlen (utf8_text t) <= 65533.
Inductive worded : list Z -> list (list Z) -> Prop :=
| Worded_end s : Forall white s -> worded s []
| Worded_last s t : Forall white s -> word_of t -> worded (s ++ t) [t]
| Worded_more s t b c ts : Forall white s -> word_of t -> white b -> worded c ts -> worded (s ++ t ++ b :: c) (t :: ts).
