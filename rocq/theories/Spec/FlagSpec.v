(** Options on a command line and numbers as Go programs read them, independent of the parser. *)
From Verif.Model Require Import GoBase.

(** ** Integers (the Go language specification, "Integer literals") *)
Definition digit (c d : Z) : Prop :=
  (48 <= c <= 57 /\ d = c - 48) \/ (97 <= c <= 122 /\ d = c - 97 + 10) \/ (65 <= c <= 90 /\ d = c - 65 + 10).
(** digits below the base, possibly with single underscores between them, and their value *)
Inductive digit_run (base : Z) : bytes -> Z -> Prop :=
| Run_one c d : digit c d -> d < base -> digit_run base [c] d
| Run_more s v c d : digit_run base s v -> digit c d -> d < base -> digit_run base (s ++ [c]) (v * base + d)
| Run_under s v c d : digit_run base s v -> digit c d -> d < base -> digit_run base (s ++ [95; c]) (v * base + d).
(** an underscore may also follow the prefix *)
Definition prefixed_run (base : Z) (s : bytes) (v : Z) : Prop :=
  digit_run base s v \/ exists s', s = 95 :: s' /\ digit_run base s' v.
Inductive base_letter : Z -> Z -> Prop :=
| Binary c : c = 98 \/ c = 66 -> base_letter c 2
| Octal c : c = 111 \/ c = 79 -> base_letter c 8
| Hexadecimal c : c = 120 \/ c = 88 -> base_letter c 16.
Inductive integer : bytes -> Z -> Prop :=
| Int_zero : integer [48] 0
| Int_decimal c s v : c <> 48 -> digit_run 10 (c :: s) v -> integer (c :: s) v
| Int_octal s v : prefixed_run 8 s v -> integer (48 :: s) v
| Int_base p base s v : base_letter p base -> prefixed_run base s v -> integer (48 :: p :: s) v.

(** ** Options *)
Inductive kind := Switch | Number | Words.
Inductive setting := On (b : bool) | Num (n : Z) | Txt (t : bytes).
(** what a text means for an option *)
Definition true_texts : list bytes := [bs "1"; bs "t"; bs "T"; bs "true"; bs "TRUE"; bs "True"].
Definition false_texts : list bytes := [bs "0"; bs "f"; bs "F"; bs "false"; bs "FALSE"; bs "False"].
Inductive means : kind -> bytes -> setting -> Prop :=
| Means_true t : In t true_texts -> means Switch t (On true)
| Means_false t : In t false_texts -> means Switch t (On false)
| Means_number t n : integer t n -> n < 2 ^ 64 -> means Number t (Num n)
| Means_words t : means Words t (Txt t).
(** one or two dashes *)
Inductive dashed : bytes -> bytes -> Prop :=
| Dash body : dashed body (45 :: body)
| Dashes body : dashed body (45 :: 45 :: body).
(** an option with its value as one or two arguments *)
Inductive spelled (name : bytes) : kind -> setting -> list bytes -> Prop :=
| Spell_bare a : dashed name a -> spelled name Switch (On true) [a]
| Spell_equals k t v a : dashed (name ++ 61 :: t) a -> means k t v -> spelled name k v [a]
| Spell_next k t v a : k <> Switch -> dashed name a -> means k t v -> spelled name k v [a; t].

Definition table := list (bytes * kind).
(** [settings_then tab s args rest]: the settings [s], in some spelling, followed by [rest] *)
Inductive settings_then (tab : table) : list (bytes * setting) -> list bytes -> list bytes -> Prop :=
| Set_none rest : settings_then tab [] rest rest
| Set_one n k v opt s args rest : In (n, k) tab -> spelled n k v opt -> settings_then tab s args rest ->
    settings_then tab ((n, v) :: s) (opt ++ args) rest.
(** an argument that is no option: empty, a single dash, or not starting with a dash *)
Definition plain_argument (a : bytes) : Prop := a = [] \/ a = [45] \/ exists c r, a = c :: r /\ c <> 45.
(** where the options end, and the arguments that are left *)
Inductive options_end : list bytes -> list bytes -> Prop :=
| End_here : options_end [] []
| End_dashes rest : options_end ([45; 45] :: rest) rest
| End_plain a rest : plain_argument a -> options_end (a :: rest) (a :: rest).
Definition command_line (tab : table) (s : list (bytes * setting)) (args rest : list bytes) : Prop :=
  exists more, settings_then tab s args more /\ options_end more rest.

(** an argument that names an option: the name, and what follows the first equals sign *)
Definition option_name (n : bytes) : Prop := exists c r, n = c :: r /\ c <> 45 /\ ~ In 61 n.
Inductive names (a n : bytes) : Prop :=
| Names_bare : option_name n -> dashed n a -> names a n
| Names_equals t : option_name n -> dashed (n ++ 61 :: t) a -> names a n.
Definition help_names : list bytes := [bs "help"; bs "h"].
(** the settings are followed by a request for help *)
Definition help_line (tab : table) (args : list bytes) : Prop :=
  exists s a n rest, settings_then tab s args (a :: rest) /\ names a n /\ In n help_names /\ forall k, ~ In (n, k) tab.
(** the settings are followed by something wrong *)
Inductive wrong (tab : table) : list bytes -> Prop :=
| Wrong_dashes r rest : wrong tab ((45 :: 45 :: 45 :: r) :: rest)
| Wrong_equals a r rest : dashed (61 :: r) a -> wrong tab (a :: rest)
| Wrong_name a n rest : names a n -> (forall k, ~ In (n, k) tab) -> ~ In n help_names -> wrong tab (a :: rest)
| Wrong_value n k t a rest : In (n, k) tab -> dashed (n ++ 61 :: t) a -> (forall v, ~ means k t v) -> wrong tab (a :: rest)
| Wrong_next n k t a rest : In (n, k) tab -> k <> Switch -> dashed n a -> (forall v, ~ means k t v) -> wrong tab (a :: t :: rest)
| Wrong_missing n k a : In (n, k) tab -> k <> Switch -> dashed n a -> wrong tab [a].
Definition wrong_line (tab : table) (args : list bytes) : Prop :=
  exists s more, settings_then tab s args more /\ wrong tab more.

(** the last setting of an option counts *)
Fixpoint last_setting (s : list (bytes * setting)) (name : bytes) : option setting :=
  match s with
  | [] => None
  | (n, v) :: s' =>
      match last_setting s' name with
      | Some v' => Some v'
      | None => if list_eq_dec Z.eq_dec n name then Some v else None
      end
  end.
Definition switch_of (s : list (bytes * setting)) (name : String.string) (default : bool) : bool :=
  match last_setting s (bs name) with Some (On b) => b | _ => default end.
Definition number_of (s : list (bytes * setting)) (name : String.string) (default : Z) : Z :=
  match last_setting s (bs name) with Some (Num n) => n | _ => default end.
Definition text_of (s : list (bytes * setting)) (name : String.string) (default : bytes) : bytes :=
  match last_setting s (bs name) with Some (Txt t) => t | _ => default end.

Arguments switch_of s name%string_scope default.
Arguments number_of s name%string_scope default.
Arguments text_of s name%string_scope default.

(** ** The options of the commands (README.md:114-151, 274-290 and the help texts) *)
Definition generate_table : table :=
  [(bs "name", Words); (bs "email", Words); (bs "ttl", Words); (bs "only", Words); (bs "encrypt-keys", Switch);
   (bs "encrypt-phrase", Switch); (bs "out-word-file", Words); (bs "unsafe-entropy", Words); (bs "verbose", Switch)].
Definition recover_table : table :=
  [(bs "name", Words); (bs "email", Words); (bs "ttl", Words); (bs "only", Words); (bs "encrypt-keys", Switch);
   (bs "simple", Switch); (bs "in-word-file", Words); (bs "self-cert", Switch);
   (bs "enc-index", Number); (bs "auth-index", Number); (bs "sig-index", Number); (bs "verbose", Switch)].
Definition convert_table : table :=
  [(bs "simple", Switch); (bs "in-word-file", Words); (bs "out-word-file", Words); (bs "encrypt-phrase", Switch);
   (bs "verbose", Switch)].
