(** What a help text shows, independent of how it is laid out. *)
From Verif.Model Require Import GoBase.
From Verif.Spec Require Import TextSpec.

(** text without the escape sequences of colours and weights: ESC up to the letter m *)
Fixpoint visible_from (inside : bool) (l : bytes) : bytes :=
  match l with
  | [] => []
  | c :: l' => if inside then visible_from (negb (c =? 109)) l'
               else if c =? 27 then visible_from true l' else c :: visible_from false l'
  end.
Definition visible (l : bytes) : bytes := visible_from false l.
(** words between blanks and line ends *)
Definition text_words (l : bytes) : list bytes := blank_words (map (fun c => if c =? 10 then 32 else c) l).
Definition no_back_quotes (l : bytes) : bytes := filter (fun c => negb (c =? 96)) l.

(** the options of the commands in the order of their names: name, name of the value, default *)
Definition help_row := (bytes * (bytes * bytes))%type.
Definition row (name value default : String.string) : help_row := (bs name, (bs value, bs default)).
Arguments row name%string_scope value%string_scope default%string_scope.
Definition generate_rows : list help_row :=
  [row "email" "string" ""; row "encrypt-keys" "" "false"; row "encrypt-phrase" "" "false"; row "name" "string" """anonymous""";
   row "only" "types" ""; row "out-word-file" "file" ""; row "ttl" "period" ""; row "unsafe-entropy" "file" ""; row "verbose" "" "false"].
Definition recover_rows : list help_row :=
  [row "auth-index" "index" "0"; row "email" "string" ""; row "enc-index" "index" "0"; row "encrypt-keys" "" "false";
   row "in-word-file" "file" ""; row "name" "string" """anonymous"""; row "only" "types" ""; row "self-cert" "" "true";
   row "sig-index" "index" "0"; row "simple" "" "false"; row "ttl" "period" ""; row "verbose" "" "false"].
Definition convert_rows : list help_row :=
  [row "encrypt-phrase" "" "false"; row "in-word-file" "file" ""; row "out-word-file" "file" ""; row "simple" "" "false"; row "verbose" "" "false"].
(** the words shown for an option with a given description *)
Definition row_words (describe : bytes -> bytes) (r : help_row) : list bytes :=
  let '(name, (value, default)) := r in
  [45 :: name] ++ text_words value ++ text_words (visible (no_back_quotes (describe name))) ++
  (match default with [] => [] | _ => [bs "(default"; default ++ bs ")"] end).
