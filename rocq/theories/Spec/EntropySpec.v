(** Where the bytes come from that generate and recover draw. *)
From Verif.Model Require Import GoBase CliText CliFlags CliMain.

(** the bytes the option unsafe-entropy stands for: those of the system's random source, of standard input or of a file *)
Definition entropy_source (g : generate_options) (w : world) : option bytes :=
  match go_entropy g with
  | [] => Some (w_random w)
  | path =>
      if bytes_eqb path [45] then Some (w_stdin w)
      else match w_files w path with File content => Some content | _ => None end
  end.
(** the system's random bytes that are left for salts *)
Definition salt_source (g : generate_options) (w : world) : bytes :=
  match go_entropy g with [] => skipn 16 (w_random w) | _ => w_random w end.
(** the one phrase of the run: on the terminal, or in the file asked for, all other files as before *)
Definition phrase_given (g : generate_options) (w w' : world) (words : list bytes) : Prop :=
  match go_out_file g with
  | [] => w_shown w' = w_shown w ++ [words] /\ w_files w' = w_files w
  | path => w_shown w' = w_shown w /\ w_files w' path = File (join [32] words ++ [10]) /\
            forall p, p <> path -> w_files w' p = w_files w p
  end.
(** no phrase, no key and no file *)
Definition nothing_given (w w' : world) : Prop :=
  w_shown w' = w_shown w /\ w_stdout w' = w_stdout w /\ w_files w' = w_files w.
