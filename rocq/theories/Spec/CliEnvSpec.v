(** Further assumptions on the external functions, needed for the command line only. *)
From Verif.Model Require Import GoBase Env.
From Verif.Spec Require Import EnvSpec.

(** A byte that is not UTF-8 by itself does not become an ASCII character in lower case (it becomes
    U+FFFD). *)
Definition lone_byte_ok (E : Env) : Prop :=
  forall b c, 128 <= b < 256 -> 0 <= c < 128 -> unicode_lower E [b] <> [c].
(** wordlist4096.Search: the query is reported as an exact match iff it is in the list, and the
    query with any of the suffixes is in the list. *)
Definition search_ok (E : Env) : Prop :=
  forall q, (fst (wl_search E q) = true <-> In q (wl_words E)) /\
            Forall (fun s => In (q ++ s) (wl_words E)) (snd (wl_search E q)).
(** No word of the list is the beginning of another one. *)
Definition prefix_free (E : Env) : Prop :=
  forall w s, In w (wl_words E) -> In (w ++ s) (wl_words E) -> s = [].
