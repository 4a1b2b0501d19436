(** What is asked of runs at a terminal. *)
From Verif.Model Require Import GoBase CliInput CliTerm.

(** no key typed while the program was reading a password or the phrase was echoed *)
Definition unseen (s : system) : Prop := Forall (fun k => k_secret k = true -> k_echoed k = false) (s_log s).
(** the input typed so far *)
Definition keys_typed (s : system) : bytes := map k_key (s_log s).
(** without a signal *)
Definition undisturbed (es : list event) : Prop := ~ In Signal es.

(** the watchers of earlier prompts have come to rest while a password or the phrase is read *)
Definition at_rest (w : attrs * watcher_state) : Prop := snd w = Watcher_done.
Definition settled (s : system) : Prop :=
  (forall first saved, s_reader s = Reader_waits first saved -> Forall at_rest (removelast (s_watchers s))) /\
  (forall saved n ts, s_main s = Main_entry saved n ts -> Forall at_rest (s_watchers s)).
Inductive settled_run : system -> list event -> system -> Prop :=
| Settled_start s : settled s -> settled_run s [] s
| Settled_step s es s1 e s2 : settled_run s es s1 -> happen e s1 = Some s2 -> settled s2 -> settled_run s (es ++ [e]) s2.

(** at most one password prompt, and no phrase entry after it *)
Fixpoint one_prompt (ts : list task) : bool :=
  match ts with
  | [] => true
  | Ask _ :: ts => forallb (fun t => match t with Print _ => true | _ => false end) ts
  | _ :: ts => one_prompt ts
  end.

(** a step of the program, not of the user *)
Definition of_program (e : event) : bool := match e with Key _ | Close | Signal => false | _ => true end.
(** the tasks one after the other, each prompt by itself *)
Fixpoint answers (ts : list task) (stdin : bytes) : list bytes * bytes :=
  match ts with
  | [] => ([], stdin)
  | Enter n :: ts => answers ts (skipn n stdin)
  | Print _ :: ts => answers ts stdin
  | Ask c :: ts =>
      match user_input_password true c stdin with
      | (Ok p, rest) => let (ps, r) := answers ts rest in (p :: ps, r)
      | (_, rest) => ([], rest)
      end
  end.
Definition asks_in (ts : list task) : nat := length (filter (fun t => match t with Ask _ => true | _ => false end) ts).
Definition prints_in (ts : list task) : list bytes := flat_map (fun t => match t with Print x => [x] | _ => [] end) ts.

(** [merged a b l]: l is a and b interleaved *)
Inductive merged {A} : list A -> list A -> list A -> Prop :=
| Merged_none : merged [] [] []
| Merged_left x a b l : merged a b l -> merged (a ++ [x]) b (l ++ [x])
| Merged_right x a b l : merged a b l -> merged a (b ++ [x]) (l ++ [x]).
