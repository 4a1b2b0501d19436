(** The goroutines of a run of /repo/cmd/mnemonikey at a terminal: main, the reader and the watcher
    each password prompt starts (word_input.go:230-291), the terminal's attributes they change, what
    they write to standard output, and what the terminal echoes of the keys typed.

    An event is one step of one of them, or a key, a signal, or the end of the input.  The model is
    the function [happen]; a run is a list of events, so every interleaving is a run.

    Simplifications: the writes to standard error are left out (CliTrace.v has them for main; prompts
    write to it from the reader); calls that change the attributes succeed; input is the bytes after
    the terminal's line editing, and a key is echoed or not when it is typed. *)
From Verif.Model Require Import GoBase CliInput.

(** the attributes of the terminal the program changes: echo, input by lines, keys that make signals *)
Record attrs := mk_attrs { a_echo : bool; a_lines : bool; a_signals : bool }.
(** golang.org/x/term.MakeRaw clears ECHO, ICANON, ISIG *)
Definition raw_attrs (t : attrs) : attrs := mk_attrs false false false.
(** golang.org/x/term.ReadPassword (readPassword in term_unix.go) clears ECHO, sets ICANON and ISIG *)
Definition hushed_attrs (t : attrs) : attrs := mk_attrs false true true.

(** What main does, as far as it concerns the terminal and standard output:
    [Enter n]: word_input.go:33-162 in raw mode, taking n keys;
    [Ask confirm]: word_input.go:230-291;
    [Print text]: fmt.Println of the key, generate.go:167, recover.go:201. *)
Inductive task := Enter (keys : nat) | Ask (confirm : bool) | Print (text : bytes).
(** main: about to do the tasks; in phrase entry; in the select at lines 280-290; exited *)
Inductive main_state :=
| Main_next (tasks : list task)
| Main_entry (saved : attrs) (keys : nat) (tasks : list task)
| Main_select (tasks : list task)
| Main_gone.
(** the reader, lines 248-278, [first] the password to be confirmed, if any: about to call
    ReadPassword; in it, having switched off echo; having read, before its deferred restore; about to
    send an error or a password; finished *)
Inductive reader_state :=
| Reader_calls (first : option bytes)
| Reader_waits (first : option bytes) (saved : attrs)
| Reader_read (first : option bytes) (saved : attrs) (line : res bytes)
| Reader_failing
| Reader_sending (pass : bytes)
| Reader_finished.
(** a watcher, lines 239-243: before ctx.Done is closed; after; after the newline; after the restore *)
Inductive watcher_state := Watcher_waits | Watcher_called | Watcher_printed | Watcher_done.
(** a key as it was typed: whether the terminal echoed it, and whether the program was reading a
    password or, in raw mode, the phrase *)
Record keystroke := mk_keystroke { k_key : Z; k_echoed : bool; k_secret : bool }.

Record system := mk_system {
  s_attrs : attrs;
  s_queue : bytes;                               (* typed and not yet read *)
  s_closed : bool;                               (* no more input *)
  s_log : list keystroke;
  s_main : main_state;
  s_confirm : bool;                              (* of the prompt that was started last *)
  s_reader : reader_state;                       (* of the prompt that was started last *)
  s_errors : nat;                                (* in its errChan *)
  s_interrupted : bool;                          (* its context is done by a signal *)
  s_watchers : list (attrs * watcher_state);     (* of all prompts, with the attributes they saved *)
  s_stdout : list bytes;                         (* writes, in order *)
  s_passwords : list bytes                       (* returned by the prompts *)
}.
Definition set_attrs s x := mk_system x (s_queue s) (s_closed s) (s_log s) (s_main s) (s_confirm s) (s_reader s) (s_errors s) (s_interrupted s) (s_watchers s) (s_stdout s) (s_passwords s).
Definition set_queue s x := mk_system (s_attrs s) x (s_closed s) (s_log s) (s_main s) (s_confirm s) (s_reader s) (s_errors s) (s_interrupted s) (s_watchers s) (s_stdout s) (s_passwords s).
Definition set_closed s x := mk_system (s_attrs s) (s_queue s) x (s_log s) (s_main s) (s_confirm s) (s_reader s) (s_errors s) (s_interrupted s) (s_watchers s) (s_stdout s) (s_passwords s).
Definition set_log s x := mk_system (s_attrs s) (s_queue s) (s_closed s) x (s_main s) (s_confirm s) (s_reader s) (s_errors s) (s_interrupted s) (s_watchers s) (s_stdout s) (s_passwords s).
Definition set_main s x := mk_system (s_attrs s) (s_queue s) (s_closed s) (s_log s) x (s_confirm s) (s_reader s) (s_errors s) (s_interrupted s) (s_watchers s) (s_stdout s) (s_passwords s).
Definition set_reader s x := mk_system (s_attrs s) (s_queue s) (s_closed s) (s_log s) (s_main s) (s_confirm s) x (s_errors s) (s_interrupted s) (s_watchers s) (s_stdout s) (s_passwords s).
Definition set_errors s x := mk_system (s_attrs s) (s_queue s) (s_closed s) (s_log s) (s_main s) (s_confirm s) (s_reader s) x (s_interrupted s) (s_watchers s) (s_stdout s) (s_passwords s).
Definition set_watchers s x := mk_system (s_attrs s) (s_queue s) (s_closed s) (s_log s) (s_main s) (s_confirm s) (s_reader s) (s_errors s) (s_interrupted s) x (s_stdout s) (s_passwords s).
Definition set_output s x := mk_system (s_attrs s) (s_queue s) (s_closed s) (s_log s) (s_main s) (s_confirm s) (s_reader s) (s_errors s) (s_interrupted s) (s_watchers s) x (s_passwords s).
Definition set_passwords s x := mk_system (s_attrs s) (s_queue s) (s_closed s) (s_log s) (s_main s) (s_confirm s) (s_reader s) (s_errors s) (s_interrupted s) (s_watchers s) (s_stdout s) x.
(** a prompt starts: lines 231-248 *)
Definition set_prompt s c w := mk_system (s_attrs s) (s_queue s) (s_closed s) (s_log s) (s_main s) c (Reader_calls None) 0 false w (s_stdout s) (s_passwords s).
Definition set_signal s := mk_system (s_attrs s) (s_queue s) (s_closed s) (s_log s) (s_main s) (s_confirm s) (s_reader s) (s_errors s) true (s_watchers s) (s_stdout s) (s_passwords s).

(** the run of a program with these tasks at a terminal with these attributes *)
Definition start_system (t : attrs) (tasks : list task) : system :=
  mk_system t [] false [] (Main_next tasks) false Reader_finished 0 false [] [] [].

Inductive event :=
| Key (k : Z) | Close | Signal                       (* the user *)
| Begin                                              (* main starts its next task *)
| Entered | Entry_fails                              (* phrase entry ends *)
| Call | Read | Restore | Send_error                 (* the reader *)
| Abort | Fail_prompt | Receive                      (* main in the select *)
| Watch (i : nat)                                    (* the watcher of the prompt number i goes on *)
| Leave.                                             (* main returns, the process ends *)

Definition is_secret (s : system) : bool :=
  match s_reader s, s_main s with
  | Reader_waits _ _, _ => true
  | _, Main_entry _ _ _ => true
  | _, _ => false
  end.
(** ctx.Done is closed for the watchers that still wait *)
Definition call_watcher (w : attrs * watcher_state) : attrs * watcher_state :=
  match w with (a, Watcher_waits) => (a, Watcher_called) | _ => w end.
Definition call_watchers (s : system) : system := set_watchers s (map call_watcher (s_watchers s)).
(** lines 251-276 after ReadPassword returned *)
Definition reader_next (confirm : bool) (first : option bytes) (line : res bytes) : reader_state :=
  match line with
  | Ok pass =>
      match first with
      | None =>
          match pass with
          | [] => Reader_calls None
          | _ => if confirm then Reader_calls (Some pass) else Reader_sending pass
          end
      | Some pass1 => if bytes_eqb pass1 pass then Reader_sending pass1 else Reader_calls None
      end
  | _ => Reader_failing
  end.
Fixpoint set_nth {A} (n : nat) (x : A) (l : list A) : list A :=
  match l, n with
  | [], _ => []
  | _ :: t, O => x :: t
  | a :: t, S m => a :: set_nth m x t
  end.

Definition happen (e : event) (s : system) : option system :=
  match s_main s with
  | Main_gone => None
  | _ =>
  match e with
  | Key k =>
      if s_closed s then None
      else Some (set_queue (set_log s (s_log s ++ [mk_keystroke k (a_echo (s_attrs s)) (is_secret s)])) (s_queue s ++ [k]))
  | Close => Some (set_closed s true)
  | Signal =>
      (* line 231: caught during a prompt, until its deferred cancel; else the process dies *)
      match s_main s with
      | Main_select _ => Some (call_watchers (set_signal s))
      | _ => Some (set_main s Main_gone)
      end
  | Begin =>
      match s_main s with
      | Main_next (Enter n :: ts) => Some (set_main (set_attrs s (raw_attrs (s_attrs s))) (Main_entry (s_attrs s) n ts))
      | Main_next (Ask c :: ts) => Some (set_main (set_prompt s c (s_watchers s ++ [(s_attrs s, Watcher_waits)])) (Main_select ts))
      | Main_next (Print text :: ts) => Some (set_main (set_output s (s_stdout s ++ [text])) (Main_next ts))
      | _ => None
      end
  | Entered =>
      match s_main s with
      | Main_entry saved n ts =>
          if Nat.leb n (length (s_queue s)) then Some (set_main (set_attrs (set_queue s (skipn n (s_queue s))) saved) (Main_next ts)) else None
      | _ => None
      end
  | Entry_fails =>
      match s_main s with
      | Main_entry saved n ts => Some (set_main (set_attrs s saved) (Main_next []))
      | _ => None
      end
  | Call =>
      match s_reader s with
      | Reader_calls first => Some (set_reader (set_attrs s (hushed_attrs (s_attrs s))) (Reader_waits first (s_attrs s)))
      | _ => None
      end
  | Read =>
      match s_reader s with
      | Reader_waits first saved =>
          if s_closed s || existsb (Z.eqb 10) (s_queue s) then
            let (line, rest) := read_password (s_queue s) [] in
            Some (set_reader (set_queue s rest) (Reader_read first saved line))
          else None
      | _ => None
      end
  | Restore =>
      match s_reader s with
      | Reader_read first saved line => Some (set_reader (set_attrs s saved) (reader_next (s_confirm s) first line))
      | _ => None
      end
  | Send_error =>
      match s_reader s, s_errors s with
      | Reader_failing, O => Some (set_errors (set_reader s Reader_finished) 1)
      | _, _ => None
      end
  | Abort =>
      match s_main s with
      | Main_select ts => if s_interrupted s then Some (call_watchers (set_main s (Main_next []))) else None
      | _ => None
      end
  | Fail_prompt =>
      match s_main s, s_errors s with
      | Main_select ts, S n => Some (call_watchers (set_errors (set_main s (Main_next [])) n))
      | _, _ => None
      end
  | Receive =>
      match s_main s, s_reader s with
      | Main_select ts, Reader_sending pass =>
          Some (call_watchers (set_passwords (set_reader (set_main s (Main_next ts)) Reader_finished) (s_passwords s ++ [pass])))
      | _, _ => None
      end
  | Watch i =>
      match nth_error (s_watchers s) i with
      | Some (a, Watcher_called) => Some (set_output (set_watchers s (set_nth i (a, Watcher_printed) (s_watchers s))) (s_stdout s ++ [[10]]))
      | Some (a, Watcher_printed) => Some (set_attrs (set_watchers s (set_nth i (a, Watcher_done) (s_watchers s))) a)
      | _ => None
      end
  | Leave =>
      match s_main s with
      | Main_next [] => Some (set_main s Main_gone)
      | _ => None
      end
  end
  end.

(** a run, with the states it goes through *)
Inductive term_run : system -> list event -> system -> Prop :=
| Term_start s : term_run s [] s
| Term_step s es s1 e s2 : term_run s es s1 -> happen e s1 = Some s2 -> term_run s (es ++ [e]) s2.
Fixpoint play (es : list event) (s : system) : option system :=
  match es with
  | [] => Some s
  | e :: es' => match happen e s with Some s' => play es' s' | None => None end
  end.

(** generate.go:119-167, recover.go:82-201 and convert.go:48-85 as such tasks: the prompts a run makes
    that gets through; [unlock] is how often the password of the phrase is asked for, [entry] the
    number of keys the phrase entry takes if it is in raw mode *)
Definition generate_tasks (encrypt_keys encrypt_phrase : bool) (key : bytes) : list task :=
  (if encrypt_keys then [Ask true] else []) ++ (if encrypt_phrase then [Ask true] else []) ++ [Print key].
Definition recover_tasks (entry : option nat) (unlock : nat) (encrypt_keys : bool) (key : bytes) : list task :=
  (match entry with Some n => [Enter n] | None => [] end) ++ repeat (Ask false) unlock ++
  (if encrypt_keys then [Ask true] else []) ++ [Print key].
Definition convert_tasks (entry : option nat) (unlock : nat) (encrypt_phrase : bool) : list task :=
  (match entry with Some n => [Enter n] | None => [] end) ++ repeat (Ask false) unlock ++
  (if encrypt_phrase then [Ask true] else []).
