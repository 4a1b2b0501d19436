(** The loops of the code without any bound on the number of turns (C91): a turn goes on with another state or ends
    with a result, and a loop that never ends has no result at all. *)
From Verif.Model Require Import GoBase Env Version Seed Recovery CliText CliInput CliMain.

Inductive loops {S R : Type} (turn : S -> S + R) : S -> R -> Prop :=
| Last_turn s r : turn s = inr r -> loops turn s r
| One_more s s' r : turn s = inl s' -> loops turn s' r -> loops turn s r.

(** word_input.go:181-220, one turn: a line is read; an unknown word, or a first word whose version is not known, is
    asked for again *)
Definition simple_turn (E : Env) (s : Z * Z * list bytes * bytes)
  : (Z * Z * list bytes * bytes) + (res (list bytes) * bytes) :=
  let '(i, count, words, stdin) := s in
  if count <=? i then inr (Ok words, stdin)
  else match scan_line stdin [] with
       | None => inr (Err ErrInputEOF, [])
       | Some (l, rest) =>
           let word := to_lower E (trim_space E l) in
           if negb (fst (wl_search E word)) then inl (i, count, words, rest)
           else if 0 <? i then inl (i + 1, count, words ++ [word], rest)
           else match parse_mnemonic_version E word with
                | Ok v => inl (1, mnemonic_size v, words ++ [word], rest)
                | _ => inl (i, count, words, rest)
                end
       end.

(** word_input.go:248-277, one read of a password *)
Definition prompt_turn (confirm : bool) (s : reader * bytes) : (reader * bytes) + (res bytes * bytes) :=
  match fst s with
  | Sending pass => inr (Ok pass, snd s)
  | Failing | Finished => inr (Err ErrInputEOF, snd s)
  | r => match reader_step confirm r (snd s) with
         | Some s' => inl s'
         | None => inr (Err ErrInputEOF, snd s)
         end
  end.

(** recover.go:111-132, one turn: the password is asked for and tried; only a wrong one leads to another turn *)
Definition decrypt_turn (E : Env) (dm : decoded) (w : world) : world + (outcome seed * world) :=
  match (if dm_encrypted dm then ask_password false w else (Ret [], w)) with
  | (Ret password, w) =>
      match dm_decrypt_seed E dm password with
      | Ok s => inr (Ret s, w)
      | Err e => match e with ErrMnemonicDecryption => inl w | _ => inr (Fail e, w) end
      | Panic => inr (Crash, w)
      end
  | (Fail e, w) => inr (Fail e, w)
  | (Crash, w) => inr (Crash, w)
  | (Hang, w) => inr (Hang, w)
  | (Exit c, w) => inr (Exit c, w)
  end.

(** crypto/rand.Int for a maximum of 2^128, one turn: sixteen bytes are read, and again if they are too large *)
Definition draw_turn (src : bytes) : bytes + res (Z * bytes) :=
  if Nat.ltb (length src) 16 then inr (Err ErrRandomSource)
  else let n := be_uint (mask_first 8 (firstn 16 src)) in
       if n <? 2 ^ 128 then inr (Ok (n, skipn 16 src)) else inl (skipn 16 src).
