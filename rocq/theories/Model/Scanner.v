(** bufio.Scanner with bufio.ScanLines (Go 1.20, bufio/scan.go), reading standard input in pieces, and the simple phrase entry of
    /repo/cmd/mnemonikey/word_input.go:171-223 with it (C106).  CliInput.v reads lines out of the bytes of standard input; here
    the reads of the operating system, and what the scanner has read ahead, are in view.
    Simplifications: reading fails only by the end of the input; the field done, the counting of empty tokens and of empty reads
    are left out, for ScanLines gives none of the results that set them and os.File.Read gives none without an error. *)
From Verif.Model Require Import GoBase Env Version Recovery CliText.

(** What the reads of standard input give: each delivers one piece, or as much of it as there is room for; a piece without bytes,
    and no more pieces, is the end of the input (Ctrl+D on an empty line at a terminal, after which one can type on). *)
Definition read (room : Z) (src : list bytes) : bytes * bool * list bytes :=
  match src with
  | [] => ([], true, [])
  | [] :: rest => ([], true, rest)
  | piece :: rest =>
      if zlen piece <=? room then (piece, false, rest)
      else (firstn (Z.to_nat room) piece, false, skipn (Z.to_nat room) piece :: rest)
  end.

(** scan.go: buf[start:end] as [sc_data], start, len(buf) and err; maxTokenSize is [max_token], 65536 *)
Inductive scan_error := At_eof | Too_long.
Record scanner := mk_scan { sc_data : bytes; sc_start : Z; sc_size : Z; sc_err : option scan_error }.
(** bufio.NewScanner *)
Definition new_scanner : scanner := mk_scan [] 0 0 None.
Definition sc_end (s : scanner) : Z := sc_start s + zlen (sc_data s).
Definition start_buf_size : Z := 4096.
(** ScanLines: how far to advance and the token, or None to ask for more data *)
Fixpoint index_newline (l : bytes) : option nat :=
  match l with
  | [] => None
  | b :: l' => if b =? 10 then Some O else option_map S (index_newline l')
  end.
Definition scan_lines (data : bytes) (at_eof : bool) : option (nat * bytes) :=
  match data, at_eof with
  | [], true => None
  | _, _ =>
      match index_newline data with
      | Some i => Some (S i, drop_cr (firstn i data))
      | None => if at_eof then Some (length data, drop_cr data) else None
      end
  end.
(** Scan: fuel bounds the number of reads *)
Fixpoint scan (fuel : nat) (s : scanner) (src : list bytes) : option bytes * scanner * list bytes :=
  match fuel with
  | O => (None, s, src)
  | S f =>
      let at_eof := match sc_err s with Some _ => true | None => false end in
      let token := match sc_data s, at_eof with [], false => None | data, _ => scan_lines data at_eof end in
      match token with
      | Some (advance, t) => (Some t, mk_scan (skipn advance (sc_data s)) (sc_start s + Z.of_nat advance) (sc_size s) (sc_err s), src)
      | None =>
          if at_eof then (None, mk_scan [] 0 (sc_size s) (sc_err s), src)
          else
            let s := if (0 <? sc_start s) && ((sc_end s =? sc_size s) || (sc_start s >? sc_size s / 2))
                     then mk_scan (sc_data s) 0 (sc_size s) (sc_err s) else s in
            if (sc_end s =? sc_size s) && (sc_size s >=? max_token)
            then (None, mk_scan (sc_data s) (sc_start s) (sc_size s) (Some Too_long), src)
            else
              let s := if sc_end s =? sc_size s
                       then mk_scan (sc_data s) 0 (Z.min max_token (if sc_size s =? 0 then start_buf_size else sc_size s * 2)) (sc_err s)
                       else s in
              match read (sc_size s - sc_end s) src with
              | (more, eof, src) => scan f (mk_scan (sc_data s ++ more) (sc_start s) (sc_size s) (if eof then Some At_eof else None)) src
              end
      end
  end.
Definition scan_fuel (src : list bytes) : nat := (3 + length (concat src))%nat.

(** word_input.go:171-223, the loop of CliInput.v over the scanner: the words or an error, what the scanner has read ahead, and
    what is still to be read *)
Fixpoint scanned_loop (E : Env) (fuel : nat) (i count : Z) (words : list bytes) (s : scanner) (src : list bytes)
  : res (list bytes) * scanner * list bytes :=
  if i <? count then
    match fuel with
    | O => (Err ErrInputEOF, s, src)
    | S f =>
        match scan (scan_fuel src) s src with
        | (None, s, src) => (Err ErrInputEOF, s, src)
        | (Some line, s, src) =>
            let input := to_lower E (trim_space E line) in
            if fst (wl_search E input) then
              if i =? 0 then
                match parse_mnemonic_version E input with
                | Ok v => scanned_loop E f (i + 1) (mnemonic_size v) (words ++ [input]) s src
                | _ => scanned_loop E f i count words s src
                end
              else scanned_loop E f (i + 1) count (words ++ [input]) s src
            else scanned_loop E f i count words s src
        end
    end
  else (Ok words, s, src).
Definition scanned_mnemonic (E : Env) (src : list bytes) : res (list bytes) * scanner * list bytes :=
  scanned_loop E (S (length (concat src))) 0 1 [] new_scanner src.
