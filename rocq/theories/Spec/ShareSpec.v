(** What a program that uses the package would see if integers, seeds and decoded phrases were values: nothing that
    happens to one of them changes another (C92). *)
From Verif.Model Require Import GoBase Env Version Seed Encoding Recovery MnemonicPkg PgpKeys Mnemonikey BigHeap.

Record values := mk_values { v_ints : list Z; v_seeds : list seed; v_phrases : list decoded; v_keys : list mnemonikey }.
Definition v_init : values := mk_values [] [] [] [].
Definition v_int (n : Z) (v : values) := mk_values (v_ints v ++ [n]) (v_seeds v) (v_phrases v) (v_keys v).
Definition v_seed (s : seed) (v : values) := mk_values (v_ints v) (v_seeds v ++ [s]) (v_phrases v) (v_keys v).
Definition v_phrase (d : decoded) (v : values) := mk_values (v_ints v) (v_seeds v) (v_phrases v ++ [d]) (v_keys v).
Definition v_key (k : mnemonikey) (v : values) := mk_values (v_ints v) (v_seeds v) (v_phrases v) (v_keys v ++ [k]).
Definition v_change (x : nat) (n : Z) (v : values) :=
  mk_values (firstn x (v_ints v) ++ n :: skipn (S x) (v_ints v)) (v_seeds v) (v_phrases v) (v_keys v).

(** the result of a call: what is seen and the values afterwards *)
Definition gives {A} (r : res A) (v : values) (f : A -> seen * values) : seen * values :=
  match r with Ok a => f a | Err e => (Failed e, v) | Panic => (Panicked, v) end.
Definition with_the {A} (l : list A) (n : nat) (v : values) (f : A -> seen * values) : seen * values :=
  match nth_error l n with Some a => f a | None => (Nothing, v) end.
Definition v_step (E : Env) (c : call) (v : values) : seen * values :=
  match c with
  | C_int n => (Nothing, v_int n v)
  | C_set x n => with_the (v_ints v) x v (fun _ => (Nothing, v_change x n v))
  | C_read x => with_the (v_ints v) x v (fun n => (An_int n, v))
  | C_to_indices x size =>
      with_the (v_ints v) x v (fun n => gives (encode_to_indices n size) v (fun r => (Indices (fst r), v_change x (snd r) v)))
  | C_from_indices l => gives (decode_indices l) v (fun n => (Nothing, v_int n v))
  | C_new_seed era x => with_the (v_ints v) x v (fun n => gives (new_seed era n) v (fun s => (Nothing, v_seed s v)))
  | C_generate_seed src => gives (generate_seed src) v (fun r => (Nothing, v_seed (fst r) v))
  | C_seed_int s => with_the (v_seeds v) s v (fun s => (Nothing, v_int (seed_int s) v))
  | C_seed_bytes s => with_the (v_seeds v) s v (fun s => gives (seed_bytes s) v (fun b => (Bytes b, v)))
  | C_plaintext s o => with_the (v_seeds v) s v (fun s => gives (encode_mnemonic_plaintext E s o) v (fun ws => (Words ws, v)))
  | C_encrypted s o pw src =>
      with_the (v_seeds v) s v (fun s => gives (encode_mnemonic_encrypted E s o pw src) v (fun ws => (Words ws, v)))
  | C_decode ws => gives (decode_mnemonic E ws) v (fun d => (Nothing, v_phrase d v))
  | C_dm_seed d => with_the (v_phrases v) d v (fun d => gives (dm_seed d) v (fun s => (Nothing, v_seed s v)))
  | C_decrypt d pw => with_the (v_phrases v) d v (fun d => gives (dm_decrypt_seed E d pw) v (fun s => (Nothing, v_seed s v)))
  | C_new_key s t o =>
      with_the (v_seeds v) s v (fun s => gives (mnk_new E s t o) v (fun k => (Key (mnk_keys k) (mnk_creation k), v_key k v)))
  | C_key_plaintext k => with_the (v_keys v) k v (fun k => gives (mnk_encode_plaintext E k) v (fun ws => (Words ws, v)))
  | C_key_encrypted k pw src =>
      with_the (v_keys v) k v (fun k => gives (mnk_encode_encrypted E k pw src) v (fun ws => (Words ws, v)))
  end.
Fixpoint v_run (E : Env) (calls : list call) (v : values) : list seen :=
  match calls with
  | [] => []
  | c :: rest =>
      let (o, v) := v_step E c v in
      match o with Panicked => [Panicked] | _ => o :: v_run E rest v end
  end.

(** The program does not change an integer once it has made a seed of it; EncodeToIndices changes its argument. *)
Fixpoint careful (given : list nat) (calls : list call) : Prop :=
  match calls with
  | [] => True
  | c :: rest =>
      match c with
      | C_set x _ | C_to_indices x _ => ~ In x given /\ careful given rest
      | C_new_seed _ x => careful (x :: given) rest
      | _ => careful given rest
      end
  end.
(** calls that write to memory the program can see *)
Definition writes (c : call) : option nat :=
  match c with C_set x _ | C_to_indices x _ => Some x | _ => None end.
