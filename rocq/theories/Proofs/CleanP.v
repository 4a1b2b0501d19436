(** No function reports the error that main.go takes for a graceful end. *)
From Verif.Model Require Import GoBase Env BitBuffer Crc32 MnemonicPkg Version GoTime Seed Encoding Recovery PgpWire PgpS2k PgpKeys Mnemonikey.
From Verif.Model Require Import CliText CliInput CliFlags CliMain.

Definition clean {A} (r : res A) : Prop := r <> Err ErrPrintUsageGraceful.
Lemma clean_bind {A B} (a : res A) (f : A -> res B) : clean a -> (forall x, clean (f x)) -> clean (bind a f).
Proof. unfold clean. destruct a; cbn [bind]; intros; auto; congruence. Qed.
Create HintDb clean.
Ltac cleaning :=
  lazymatch goal with
  | |- clean (bind _ _) => apply clean_bind; [cleaning|intros ?; cleaning]
  | |- clean (Ok _) => discriminate
  | |- clean Panic => discriminate
  | |- clean (Err _) => discriminate
  | |- clean (let _ := _ in _) => cbv zeta; cleaning
  | |- clean (match ?x with _ => _ end) => destruct x; cleaning
  | |- clean (if ?x then _ else _) => destruct x; cleaning
  | |- clean ((if ?x then _ else _) _) => destruct x; cleaning
  | |- _ => first [solve [auto with clean nocore] | idtac]
  end.
Ltac un f := unfold f; cleaning.
Lemma clean_fill_bytes : forall a0 a1, clean (fill_bytes a0 a1).
Proof. intros. un fill_bytes. Qed.
#[local] Hint Resolve clean_fill_bytes : clean.
Lemma clean_new_bitbuf : forall a0 a1, clean (new_bitbuf a0 a1).
Proof. intros. un new_bitbuf. Qed.
#[local] Hint Resolve clean_new_bitbuf : clean.
Lemma clean_pop_trailing : forall a0 a1, clean (pop_trailing a0 a1).
Proof. intros. un pop_trailing. Qed.
#[local] Hint Resolve clean_pop_trailing : clean.
Lemma clean_pop_leading : forall a0 a1, clean (pop_leading a0 a1).
Proof. intros. un pop_leading. Qed.
#[local] Hint Resolve clean_pop_leading : clean.
Lemma clean_append_leading : forall a0 a1 a2, clean (append_leading a0 a1 a2).
Proof. intros. un append_leading. Qed.
#[local] Hint Resolve clean_append_leading : clean.
Lemma clean_append_trailing : forall a0 a1 a2, clean (append_trailing a0 a1 a2).
Proof. intros. un append_trailing. Qed.
#[local] Hint Resolve clean_append_trailing : clean.
Lemma clean_bb_bytes : forall a0, clean (bb_bytes a0).
Proof. intros. un bb_bytes. Qed.
#[local] Hint Resolve clean_bb_bytes : clean.
Lemma clean_go_index {A} (l : list A) i : clean (go_index l i).
Proof. un @go_index. Qed.
#[local] Hint Resolve clean_go_index : clean.
Lemma clean_encode_loop : forall a0 a1 a2, clean (encode_loop a0 a1 a2).
Proof. induction a0; intros; cbn [encode_loop]; cleaning. Qed.
#[local] Hint Resolve clean_encode_loop : clean.
Lemma clean_encode_to_indices : forall a0 a1, clean (encode_to_indices a0 a1).
Proof. intros. un encode_to_indices. Qed.
#[local] Hint Resolve clean_encode_to_indices : clean.
Lemma clean_encode_to_words : forall a0 a1, clean (encode_to_words a0 a1).
Proof. intros E l; induction l; cbn [encode_to_words]; cleaning. Qed.
#[local] Hint Resolve clean_encode_to_words : clean.
Lemma clean_decode_indices_from : forall a0 a1, clean (decode_indices_from a0 a1).
Proof. intros a l; revert a; induction l; intros; cbn [decode_indices_from]; cleaning. Qed.
#[local] Hint Resolve clean_decode_indices_from : clean.
Lemma clean_decode_indices : forall a0, clean (decode_indices a0).
Proof. intros. un decode_indices. Qed.
#[local] Hint Resolve clean_decode_indices : clean.
Lemma clean_decode_words : forall a0 a1, clean (decode_words a0 a1).
Proof. intros E l; induction l; cbn [decode_words]; cleaning. Qed.
#[local] Hint Resolve clean_decode_words : clean.
Lemma clean_era_check : forall a0, clean (era_check a0).
Proof. intros. un era_check. Qed.
#[local] Hint Resolve clean_era_check : clean.
Lemma clean_version_check : forall a0, clean (version_check a0).
Proof. intros. un version_check. Qed.
#[local] Hint Resolve clean_version_check : clean.
Lemma clean_new_seed : forall a0 a1, clean (new_seed a0 a1).
Proof. intros. un new_seed. Qed.
#[local] Hint Resolve clean_new_seed : clean.
Lemma clean_seed_bytes : forall a0, clean (seed_bytes a0).
Proof. intros. un seed_bytes. Qed.
#[local] Hint Resolve clean_seed_bytes : clean.
Lemma clean_read_full : forall a0 a1, clean (read_full a0 a1).
Proof. intros. un read_full. Qed.
#[local] Hint Resolve clean_read_full : clean.
Lemma clean_rand_int_loop : forall a0 a1 a2 a3 a4, clean (rand_int_loop a0 a1 a2 a3 a4).
Proof. induction a0; intros; cbn [rand_int_loop]; cleaning. Qed.
#[local] Hint Resolve clean_rand_int_loop : clean.
Lemma clean_rand_int : forall a0 a1, clean (rand_int a0 a1).
Proof. intros. un rand_int. Qed.
#[local] Hint Resolve clean_rand_int : clean.
Lemma clean_generate_seed : forall a0, clean (generate_seed a0).
Proof. intros. un generate_seed. Qed.
#[local] Hint Resolve clean_generate_seed : clean.
Lemma clean_encode_mnemonic : forall a0 a1 a2, clean (encode_mnemonic a0 a1 a2).
Proof. intros. un encode_mnemonic. Qed.
#[local] Hint Resolve clean_encode_mnemonic : clean.
Lemma clean_encode_mnemonic_plaintext : forall a0 a1 a2, clean (encode_mnemonic_plaintext a0 a1 a2).
Proof. intros. un encode_mnemonic_plaintext. Qed.
#[local] Hint Resolve clean_encode_mnemonic_plaintext : clean.
Lemma clean_enc_seed_key : forall a0 a1 a2 a3, clean (enc_seed_key a0 a1 a2 a3).
Proof. intros. un enc_seed_key. Qed.
#[local] Hint Resolve clean_enc_seed_key : clean.
Lemma clean_encode_mnemonic_encrypted : forall a0 a1 a2 a3 a4, clean (encode_mnemonic_encrypted a0 a1 a2 a3 a4).
Proof. intros. un encode_mnemonic_encrypted. Qed.
#[local] Hint Resolve clean_encode_mnemonic_encrypted : clean.
Lemma clean_dm_seed : forall a0, clean (dm_seed a0).
Proof. intros. un dm_seed. Qed.
#[local] Hint Resolve clean_dm_seed : clean.
Lemma clean_dm_decrypt_seed : forall a0 a1 a2, clean (dm_decrypt_seed a0 a1 a2).
Proof. intros. un dm_decrypt_seed. Qed.
#[local] Hint Resolve clean_dm_decrypt_seed : clean.
Lemma clean_parse_mnemonic_version : forall E w, clean (parse_mnemonic_version E w).
Proof. intros. unfold parse_mnemonic_version, parse_version_raw. destruct (word_map _ _); cleaning. Qed.
#[local] Hint Resolve clean_parse_mnemonic_version : clean.
Lemma clean_decode_mnemonic : forall a0 a1, clean (decode_mnemonic a0 a1).
Proof. intros. un decode_mnemonic. Qed.
#[local] Hint Resolve clean_decode_mnemonic : clean.
Lemma clean_string_to_key : forall a0 a1 a2 a3 a4, clean (string_to_key a0 a1 a2 a3 a4).
Proof. intros. un string_to_key. Qed.
#[local] Hint Resolve clean_string_to_key : clean.
Lemma clean_encrypt_s2k : forall a0 a1 a2 a3 a4, clean (encrypt_s2k a0 a1 a2 a3 a4).
Proof. intros. un encrypt_s2k. Qed.
#[local] Hint Resolve clean_encrypt_s2k : clean.
Lemma clean_sign : forall a0 a1 a2, clean (sign a0 a1 a2).
Proof. intros. un sign. Qed.
#[local] Hint Resolve clean_sign : clean.
Lemma clean_encode_private : forall a0 a1 a2 a3, clean (encode_private a0 a1 a2 a3).
Proof. intros. un encode_private. Qed.
#[local] Hint Resolve clean_encode_private : clean.
Lemma clean_new_ed_key : forall a0 a1 a2 a3, clean (new_ed_key a0 a1 a2 a3).
Proof. intros. un new_ed_key. Qed.
#[local] Hint Resolve clean_new_ed_key : clean.
Lemma clean_new_curve_key : forall a0 a1 a2 a3 a4, clean (new_curve_key a0 a1 a2 a3 a4).
Proof. intros. un new_curve_key. Qed.
#[local] Hint Resolve clean_new_curve_key : clean.
Lemma clean_self_certify : forall a0 a1 a2, clean (self_certify a0 a1 a2).
Proof. intros. un self_certify. Qed.
#[local] Hint Resolve clean_self_certify : clean.
Lemma clean_bind_subkey : forall a0 a1 a2 a3 a4, clean (bind_subkey a0 a1 a2 a3 a4).
Proof. intros. un bind_subkey. Qed.
#[local] Hint Resolve clean_bind_subkey : clean.
Lemma clean_private_packet : forall a0 a1 a2 a3 a4, clean (private_packet a0 a1 a2 a3 a4).
Proof. intros. un private_packet. Qed.
#[local] Hint Resolve clean_private_packet : clean.
Lemma clean_subkey_packets : forall a0 a1 a2 a3 a4 a5 a6, clean (subkey_packets a0 a1 a2 a3 a4 a5 a6).
Proof. intros. un subkey_packets. Qed.
#[local] Hint Resolve clean_subkey_packets : clean.
Lemma clean_swap {A} (l : list A) i j : clean (swap l i j).
Proof. un @swap. Qed.
#[local] Hint Resolve clean_swap : clean.
Lemma clean_shuffle_from {A} E s i : forall k (l : list A), clean (shuffle_from E s i k l).
Proof. induction i; intros; cbn [shuffle_from]; cleaning. Qed.
#[local] Hint Resolve clean_shuffle_from : clean.
Lemma clean_shuffle {A} E s (l : list A) : clean (shuffle E s l).
Proof. un @shuffle. Qed.
#[local] Hint Resolve clean_shuffle : clean.
Lemma clean_all_subkey_packets : forall a0 a1 a2 a3, clean (all_subkey_packets a0 a1 a2 a3).
Proof. intros. un all_subkey_packets. Qed.
#[local] Hint Resolve clean_all_subkey_packets : clean.
Lemma clean_self_certification : forall a0 a1, clean (self_certification a0 a1).
Proof. intros. un self_certification. Qed.
#[local] Hint Resolve clean_self_certification : clean.
Lemma clean_encode_packets : forall a0 a1 a2 a3, clean (encode_packets a0 a1 a2 a3).
Proof. intros. un encode_packets. Qed.
#[local] Hint Resolve clean_encode_packets : clean.
Lemma clean_encode_subkey_packets : forall a0 a1 a2 a3 a4, clean (encode_subkey_packets a0 a1 a2 a3 a4).
Proof. intros. un encode_subkey_packets. Qed.
#[local] Hint Resolve clean_encode_subkey_packets : clean.
Lemma clean_root_key : forall a0 a1 a2, clean (root_key a0 a1 a2).
Proof. intros. un root_key. Qed.
#[local] Hint Resolve clean_root_key : clean.
Lemma clean_derive_key_set : forall a0 a1 a2 a3, clean (derive_key_set a0 a1 a2 a3).
Proof. intros. un derive_key_set. Qed.
#[local] Hint Resolve clean_derive_key_set : clean.
Lemma clean_mnk_new : forall a0 a1 a2 a3, clean (mnk_new a0 a1 a2 a3).
Proof. intros. un mnk_new. Qed.
#[local] Hint Resolve clean_mnk_new : clean.
Lemma clean_mnk_encode_pgp : forall a0 a1 a2 a3, clean (mnk_encode_pgp a0 a1 a2 a3).
Proof. intros. un mnk_encode_pgp. Qed.
#[local] Hint Resolve clean_mnk_encode_pgp : clean.
Lemma clean_mnk_encode_subkeys_pgp : forall a0 a1 a2 a3 a4, clean (mnk_encode_subkeys_pgp a0 a1 a2 a3 a4).
Proof. intros. un mnk_encode_subkeys_pgp. Qed.
#[local] Hint Resolve clean_mnk_encode_subkeys_pgp : clean.
Lemma clean_mnk_encode_pgp_armor : forall a0 a1 a2 a3, clean (mnk_encode_pgp_armor a0 a1 a2 a3).
Proof. intros. un mnk_encode_pgp_armor. Qed.
#[local] Hint Resolve clean_mnk_encode_pgp_armor : clean.
Lemma clean_mnk_encode_subkeys_pgp_armor : forall a0 a1 a2 a3 a4, clean (mnk_encode_subkeys_pgp_armor a0 a1 a2 a3 a4).
Proof. intros. un mnk_encode_subkeys_pgp_armor. Qed.
#[local] Hint Resolve clean_mnk_encode_subkeys_pgp_armor : clean.
Lemma clean_mnk_encode_plaintext : forall a0 a1, clean (mnk_encode_plaintext a0 a1).
Proof. intros. un mnk_encode_plaintext. Qed.
#[local] Hint Resolve clean_mnk_encode_plaintext : clean.
Lemma clean_mnk_encode_encrypted : forall a0 a1 a2 a3, clean (mnk_encode_encrypted a0 a1 a2 a3).
Proof. intros. un mnk_encode_encrypted. Qed.
#[local] Hint Resolve clean_mnk_encode_encrypted : clean.
Lemma clean_parse_ttl : forall a0 a1, clean (parse_ttl a0 a1).
Proof. intros. un parse_ttl. Qed.
#[local] Hint Resolve clean_parse_ttl : clean.
Lemma clean_only_loop : forall a0 a1 a2, clean (only_loop a0 a1 a2).
Proof. intros m t l; revert m t; induction l; intros; cbn [only_loop]; cleaning. Qed.
#[local] Hint Resolve clean_only_loop : clean.
Lemma clean_decode_only_key_types : forall a0, clean (decode_only_key_types a0).
Proof. intros. un decode_only_key_types. Qed.
#[local] Hint Resolve clean_decode_only_key_types : clean.
Lemma clean_word_file_loop : forall a0 a1 a2, clean (word_file_loop a0 a1 a2).
Proof. intros E n l; revert n; induction l; intros; cbn [word_file_loop]; cleaning. Qed.
#[local] Hint Resolve clean_word_file_loop : clean.
Lemma clean_parse_word_file : forall a0 a1, clean (parse_word_file a0 a1).
Proof. intros. un parse_word_file. Qed.
#[local] Hint Resolve clean_parse_word_file : clean.

Lemma clean_enter E s stdin : clean (fst (enter E s stdin)).
Proof. revert s. induction stdin as [|b l IH]; intros s; cbn [enter]; [discriminate|]. destruct (key E s b); [apply IH|discriminate|discriminate]. Qed.
Lemma clean_simple_loop E f i c ws stdin : clean (fst (simple_loop E f i c ws stdin)).
Proof.
  revert i c ws stdin. induction f as [|f IH]; intros; cbn [simple_loop]; destruct (i <? c); try discriminate.
  destruct (scan_line stdin []) as [[line rest]|]; [|discriminate].
  cbv zeta. destruct (fst (wl_search E _)); [|apply IH]. destruct (i =? 0); [|apply IH]. destruct (parse_mnemonic_version E _); apply IH.
Qed.
Lemma clean_prompt_loop f confirm r stdin : clean (fst (prompt_loop f confirm r stdin)).
Proof.
  revert r stdin. induction f as [|f IH]; intros; destruct r; cbn [prompt_loop]; try discriminate;
  destruct (reader_step confirm _ stdin) as [[r' rest]|]; try discriminate; apply IH.
Qed.
Lemma clean_password tty confirm stdin : clean (fst (user_input_password tty confirm stdin)).
Proof. unfold user_input_password. destruct tty; [apply clean_prompt_loop|discriminate]. Qed.

(** ** Actions *)
Definition quiet {A} (o : outcome A) : Prop := o <> Fail ErrPrintUsageGraceful /\ forall c, o <> Exit c.
Definition polite {A} (a : action A) : Prop := forall w, quiet (fst (a w)).
Ltac q := split; discriminate.
Lemma polite_of_res {A} (r : res A) : clean r -> quiet (of_res r).
Proof. unfold clean, quiet. destruct r; cbn [of_res]; split; congruence. Qed.
Lemma polite_ret {A} (a : A) : polite (ret a). Proof. intros w. q. Qed.
Lemma polite_lift {A} (r : res A) : clean r -> polite (lift r). Proof. intros H w. apply polite_of_res, H. Qed.
Lemma polite_andthen {A B} (a : action A) (b : A -> action B) : polite a -> (forall x, polite (b x)) -> polite (andthen a b).
Proof.
  intros HA HB w. unfold andthen. specialize (HA w). destruct (a w) as [[x|e| | |c] v]; cbn [fst] in *; try q; [apply HB|split; [destruct HA; congruence|discriminate]|destruct HA as [_ H]; destruct (H c); reflexivity].
Qed.
Lemma polite_random {A} (f : bytes -> res (A * bytes)) : (forall t, clean (f t)) -> polite (with_random f).
Proof. intros H w. specialize (H (w_random w)). unfold with_random. destruct (f _) as [[a r]|e|]; cbn [fst]; try q. unfold clean in H. split; [congruence|discriminate]. Qed.
Lemma polite_ask confirm : polite (ask_password confirm).
Proof.
  intros w. unfold ask_password. pose proof (clean_password (w_tty w) confirm (w_stdin w)) as C.
  destruct (user_input_password _ _ _) as [r rest]. cbn [fst] in *. apply polite_of_res. auto.
Qed.
Lemma polite_open p : polite (open_file p).
Proof. intros w. unfold open_file. destruct (w_files w p); q. Qed.
Lemma polite_save ws p : polite (save_mnemonic ws p).
Proof.
  intros w. unfold save_mnemonic, save_mnemonic_with, write_file. cbn [set_files w_files]; destruct (w_files w p) as [[r|]| | | |]; cbn [fst]; try q; cbn [write_node fst of_res]; try q; destruct (Nat.ltb _ _); q.
Qed.
Lemma polite_justified j : quiet (of_justified j). Proof. destruct j; q. Qed.
Lemma polite_phrase ws : polite (print_mnemonic ws). Proof. intros w. apply polite_justified. Qed.
Lemma polite_print t : polite (print_out t). Proof. intros w. q. Qed.
Lemma polite_ttl E t : polite (ttl_option E t).
Proof. unfold ttl_option. destruct t; [apply polite_ret|]. destruct (parse_ttl E _); [apply polite_ret|intros w; q|intros w; q]. Qed.
Lemma polite_source o : polite (seed_from_source o).
Proof.
  unfold seed_from_source. destruct o as [|c o]; [apply polite_random; auto with clean|]. destruct (bytes_eqb _ _).
  - intros w. pose proof (clean_generate_seed (w_stdin w)) as C. destruct (generate_seed (w_stdin w)) as [[s r]|e|]; cbn [fst]; try q. unfold clean in C. split; [congruence|discriminate].
  - apply polite_andthen; [apply polite_open|]. intros c'. apply polite_lift. cleaning.
Qed.
Lemma polite_decrypt E dm fuel : polite (decrypt_loop E fuel dm).
Proof.
  induction fuel as [|n IH]; intros w; [q|]. cbn [decrypt_loop].
  apply (polite_andthen (if dm_encrypted dm then ask_password false else ret [])).
  - destruct (dm_encrypted dm); [apply polite_ask|apply polite_ret].
  - intros p v. pose proof (clean_dm_decrypt_seed E dm p) as C. destruct (dm_decrypt_seed E dm p) as [s|e|]; try q.
    destruct e; try q; [apply IH|destruct C; reflexivity].
Qed.
Lemma polite_input E o : polite (decode_mnemonic_from_input E o).
Proof.
  apply polite_andthen; [|intros ws; apply polite_andthen; [apply polite_lift; auto with clean|intros dm;
    apply polite_andthen; [intros w; apply polite_decrypt|intros s; apply polite_ret]]].
  intros w. unfold read_phrase. destruct (io_in_file o).
  - destruct (io_simple o || negb (w_tty w)); unfold from_stdin.
    + pose proof (clean_simple_loop E (S (length (w_stdin w))) 0 1 [] (w_stdin w)) as C. fold (user_input_mnemonic_simple E (w_stdin w)) in C.
      destruct (user_input_mnemonic_simple E (w_stdin w)) as [r rest]. cbn [fst] in *. apply polite_of_res. auto.
    + pose proof (clean_enter E entry_start (w_stdin w)) as C. fold (user_input_mnemonic E (w_stdin w)) in C.
      destruct (user_input_mnemonic E (w_stdin w)) as [r rest]. cbn [fst] in *. apply polite_of_res. auto.
  - apply (polite_andthen (open_file (z :: b))); [apply polite_open|intros c; apply polite_lift; auto with clean].
Qed.
Ltac polite :=
  lazymatch goal with
  | |- polite (andthen _ _) => apply polite_andthen; [polite|intros ?; polite]
  | |- polite (ret _) => apply polite_ret
  | |- polite (fail _) => intros ?; q
  | |- polite (lift _) => apply polite_lift; cleaning
  | |- polite (ask_password _) => apply polite_ask
  | |- polite (with_random _) => apply polite_random; intros ?; cleaning
  | |- polite (ttl_option _ _) => apply polite_ttl
  | |- polite (seed_from_source _) => apply polite_source
  | |- polite (decode_mnemonic_from_input _ _) => apply polite_input
  | |- polite (save_mnemonic _ _) => apply polite_save
  | |- polite (print_mnemonic _) => apply polite_phrase
  | |- polite (print_out _) => apply polite_print
  | |- polite (if ?b then _ else _) => destruct b; polite
  | |- polite (match ?x with _ => _ end) => destruct x; polite
  | |- polite _ => intros ?; cbn [fst]; apply polite_of_res; cleaning
  end.
Lemma polite_generate E o : polite (generate_and_print E o).
Proof.
  intros w0. unfold generate_and_print. cbv zeta. generalize (w_now w0) as c. intros c. revert w0.
  match goal with |- forall w0, quiet (fst (?a w0)) => change (polite a) end. polite.
Qed.
Lemma polite_recover E o : polite (recover_and_print E o).
Proof. unfold recover_and_print. polite. Qed.
Lemma polite_convert E o : polite (decode_and_convert E o).
Proof. unfold decode_and_convert. polite. Qed.
