(** C94: generate, any number of conversions, and recover, as sessions with the whole program. *)
From Coq Require Import Lia ZifyBool ZifyNat Relation_Operators.
From Verif.Model Require Import GoBase Env Seed Recovery Mnemonikey CliInput CliFlags CliMain.
From Verif.Spec Require Import EnvSpec InputSpec FileSpec EndSpec FlagSpec ChainSpec ProgramSpec.
From Verif.Proofs Require Import BitsP EnvInst CliInst CleanP.
From Verif.Props Require Import MainProps LifeProps FlagProps EndProps ConvertProps ChainProps FileProps.

Definition generate_settings (s : list (bytes * setting)) : generate_options :=
  mk_gen (text_of s "name" (bs "anonymous")) (text_of s "email" []) (text_of s "ttl" [])
    (switch_of s "encrypt-keys" false) (text_of s "only" []) (text_of s "out-word-file" [])
    (switch_of s "encrypt-phrase" false) (text_of s "unsafe-entropy" []).
Definition recover_settings (s : list (bytes * setting)) : recover_options :=
  mk_rec (text_of s "name" (bs "anonymous")) (text_of s "email" []) (text_of s "ttl" [])
    (switch_of s "encrypt-keys" false) (text_of s "only" []) (input_of s)
    (switch_of s "self-cert" true) (number_of s "enc-index" 0) (number_of s "auth-index" 0) (number_of s "sig-index" 0).
Definition convert_settings (s : list (bytes * setting)) : convert_options :=
  mk_conv (input_of s) (switch_of s "encrypt-phrase" false) (text_of s "out-word-file" []).
(** What the program does with a command line is what the command does, but for the help text. *)
Definition same_effects (w w' : world) : Prop :=
  w_stdout w' = w_stdout w /\ w_shown w' = w_shown w /\ w_files w' = w_files w.
Lemma runs_effects E name args body w o w1 c w' : runs E name args body w -> body w = (o, w1) ->
  mnemonikey_main E (name :: args) w = (c, w') -> same_effects w1 w' /\ (c = Some 0 <-> o = Ret tt).
Proof.
  intros R B M. destruct (R o w1 B) as [R1 R2].
  assert (D : o = Fail ErrPrintUsage \/ o <> Fail ErrPrintUsage).
  { destruct o as [u|e| | |q]; try (right; discriminate). destruct e; try (right; discriminate). left; reflexivity. }
  destruct D as [D|D].
  - destruct (R2 D) as (q & M2 & N & _). rewrite M2 in M. apply pair_equal_spec in M as [<- <-]. split; [repeat split; reflexivity|].
    split; [intros X; destruct (N X)|rewrite D; discriminate].
  - destruct (R1 D) as [M2 Q]. rewrite M2 in M. apply pair_equal_spec in M as [<- <-]. split; [repeat split; reflexivity|exact Q].
Qed.
Lemma generate_session E s w c w' : session E (bs "generate") generate_table s w c w' ->
  exists o w1, generate_and_print E (generate_settings s) w = (o, w1) /\ same_effects w1 w' /\ (c = Some 0 <-> o = Ret tt).
Proof.
  intros (args & rest & C & N & M). destruct (generate_and_print E (generate_settings s) w) as [o w1] eqn:B. exists o, w1. split; [reflexivity|].
  exact (runs_effects E _ args _ w o w1 c w' (generate_line E s args rest w C N) B M).
Qed.
Lemma convert_session_of E s w c w' : session E (bs "convert") convert_table s w c w' ->
  exists o w1, decode_and_convert E (convert_settings s) w = (o, w1) /\ same_effects w1 w' /\ (c = Some 0 <-> o = Ret tt).
Proof.
  intros (args & rest & C & N & M). destruct (decode_and_convert E (convert_settings s) w) as [o w1] eqn:B. exists o, w1. split; [reflexivity|].
  exact (runs_effects E _ args _ w o w1 c w' (convert_line E s args rest w C N) B M).
Qed.
Lemma recover_session E s args rest w w1 : command_line recover_table s args rest -> args <> [bs "help"] ->
  recover_and_print E (recover_settings s) w = (Ret tt, w1) -> mnemonikey_main E (bs "recover" :: args) w = (Some 0, w1).
Proof.
  intros C N B. destruct (recover_line E s args rest w C N (Ret tt) w1 B) as [R _]. destruct R as [R _]; [discriminate|exact R].
Qed.
Lemma same_text g r n d : (forall m, In m [bs "name"; bs "email"; bs "ttl"; bs "only"] -> last_setting g m = last_setting r m) ->
  In (bs n) [bs "name"; bs "email"; bs "ttl"; bs "only"] -> text_of r n d = text_of g n d.
Proof. intros S I. unfold text_of. rewrite (S _ I). reflexivity. Qed.
Lemma same_settings_request g r : same_settings g r -> same_request (generate_settings g) (recover_settings r).
Proof.
  intros [S P C I]. constructor; cbn [generate_settings recover_settings ro_name ro_email ro_ttl ro_only ro_encrypt_keys ro_self_cert ro_enc_index ro_auth_index ro_sign_index go_name go_email go_ttl go_only go_encrypt_keys];
    try assumption; apply same_text; auto; cbn [In]; tauto.
Qed.
Lemma seed_drawn_same s stdin : after_seed (generate_settings s) stdin = seed_drawn s stdin.
Proof.
  unfold after_seed, seed_drawn. cbn [generate_settings go_entropy]. destruct (list_eq_dec Z.eq_dec _ _) as [D|D].
  - rewrite D. reflexivity.
  - destruct (bytes_eqb _ _) eqn:X; [|reflexivity]. apply bytes_eqb_eq in X. destruct (D X).
Qed.
Lemma convert_programs_sessions E h h' : convert_programs E h h' -> convert_sessions E h h'.
Proof.
  induction 1 as [h h' C|h|a b c _ IH1 _ IH2]; [|apply rt_refl|eapply rt_trans; eauto]. apply rt_step.
  destruct C as [s w c w' v [sd dm] old new pw BR S EN D PW SH]. destruct (convert_session_of E s w c w' S) as (o & w1 & B & (_ & X & _) & _).
  apply (Converted E (convert_settings s) w o w1); [exact BR|exact EN|exact B|rewrite <- X; exact SH|].
  unfold phrase_password in PW. change (co_encrypt (convert_settings s)) with (switch_of s "encrypt-phrase" false). destruct (switch_of s "encrypt-phrase" false); [|exact PW].
  destruct PW as (p & P1 & P2). exists sd, dm, v, p. auto.
Qed.

(** Whatever the phrase shown by generate went through, recover with the same settings prints the same. *)
Theorem program_recovers : forall E g w c w' words pw h r args rest v,
  wordlist_ok E -> argon_ok E -> aes_ok E -> hkdf_ok E -> world_ok w ->
  session E (bs "generate") generate_table g w c w' -> text_of g "out-word-file" [] = [] -> w_shown w' = w_shown w ++ [words] ->
  phrase_password g (w_tty w) (seed_drawn g (w_stdin w)) pw -> convert_programs E (words, pw) h ->
  same_settings g r -> command_line recover_table r args rest -> args <> [bs "help"] -> enters_held E (input_of r) v h ->
  exists out v', w_stdout w' = w_stdout w ++ [out ++ [10]] /\
    mnemonikey_main E (bs "recover" :: args) v = (Some 0, v') /\ w_stdout v' = w_stdout v ++ [out ++ [10]].
Proof.
  intros E g w c w' words pw h r args rest v W A X HK WO S OF SH PW C SS L N EN.
  destruct (generate_session E g w c w' S) as (o & w1 & B & (X1 & X2 & _) & _). rewrite X2 in SH.
  destruct (generate_convert_recover E (generate_settings g) (recover_settings r) w o w1 words pw h v W A X HK WO (same_settings_request _ _ SS) B OF SH)
    as (out & v2 & O1 & R & O2); [|apply convert_programs_sessions; exact C|exact EN|].
  - rewrite seed_drawn_same. exact PW.
  - exists out, v2. split; [rewrite X1; exact O1|]. split; [exact (recover_session E r args rest v v2 L N R)|exact O2].
Qed.
Print Assumptions program_recovers.
(** The same for a phrase saved with -out-word-file and read with -in-word-file. *)
Theorem program_recovers_file : forall E g w w' r args rest v,
  wordlist_ok E -> argon_ok E -> aes_ok E -> hkdf_ok E -> words_short E -> world_ok w ->
  session E (bs "generate") generate_table g w (Some 0) w' -> text_of g "out-word-file" [] <> [] ->
  same_settings g r -> command_line recover_table r args rest -> args <> [bs "help"] ->
  text_of r "in-word-file" [] <> [] -> w_files v (text_of r "in-word-file" []) = w_files w' (text_of g "out-word-file" []) ->
  (forall pw, phrase_password g (w_tty w) (seed_drawn g (w_stdin w)) (Some pw) ->
     forall words, w_files w' (text_of g "out-word-file" []) = File (word_file_content words) -> answers E words pw v) ->
  exists out v', w_stdout w' = w_stdout w ++ [out ++ [10]] /\ w_shown w' = w_shown w /\
    mnemonikey_main E (bs "recover" :: args) v = (Some 0, v') /\ w_stdout v' = w_stdout v ++ [out ++ [10]].
Proof.
  intros E g w w' r args rest v W A X HK SHO WO S OF SS L N IF F PW.
  destruct (generate_session E g w _ w' S) as (o & w1 & B & (X1 & X2 & X3) & Q). assert (Y : o = Ret tt) by (apply Q; reflexivity). subst o.
  destruct (generate_then_recover_file E (generate_settings g) (recover_settings r) w w1 v W A X HK SHO WO (same_settings_request _ _ SS) B OF IF) as (out & v2 & O1 & O2 & R & O3).
  - rewrite <- X3. exact F.
  - change (go_encrypt_phrase (generate_settings g)) with (switch_of g "encrypt-phrase" false). intros EP.
    destruct (generate_facts E (generate_settings g) w (Ret tt) w1 WO B (proj1 (ss_plain _ _ SS))) as [(Y & _)|(ttl & master & types & s & m & words & out & _ & _ & _ & _ & _ & PO & _)];
      [destruct Y; reflexivity|]. unfold phrase_of in PO. change (go_encrypt_phrase (generate_settings g)) with (switch_of g "encrypt-phrase" false) in PO. rewrite EP in PO.
    destruct PO as (pw & src & P & _). exists pw. split; [exact P|]. rewrite <- X3. apply PW. unfold phrase_password. rewrite EP, <- seed_drawn_same. exists pw. auto.
  - exists out, v2. split; [rewrite X1; exact O1|]. split; [rewrite X2; exact O2|]. split; [exact (recover_session E r args rest v v2 L N R)|exact O3].
Qed.
Print Assumptions program_recovers_file.

(** Cases: the command lines in different spellings; the phrase is given a password, then another
    one, and is typed back; and an encrypted phrase is saved and read. *)
Definition generate_args : list bytes := [bs "-name"; bs " username"; bs "--email=username@email.com"; bs "-ttl"; bs "1y"; bs "-only=master,encryption"].
Definition recover_args : list bytes := [bs "-ttl=1y"; bs "--only"; bs "master,encryption"; bs "-email"; bs "username@email.com"; bs "-name= username"; bs "more"].
Definition request_settings : list (bytes * setting) :=
  [(bs "name", Txt (bs " username")); (bs "email", Txt (bs "username@email.com")); (bs "ttl", Txt (bs "1y")); (bs "only", Txt (bs "master,encryption"))].
Lemma runs_ok E name args body w w1 : runs E name args body w -> body w = (Ret tt, w1) -> mnemonikey_main E (name :: args) w = (Some 0, w1).
Proof. intros R B. destruct (R (Ret tt) w1 B) as [[M _] _]; [discriminate|exact M]. Qed.
Ltac set_eq tab n t := apply (Set_one tab n Words (Txt t)) with (opt := [_]); [cbv [generate_table recover_table convert_table In]; tauto|apply (Spell_equals _ _ t); constructor|].
Ltac set_next tab n t := apply (Set_one tab n Words (Txt t)) with (opt := [_; _]); [cbv [generate_table recover_table convert_table In]; tauto|apply Spell_next; [discriminate|constructor|constructor]|].
Lemma generate_args_line : command_line generate_table request_settings generate_args [].
Proof.
  exists []. split; [|constructor]. set_next generate_table (bs "name") (bs " username"). set_eq generate_table (bs "email") (bs "username@email.com").
  set_next generate_table (bs "ttl") (bs "1y"). set_eq generate_table (bs "only") (bs "master,encryption"). constructor.
Qed.
Definition recover_order : list (bytes * setting) :=
  [(bs "ttl", Txt (bs "1y")); (bs "only", Txt (bs "master,encryption")); (bs "email", Txt (bs "username@email.com")); (bs "name", Txt (bs " username"))].
Lemma recover_args_line : command_line recover_table recover_order recover_args [bs "more"].
Proof.
  exists [bs "more"]. split; [|apply End_plain; right; right; do 2 eexists; split; [reflexivity|discriminate]].
  set_eq recover_table (bs "ttl") (bs "1y"). set_next recover_table (bs "only") (bs "master,encryption").
  set_next recover_table (bs "email") (bs "username@email.com"). set_eq recover_table (bs "name") (bs " username"). constructor.
Qed.
Lemma request_same extra extra' : (forall m, In m [bs "name"; bs "email"; bs "ttl"; bs "only"; bs "encrypt-keys"; bs "self-cert"; bs "enc-index"; bs "auth-index"; bs "sig-index"] -> last_setting extra m = None /\ last_setting extra' m = None) ->
  same_settings (request_settings ++ extra) (recover_order ++ extra').
Proof.
  intros H.
  assert (Y : forall s t m, last_setting t m = None -> last_setting (s ++ t) m = last_setting s m).
  { induction s as [|[n v] s IH]; intros t m N; cbn [app last_setting]; [exact N|]. rewrite IH by exact N. reflexivity. }
  constructor.
  - intros n I. rewrite !Y by (apply H; cbn [In] in *; tauto). cbn [In] in I. destruct I as [<-|[<-|[<-|[<-|[]]]]]; vm_compute; reflexivity.
  - unfold switch_of. rewrite !Y by (apply H; cbn [In]; tauto). split; vm_compute; reflexivity.
  - unfold switch_of. rewrite !Y by (apply H; cbn [In]; tauto). vm_compute; reflexivity.
  - unfold number_of. rewrite !Y by (apply H; cbn [In]; tauto). repeat split; vm_compute; reflexivity.
Qed.
Definition convert_args : list bytes := [bs "-encrypt-phrase"].
Definition convert_chosen : list (bytes * setting) := [(bs "encrypt-phrase", On true)].
Lemma convert_args_line : command_line convert_table convert_chosen convert_args [].
Proof.
  exists []. split; [|constructor]. apply (Set_one convert_table (bs "encrypt-phrase") Switch (On true)) with (opt := [bs "-encrypt-phrase"]);
    [cbv [convert_table In]; tauto|apply Spell_bare; constructor|constructor].
Qed.
Lemma chain_program words pw s offset before news p : phrase_ok toy_env words -> opens toy_env (words, pw) s offset ->
  before = match pw with None => [] | Some q => [[]; q] end -> Forall (fun l => ~ In 10 l) (before ++ news) ->
  match pw with None => True | Some q => pass_text q = q end -> chosen true (map pass_text news) = Some p ->
  exists new w', mnemonikey_main toy_env (bs "convert" :: convert_args) (chain_world words (before ++ news)) = (Some 0, w') /\ w_shown w' = [new] /\
    phrase_ok toy_env new /\ opens toy_env (new, Some p) s offset /\ convert_program toy_env (words, pw) (new, Some p).
Proof.
  intros P OP BE NL PT CH. destruct (chain_session words pw s offset before news p P OP BE NL PT CH) as (new & w' & G & SH & P1 & OP1 & _ & EN & x & v & D & U).
  assert (M : mnemonikey_main toy_env (bs "convert" :: convert_args) (chain_world words (before ++ news)) = (Some 0, w')).
  { apply (runs_ok toy_env (bs "convert") convert_args (decode_and_convert toy_env (convert_settings convert_chosen))).
    - apply (convert_line toy_env convert_chosen convert_args []); [apply convert_args_line|discriminate].
    - change (convert_settings convert_chosen) with chain_convert. exact G. }
  exists new, w'. split; [exact M|]. split; [exact SH|]. split; [exact P1|]. split; [exact OP1|].
  apply (Convert_program toy_env convert_chosen (chain_world words (before ++ news)) (Some 0) w' v x (words, pw) new (Some p)).
  - exact (proj1 case_start_ok).
  - exists convert_args, []. split; [apply convert_args_line|]. split; [discriminate|exact M].
  - exact EN.
  - exact D.
  - exists p. split; [exact U|reflexivity].
  - exact SH.
Qed.
Example program_case : exists words w0 new1 w1 new2 w2 v out,
  mnemonikey_main toy_env (bs "generate" :: generate_args) case_start = (Some 0, w0) /\ w_shown w0 = [words] /\ w_stdout w0 = [out] /\
  mnemonikey_main toy_env (bs "convert" :: convert_args) (chain_world words case_lines) = (Some 0, w1) /\ w_shown w1 = [new1] /\
  mnemonikey_main toy_env (bs "convert" :: convert_args) (chain_world new1 ([[]; bs "secret"] ++ second_lines)) = (Some 0, w2) /\ w_shown w2 = [new2] /\
  mnemonikey_main toy_env (bs "recover" :: recover_args) (chain_world new2 [bs "other"]) = (Some 0, v) /\ w_stdout v = [out].
Proof.
  destruct (case_works false []) as (w0 & G & S). destruct (S eq_refl) as (words & SH).
  assert (M : mnemonikey_main toy_env (bs "generate" :: generate_args) case_start = (Some 0, w0)).
  { apply (runs_ok toy_env (bs "generate") generate_args (generate_and_print toy_env (generate_settings request_settings))).
    - apply (generate_line toy_env request_settings generate_args []); [apply generate_args_line|discriminate].
    - change (generate_settings request_settings) with (case_generate false []). exact G. }
  assert (P : phrase_ok toy_env words)
    by (eapply (shown_phrase_ok toy_env); [apply toy_wordlist_ok|apply toy_argon_ok|apply toy_aes_ok|apply toy_hkdf_ok|apply case_start_ok| |exact G|reflexivity|exact SH]; reflexivity).
  destruct (chain_opens words w0 G SH) as (s & offset & OP).
  destruct (chain_program words None s offset [] case_lines (bs "secret") P OP eq_refl case_lines_ok I) as (new1 & w1 & G1 & SH1 & P1 & OP1 & C1); [vm_compute; reflexivity|].
  destruct (chain_program new1 (Some (bs "secret")) s offset [[]; bs "secret"] second_lines (bs "other") P1 OP1 eq_refl) as (new2 & w2 & G2 & SH2 & P2 & OP2 & C2);
    [repeat constructor; vm_compute; intuition discriminate|vm_compute; reflexivity|vm_compute; reflexivity|].
  destruct (program_recovers toy_env (request_settings ++ []) case_start (Some 0) w0 words None (new2, Some (bs "other")) (recover_order ++ []) recover_args [bs "more"] (chain_world new2 [bs "other"]))
    as (out & v & O1 & R & O2);
    [apply toy_wordlist_ok|apply toy_argon_ok|apply toy_aes_ok|apply toy_hkdf_ok|apply case_start_ok| |reflexivity|exact SH|reflexivity| | |exact recover_args_line|discriminate| |].
  - exists generate_args, []. split; [exact generate_args_line|]. split; [discriminate|exact M].
  - eapply rt_trans; apply rt_step; [exact C1|exact C2].
  - apply request_same. intros m _. split; reflexivity.
  - exists (set_stdin (chain_world new2 [bs "other"]) (password_lines [bs "other"])). split; [apply chain_typed; exact P2|]. cbn [fst snd].
    split; [reflexivity|]. exists [], (bs "other"), []. split; [reflexivity|]. split; [repeat constructor; vm_compute; intuition discriminate|]. split; [vm_compute; reflexivity|].
    intros dm _. constructor.
  - exists words, w0, new1, w1, new2, w2, v, (out ++ [10]). split; [exact M|]. split; [exact SH|]. split; [exact O1|]. split; [exact G1|]. split; [exact SH1|].
    split; [exact G2|]. split; [exact SH2|]. split; [exact R|exact O2].
Qed.
(** saved with a password, and read from a copy under another name *)
Definition save_args : list bytes := generate_args ++ [bs "--encrypt-phrase=T"; bs "-out-word-file"; bs "phrase"].
Definition read_args : list bytes := bs "-in-word-file=copy" :: recover_args.
Definition save_settings : list (bytes * setting) := request_settings ++ [(bs "encrypt-phrase", On true); (bs "out-word-file", Txt (bs "phrase"))].
Definition read_settings : list (bytes * setting) := (bs "in-word-file", Txt (bs "copy")) :: recover_order.
Lemma save_args_line : command_line generate_table save_settings save_args [].
Proof.
  exists []. split; [|constructor]. set_next generate_table (bs "name") (bs " username"). set_eq generate_table (bs "email") (bs "username@email.com").
  set_next generate_table (bs "ttl") (bs "1y"). set_eq generate_table (bs "only") (bs "master,encryption").
  apply (Set_one generate_table (bs "encrypt-phrase") Switch (On true)) with (opt := [bs "--encrypt-phrase=T"]);
    [cbv [generate_table In]; tauto|apply (Spell_equals _ _ (bs "T")); constructor; cbv [true_texts In]; tauto|].
  set_next generate_table (bs "out-word-file") (bs "phrase"). constructor.
Qed.
Lemma read_args_line : command_line recover_table read_settings read_args [bs "more"].
Proof.
  destruct recover_args_line as (more & S & E). exists more. split; [|exact E].
  apply (Set_one recover_table (bs "in-word-file") Words (Txt (bs "copy"))) with (opt := [bs "-in-word-file=copy"]); [cbv [recover_table In]; tauto|apply (Spell_equals _ _ (bs "copy")); constructor|exact S].
Qed.
Example program_file_case : exists w' v v2 out,
  mnemonikey_main toy_env (bs "generate" :: save_args) case_start = (Some 0, w') /\
  w_files v (bs "copy") = w_files w' (bs "phrase") /\ w_stdin v = [10] ++ bs "pw" ++ [10] /\ w_stdout w' = [out] /\
  mnemonikey_main toy_env (bs "recover" :: read_args) v = (Some 0, v2) /\ w_stdout v2 = [out].
Proof.
  destruct (case_works true (bs "phrase")) as (w' & G & _).
  assert (M : mnemonikey_main toy_env (bs "generate" :: save_args) case_start = (Some 0, w')).
  { apply (runs_ok toy_env (bs "generate") save_args (generate_and_print toy_env (generate_settings save_settings))).
    - apply (generate_line toy_env save_settings save_args []); [apply save_args_line|discriminate].
    - change (generate_settings save_settings) with (case_generate true (bs "phrase")). exact G. }
  set (v := mk_world (fun _ => w_files w' (bs "phrase")) ([10] ++ bs "pw" ++ [10]) true None [] 0 [] 0 [] 0).
  destruct (program_recovers_file toy_env save_settings case_start w' read_settings read_args [bs "more"] v)
    as (out & v2 & O1 & _ & R & O2);
    [apply toy_wordlist_ok|apply toy_argon_ok|apply toy_aes_ok|apply toy_hkdf_ok|apply toy_words_short|apply case_start_ok
    | |discriminate| |apply read_args_line|discriminate|discriminate|reflexivity| |].
  - exists save_args, []. split; [exact save_args_line|]. split; [discriminate|exact M].
  - constructor.
    + intros n I. cbn [In] in I. destruct I as [<-|[<-|[<-|[<-|[]]]]]; vm_compute; reflexivity.
    + split; vm_compute; reflexivity.
    + vm_compute; reflexivity.
    + split; [|split]; vm_compute; reflexivity.
  - intros pw (p & U & Q) words _. assert (Y : p = bs "pw").
    { assert (Z : fst (user_input_password (w_tty case_start) true (seed_drawn save_settings (w_stdin case_start))) = Ok (bs "pw")) by (vm_compute; reflexivity). rewrite Z in U. injection U as <-. reflexivity. }
    injection Q as ->. rewrite Y. split; [reflexivity|].
    exists [[]], (bs "pw"), []. split; [reflexivity|].
    split; [repeat constructor; intros H; vm_compute in H; intuition discriminate|]. split; [reflexivity|].
    intros dm _. constructor; [left; reflexivity|constructor].
  - exists w', v, v2, (out ++ [10]). split; [exact M|]. split; [reflexivity|]. split; [reflexivity|].
    split; [exact O1|]. split; [exact R|exact O2].
Qed.
