(** What phrase entry leaves on the terminal, the printed phrase and the printed key information
    (C62, C63, C64, C65). *)
From Coq Require Import Lia ZifyBool ZifyNat.
From Verif.Model Require Import GoBase Env Version Seed GoTime Recovery PgpKeys Mnemonikey CliText CliInput CliScreen.
From Verif.Spec Require Import EnvSpec DecodeSpec KeySpec PgpSpec ExportSpec CliEnvSpec ScreenSpec.
From Verif.Proofs Require Import BitsP PgpP EnvInst CliInst KeysP ExportP ScreenP ShowP.
From Verif.Props Require Import ExportProps LifeProps IdentityProps.
Ltac Zify.zify_post_hook ::= Z.div_mod_to_equations.

(** the two lines phrase entry works on: nothing else on the screen changes; the line of the word shows
    [top] (over a blank line or what was there), the line below notices *)
Definition traces (w : Z) (t1 t2 : screen) : Prop :=
  (forall r c, r <> s_row t1 -> r <> s_row t1 + 1 -> s_cell t2 r c = s_cell t1 r c) /\
  (exists base ms, ((forall c, base c = blank) \/ (forall c, base c = s_cell t1 (s_row t1 + 1) c)) /\ Forall notice ms /\
     forall c, 0 <= c < w -> s_cell t2 (s_row t1 + 1) c = overlay base ms c).

(** ** C62: raw mode, whatever keys are pressed and however it ends *)
Theorem raw_entry_screen : forall (k : kind) E w h t stdin, wordlist_ok E -> search_ok E -> 2 <= h -> in_window w h t ->
  let t1 := play w h t raw_header in
  let t2 := play w h t1 (raw_body E stdin) in
  roomy w h t1 (raw_body E stdin) ->
  traces w t1 t2 /\ (forall c, 0 <= c < w -> s_cell t2 (s_row t1) c = blank) /\
  s_row t2 = s_row t1 + 2 /\ s_col t2 = 0.
Proof.
  intros k E w h t stdin W SO Hh P t1 t2 Rm.
  assert (Hw : 0 < w) by (destruct P as (_ & ? & _); lia).
  destruct (raw_header_room w h t Hh Hw P) as (P1 & Room & C0). fold t1 in P1, Room, C0.
  pose proof (on_start w h t1 P1 Room) as O.
  set (u := play w h (unflag t1) (raw_word_prompt 0 ++ raw_keys_output E entry_start stdin ++ [13] ++ erase_forward)).
  assert (Eb : raw_body E stdin = (raw_word_prompt 0 ++ raw_keys_output E entry_start stdin ++ [13] ++ erase_forward) ++ [10; 10])
    by (unfold raw_body, raw_footer; rewrite <- !app_assoc; reflexivity).
  unfold roomy in Rm. fold (unflag t1) in Rm. rewrite Eb, play_app in Rm. fold u in Rm.
  pose proof (uncrowded _ _ _ _ Rm) as X.
  assert (CU : Cleared w (s_top t1) (s_row t1) (s_cell t1) u).
  { destruct P1 as (A1 & _). revert X O. unfold u. generalize (unflag t1). intros s X O.
    refine (ok_app w h _ (On w (s_top t1) (s_row t1) (s_cell t1)) _ _ _ _ _ s O X); [apply ok_word_prompt; auto; lia|].
    refine (ok_app w h _ (On w (s_top t1) (s_row t1) (s_cell t1)) _ _ _ _ _).
    - apply ok_keys; auto; lia.
    - apply ok_clear; auto; lia. }
  assert (PU : positioned w h u).
  { destruct CU as ((sv & En) & _). destruct (entering_open _ _ _ _ _ _ _ En) as (cell & c & Q & C & Ot & _).
    rewrite Q. destruct P1 as (A1 & _ & _ & D1). repeat split; cbn [s_row s_top s_col s_cell s_mode]; try lia.
    intros r c' Hr. rewrite Ot by lia. apply D1. lia. }
  assert (F : unflag t2 = unflag (play w h u [10; 10])).
  { unfold t2. rewrite Eb, <- play_unflag, play_app. reflexivity. }
  assert (Fc : s_cell t2 = s_cell (play w h u [10; 10])) by (apply (f_equal s_cell) in F; exact F).
  assert (Fr : s_row t2 = s_row (play w h u [10; 10])) by (apply (f_equal s_row) in F; exact F).
  assert (Fk : s_col t2 = s_col (play w h u [10; 10])) by (apply (f_equal s_col) in F; exact F).
  destruct CU as ((sv & En) & C1 & Bl). destruct (entering_open _ _ _ _ _ _ _ En) as (cell & c & Q & C & Ot & (base & ms & B1 & B2 & B3)).
  split; [split|split;[|split]].
  - intros r c' N1 N2. rewrite Fc. rewrite (proj1 (two_feeds w h u r c' PU)), Q. cbn [s_cell]. auto.
  - exists base, ms. split; [exact B1|]. split; [exact B2|]. intros c' Hc'. rewrite Fc. rewrite (proj1 (two_feeds w h u _ c' PU)), Q. cbn [s_cell]. auto.
  - intros c' Hc'. rewrite Fc. rewrite (proj1 (two_feeds w h u _ c' PU)). auto.
  - rewrite Fr, (proj1 (proj2 (two_feeds w h u 0 0 PU))), Q. reflexivity.
  - rewrite Fk, (proj2 (proj2 (two_feeds w h u 0 0 PU))). exact C1.
Qed.
Print Assumptions raw_entry_screen.

Lemma simple_from {k : kind} E w h t1 count lines : wordlist_ok E -> search_ok E -> 0 < w -> positioned w h t1 ->
  s_row t1 + 1 < s_top t1 + h -> s_col t1 = 0 ->
  Forall (fun p => Forall printable (fst p) /\ snd p = true) lines ->
  let out := cooked (simple_output E 0 count lines) in
  s_crowded (play w h (unflag t1) out) = false ->
  traces w t1 (play w h t1 out) /\
  exists base top, ((forall c, base c = blank) \/ (forall c, base c = s_cell t1 (s_row t1) c)) /\
    (top = [] \/ exists n, top = [bs "Word " ++ itoa n ++ bs " >> "]) /\
    forall c, 0 <= c < w -> s_cell (play w h t1 out) (s_row t1) c = overlay base top c.
Proof.
  intros W SO Hw P1 Room C0 F out Rm. unfold out in *. clear out.
  pose proof (on_start w h t1 P1 Room) as O.
  assert (A1 : s_top t1 <= s_row t1) by (destruct P1; lia).
  assert (Tp : Top w (s_top t1) (s_row t1) (s_cell t1) (unflag t1)).
  { split; [exact O|]. split; [exact C0|]. exists (fun c => s_cell t1 (s_row t1) c). split; [right; reflexivity|reflexivity]. }
  pose proof (ok_simple w h (s_top t1) (s_row t1) (s_cell t1) A1 Room Hw E W SO lines F 0 count (unflag t1) Tp Rm) as (i & D).
  set (out := cooked (simple_output E 0 count lines)) in *. clearbody out.
  set (t2 := play w h t1 out). set (u := play w h (unflag t1) out) in *.
  assert (Fc : s_cell t2 = s_cell u).
  { unfold t2, u. assert (F' : unflag (play w h t1 out) = unflag (play w h (unflag t1) out)) by (symmetry; apply play_unflag).
    apply (f_equal s_cell) in F'. exact F'. }
  unfold traces. rewrite Fc. clear Fc t2. clearbody u.
  assert (X : exists s0 top, On w (s_top t1) (s_row t1) (s_cell t1) s0 /\ bare w (s_row t1) (s_cell t1) s0 top /\
     (top = [] \/ exists n, top = [bs "Word " ++ itoa n ++ bs " >> "]) /\ forall r c, s_cell u r c = s_cell s0 r c).
  { destruct D as [(A & B & C)|(s0 & A & B & Q)].
    - exists u, []. auto.
    - exists s0, [label i]. split; [exact A|]. split; [exact B|]. split; [right; exists (i + 1); reflexivity|].
      intros r c. destruct A as (sv & En). destruct (entering_open _ _ _ _ _ _ _ En) as (cell & c' & Q' & C' & Ot & _).
      assert (PU : positioned w h (mk_screen cell (s_top t1) (s_row t1) 0 sv Ground false)).
      { destruct P1 as (_ & _ & _ & D1). repeat split; cbn [s_row s_top s_col s_cell s_mode]; try lia.
        intros r' c'' Hr. rewrite Ot by lia. apply D1. lia. }
      assert (K : play w h s0 (cooked [10; 10]) = play w h (mk_screen cell (s_top t1) (s_row t1) 0 sv Ground false) [10; 13; 10])
        by (rewrite Q'; reflexivity).
      rewrite Q, K. pose proof (line_feed_keeps w h _ PU) as P2.
      assert (K2 : play w h (mk_screen cell (s_top t1) (s_row t1) 0 sv Ground false) [10; 13; 10] =
                   line_feed h (move (line_feed h (mk_screen cell (s_top t1) (s_row t1) 0 sv Ground false)) (s_row t1 + 1) 0)).
      { cbn [play fold_left]. unfold receive at 3. cbn [s_mode]. cbn.
        unfold line_feed. cbn [s_row s_top s_cell s_col s_saved s_crowded].
        destruct (s_row t1 + 1 <? s_top t1 + h); reflexivity. }
      rewrite K2. destruct P2 as (A2 & _ & _ & D2).
      assert (L : s_row (line_feed h (mk_screen cell (s_top t1) (s_row t1) 0 sv Ground false)) = s_row t1 + 1).
      { unfold line_feed. cbn [s_row s_top]. destruct (_ <? _); reflexivity. }
      rewrite feed_cells; [|exact D2|cbn [s_row s_top move]; rewrite L in A2; exact (proj2 A2)].
      cbn [move s_cell]. rewrite feed_cells; [rewrite Q'; reflexivity| |cbn [s_row s_top]; lia].
      intros r' c'' Hr. destruct PU as (_ & _ & _ & D3). apply D3. exact Hr. }
  destruct X as (s0 & top & (sv & En) & (base0 & B01 & B02) & Tops & Eq).
  destruct (entering_open _ _ _ _ _ _ _ En) as (cell & c & Q & C & Ot & (base & ms & B1 & B2 & B3)).
  split; [split|].
  - intros r c' N1 N2. rewrite Eq, Q. cbn [s_cell]. auto.
  - exists base, ms. split; [exact B1|]. split; [exact B2|]. intros c' Hc'. rewrite Eq, Q. cbn [s_cell]. auto.
  - exists base0, top. split; [exact B01|]. split; [exact Tops|]. intros c' Hc'. rewrite Eq. auto.
Qed.

(** ** C63: simple mode, when every line ends with Enter *)
Theorem simple_entry_screen : forall (k : kind) E w h t count lines, wordlist_ok E -> search_ok E -> 2 <= h -> in_window w h t ->
  Forall (fun p => Forall (fun b => 32 <= b <= 126) (fst p) /\ snd p = true) lines ->
  let t1 := play w h t (cooked simple_header) in
  let out := cooked (simple_output E 0 count lines) in
  let t2 := play w h t1 out in
  roomy w h t1 out ->
  traces w t1 t2 /\
  exists base top, ((forall c, base c = blank) \/ (forall c, base c = s_cell t1 (s_row t1) c)) /\
    (top = [] \/ exists n, top = [bs "Word " ++ itoa n ++ bs " >> "]) /\
    forall c, 0 <= c < w -> s_cell t2 (s_row t1) c = overlay base top c.
Proof.
  intros k E w h t count lines W SO Hh P F t1 out t2 Rm.
  assert (Hw : 0 < w) by (destruct P as (_ & ? & _); lia).
  destruct (simple_header_room w h t Hh Hw P) as (P1 & Room & C0). fold t1 in P1, Room, C0.
  unfold roomy in Rm. fold (unflag t1) in Rm.
  exact (simple_from E w h t1 count lines W SO Hw P1 Room C0 F Rm).
Qed.
Print Assumptions simple_entry_screen.

(** A word longer than the line is not cleared.  Here 36 letters are typed at a prompt of 10 columns on a
    screen of 45 columns. *)
Definition empty_screen : screen := mk_screen (fun _ _ => blank) 0 0 0 (0, 0) Ground false.
Definition zs (n : nat) : bytes := repeat 122 n.
Lemma toy_no_z n : snd (wl_search toy_env (122 :: zs n)) = [].
Proof.
  destruct (snd (wl_search toy_env (122 :: zs n))) as [|s l] eqn:Q; [reflexivity|exfalso].
  destruct (toy_search_ok (122 :: zs n)) as [_ F]. rewrite Q in F. inversion F as [|? ? I _]; subst.
  change (wl_words toy_env) with toy_words in I. unfold toy_words in I. apply in_flat_map in I as (a & A & I).
  apply in_flat_map in I as (b & _ & I). apply in_map_iff in I as (c & I & _). injection I as I _.
  cbn in A. lia.
Qed.
Definition z_output : bytes := [122] ++ save_cursor ++ erase_forward ++ ([13; 10] ++ red bad_word) ++ load_cursor.
Lemma z_key n s : en_input s = zs n -> key_output toy_env s 122 = z_output /\
  key toy_env s 122 = More (mk_entry (en_i s) (en_count s) (en_words s) (zs (S n))).
Proof.
  intros I.
  assert (N : zs n ++ [122] = 122 :: zs n) by (symmetry; apply repeat_cons).
  unfold key_output, key. cbn [Z.eqb Z.leb Z.compare Pos.compare Pos.compare_cont Pos.eqb orb andb key_ctrl_c key_ctrl_d key_delete key_left].
  rewrite I, N, toy_no_z. split; reflexivity.
Qed.
Lemma zs_output m : forall n s, en_input s = zs n ->
  raw_keys_output toy_env s (zs m) = concat (repeat z_output m).
Proof.
  induction m as [|m IH]; intros n s I; [reflexivity|].
  change (zs (S m)) with (122 :: zs m). cbn [raw_keys_output repeat concat].
  destruct (z_key n s I) as [-> ->]. cbn [en_i]. rewrite Z.eqb_refl. rewrite (IH (S n)) by reflexivity. reflexivity.
Qed.

Theorem raw_entry_narrow_refuted : forall k : kind, exists E w h t stdin, wordlist_ok E /\ search_ok E /\ 2 <= h /\ in_window w h t /\
  let t1 := play w h t raw_header in
  let t2 := play w h t1 (raw_body E stdin) in
  forall c, 10 <= c < w -> s_cell t2 (s_row t1) c = 122.
Proof.
  intros k. exists toy_env, 45, 24, empty_screen, (zs 36). split; [apply toy_wordlist_ok|]. split; [apply toy_search_ok|]. split; [lia|].
  split; [repeat split; cbn; lia|]. cbv zeta. unfold raw_body. rewrite (zs_output 36 0) by reflexivity.
  intros c Hc. assert (K : forallb (fun c => s_cell (play 45 24 (play 45 24 empty_screen raw_header)
     (raw_word_prompt 0 ++ concat (repeat z_output 36) ++ raw_footer)) (s_row (play 45 24 empty_screen raw_header)) c =? 122)
     (map (fun i => 10 + Z.of_nat i) (seq 0 35)) = true) by (destruct k; vm_compute; reflexivity).
  rewrite forallb_forall in K. specialize (K c). apply Z.eqb_eq, K. apply in_map_iff. exists (Z.to_nat (c - 10)).
  split; [lia|]. apply in_seq. lia.
Qed.
Print Assumptions raw_entry_narrow_refuted.

(** A last line that ends without Enter (end of input typed after the word) stays on the screen. *)
Theorem simple_entry_last_line_refuted : forall k : kind, exists E w h t lines, wordlist_ok E /\ search_ok E /\ 2 <= h /\ in_window w h t /\
  Forall (fun p => Forall (fun b => 32 <= b <= 126) (fst p)) lines /\
  let t1 := play w h t (cooked simple_header) in
  let out := cooked (simple_output E 0 1 lines) in
  roomy w h t1 out /\
  map (s_cell (play w h t1 out) (s_row t1)) [10; 11; 12] = bs "aaa" /\ In (bs "aaa") (wl_words E).
Proof.
  intros k. exists toy_env, 80, 24, empty_screen, [(bs "aaa", false)]. split; [apply toy_wordlist_ok|]. split; [apply toy_search_ok|]. split; [lia|].
  split; [repeat split; cbn; lia|]. split; [repeat constructor; cbn; lia|].
  cbv zeta. split; [destruct k; vm_compute; reflexivity|]. split; [destruct k; vm_compute; reflexivity|]. left. reflexivity.
Qed.
Print Assumptions simple_entry_last_line_refuted.

(** ** C64: the printed phrase *)
(** One line for each word, in order, with its number from 1; all words start in column 5. *)
Theorem phrase_shown : forall ws, zlen ws <= 999 -> Forall (fun w => ~ In 27 w) ws ->
  exists out lines, phrase_lines 0 ws = Ok out /\ visible Ground out = as_lines lines /\ length lines = length ws /\
  forall j w line, nth_error ws j = Some w -> nth_error lines j = Some line ->
    exists number, table_row 5 number w line /\ decimal number = Some (Z.of_nat j + 1).
Proof.
  intros ws L F. destruct (phrase_lines_shown ws 0 ltac:(lia) ltac:(lia) F) as (out & lines & A & B & C & D).
  exists out, lines. split; [exact A|]. split; [exact B|]. split; [exact C|]. intros j w line H1 H2.
  destruct (D j w line H1 H2) as (n & T & N). exists n. split; [exact T|]. rewrite N. f_equal. lia.
Qed.
Print Assumptions phrase_shown.
Example phrase_case : exists out, phrase_lines 0 (repeat (bs "zebra") 19) = Ok out /\
  firstn 41 (visible Ground out) = bs "1:   zebra" ++ [10] ++ bs "2:   zebra" ++ [10] ++ bs "3:   zebra" ++ [10] ++ bs "4:   zeb" /\
  skipn (length (visible Ground out) - 11) (visible Ground out) = bs "19:  zebra" ++ [10].
Proof. eexists. split; [reflexivity|]. split; reflexivity. Qed.

(** ** C65: the key information of -verbose *)
Definition shown_name (k : subkey_kind) : bytes :=
  match k with Encryption => bs "Encryption" | Authentication => bs "Authentication" | Signing => bs "Signing" end.
Lemma match_impl ks t (P Q : subkey_kind -> ecc_key -> Z -> subkey_block -> Prop) :
  (forall k base x b, P k base x b -> Q k base x b) -> subkeys_match ks t P -> subkeys_match ks t Q.
Proof.
  intros H (o & PM & F). exists o. split; [exact PM|]. induction F as [|q b l l' (A & B) F IH]; constructor; auto.
Qed.
(** The lines shown are a table with the fingerprint, user ID, creation and expiry time of the exported
    key and the fingerprint of each exported subkey under its name; nothing panics. *)
Theorem verbose_identity : forall E edv f s t0 opts m pw tape t quote rfc3339, hkdf_ok E -> env_ok E edv -> seed_ok s -> opts_ok (opts_of opts) ->
  zlen (ko_name (opts_of opts)) + zlen (ko_email (opts_of opts)) < 2 ^ 31 -> mnk_new E s t0 opts = Ok m ->
  password_ok pw -> Forall byte tape -> exports E f (mnk_keys m) pw tape t ->
  (forall x, ~ In 27 (quote x)) -> (forall x, ~ In 27 (rfc3339 x)) ->
  let created := pk_time (tk_key t) * ns in
  let ttl := ko_ttl (opts_of opts) in
  exists out col lines fp subs,
    print_key_debug_info E quote rfc3339 m = Ok out /\ visible Ground out = as_lines lines /\
    Forall2 (fun p line => table_row col (fst p) (snd p) line)
      ([(bs "Master key Fingerprint", fp); (bs "User ID", quote (tk_uid t)); (bs "Created at", rfc3339 created)] ++
       (if ttl =? 0 then [] else [(bs "Expires at", rfc3339 (created + ttl / ns * ns))]) ++ subs) lines /\
    unhex fp = Some (fingerprint E (tk_key t)) /\ length subs = length (tk_subkeys t) /\
    subkeys_match (mnk_keys m) t (fun k _ _ b =>
      exists v, In (shown_name k ++ bs " subkey fingerprint", v) subs /\ unhex v = Some (fingerprint E (sb_key b))).
Proof.
  intros E edv f s t0 opts m pw tape t quote rfc3339 HK HE S O L N Hp Ht X Hq Hr created ttl.
  destruct (reported_identity E edv f s t0 opts m pw tape t HK HE S O L N Hp Ht X) as (I1 & I2 & I3 & I4 & I5).
  destruct (mnk_times E s t0 opts m HK S O N) as (_ & T2 & T3 & T4 & T5).
  assert (Ex : (if is_zero_time (mnk_expiry m) then @nil (bytes * bytes) else [(bs "Expires at", rfc3339 (mnk_expiry m))]) =
               (if ttl =? 0 then [] else [(bs "Expires at", rfc3339 (created + ttl / ns * ns))])).
  { rewrite T5. fold ttl. destruct (ttl =? 0) eqn:Q; [reflexivity|]. change (pk_time (tk_key t) * 1000000000) with created in I3.
    rewrite T2 at 1. rewrite not_zero_time; [rewrite I3; reflexivity|lia|]. apply Z.div_pos; [exact T4|reflexivity]. }
  assert (HH : hash_ok E) by apply HE.
  assert (Fp : forall k, Forall byte (fingerprint_v4 E k)) by (intros k; apply HH).
  set (fpt := fun ty => match mnk_subkey_fingerprint E m ty with Some x => x | None => [] end).
  set (info := fun k => (shown_name k ++ bs " subkey fingerprint", hex_upper (fpt (kind_name k)))).
  assert (Si : exists kinds, mnk_subkey_types m = map kind_name kinds /\ subkey_info E m (mnk_subkey_types m) = Ok (map info kinds)).
  { exists ((match ks_enc (mnk_keys m) with Some _ => [Encryption] | None => [] end) ++
            (match ks_auth (mnk_keys m) with Some _ => [Authentication] | None => [] end) ++
            (match ks_sign (mnk_keys m) with Some _ => [Signing] | None => [] end)).
    unfold mnk_subkey_types. destruct (ks_enc (mnk_keys m)), (ks_auth (mnk_keys m)), (ks_sign (mnk_keys m)); split; reflexivity. }
  destruct Si as (kinds & K1 & K2).
  unfold print_key_debug_info, key_debug_info. rewrite K2. cbn [bind].
  match goal with |- context [if is_zero_time (mnk_expiry m) then ?a else ?b] => change (if is_zero_time (mnk_expiry m) then a else b) with
    (if is_zero_time (mnk_expiry m) then @nil (bytes * bytes) else [(bs "Expires at", rfc3339 (mnk_expiry m))]) end.
  rewrite Ex.
  assert (By : forall ty, Forall byte (fpt ty)).
  { intros ty. unfold fpt, mnk_subkey_fingerprint.
    repeat match goal with |- context [if ?c then _ else _] => destruct c end; try constructor.
    - destruct (ks_enc (mnk_keys m)); cbn [option_map]; [apply Fp|constructor].
    - destruct (ks_auth (mnk_keys m)); cbn [option_map]; [apply Fp|constructor].
    - destruct (ks_sign (mnk_keys m)); cbn [option_map]; [apply Fp|constructor]. }
  assert (Ky : forall k, printableb k = true -> ascii k /\ ~ In 27 k).
  { intros k Q. apply printableb_ok in Q. split; [|apply printable_no_esc; exact Q].
    eapply Forall_impl; [|exact Q]. unfold printable. intros; lia. }
  destruct (debug_info_shown ([(bs "Master key Fingerprint", hex_upper (mnk_fingerprint E m)); (bs "User ID", quote (mnk_user_id m));
     (bs "Created at", rfc3339 (mnk_created_at m))] ++ (if ttl =? 0 then [] else [(bs "Expires at", rfc3339 (created + ttl / ns * ns))]) ++ map info kinds))
    as (out & col & lines & D1 & D2 & D3).
  { apply Forall_app. split; [|apply Forall_app; split].
    - constructor; [|constructor; [|constructor; [|constructor]]]; cbn [fst snd]; apply and_assoc; split; try (apply Ky; reflexivity); auto.
      apply hex_upper_no_esc, Fp.
    - destruct (ttl =? 0); constructor; [|constructor]. cbn [fst snd]. apply and_assoc; split; [apply Ky; reflexivity|auto].
    - apply Forall_map, Forall_forall. intros k _. unfold info. cbn [fst snd]. apply and_assoc; split; [apply Ky; destruct k; reflexivity|].
      apply hex_upper_no_esc, By. }
  rewrite I2, I3 in D1, D3.
  exists out, col, lines, (hex_upper (mnk_fingerprint E m)), (map info kinds). rewrite I2, I3.
  split; [exact D1|]. split; [exact D2|]. split; [exact D3|]. split; [rewrite unhex_upper by apply Fp; rewrite I1; reflexivity|].
  split; [rewrite <- I4, K1, !map_length; reflexivity|].
  revert I5. apply match_impl. intros k _ _ b (Y1 & Y2 & _). exists (hex_upper (fpt (kind_name k))). split.
  - rewrite K1 in Y1. apply in_map_iff in Y1 as (k' & Q & Y1). assert (k' = k) by (destruct k, k'; try reflexivity; discriminate Q). subst k'.
    apply in_map_iff. exists k. split; [reflexivity|exact Y1].
  - rewrite unhex_upper by apply By. unfold fpt. rewrite Y2. reflexivity.
Qed.
Print Assumptions verbose_identity.

(** ** The hypotheses are met *)
(** two letters no word starts with, then Ctrl-C: the notice is what is left *)
Example raw_entry_case : forall k : kind, in_window 80 24 empty_screen /\
  let t1 := play 80 24 empty_screen raw_header in
  let t2 := play 80 24 t1 (raw_body toy_env [122; 122; 3]) in
  roomy 80 24 t1 (raw_body toy_env [122; 122; 3]) /\
  map (s_cell t2 (s_row t1 + 1)) [0; 1; 2; 3; 4; 5; 6; 7; 8; 9; 10; 11; 12; 13; 14; 15; 16; 17; 18; 19; 20] = bs "No matching words fou".
Proof.
  intros k. split; [repeat split; cbn; lia|]. cbv zeta.
  assert (Q : raw_body toy_env [122; 122; 3] = raw_word_prompt 0 ++ (z_output ++ z_output ++ []) ++ raw_footer).
  { unfold raw_body. cbn [raw_keys_output]. destruct (z_key 0 entry_start eq_refl) as [-> ->]. cbn [en_i entry_start]. rewrite Z.eqb_refl.
    set (e := mk_entry 0 _ _ (zs 1)). destruct (z_key 1 e eq_refl) as [-> ->]. cbn [en_i e]. rewrite Z.eqb_refl. reflexivity. }
  rewrite Q. destruct k; (split; vm_compute; reflexivity).
Qed.
(** a word, an unknown word and then the end of the input: the prompt for the second word is left *)
Example simple_entry_case : forall k : kind,
  let lines := [(bs "aaa", true); (bs "zzz", true)] in
  Forall (fun p => Forall (fun b => 32 <= b <= 126) (fst p) /\ snd p = true) lines /\
  let t1 := play 80 24 empty_screen (cooked simple_header) in
  let out := cooked (simple_output toy_env 0 1 lines) in
  roomy 80 24 t1 out /\
  map (s_cell (play 80 24 t1 out) (s_row t1)) [0; 1; 2; 3; 4; 5; 6; 7; 8; 9; 10; 11; 12] = bs "Word 2 >>    ".
Proof.
  intros k. cbv zeta. split; [repeat constructor; cbn; lia|].
  assert (Z : fst (wl_search toy_env (bs "zzz")) = false).
  { destruct (fst (wl_search toy_env (bs "zzz"))) eqn:Q; [|reflexivity]. apply toy_search_ok in Q.
    apply (toy_letters _) in Q as F. exfalso. pose proof (toy_no_z 2) as N. clear F.
    assert (M : In (bs "zzz") (filter (has_prefix (bs "zzz")) toy_words)) by (apply filter_In; split; [exact Q|reflexivity]).
    change (snd (wl_search toy_env (122 :: zs 2))) with (map (skipn 3) (filter (has_prefix (bs "zzz")) toy_words)) in N.
    destruct (filter _ toy_words); [destruct M|discriminate]. }
  assert (Q : simple_output toy_env 0 1 [(bs "aaa", true); (bs "zzz", true)] =
    simple_word_prompt 0 ++ bs "aaa" ++ [10] ++ erase_forward ++ previous_line ++ erase_forward ++
    simple_word_prompt 1 ++ bs "zzz" ++ [10] ++ red bad_word ++ previous_line ++ erase_forward ++ simple_word_prompt 1 ++ [10; 10]).
  { assert (A : forall i c, 0 < i < c -> simple_output toy_env i c [(bs "zzz", true)] =
      simple_word_prompt i ++ bs "zzz" ++ [10] ++ red bad_word ++ previous_line ++ erase_forward ++ simple_word_prompt i ++ [10; 10]).
    { intros i c H. cbn [simple_output]. replace (i <? c) with true by lia. change (to_lower toy_env (trim_space toy_env (bs "zzz"))) with (bs "zzz").
      rewrite Z. reflexivity. }
    cbn [simple_output]. change (to_lower toy_env (trim_space toy_env (bs "aaa"))) with (bs "aaa").
    change (fst (wl_search toy_env (bs "aaa"))) with true. change (parse_mnemonic_version toy_env (bs "aaa")) with (Ok 0).
    cbn [Z.ltb Z.compare Z.eqb]. rewrite <- (A 1 (mnemonic_size 0)) by (vm_compute; intuition congruence). reflexivity. }
  rewrite Q. destruct k; (split; vm_compute; reflexivity).
Qed.
Definition drop_esc (s : bytes) : bytes := filter (fun b => negb (b =? 27)) s.
Example verbose_case : exists m t,
  mnk_new toy_env (mk_seed 0 77) (1700000000 * ns + 5) (Some (case_opts (31536000 * ns))) = Ok m /\
  exports toy_env Full (mnk_keys m) (bs "hunter2") case_tape t /\
  exists out col lines fp subs,
    print_key_debug_info toy_env drop_esc itoa m = Ok out /\ visible Ground out = as_lines lines /\ length lines = 7%nat /\
    length subs = 3%nat /\ Forall2 (fun p line => table_row col (fst p) (snd p) line)
      ([(bs "Master key Fingerprint", fp); (bs "User ID", drop_esc (tk_uid t)); (bs "Created at", itoa (1700000000 * ns));
        (bs "Expires at", itoa (1731536000 * ns))] ++ subs) lines.
Proof.
  destruct (case_exists (31536000 * ns)) as (m & N & B & K & _); [discriminate|].
  assert (P : password_ok (bs "hunter2")) by (vm_compute; congruence).
  assert (T : Forall byte case_tape).
  { apply Forall_forall. intros x Hx. apply repeat_spec in Hx. subst. split; reflexivity || discriminate. }
  destruct (export_wellformed toy_env toy_verify Full (mnk_keys m) (bs "hunter2") case_tape toy_env_ok B P T)
    as (out & _ & t & X1 & _ & _ & X2 & _ & _ & X3 & _).
  { unfold randomness, secrets_in. rewrite K. cbn. lia. }
  assert (Y : exports toy_env Full (mnk_keys m) (bs "hunter2") case_tape t) by (exists out; eauto).
  exists m, t. split; [exact N|]. split; [exact Y|].
  assert (Hq : forall x, ~ In 27 (drop_esc x)).
  { intros x H. apply filter_In in H as [_ H]. discriminate. }
  assert (Hr : forall x, ~ In 27 (itoa x)) by (intros x; apply printable_no_esc, itoa_printable).
  assert (Q1 : seed_ok (mk_seed 0 77)) by (split; vm_compute; intuition congruence).
  assert (Q2 : opts_ok (opts_of (Some (case_opts (31536000 * ns))))) by (repeat split; vm_compute; congruence).
  destruct (verbose_identity toy_env toy_verify Full (mk_seed 0 77) (1700000000 * ns + 5) (Some (case_opts (31536000 * ns))) m
    (bs "hunter2") case_tape t drop_esc itoa) as (o & col & lines & fp & subs & V1 & V2 & V3 & _ & V4 & _);
    [exact toy_hkdf_ok|exact toy_env_ok|exact Q1|exact Q2|vm_compute; reflexivity|exact N|exact P|exact T|exact Y|exact Hq|exact Hr|].
  destruct (reported_identity toy_env toy_verify Full (mk_seed 0 77) (1700000000 * ns + 5) (Some (case_opts (31536000 * ns))) m
    (bs "hunter2") case_tape t) as (_ & _ & I3 & I4 & I5);
    [exact toy_hkdf_ok|exact toy_env_ok|exact Q1|exact Q2|vm_compute; reflexivity|exact N|exact P|exact T|exact Y|].
  destruct (mnk_times toy_env _ _ _ m toy_hkdf_ok Q1 Q2 N) as (_ & T2 & _).
  assert (C : pk_time (tk_key t) * ns = 1700000000 * ns).
  { change (pk_time (tk_key t) * 1000000000) with (pk_time (tk_key t) * ns) in I3. rewrite <- I3, T2. reflexivity. }
  rewrite C in V3. change (ko_ttl (opts_of (Some (case_opts (31536000 * ns)))) =? 0) with false in V3. cbv iota in V3.
  change (ko_ttl (opts_of (Some (case_opts (31536000 * ns))))) with (31536000 * ns) in V3.
  replace (1700000000 * ns + 31536000 * ns / ns * ns) with (1731536000 * ns) in V3 by reflexivity.
  assert (L3 : length subs = 3%nat).
  { rewrite V4. destruct I5 as (od & PM & F). rewrite (Permutation.Permutation_length (along_perm _ _ _ PM)) in K.
    rewrite <- K. symmetry. clear - F. induction F; cbn [length]; auto. }
  exists o, col, lines, fp, subs. split; [exact V1|]. split; [exact V2|]. split; [|split; [exact L3|exact V3]].
  assert (LL : forall A B (R : A -> B -> Prop) l l', Forall2 R l l' -> length l = length l') by (induction 1; cbn [length]; auto).
  rewrite <- (LL _ _ _ _ _ V3), !app_length, L3. reflexivity.
Qed.
