(** C98: nil pointers, literals and assigned fields in the package pgp: which calls panic or fail, which fields matter. *)
From Coq Require Import Lia ZifyBool ZifyNat.
From Verif.Model Require Import GoBase Env GoTime Seed Encoding PgpWire PgpS2k PgpKeys ZeroValues PgpFields.
From Verif.Spec Require Curve25519.
From Verif.Spec Require Import EnvSpec PgpSpec ExportSpec SliceSpec FieldSpec.
From Verif.Proofs Require Import EnvInst PgpFieldsP UnreadP MadeKeysP.
From Verif.Props Require Import SliceProps.

Definition no_panic (h : list (f_call * f_seen)) : Prop := forall e, In e h -> snd e <> F_panicked.
Lemma first_fits : fits_state first_notes f_init.
Proof. split; [constructor|]. split; reflexivity. Qed.

(** After any program that has not panicked, the next call panics exactly if the table says so, and it fails exactly if the
    table says so. *)
Theorem call_table : forall E calls h st c, sizes_ok E -> rand_ok E -> f_run E f_init calls = (h, st) -> no_panic h ->
  (fst (f_step E st c) = F_panicked <-> judged (notes_after h) c = Panics) /\
  ((exists e, fst (f_step E st c) = F_failed e) <-> judged (notes_after h) c = Fails).
Proof.
  intros E calls h st c S R Q N. destruct (run_told E S R calls _ _ h st first_fits Q N) as [F _].
  pose proof (proj1 (step_told E S R _ _ c F)) as T. unfold notes_after. destruct (judged _ c), (fst (f_step E st c)) as [| |e|]; cbn [tells] in T; try contradiction;
    (split; [split; congruence|split; [intros [e' X]; congruence|intros X; first [discriminate X|eexists; reflexivity]]]).
Qed.
Print Assumptions call_table.

(** ** Programs that keep to the constructors *)
(** no literals of keys and signatures, nothing assigned to Private, to signatures or to the variables; no nil pointers but
    for subkeys in a set; requests for Sign are whole *)
Definition keeps_to (n : notes) (c : f_call) : Prop :=
  let at_ p := nth p (n_objects n) D_nil in
  match c with
  | F_new_master _ _ _ | F_new_subkey _ _ _ | F_new_encryption _ _ _ _ | F_lit_user _ | F_lit_sub _ | F_lit_keys _ | F_packet _ _ => True
  | F_set_public k _ | F_set_creation k _ | F_set_expiry k _ | F_fingerprint k | F_public_packet k | F_private_packet k _ _ => any_key (at_ k) = true
  | F_set_kdf k _ => is_curve (at_ k) = true
  | F_set_user u _ | F_uid u | F_uid_packet u => is_user (at_ u) = true
  | F_set_keys s _ => is_keys (at_ s) = true
  | F_set_sub s _ | F_sub_encode s => is_sub (at_ s) = true
  | F_dummy_packet k => exists a b, at_ k = D_master a b
  | F_self_certify k u => (exists a b, at_ k = D_master a b) /\ is_user (at_ u) = true
  | F_sign private (Some (fp, hash, _, _, hs, us, _)) =>
      length private = 64%nat /\ (8 <= length fp)%nat /\ (hash = 8 \/ hash = 9 \/ hash = 10) /\ forall p, In p (hs ++ us) -> is_sub (at_ p) = true
  | F_sig_encode s | F_sig_packet s => is_sig (at_ s) = true
  | F_packets s _ _ | F_subkey_packets s _ _ _ =>
      exists ks a b, at_ s = D_keys ks /\ at_ (fs_master ks) = D_master a b /\ is_user (at_ (fs_uid ks)) = true
  | F_mpi v => v <> None
  | F_s2k hash _ _ _ => hash = 8 \/ hash = 9 \/ hash = 10
  | F_kdf_encode p => p <> None
  | _ => False
  end.
Definition proper_note (l : list note) (d : note) : Prop :=
  match d with
  | D_master a b => a = true /\ b = true
  | D_subkey a | D_curve a => a = true
  | D_sig uses complete => complete = true /\ forall p, In p uses -> is_sub (nth p l D_nil) = true
  | _ => True
  end.
Definition proper_notes (n : notes) : Prop := (forall p, proper_note (n_objects n) (nth p (n_objects n) D_nil)) /\ n_kdf n = true /\ n_hash n = 8.

Lemma secrets_fine n pw m : n_hash n = 8 -> judge (secret_asks n pw) m <> Panics.
Proof. intros H. destruct pw; cbn [secret_asks judge]; [discriminate|]. rewrite H. destruct (Nat.ltb m 24); discriminate. Qed.
Lemma app_fine a b : (forall m, judge a m <> Panics) -> (forall m, judge b m <> Panics) -> forall m, judge (a ++ b) m <> Panics.
Proof. intros A B m. rewrite judge_app. specialize (A m). destruct (judge a m); [apply B|discriminate|congruence]. Qed.
Lemma subkeys_fine n ks pw a b : proper_notes n -> nth (fs_master ks) (n_objects n) D_nil = D_master a b -> forall m, judge (subkeys_asks n ks pw) m <> Panics.
Proof.
  intros (P & _ & H) M. pose proof (P (fs_master ks)) as PM. rewrite M in PM. cbn [proper_note] in PM. destruct PM as [-> ->]. unfold subkeys_asks. rewrite M. cbn [signing_master].
  assert (S : forall x, x = true -> forall m, judge (subkey_asks n (D_master true true) pw x) m <> Panics).
  { intros x -> m. unfold subkey_asks. cbn [app judge signing_master]. apply app_fine; [intros m'; apply secrets_fine, H|]. intros m'. discriminate. }
  repeat apply app_fine.
  - pose proof (P (fs_enc ks)) as Q. destruct (nth (fs_enc ks) (n_objects n) D_nil); try discriminate. apply S, Q.
  - pose proof (P (fs_auth ks)) as Q. destruct (nth (fs_auth ks) (n_objects n) D_nil); try discriminate. apply S, Q.
  - pose proof (P (fs_sign ks)) as Q. destruct (nth (fs_sign ks) (n_objects n) D_nil); try discriminate. apply S, Q.
Qed.
Lemma hashes_known hash : hash = 8 \/ hash = 9 \/ hash = 10 -> known_hash hash = true.
Proof. intros [-> |[-> | ->]]; reflexivity. Qed.
Lemma keeps_fine n c : proper_notes n -> keeps_to n c -> judged n c <> Panics.
Proof.
  intros P K. pose proof P as (PN & PK & PH). unfold judged. destruct c; cbn [keeps_to asks random_of judge] in *; try discriminate; try contradiction;
    try (rewrite K; discriminate).
  - destruct (Nat.eqb _ _); discriminate.
  - destruct (Nat.eqb _ _); discriminate.
  - rewrite PK. destruct (Nat.eqb _ _); discriminate.
  - pose proof (PN k) as Q. destruct (nth k (n_objects n) D_nil); cbn [any_key proper_note made_key] in *; try discriminate; [destruct Q as [-> _]|rewrite Q..]; discriminate.
  - pose proof (PN k) as Q. destruct (nth k (n_objects n) D_nil); cbn [any_key proper_note made_key] in *; try discriminate; [destruct Q as [-> _]|rewrite Q..]; discriminate.
  - pose proof (PN k) as Q. replace (made_key (nth k (n_objects n) D_nil)) with true; [apply secrets_fine, PH|].
    destruct (nth k (n_objects n) D_nil); cbn [any_key proper_note made_key] in *; try discriminate; [destruct Q as [-> _]|rewrite Q..]; reflexivity.
  - destruct K as (a & b & K). pose proof (PN k) as Q. rewrite K in *. destruct Q as [-> _]. discriminate.
  - destruct K as ((a & b & K) & U). pose proof (PN k) as Q. rewrite K, U in *. destruct Q as [-> ->]. discriminate.
  - destruct rq as [[[[[[[fp hash] data] type] hs] us] t]|]; [|contradiction]. destruct K as (K1 & K2 & K3 & K4). cbn [judge].
    rewrite (proj2 (Nat.leb_le _ _) K2), (hashes_known _ K3), K1. cbn match. replace (forallb _ hs) with true; [discriminate|]. symmetry. apply forallb_forall. intros p I. apply K4, in_or_app. auto.
  - pose proof (PN s) as Q. destruct (nth s (n_objects n) D_nil); try discriminate. destruct Q as [-> Q]. cbn [judge]. replace (forallb _ uses) with true; [discriminate|]. symmetry. apply forallb_forall. exact Q.
  - pose proof (PN s) as Q. destruct (nth s (n_objects n) D_nil); try discriminate. destruct Q as [-> Q]. cbn [judge]. replace (forallb _ uses) with true; [discriminate|]. symmetry. apply forallb_forall. exact Q.
  - destruct K as (ks & a & b & K1 & K2 & K3). rewrite K1, K2, K3. pose proof (PN (fs_master ks)) as Q. rewrite K2 in Q. destruct Q as [-> ->]. cbn [made_master signing_master app judge].
    apply app_fine; [intros; apply secrets_fine, PH|]. intros m. cbn [judge]. apply (subkeys_fine n ks password true true P K2).
  - destruct K as (ks & a & b & K1 & K2 & K3). rewrite K1, K2, K3. pose proof (PN (fs_master ks)) as Q. rewrite K2 in Q. destruct Q as [-> ->]. cbn [made_master signing_master app judge].
    destruct with_cert; cbn [app judge]; apply (subkeys_fine n ks password true true P K2).
  - destruct n0; [discriminate|congruence].
  - rewrite (hashes_known _ K). destruct (Nat.ltb _ 24); [discriminate|]. cbn [negb]. destruct (negb _); discriminate.
  - destruct p; [discriminate|congruence].
Qed.

(** notes stay proper *)
Lemma nth_snoc (l : list note) d p : nth p (l ++ [d]) D_nil = nth p l D_nil \/ (p = length l /\ nth p (l ++ [d]) D_nil = d).
Proof.
  destruct (Nat.lt_trichotomy p (length l)) as [L|[-> |L]].
  - left. apply app_nth1, L.
  - right. split; [reflexivity|apply nth_middle].
  - left. rewrite !nth_overflow; [reflexivity|lia|rewrite app_length; cbn [length]; lia].
Qed.
Lemma sub_snoc l d p : is_sub (nth p l D_nil) = true -> is_sub (nth p (l ++ [d]) D_nil) = true.
Proof. intros S. destruct (Nat.lt_ge_cases p (length l)); [rewrite app_nth1; assumption|]. rewrite nth_overflow in S by assumption. discriminate. Qed.
Lemma proper_snoc n d : proper_notes n -> proper_note (n_objects n) d -> proper_notes (mk_notes (n_objects n ++ [d]) (n_kdf n) (n_hash n)).
Proof.
  intros (P & K & H) D. split; [|split; assumption]. cbn [n_objects]. intros p. assert (G : forall x, proper_note (n_objects n) x -> proper_note (n_objects n ++ [d]) x).
  { intros x X. destruct x; cbn [proper_note] in *; auto. destruct X as [X1 X2]. split; [exact X1|]. intros q I. apply sub_snoc, X2, I. }
  destruct (nth_snoc (n_objects n) d p) as [-> |[_ ->]]; apply G; [apply P|exact D].
Qed.
Lemma note_at_nth l s v p : is_keys (nth s l D_nil) = true ->
  nth p (note_at l s (fun _ => D_keys v)) D_nil = nth p l D_nil \/ (p = s /\ nth p (note_at l s (fun _ => D_keys v)) D_nil = D_keys v).
Proof.
  revert s p. induction l as [|d l IH]; intros s p K; [destruct s; discriminate K|]. destruct s as [|s], p as [|p]; cbn [note_at nth] in *; auto.
  destruct (IH s p K) as [->|[-> ->]]; auto.
Qed.
Lemma proper_keys n s v : proper_notes n -> is_keys (nth s (n_objects n) D_nil) = true -> proper_notes (mk_notes (note_at (n_objects n) s (fun _ => D_keys v)) (n_kdf n) (n_hash n)).
Proof.
  intros (P & K & H) Q. split; [|split; assumption]. cbn [n_objects]. intros p. destruct (note_at_nth (n_objects n) s v p Q) as [-> |[_ ->]]; [|exact I].
  specialize (P p). destruct (nth p (n_objects n) D_nil); cbn [proper_note] in *; auto. destruct P as [P1 P2]. split; [exact P1|]. intros q IQ. specialize (P2 q IQ).
  destruct (note_at_nth (n_objects n) s v q Q) as [-> |[-> _]]; [exact P2|]. destruct (nth s (n_objects n) D_nil); discriminate.
Qed.
Lemma keeps_proper n c o : proper_notes n -> keeps_to n c -> o <> F_panicked -> proper_notes (take_note n (c, o)).
Proof.
  intros P K O. assert (D : proper_notes (mk_notes (n_objects n ++ [D_nil]) (n_kdf n) (n_hash n))) by (apply proper_snoc; [exact P|exact I]).
  destruct c; cbn [keeps_to] in K; try contradiction; destruct o; try congruence; cbn [take_note noted]; try exact D;
    try (apply proper_snoc; [exact P|first [exact I|reflexivity|split; reflexivity|(split; [reflexivity|intros q []])]]).
  - apply (proper_snoc (mk_notes (note_at (n_objects n) s (fun _ => D_keys v)) (n_kdf n) (n_hash n))); [apply proper_keys; assumption|exact I].
  - apply (proper_snoc (mk_notes (note_at (n_objects n) s (fun _ => D_keys v)) (n_kdf n) (n_hash n))); [apply proper_keys; assumption|exact I].
  - destruct rq as [[[[[[[fp hash] data] type] hs] us] t]|]; [|contradiction]. apply proper_snoc; [exact P|]. split; [reflexivity|apply K].
  - destruct rq as [[[[[[[fp hash] data] type] hs] us] t]|]; [|contradiction]. apply proper_snoc; [exact P|]. split; [reflexivity|apply K].
Qed.
Lemma keeps_run E : sizes_ok E -> rand_ok E -> forall calls n st h st', fits_state n st -> proper_notes n -> f_run E st calls = (h, st') ->
  (forall h1 e h2, h = h1 ++ e :: h2 -> keeps_to (fold_left take_note h1 n) (fst e)) -> no_panic h.
Proof.
  intros S R. induction calls as [|c calls IH]; intros n st h st' F P Q K; cbn [f_run] in Q.
  - apply pair_equal_spec in Q as [<- _]. intros e [].
  - pose proof (step_told E S R n st c F) as [T1 T2]. destruct (f_step E st c) as [o st1]. cbn [fst snd] in *.
    assert (KC : keeps_to n c). { destruct o; try destruct (f_run E st1 calls); apply pair_equal_spec in Q as [<- _]; exact (K [] _ _ eq_refl). }
    assert (O : o <> F_panicked). { intros ->. pose proof (keeps_fine n c P KC). destruct (judged n c); cbn [tells] in T1; first [contradiction|congruence]. }
    destruct (f_run E st1 calls) as [h1 st2] eqn:Q1. assert (Q' : (c, o) :: h1 = h). { destruct o; try (apply pair_equal_spec in Q as [<- _]; reflexivity). congruence. }
    subst h. intros e [<- |I]; [exact O|]. refine (IH _ _ _ _ (T2 O) (keeps_proper n c o P KC O) Q1 _ e I). intros h2 e' h3 ->. exact (K ((c, o) :: h2) e' h3 eq_refl).
Qed.
(** A program that makes its keys and signatures with the package, assigns neither Private fields nor the variables and
    passes no nil pointers never panics, whatever else it assigns. *)
Theorem made_keys_never_panic : forall E calls h st, sizes_ok E -> rand_ok E -> f_run E f_init calls = (h, st) ->
  (forall h1 e h2, h = h1 ++ e :: h2 -> keeps_to (notes_after h1) (fst e)) -> no_panic h /\ map fst h = calls.
Proof.
  intros E calls h st S R Q K. assert (N : no_panic h).
  { apply (keeps_run E S R calls first_notes f_init h st first_fits); [|exact Q|exact K]. split; [|split; reflexivity]. intros p. destruct p; exact I. }
  split; [exact N|]. exact (proj2 (run_told E S R calls _ _ h st first_fits Q N)).
Qed.
Print Assumptions made_keys_never_panic.

(** ** Fields that nothing reads *)
Theorem unread_fields_unseen : forall E calls calls', Forall2 (same_but_unread calls) calls calls' ->
  map snd (fst (f_run E f_init calls)) = map snd (fst (f_run E f_init calls')).
Proof.
  intros E calls calls' F. apply (unread_run E calls calls calls' [] f_init f_init eq_refl F).
  - split; [constructor|split; reflexivity].
  - split; [reflexivity|]. intros k _. destruct k; exact I.
Qed.
Print Assumptions unread_fields_unseen.

(** ** Sets of keys as values *)
(** the set of keys behind a pointer, with the Private and Expiry that its fields hold *)
Definition ed_value (k : f_ed) (b : ecc_key) : ed_key := mk_ed b (fe_private k) (fe_expiry k).
Inductive ed_part (h : list f_object) (p : nat) : option ed_key -> Prop :=
| ed_absent : subkey_at h p = None -> ed_part h p None
| ed_present k b : subkey_at h p = Some k -> fe_base k = Some b -> ed_part h p (Some (ed_value k b)).
Inductive curve_part (h : list f_object) (p : nat) : option curve_key -> Prop :=
| curve_absent : curve_at h p = None -> curve_part h p None
| curve_present k b kdf : curve_at h p = Some k -> fc_base k = Some b -> curve_part h p (Some (mk_curve b (fc_private k) (fc_expiry k) kdf)).
Inductive set_value (h : list f_object) (p : nat) : key_set -> Prop :=
| set_is ks m b u enc auth sign : keys_at h p = Some ks -> user_at h (fs_uid ks) = Some u ->
    master_at h (fs_master ks) = Some m -> fe_base m = Some b -> length (fe_private m) = 64%nat -> fe_creation m = ec_creation b ->
    curve_part h (fs_enc ks) enc -> ed_part h (fs_auth ks) auth -> ed_part h (fs_sign ks) sign ->
    set_value h p (mk_set u (ed_value m b) enc auth sign).

Section values.
Variable E : Env.
Hypothesis S : sizes_ok E.
Variable h : list f_object.
Definition own_sig (s : signature) : f_sig :=
  mk_fsig (map Own (sg_hashed s)) (map Own (sg_unhashed s)) (sg_type s) (sg_hash s) (sg_digest s) (Some (sg_r s)) (Some (sg_s s)).
Lemma sign_value private fp data type hashed unhashed t : length private = 64%nat -> length fp = 20%nat ->
  exists s, sign E private (mk_req fp hash_sha256 data type hashed unhashed t) = Ok s /\ length (sg_digest s) = 32%nat /\
    f_sign E h private (Some (mk_freq fp hash_sha256 data type (map Own hashed) (map Own unhashed) t)) = Ok (own_sig s).
Proof.
  intros P F. eexists. split; [reflexivity|]. split; [apply (size_sha256 E S)|]. unfold f_sign. cbn [deref bind fr_fingerprint fr_hash fr_data fr_type fr_hashed fr_unhashed fr_time]. replace (Nat.ltb (length fp) 8) with false by (rewrite F; reflexivity).
  change (hash_new E hash_sha256) with (Some (sha256 E)). cbn [deref bind]. match goal with |- context [f_subs h ?l] => change l with (map Own ([mk_sub sub_issuer_fingerprint (key_packet_version :: fp); mk_sub sub_creation_time (be_bytes 4 (u32 (t_unix t)))] ++ hashed)) end.
  rewrite subs_own. cbn [bind]. rewrite P. reflexivity.
Qed.
Lemma encode_value s : length (sg_digest s) = 32%nat -> f_sig_encode h (Some (own_sig s)) = Ok (sig_encode s).
Proof. intros L. unfold f_sig_encode, own_sig. cbn [deref bind fg_hashed fg_unhashed fg_digest fg_r fg_s fg_type fg_hash]. rewrite !subs_own. cbn [bind]. rewrite L. reflexivity. Qed.
Lemma packet_value s : length (sg_digest s) = 32%nat -> f_sig_packet h (Some (own_sig s)) = Ok (PgpWire.sig_packet s).
Proof. intros L. unfold f_sig_packet. rewrite encode_value by exact L. reflexivity. Qed.
Lemma private_value tag b pw tape : f_private_packet E 8 tag (Some b) pw tape = private_packet E tag b pw tape.
Proof. reflexivity. Qed.
Lemma certify_value m b u : fe_base m = Some b -> length (fe_private m) = 64%nat -> fe_creation m = ec_creation b ->
  exists s, self_certify E (ed_value m b) u = Ok s /\ length (sg_digest s) = 32%nat /\ f_self_certify E h (Some m) (Some u) = Ok (own_sig s).
Proof.
  intros B P C. unfold f_self_certify. cbn [deref bind]. rewrite B, C. cbn [deref bind f_encode_public f_uid_encode f_fingerprint]. apply (sign_value (fe_private m) _ _ _ _ [] _ P (size_sha1 E S _)).
Qed.
Lemma bind_value m b sub flags ex : fe_base m = Some b -> length (fe_private m) = 64%nat -> (flags = flag_sign -> signs_64 sub) -> (flags = flag_sign \/ Z.land flags flag_sign = 0) ->
  exists s, bind_subkey E (ed_value m b) sub flags ex = Ok s /\ length (sg_digest s) = 32%nat /\ f_bind_subkey E h (Some m) (Some sub) flags ex = Ok (own_sig s).
Proof.
  intros B P G FL. unfold f_bind_subkey, bind_subkey. cbn [deref bind]. rewrite B. cbn [deref bind f_encode_public f_fingerprint].
  match goal with |- context [let* u := ?x in sign E _ _] => match goal with |- context [let* u := ?y in f_sign E h _ _] => assert (U : exists l, x = Ok l /\ y = Ok (map Own l)) end end.
  { destruct FL as [-> | ->].
    - change (negb (Z.land flag_sign flag_sign =? 0)) with true. cbn match. destruct (G eq_refl) as (p & -> & L). cbn [deref bind].
      destruct (sign_value p (fingerprint_v4 E sub) (bind_data b sub) sig_primary_key_binding [] [] (ec_creation sub) L (size_sha1 E S _)) as (s & S1 & S2 & S3).
      unfold fingerprint_v4, bind_data in *. cbn [ed_base ed_value] in *. cbn [map] in S3. rewrite S1, S3. cbn [bind]. rewrite encode_value by exact S2. cbn [bind]. exists [mk_sub sub_embedded_signature (sig_encode s)]. split; reflexivity.
    - exists []. split; reflexivity. }
  destruct U as (l & U1 & U2). rewrite U1, U2. cbn [bind]. apply (sign_value (fe_private m) _ _ _ _ l _ P (size_sha1 E S _)).
Qed.
Lemma subkey_value m b sub flags ex pw tape : fe_base m = Some b -> length (fe_private m) = 64%nat -> (flags = flag_sign -> signs_64 sub) -> (flags = flag_sign \/ Z.land flags flag_sign = 0) ->
  f_subkey_packets E h 8 (Some m) (Some sub) flags ex pw tape = subkey_packets E (ed_value m b) sub flags ex pw tape.
Proof.
  intros B P G FL. unfold f_subkey_packets, subkey_packets. rewrite private_value. destruct (private_packet E _ sub pw tape) as [[p t]| |]; cbn [bind]; [|reflexivity..].
  destruct (bind_value m b sub flags ex B P G FL) as (s & S1 & S2 & S3). rewrite S1, S3. cbn [bind]. rewrite packet_value by exact S2. reflexivity.
Qed.
Hypothesis G : forall q k b, subkey_at h q = Some k -> fe_base k = Some b -> signs_64 b.
Lemma all_value ks m b u enc auth sign pw tape : master_at h (fs_master ks) = Some m -> fe_base m = Some b -> length (fe_private m) = 64%nat ->
  curve_part h (fs_enc ks) enc -> ed_part h (fs_auth ks) auth -> ed_part h (fs_sign ks) sign -> f_all_subkeys E h 8 ks pw tape = all_subkey_packets E (mk_set u (ed_value m b) enc auth sign) pw tape.
Proof.
  intros M B P C A D. unfold f_all_subkeys, all_subkey_packets. cbn [ks_master ks_enc ks_auth ks_sign]. rewrite M.
  match goal with |- (let* x := ?a in _) = (let* y := ?b in _) => assert (U : a = b) end.
  { destruct C as [-> |k cb kdf -> CB]; [reflexivity|]. rewrite CB. apply subkey_value; [exact B|exact P|discriminate|right; reflexivity]. }
  rewrite U. clear U. match goal with |- (let* x := ?a in _) = _ => destruct a as [[g0 t0]| |]; cbn [bind]; [|reflexivity..] end.
  match goal with |- (let* x := ?a in _) = (let* y := ?b in _) => assert (U : a = b) end.
  { destruct A as [-> |k cb AK CB]; [reflexivity|]. rewrite AK, CB. apply subkey_value; [exact B|exact P|discriminate|right; reflexivity]. }
  rewrite U. clear U. match goal with |- (let* x := ?a in _) = _ => destruct a as [[g1 t1]| |]; cbn [bind]; [|reflexivity..] end.
  match goal with |- (let* x := ?a in _) = (let* y := ?b in _) => assert (U : a = b) end.
  { destruct D as [-> |k cb AK CB]; [reflexivity|]. rewrite AK, CB. apply subkey_value; [exact B|exact P|intros _; exact (G _ _ _ AK CB)|left; reflexivity]. }
  rewrite U. clear U. match goal with |- (let* x := ?a in _) = _ => destruct a as [[g2 t2]| |]; cbn [bind]; [|reflexivity..] end. reflexivity.
Qed.
Lemma packets_value p v pw tape : set_value h p v -> f_encode_packets E h 8 (keys_at h p) pw tape = encode_packets E v pw tape.
Proof.
  intros [ks m b u enc auth sign K U M B P C CP AP SP]. unfold f_encode_packets, encode_packets. rewrite K. cbn [deref bind]. rewrite M, U. cbn [deref bind]. rewrite B, private_value. cbn [ks_master ed_base ed_value].
  destruct (private_packet E tag_secret_key b pw tape) as [[x t]| |]; cbn [bind]; [|reflexivity..]. cbn [f_uid_packet f_uid_encode deref bind].
  unfold f_self_certification, self_certification. rewrite M, U. cbn [ks_master ks_uid]. destruct (certify_value m b u B P C) as (s & S1 & S2 & S3). rewrite S1, S3. cbn [bind]. rewrite packet_value by exact S2. cbn [bind].
  rewrite (all_value ks m b u enc auth sign pw t M B P CP AP SP). reflexivity.
Qed.
Lemma subkey_packets_value p v pw cert tape : set_value h p v -> f_encode_subkey_packets E h 8 (keys_at h p) pw cert tape = encode_subkey_packets E v pw cert tape.
Proof.
  intros [ks m b u enc auth sign K U M B P C CP AP SP]. unfold f_encode_subkey_packets, encode_subkey_packets. rewrite K. cbn [deref bind]. rewrite M, U. cbn [deref bind]. rewrite B. cbn [ks_master ed_base ed_value f_dummy_packet f_encode_public deref bind].
  cbn [f_uid_packet f_uid_encode deref bind]. match goal with |- (let* x := ?a in _) = (let* y := ?b in _) => assert (R : a = b) end.
  { destruct cert; [|reflexivity]. unfold f_self_certification, self_certification. rewrite M, U. cbn [ks_master ks_uid]. destruct (certify_value m b u B P C) as (s & S1 & S2 & S3). rewrite S1, S3. cbn [bind]. apply packet_value, S2. }
  rewrite R. clear R. match goal with |- (let* x := ?a in _) = _ => destruct a as [w| |]; cbn [bind]; [|reflexivity..] end.
  rewrite (all_value ks m b u enc auth sign pw tape M B P CP AP SP). reflexivity.
Qed.
End values.

(** After any program: exporting a set whose keys come from constructors and whose master key's Creation was not changed
    gives what PgpKeys.v has for the set of these keys, with the Private of the master key and the Expiry of all as they
    are assigned now.  (C30 to C34, among others, are about that.) *)
Definition shown (r : res (bytes * bytes)) : f_seen := match r with Ok (b, _) => F_bytes b | Err e => F_failed e | Panic => F_panicked end.
Theorem sets_as_values : forall E calls h st s v, sizes_ok E -> rand_ok E -> f_run E f_init calls = (h, st) -> no_panic h ->
  set_value (f_heap st) s v -> f_hash st = 8 -> forall password tape,
  fst (f_step E st (F_packets s password tape)) = shown (encode_packets E v password tape) /\
  forall with_cert, fst (f_step E st (F_subkey_packets s password with_cert tape)) = shown (encode_subkey_packets E v password with_cert tape).
Proof.
  intros E calls h st s v S R Q N V H pw tape. destruct (run_told E S R calls _ _ h st first_fits Q N) as [(A & _) _].
  assert (G : forall q k b, subkey_at (f_heap st) q = Some k -> fe_base k = Some b -> signs_64 b).
  { intros q k b SK SB. pose proof (fits_at _ _ A q) as F. unfold subkey_at in SK. destruct (nth q (f_heap st) F_none); try discriminate. injection SK as ->. destruct F as [_ F]. exact (F b SB). }
  cbn [f_step]. rewrite H. split.
  - rewrite (packets_value E S _ G s v pw tape V). destruct (encode_packets E v pw tape) as [[x t]| |]; reflexivity.
  - intros cert. rewrite (subkey_packets_value E S _ G s v pw cert tape V). destruct (encode_subkey_packets E v pw cert tape) as [[x t]| |]; reflexivity.
Qed.
Print Assumptions sets_as_values.

(** ** Cases *)
(** an environment in which signatures can be checked *)
Definition field_env : Env := {|
  wl_words := wl_words toy_env; wl_search := wl_search toy_env; unicode_lower := unicode_lower toy_env; trim_space := trim_space toy_env;
  argon2id := argon2id toy_env; aes_encrypt := aes_encrypt toy_env; aes_decrypt := aes_decrypt toy_env;
  sha1 := sum_hash 20; sha256 := sum_hash 32; sha384 := sum_hash 48; sha512 := sum_hash 64;
  hkdf_expand_sha256 := hkdf_expand_sha256 toy_env; ed25519_public := ed25519_public toy_env;
  ed25519_sign := fun priv m => sum_hash 64 (skipn 32 priv ++ m); x25519_base := x25519_base toy_env; rand_int31n := rand_int31n toy_env;
  seconds_u32 := seconds_u32 toy_env; armor_encode := armor_encode toy_env
|}.
Definition field_verify (public m s : bytes) : bool := bytes_eqb s (sum_hash 64 (public ++ m)).
Lemma field_sizes : sizes_ok field_env.
Proof. constructor; intros; cbn [sha1 sha256 sha384 sha512 ed25519_public field_env toy_env]; unfold sum_hash; try apply BitsP.be_bytes_length. rewrite map_length. assumption. Qed.
Lemma field_rand : rand_ok field_env.
Proof. exact toy_rand_ok. Qed.
Lemma field_ed25519 : ed25519_ok field_env field_verify.
Proof.
  intros sd [L B]. split; [apply (proj1 (toy_ed25519_ok sd (conj L B)))|]. intros m. cbn [ed25519_sign field_env]. rewrite skipn_app, L, Nat.sub_diag, skipn_all2 by lia. cbn [app].
  split; [apply BitsP.be_bytes_length|]. split; [apply BitsP.be_bytes_byte|]. apply BitsP.bytes_eqb_refl.
Qed.

Definition second (n : Z) : Z := n * 10 ^ 9.
(** four keys, a user ID and a set of them all *)
Definition field_keys : list f_call :=
  [F_new_master (repeat 7 32) (second 1700000000) (second 1800000000); F_new_encryption (repeat 8 32) (second 1700000000) (second 1800000000) None;
   F_new_subkey (repeat 9 32) (second 1700000000) zero_time; F_new_subkey (repeat 10 32) (second 1700000000) (second 1750000000);
   F_lit_user alice; F_lit_keys (mk_fset 4 0 1 2 3)].
Definition after_calls (calls : list f_call) : f_state := snd (f_run field_env f_init calls).
Definition history (calls : list f_call) : list (f_call * f_seen) := fst (f_run field_env f_init calls).
Definition quietly (h : list (f_call * f_seen)) : bool := forallb (fun e => match snd e with F_panicked => false | _ => true end) h.
Lemma quietly_ok h : quietly h = true -> no_panic h.
Proof. intros Q e I. unfold quietly in Q. rewrite forallb_forall in Q. specialize (Q e I). destruct (snd e); congruence. Qed.
(** one row: the program has not panicked, and what table and code say of the next call *)
Definition says (calls : list f_call) (c : f_call) (v : verdict) : Prop :=
  quietly (history calls) = true /\ judged (notes_after (history calls)) c = v /\
  match v, fst (f_step field_env (after_calls calls) c) with Fine _, F_bytes _ => True | Fine _, F_done => True | Fails, F_failed _ => True | Panics, F_panicked => True | _, _ => False end.
Lemma says_ok calls c v : quietly (history calls) = true -> judged (notes_after (history calls)) c = v -> says calls c v.
Proof.
  intros Q J. split; [exact Q|]. split; [exact J|]. assert (R : f_run field_env f_init calls = (history calls, after_calls calls)) by apply surjective_pairing.
  destruct (call_table field_env calls _ _ c field_sizes field_rand R (quietly_ok _ Q)) as [[P1 P2] [F1 F2]]. rewrite J in *.
  destruct v, (fst (f_step field_env (after_calls calls) c)) as [| |e|]; try exact I; try (specialize (P1 eq_refl)); try (specialize (P2 eq_refl)); try (specialize (F2 eq_refl)); try discriminate;
    try (destruct F2; discriminate); try (specialize (F1 (ex_intro _ e eq_refl)); discriminate).
Qed.
Definition tape (n : nat) : bytes := repeat 5 n.
Example whole_set : says field_keys (F_packets 5 [] []) (Fine 0).
Proof. apply says_ok; vm_compute; reflexivity. Qed.
Example long_enough : says field_keys (F_packets 5 (bs "pw") (tape 95)) Fails.
Proof. apply says_ok; vm_compute; reflexivity. Qed.
Example nil_user : says (field_keys ++ [F_set_keys 5 (mk_fset 9 0 1 2 3)]) (F_packets 5 [] []) Panics.
Proof. apply says_ok; vm_compute; reflexivity. Qed.
(** the error of the random source comes before the panic about the user ID *)
Example nil_user_late : says (field_keys ++ [F_set_keys 5 (mk_fset 9 0 1 2 3)]) (F_packets 5 (bs "pw") (tape 23)) Fails.
Proof. apply says_ok; vm_compute; reflexivity. Qed.
Example nil_subkeys : says (field_keys ++ [F_set_keys 5 (mk_fset 4 0 9 9 9); F_set_private 0 (repeat 1 63)]) (F_subkey_packets 5 [] false []) (Fine 0).
Proof. apply says_ok; vm_compute; reflexivity. Qed.
Example short_private : says (field_keys ++ [F_set_private 0 (repeat 1 63)]) (F_subkey_packets 5 [] false []) Panics.
Proof. apply says_ok; vm_compute; reflexivity. Qed.
Example literal_subkey : says (field_keys ++ [F_lit_subkey (repeat 1 64) (repeat 2 32) 0 0; F_set_keys 5 (mk_fset 4 0 1 6 3)]) (F_packets 5 [] []) Panics.
Proof. apply says_ok; vm_compute; reflexivity. Qed.
Example long_hash : says (field_keys ++ [F_set_default_hash 10]) (F_private_packet 0 (bs "pw") (tape 24)) Fails.
Proof. apply says_ok; vm_compute; reflexivity. Qed.
Example unknown_hash : says (field_keys ++ [F_set_default_hash 2]) (F_private_packet 0 (bs "pw") (tape 24)) Panics.
Proof. apply says_ok; vm_compute; reflexivity. Qed.
Example nil_kdf : says [F_set_default_kdf None] (F_new_encryption (repeat 8 32) 0 0 None) Panics.
Proof. apply says_ok; vm_compute; reflexivity. Qed.
Example nil_subpacket : says (field_keys ++ [F_sign (repeat 1 64) (Some (repeat 1 20, 8, [], 0, [], [99%nat], 0))]) (F_sig_encode 6) Panics.
Proof. apply says_ok; vm_compute; reflexivity. Qed.

(** *** a program that keeps to the constructors *)
Fixpoint keeps_all (n : notes) (h : list (f_call * f_seen)) : Prop :=
  match h with [] => True | e :: h => keeps_to n (fst e) /\ keeps_all (take_note n e) h end.
Lemma keeps_all_ok h : forall n, keeps_all n h -> forall h1 e h2, h = h1 ++ e :: h2 -> keeps_to (fold_left take_note h1 n) (fst e).
Proof.
  induction h as [|x h IH]; intros n K h1 e h2 Q; [destruct h1; discriminate|]. destruct K as [K1 K2]. destruct h1 as [|y h1]; cbn [app fold_left] in *; injection Q as -> Q; [exact K1|].
  exact (IH _ K2 h1 e h2 Q).
Qed.
Definition kept_program : list f_call :=
  field_keys ++ [F_set_creation 0 3; F_set_expiry 1 zero_time; F_set_public 2 []; F_set_kdf 1 None; F_self_certify 0 4; F_sig_packet 10; F_packets 5 (bs "pw") (tape 10);
                 F_new_master [] 0 0; F_lit_sub (mk_sub 2 [1]); F_sign (repeat 1 64) (Some (repeat 1 20, 9, [], 0, [14%nat], [14%nat], 0)); F_set_sub 14 (mk_sub 3 []); F_sig_encode 15;
                 F_set_keys 5 (mk_fset 4 0 9 9 3); F_subkey_packets 5 [] true []].
Example kept_program_keeps : keeps_all first_notes (history kept_program).
Proof.
  vm_compute. repeat match goal with |- _ /\ _ => split | |- True => exact I | |- exists _, _ => eexists | |- _ = _ => reflexivity end; auto; try (repeat constructor; fail).
  intros p [<- |[<- |[]]]; reflexivity.
Qed.
Example kept_program_runs : no_panic (history kept_program) /\ map fst (history kept_program) = kept_program.
Proof.
  apply (made_keys_never_panic field_env kept_program (history kept_program) (after_calls kept_program) field_sizes field_rand).
  - unfold history, after_calls. destruct (f_run field_env f_init kept_program). reflexivity.
  - exact (keeps_all_ok _ _ kept_program_keeps).
Qed.

(** *** programs that differ in what nothing reads *)
Definition one : list f_call := field_keys ++ [F_set_public 0 [1]; F_set_private 2 [1]; F_set_creation 3 1; F_set_private 1 [1]; F_set_kdf 1 None; F_packets 5 [] []; F_fingerprint 1].
Definition another : list f_call :=
  field_keys ++ [F_set_public 0 [2; 2]; F_set_private 2 []; F_set_creation 3 2; F_set_private 1 (repeat 4 32); F_set_kdf 1 (Some (mk_kdf 1 1)); F_packets 5 [] []; F_fingerprint 1].
Example one_another : Forall2 (same_but_unread one) one another.
Proof. repeat (constructor; [first [left; reflexivity|right; cbn; auto; fail|right; split; [reflexivity|exact I]]|]). constructor. Qed.

(** *** a set after assignments *)
Definition assigned : list f_call := field_keys ++ [F_set_expiry 0 (second 1900000000); F_set_private 0 (repeat 3 64); F_set_private 2 []; F_set_creation 1 0].
Example assigned_value : exists v, set_value (f_heap (after_calls assigned)) 5 v /\ f_hash (after_calls assigned) = 8 /\ ed_expiry (ks_master v) = second 1900000000.
Proof.
  eexists. split; [|split].
  - eapply set_is; [vm_compute; reflexivity..|eapply (curve_present _ _ _ _ default_kdf); vm_compute; reflexivity|eapply ed_present; vm_compute; reflexivity|eapply ed_present; vm_compute; reflexivity].
  - vm_compute. reflexivity.
  - vm_compute. reflexivity.
Qed.

(** ** What a key was made with *)
(** DefaultKDFParameters after these calls *)
Definition default_after (calls : list f_call) : option kdf_params := fold_left (fun d c => match c with F_set_default_kdf p => p | _ => d end) calls (Some default_kdf).
(** the key that a call of a constructor makes, and whether it is a master key *)
Inductive constructs (E : Env) (before : list f_call) : f_call -> bool -> ecc_key -> Prop :=
| constructs_master seed creation expiry k : new_ed_key E seed creation expiry = Ok k -> constructs E before (F_new_master seed creation expiry) true (ed_base k)
| constructs_subkey seed creation expiry k : new_ed_key E seed creation expiry = Ok k -> constructs E before (F_new_subkey seed creation expiry) false (ed_base k)
| constructs_encryption seed creation expiry kdf p k : (match kdf with Some p => Some p | None => default_after before end) = Some p ->
    new_curve_key E seed creation expiry (Some p) = Ok k -> constructs E before (F_new_encryption seed creation expiry kdf) false (cv_base k).
(** Whatever is called and assigned before and after: fingerprint and packets of a key are those of its making. *)
Theorem keys_stay_as_made : forall E before c after h st master b, f_run E f_init (before ++ c :: after) = (h, st) -> no_panic h -> constructs E before c master b ->
  let k := length before in
  fst (f_step E st (F_fingerprint k)) = F_bytes (fingerprint_v4 E b) /\
  fst (f_step E st (F_public_packet k)) = F_bytes (if master then public_packet b else public_subkey_packet b) /\
  (f_hash st = 8 -> forall password tape, fst (f_step E st (F_private_packet k password tape)) = shown (private_packet E (if master then tag_secret_key else tag_secret_subkey) b password tape)) /\
  (master = true -> fst (f_step E st (F_dummy_packet k)) = F_bytes (encode_packet tag_secret_key (encode_private_dummy b))).
Proof.
  intros E before c after h st master b Q N C k. destruct (run_idents E _ _ _ _ Q N) as (_ & l & L1 & L2 & L3). specialize (L3 before c after eq_refl). cbn [f_init f_heap map app] in L1.
  change (fold_left sets_kdf before (f_kdf f_init)) with (default_after before) in L3.
  assert (I : ident (nth k (f_heap st) F_none) = Some (master, Some b)).
  { change (@None (bool * option ecc_key)) with (ident F_none) in L3. rewrite <- L1, map_nth in L3. fold k in L3. rewrite L3. destruct C as [s cr ex x X|s cr ex x X|s cr ex kdf p x P X]; cbn [makes_ident]; [rewrite X; reflexivity..|].
    unfold f_new_curve. assert (Z : zlen s =? 32 = true) by (unfold new_curve_key in X; destruct (zlen s =? 32); [reflexivity|discriminate]). rewrite Z. cbn [negb].
    replace (match kdf with None => default_after before | Some k0 => Some k0 end) with (Some p) by (destruct kdf; congruence). cbn [deref bind]. rewrite X. reflexivity. }
  clear - I. cbn [f_step]. unfold base_at, tag_of, master_at. destruct (nth k (f_heap st) F_none) as [|x|x|x| | | |]; cbn [ident] in I; try discriminate; injection I as <- I; rewrite I.
  - split; [reflexivity|]. split; [reflexivity|]. split; [|intros _; cbn [deref bind]; rewrite I; reflexivity]. intros H pw tape. rewrite H. change (f_private_packet E 8) with (f_private_packet E default_s2k_hash).
    rewrite private_value. destruct (private_packet E _ b pw tape) as [[y t]| |]; reflexivity.
  - split; [reflexivity|]. split; [reflexivity|]. split; [|discriminate]. intros H pw tape. rewrite H.
    rewrite private_value. destruct (private_packet E _ b pw tape) as [[y t]| |]; reflexivity.
  - split; [reflexivity|]. split; [reflexivity|]. split; [|discriminate]. intros H pw tape. rewrite H.
    rewrite private_value. destruct (private_packet E _ b pw tape) as [[y t]| |]; reflexivity.
Qed.
Print Assumptions keys_stay_as_made.
Example stays_as_made : exists b, constructs field_env [F_set_default_kdf (Some (mk_kdf 10 9))] (F_new_encryption (repeat 7 32) 5 6 None) false b /\
  quietly (history ([F_set_default_kdf (Some (mk_kdf 10 9))] ++ F_new_encryption (repeat 7 32) 5 6 None :: [F_set_default_kdf None; F_set_private 1 []; F_set_kdf 1 None; F_set_creation 1 9; F_set_public 1 [1]])) = true.
Proof. eexists. split; [eapply constructs_encryption; reflexivity|]. vm_compute. reflexivity. Qed.

(** ** Signatures *)
Lemma given_subs h ps l : Forall2 (fun p s => nth p h F_none = F_subpacket s) ps l -> f_subs h (map Given ps) = Ok l.
Proof. induction 1 as [|p s ps l N F IH]; [reflexivity|]. cbn [map f_subs]. unfold subpacket_at. rewrite N. cbn [deref bind]. rewrite IH. reflexivity. Qed.
Lemma grown_subs h o ps l : Forall2 (fun p s => nth p h F_none = F_subpacket s) ps l -> Forall2 (fun p s => nth p (h ++ [o]) F_none = F_subpacket s) ps l.
Proof. induction 1 as [|p s ps l N F IH]; constructor; [|exact IH]. rewrite app_nth1; [exact N|]. apply inside. rewrite N. discriminate. Qed.
(** Sign and EncodePacket right after it, with subpackets that are there: the packet of PgpWire.v. *)
Theorem signatures_as_values : forall E calls h st private fp hash data type hs us hashed unhashed t, sizes_ok E -> rand_ok E ->
  f_run E f_init calls = (h, st) -> no_panic h ->
  length private = 64%nat -> (8 <= length fp)%nat -> hash = 8 \/ hash = 9 \/ hash = 10 ->
  Forall2 (fun p s => nth p (f_heap st) F_none = F_subpacket s) hs hashed -> Forall2 (fun p s => nth p (f_heap st) F_none = F_subpacket s) us unhashed ->
  exists s, sign E private (mk_req fp hash data type hashed unhashed t) = Ok s /\
  let st' := snd (f_step E st (F_sign private (Some (fp, hash, data, type, hs, us, t)))) in
  fst (f_step E st' (F_sig_encode (length calls))) = F_bytes (sig_encode s) /\ fst (f_step E st' (F_sig_packet (length calls))) = F_bytes (PgpWire.sig_packet s).
Proof.
  intros E calls h st private fp hash data type hs us hashed unhashed t S R Q N P F H A B. destruct (run_idents E _ _ _ _ Q N) as (_ & l & L1 & L2 & _). cbn [f_init f_heap map app] in L1.
  assert (L : length (f_heap st) = length calls) by (rewrite <- L2, <- L1, map_length; reflexivity). clear L1 L2 l Q N.
  assert (D : exists f, hash_new E hash = Some f /\ forall x, (2 <= length (f x))%nat).
  { destruct H as [-> |[-> | ->]]; eexists; (split; [reflexivity|]); intros x; rewrite ?(size_sha256 E S), ?(size_sha384 E S), ?(size_sha512 E S); lia. }
  destruct D as (f & D & D2). eexists. split; [unfold sign; cbn [rq_hash]; rewrite D; reflexivity|]. cbv zeta.
  cbn [f_step]. unfold f_sign. cbn [deref bind fr_fingerprint fr_hash fr_data fr_type fr_hashed fr_unhashed fr_time]. replace (Nat.ltb (length fp) 8) with false by (symmetry; apply Nat.ltb_ge; exact F).
  rewrite D. cbn [deref bind app f_subs]. rewrite (given_subs _ _ _ A). cbn [bind]. rewrite P. cbn [Nat.eqb negb bind f_makes snd f_heap].
  match goal with |- context [f_heap st ++ [F_signature ?g]] => set (sg := g) end.
  assert (A' : f_subs (f_heap st ++ [F_signature sg]) (map Given hs) = Ok hashed) by (apply given_subs, grown_subs, A).
  assert (B' : f_subs (f_heap st ++ [F_signature sg]) (map Given us) = Ok unhashed) by (apply given_subs, grown_subs, B).
  assert (G : signature_at (f_heap st ++ [F_signature sg]) (length calls) = Some sg) by (unfold signature_at; rewrite <- L, nth_middle; reflexivity).
  match goal with |- _ /\ fst (f_shows _ (f_sig_packet _ _)) = F_bytes (PgpWire.sig_packet ?v) => assert (V : f_sig_encode (f_heap st ++ [F_signature sg]) (Some sg) = Ok (sig_encode v)) end.
  { unfold f_sig_encode. subst sg. cbn [deref bind fg_hashed fg_unhashed fg_digest fg_r fg_s fg_type fg_hash f_subs]. rewrite A', B'. cbn [deref bind]. match goal with |- context [Nat.ltb ?n 2] => replace (Nat.ltb n 2) with false by (symmetry; apply Nat.ltb_ge, D2) end. reflexivity. }
  rewrite G. unfold f_sig_packet. rewrite V. split; reflexivity.
Qed.
Print Assumptions signatures_as_values.
Definition signing_program : list f_call := [F_lit_sub (mk_sub 20 [1; 2]); F_lit_sub (mk_sub 2 []); F_set_sub 0 (mk_sub 27 [3])].
Example signing_program_signs : quietly (history signing_program) = true /\
  Forall2 (fun p s => nth p (f_heap (after_calls signing_program)) F_none = F_subpacket s) [0%nat; 1%nat; 0%nat] [mk_sub 27 [3]; mk_sub 2 []; mk_sub 27 [3]].
Proof. split; [reflexivity|]. repeat constructor. Qed.

(** SelfCertify with a master key from the constructor whose Creation was not changed, and EncodePacket of what it gave *)
Theorem certifications_as_values : forall E calls h st k u m b v, sizes_ok E -> f_run E f_init calls = (h, st) -> no_panic h ->
  master_at (f_heap st) k = Some m -> fe_base m = Some b -> length (fe_private m) = 64%nat -> fe_creation m = ec_creation b -> user_at (f_heap st) u = Some v ->
  exists s, self_certify E (ed_value m b) v = Ok s /\
  fst (f_step E (snd (f_step E st (F_self_certify k u))) (F_sig_packet (length calls))) = F_bytes (PgpWire.sig_packet s).
Proof.
  intros E calls h st k u m b v S Q N M B P C U. destruct (run_idents E _ _ _ _ Q N) as (_ & l & L1 & L2 & _). cbn [f_init f_heap map app] in L1.
  assert (L : length (f_heap st) = length calls) by (rewrite <- L2, <- L1, map_length; reflexivity). clear L1 L2 l Q N.
  destruct (certify_value E S (f_heap st) m b v B P C) as (s & S1 & S2 & S3). exists s. split; [exact S1|]. cbn [f_step]. rewrite M, U, S3. cbn [bind f_makes snd f_heap].
  replace (signature_at (f_heap st ++ [F_signature (own_sig s)]) (length calls)) with (Some (own_sig s)) by (unfold signature_at; rewrite <- L, nth_middle; reflexivity).
  rewrite packet_value by exact S2. reflexivity.
Qed.
Print Assumptions certifications_as_values.
Example assigned_certifies : exists m b, master_at (f_heap (after_calls assigned)) 0 = Some m /\ fe_base m = Some b /\ length (fe_private m) = 64%nat /\ fe_creation m = ec_creation b /\
  user_at (f_heap (after_calls assigned)) 4 = Some alice.
Proof. do 2 eexists. split; [vm_compute; reflexivity|]. split; [reflexivity|]. split; [reflexivity|]. split; [reflexivity|]. vm_compute. reflexivity. Qed.

(** ** What assigned fields do to exports *)
Definition legit (E : Env) (edv : bytes -> bytes -> bytes -> bool) : Prop := sizes_ok E /\ rand_ok E /\ ed25519_ok E edv.
Lemma field_legit : legit field_env field_verify.
Proof. split; [exact field_sizes|]. split; [exact field_rand|exact field_ed25519]. Qed.
Definition last_seen (E : Env) (calls : list f_call) : f_seen := snd (last (fst (f_run E f_init calls)) (F_packet 0 [], F_panicked)).
Definition lone_key (seed : bytes) (creation expiry : Z) : list f_call := [F_new_master seed creation expiry; F_lit_user alice; F_lit_keys (mk_fset 1 0 9 9 9)].
(** A reader adds the lifetime in the self-certification to the creation time in the key packet.  Without assignments that
    is Expiry; with another Creation it is not. *)
Definition expires_as_set (calls : bytes -> Z -> Z -> list f_call) : Prop :=
  forall E edv seed creation expiry b t cert n, legit E edv -> last_seen E (calls seed creation expiry) = F_bytes b ->
  read_transferable b = Some t -> tk_cert t = Some cert -> lifetime cert = Some n -> pk_time (tk_key t) + n = t_unix expiry.
Theorem creation_assigned_keeps_expiry_refuted : exists c, ~ expires_as_set (fun seed creation expiry => lone_key seed creation expiry ++ [F_set_creation 0 c; F_packets 2 [] []]).
Proof.
  exists (second 1750000000). intros X. specialize (X field_env field_verify (repeat 7 32) (second 1700000000) (second 1800000000)).
  set (b := match last_seen field_env (lone_key (repeat 7 32) (second 1700000000) (second 1800000000) ++ [F_set_creation 0 (second 1750000000); F_packets 2 [] []]) with F_bytes b => b | _ => [] end).
  set (t := match read_transferable b with Some t => t | None => mk_tsk (mk_pk 0 0 [] [] None []) Stub [] None [] end).
  specialize (X b t (match tk_cert t with Some c => c | None => mk_sp 0 0 0 [] [] [] 0 0 [] end) 50000000 field_legit). assert (Y : 1700000000 + 50000000 = 1800000000); [|discriminate Y].
  etransitivity; [|etransitivity; [apply X|]]; vm_compute; reflexivity.
Qed.
Print Assumptions creation_assigned_keeps_expiry_refuted.
(** Without the assignment the same reader gets Expiry: the claim is not refuted by the rest of the program. *)
Example expiry_as_set : exists b t cert, last_seen field_env (lone_key (repeat 7 32) (second 1700000000) (second 1800000000) ++ [F_packets 2 [] []]) = F_bytes b /\
  read_transferable b = Some t /\ tk_cert t = Some cert /\ lifetime cert = Some 100000000 /\ pk_time (tk_key t) = 1700000000.
Proof. do 3 eexists. split; [vm_compute; reflexivity|]. split; [vm_compute; reflexivity|]. split; [vm_compute; reflexivity|]. split; vm_compute; reflexivity. Qed.

(** The self-certification of an exported set verifies with the key in its first packet; not with another Private. *)
Definition certified (calls : bytes -> Z -> Z -> list f_call) : Prop :=
  forall E edv seed creation expiry b t cert, legit E edv -> block32 seed -> last_seen E (calls seed creation expiry) = F_bytes b ->
  read_transferable b = Some t -> tk_cert t = Some cert -> verifies E edv (tk_key t) (key_hash_input (tk_key t) ++ uid_hash_input (tk_uid t)) cert = true.
Theorem private_assigned_certifies_refuted : exists private, length private = 64%nat /\
  ~ certified (fun seed creation expiry => lone_key seed creation expiry ++ [F_set_private 0 private; F_packets 2 [] []]).
Proof.
  exists (repeat 3 64). split; [reflexivity|]. intros X. specialize (X field_env field_verify (repeat 7 32) (second 1700000000) (second 1800000000)).
  set (b := match last_seen field_env (lone_key (repeat 7 32) (second 1700000000) (second 1800000000) ++ [F_set_private 0 (repeat 3 64); F_packets 2 [] []]) with F_bytes b => b | _ => [] end).
  set (t := match read_transferable b with Some t => t | None => mk_tsk (mk_pk 0 0 [] [] None []) Stub [] None [] end).
  specialize (X b t (match tk_cert t with Some c => c | None => mk_sp 0 0 0 [] [] [] 0 0 [] end) field_legit). assert (Y : false = true); [|discriminate Y].
  etransitivity; [|apply X]; [vm_compute; reflexivity| |vm_compute; reflexivity..]. split; [reflexivity|]. apply Forall_forall. intros x I. apply repeat_spec in I. subst x. unfold byte. lia.
Qed.
Print Assumptions private_assigned_certifies_refuted.
Example certified_otherwise : exists b t cert, last_seen field_env (lone_key (repeat 7 32) (second 1700000000) (second 1800000000) ++ [F_packets 2 [] []]) = F_bytes b /\
  read_transferable b = Some t /\ tk_cert t = Some cert /\ verifies field_env field_verify (tk_key t) (key_hash_input (tk_key t) ++ uid_hash_input (tk_uid t)) cert = true.
Proof. do 3 eexists. split; [vm_compute; reflexivity|]. split; [vm_compute; reflexivity|]. split; [vm_compute; reflexivity|]. vm_compute. reflexivity. Qed.

Definition same_bytes (o o' : f_seen) : bool := match o, o' with F_bytes a, F_bytes b => bytes_eqb a b | _, _ => true end.
Lemma same_seen o : same_bytes o o = true.
Proof. destruct o; try reflexivity. apply BitsP.bytes_eqb_refl. Qed.
(** The arguments of the constructor fix an encryption subkey only as long as nobody assigns DefaultKDFParameters. *)
Theorem default_kdf_keeps_keys_refuted : ~ forall E edv kdf seed creation expiry, legit E edv ->
  last_seen E [F_set_default_kdf (Some kdf); F_new_encryption seed creation expiry None; F_fingerprint 1] = last_seen E [F_new_encryption seed creation expiry None; F_fingerprint 0].
Proof.
  intros X. specialize (X field_env field_verify (mk_kdf hash_sha512 cipher_aes256) (repeat 7 32) 0 0 field_legit).
  assert (Y : same_bytes (last_seen field_env [F_set_default_kdf (Some (mk_kdf hash_sha512 cipher_aes256)); F_new_encryption (repeat 7 32) 0 0 None; F_fingerprint 1])
    (last_seen field_env [F_new_encryption (repeat 7 32) 0 0 None; F_fingerprint 0]) = false) by (vm_compute; reflexivity).
  rewrite X, same_seen in Y. discriminate Y.
Qed.
Print Assumptions default_kdf_keeps_keys_refuted.

Lemma clamp_standard seed : length seed = 32%nat -> PgpKeys.clamp seed = Curve25519.clamp seed.
Proof. intros L. do 32 (destruct seed as [|? seed]; [discriminate L|]). destruct seed; [reflexivity|discriminate L]. Qed.
(** The exported fields of keys as the constructors leave them: for Ed25519 Private is the seed and the public key after
    it; for Curve25519 Private is the clamped seed. *)
Theorem made_fields : forall E seed creation expiry, (forall k, f_new_ed E seed creation expiry = Ok k ->
    fe_private k = seed ++ ed25519_public E seed /\ fe_public k = ed25519_public E seed /\ fe_creation k = creation /\ fe_expiry k = expiry) /\
  (forall default kdf k, f_new_curve E default seed creation expiry kdf = Ok k ->
    fc_private k = Curve25519.clamp seed /\ fc_public k = x25519_base E seed /\ fc_creation k = creation /\ fc_expiry k = expiry /\ fc_kdf k = (match kdf with Some _ => kdf | None => default end)).
Proof.
  intros E seed creation expiry. split.
  - intros k. unfold f_new_ed, new_ed_key. destruct (negb _); cbn [bind]; [discriminate|]. intros H. apply SafeP.ok_inj in H. subst k. repeat split.
  - intros default kdf k. unfold f_new_curve, new_curve_key. destruct (Z.eqb_spec (zlen seed) 32) as [L|]; cbn [negb]; [|discriminate]. rewrite clamp_standard by (unfold zlen in L; lia). destruct kdf as [p|]; [|destruct default as [p|]; [|discriminate]]; cbn [deref bind]; intros H; apply SafeP.ok_inj in H; subst k; repeat split.
Qed.
Print Assumptions made_fields.
