(** Which calls of the package pgp panic or fail: the objects of the program against its notes. *)
From Coq Require Import Lia ZifyBool ZifyNat.
From Verif.Model Require Import GoBase Env GoTime Seed Encoding PgpWire PgpS2k PgpKeys ZeroValues PgpFields.
From Verif.Spec Require Import EnvSpec SliceSpec FieldSpec.
From Verif.Proofs Require Import SafeP.

Lemma judge_app l1 : forall l2 n, judge (l1 ++ l2) n = match judge l1 n with Fine m => judge l2 m | v => v end.
Proof.
  induction l1 as [|a l1 IH]; intros l2 n; [reflexivity|]. cbn [app judge].
  destruct a as [[]|[]|hash]; try apply IH; try reflexivity.
  destruct (Nat.ltb n 24); [reflexivity|]. destruct (negb (known_hash hash)); [reflexivity|]. destruct (negb (hash =? 8)); [reflexivity|]. apply IH.
Qed.

(** results against verdicts; what reads random bytes leaves as many as the verdict says *)
Definition meets {A} (v : verdict) (r : res (A * bytes)) : Prop :=
  match v, r with Fine n, Ok (_, t) => length t = n | Fails, Err _ => True | Panics, Panic => True | _, _ => False end.
Definition meets0 {A} (v : verdict) (r : res A) : Prop :=
  match v, r with Fine _, Ok _ => True | Fails, Err _ => True | Panics, Panic => True | _, _ => False end.
Lemma meets_bind {A B} l1 l2 n (r : res (A * bytes)) (k : A * bytes -> res (B * bytes)) :
  meets (judge l1 n) r -> (forall a t, r = Ok (a, t) -> meets (judge l2 (length t)) (k (a, t))) -> meets (judge (l1 ++ l2) n) (let* x := r in k x).
Proof.
  intros M K. rewrite judge_app. destruct (judge l1 n), r as [[a t]| |]; cbn [meets bind] in *; try contradiction; try exact I. subst. apply K. reflexivity.
Qed.
(** what reads no random bytes *)
Definition calm_asks (l : list ask) : Prop := forall n, match judge l n with Fine m => m = n | _ => True end.
Lemma meets_bind0 {A B} l1 l2 n (r : res A) (k : A -> res (B * bytes)) : calm_asks l1 ->
  meets0 (judge l1 n) r -> (forall a, r = Ok a -> meets (judge l2 n) (k a)) -> meets (judge (l1 ++ l2) n) (let* x := r in k x).
Proof.
  intros C M K. rewrite judge_app. specialize (C n). destruct (judge l1 n), r as [a| |]; cbn [meets0 bind] in *; try contradiction; try exact I. subst. apply K. reflexivity.
Qed.
Lemma meets0_bind {A B} l1 l2 n (r : res A) (k : A -> res B) : calm_asks l1 ->
  meets0 (judge l1 n) r -> (forall a, r = Ok a -> meets0 (judge l2 n) (k a)) -> meets0 (judge (l1 ++ l2) n) (let* x := r in k x).
Proof.
  intros C M K. rewrite judge_app. specialize (C n). destruct (judge l1 n), r as [a| |]; cbn [meets0 bind] in *; try contradiction; try exact I. subst. apply K. reflexivity.
Qed.
Lemma meets_drop v (r : res (bytes * bytes)) : meets v r -> meets0 v (drop_tape r).
Proof. destruct v, r as [[b t]| |]; cbn; auto. Qed.
Lemma calm_must b l : calm_asks l -> calm_asks (Must b :: l).
Proof. intros C n. cbn [judge]. destruct b; [apply C|exact I]. Qed.
Lemma calm_should b l : calm_asks l -> calm_asks (Should b :: l).
Proof. intros C n. cbn [judge]. destruct b; [apply C|exact I]. Qed.
Lemma calm_none : calm_asks [].
Proof. intros n. reflexivity. Qed.
#[local] Hint Resolve calm_must calm_should calm_none : core.
Lemma meets_deref {A} (o : option A) n : meets0 (judge [Must (match o with Some _ => true | None => false end)] n) (deref o).
Proof. destruct o; exact I. Qed.

(** ** Objects against notes *)
Definition made {A} (o : option A) : bool := match o with Some _ => true | None => false end.
Definition uses_of (l : list f_sub) : list nat := flat_map (fun s => match s with Own _ => [] | Given p => [p] end) l.
Definition written (s : f_sig) : bool := complete_sig (fg_digest s) (fg_r s) (fg_s s).
Definition signs_64 (b : ecc_key) : Prop := exists p, ec_signing b = Some p /\ length p = 64%nat.
Definition fits (d : note) (o : f_object) : Prop :=
  match o with
  | F_none => d = D_nil
  | F_master_key k => d = D_master (made (fe_base k)) (Nat.eqb (length (fe_private k)) 64)
  | F_ed_subkey k => d = D_subkey (made (fe_base k)) /\ forall b, fe_base k = Some b -> signs_64 b
  | F_curve_key k => d = D_curve (made (fc_base k))
  | F_user _ => d = D_user
  | F_keys s => d = D_keys s
  | F_subpacket _ => d = D_sub
  | F_signature s => d = D_sig (uses_of (fg_hashed s) ++ uses_of (fg_unhashed s)) (written s)
  end.
Definition fits_state (n : notes) (st : f_state) : Prop :=
  Forall2 fits (n_objects n) (f_heap st) /\ n_kdf n = made (f_kdf st) /\ n_hash n = f_hash st.

Lemma fits_at l h : Forall2 fits l h -> forall p, fits (nth p l D_nil) (nth p h F_none).
Proof. induction 1 as [|d o l h D F IH]; intros [|p]; cbn [nth]; auto; reflexivity. Qed.

Section env.
Variable E : Env.
Hypothesis SZ : sizes_ok E.
Hypothesis RN : rand_ok E.

Lemma hash_known id : made (hash_new E id) = known_hash id.
Proof.
  unfold hash_new, known_hash, hash_sha256, hash_sha384, hash_sha512. destruct (id =? 8); [reflexivity|]. destruct (id =? 9); [reflexivity|]. destruct (id =? 10); reflexivity.
Qed.
Lemma hash_length id f x : hash_new E id = Some f -> (32 <= length (f x))%nat.
Proof.
  unfold hash_new. destruct (id =? hash_sha256); [|destruct (id =? hash_sha384); [|destruct (id =? hash_sha512); [|discriminate]]]; intros Q; injection Q as <-.
  - rewrite (size_sha256 E SZ). lia.
  - rewrite (size_sha384 E SZ). lia.
  - rewrite (size_sha512 E SZ). lia.
Qed.

Lemma shuffle_no_err {T} sd i : forall j (l : list T) e, shuffle_from E sd i j l <> Err e.
Proof.
  induction i as [|i IH]; intros j l e; cbn [shuffle_from]; [discriminate|].
  destruct (swap l _ _) as [l'| |] eqn:S; cbn [bind]; [apply IH| |discriminate]. unfold swap in S. destruct (nth_error l _); [destruct (nth_error l _); discriminate|discriminate].
Qed.

(** *** EncryptS2K *)
Lemma s2k_meets hash p pw tape : meets (judge [Secret hash] (length tape)) (encrypt_s2k E hash p pw tape).
Proof.
  cbn [judge]. unfold encrypt_s2k, read_full. destruct (Nat.ltb_spec (length tape) 8) as [L1|L1]; cbn [bind].
  { destruct (Nat.ltb_spec (length tape) 24); [exact I|lia]. }
  destruct (Nat.ltb_spec (length (skipn 8 tape)) 16) as [L2|L2]; cbn [bind]; rewrite skipn_length in L2.
  { destruct (Nat.ltb_spec (length tape) 24); [exact I|lia]. }
  destruct (Nat.ltb_spec (length tape) 24); [lia|].
  unfold string_to_key. rewrite <- (hash_known hash). destruct (hash_new E hash) as [f|] eqn:F; cbn [made negb]; [|exact I].
  replace (zlen (firstn 8 tape ++ pw) =? 0) with false.
  2:{ symmetry. apply Z.eqb_neq. unfold zlen. rewrite app_length, firstn_length. lia. }
  cbn [bind]. unfold hash_new in F. unfold hash_size.
  destruct (hash =? hash_sha256) eqn:H8.
  - replace (hash =? 8) with true by exact (eq_sym H8). cbn [negb].
    injection F as <-. replace (aes_key_ok _) with true by (symmetry; unfold aes_key_ok, zlen; rewrite (size_sha256 E SZ); reflexivity). change (32 =? 16) with false. change (32 =? 24) with false. change (32 =? 32) with true. cbn [negb bind meets].
    rewrite !skipn_length. lia.
  - replace (hash =? 8) with false by exact (eq_sym H8). cbn [negb].
    destruct (hash =? hash_sha384) eqn:H9; [|destruct (hash =? hash_sha512) eqn:H10; [|discriminate]]; injection F as <-.
    + replace (aes_key_ok _) with false by (symmetry; unfold aes_key_ok, zlen; rewrite (size_sha384 E SZ); reflexivity). exact I.
    + replace (aes_key_ok _) with false by (symmetry; unfold aes_key_ok, zlen; rewrite (size_sha512 E SZ); reflexivity). exact I.
Qed.

(** *** keys *)
Lemma public_meets b n : meets0 (judge [Must (made b)] n) (f_encode_public b).
Proof. destruct b; exact I. Qed.
Lemma fingerprint_meets b n : meets0 (judge [Must (made b)] n) (f_fingerprint E b).
Proof. destruct b; exact I. Qed.
Lemma dummy_meets b n : meets0 (judge [Must (made b)] n) (f_dummy_packet b).
Proof. destruct b; exact I. Qed.
Lemma fingerprint_length b fp : f_fingerprint E b = Ok fp -> length fp = 20%nat.
Proof. destruct b; cbn [f_fingerprint f_encode_public deref bind]; [|discriminate]. intros Q. injection Q as <-. apply (size_sha1 E SZ). Qed.
Lemma private_meets n tag b pw tape :
  meets (judge (Must (made b) :: secret_asks n pw) (length tape)) (f_private_packet E (n_hash n) tag b pw tape).
Proof.
  unfold f_private_packet, f_encode_private. destruct b as [k|]; cbn [made judge f_encode_public deref bind]; [|exact I].
  destruct pw as [|x pw].
  - change (zlen [] >? 0) with false. reflexivity.
  - replace (zlen (x :: pw) >? 0) with true by (unfold zlen; cbn [length]; lia). unfold secret_asks.
    pose proof (s2k_meets (n_hash n) (ec_private k) (x :: pw) tape) as M.
    destruct (judge _ _), (encrypt_s2k _ _ _ _ _) as [[e t]| |]; cbn [bind meets] in *; auto.
Qed.

(** *** signatures *)
Section heap.
Variable n : notes.
Variable h : list f_object.
Hypothesis F : Forall2 fits (n_objects n) h.
Let at_ p := nth p (n_objects n) D_nil.

Lemma sub_fits p : made (subpacket_at h p) = is_sub (at_ p).
Proof. unfold subpacket_at, at_. pose proof (fits_at _ _ F p) as Q. destruct (nth p h F_none); cbn [fits] in Q; try (rewrite Q; reflexivity). destruct Q as [-> _]. reflexivity. Qed.
Lemma user_fits p : made (user_at h p) = is_user (at_ p).
Proof. unfold user_at, at_. pose proof (fits_at _ _ F p) as Q. destruct (nth p h F_none); cbn [fits] in Q; try (rewrite Q; reflexivity). destruct Q as [-> _]. reflexivity. Qed.

Lemma subs_app a b : forallb (fun p => is_sub (at_ p)) (a ++ b) = forallb (fun p => is_sub (at_ p)) a && forallb (fun p => is_sub (at_ p)) b.
Proof. apply forallb_app. Qed.
Lemma subs_meet l m : meets0 (judge [Must (forallb (fun p => is_sub (at_ p)) (uses_of l))] m) (f_subs h l).
Proof.
  cbn [judge]. induction l as [|s l IH]; [exact I|]. cbn [f_subs uses_of flat_map]. destruct s as [s|p]; cbn [app forallb deref bind].
  - fold (uses_of l). destruct (forallb _ (uses_of l)), (f_subs h l); cbn [meets0 bind] in *; auto.
  - fold (uses_of l). rewrite <- sub_fits. destruct (subpacket_at h p) as [x|]; cbn [made andb deref bind]; [|exact I].
    destruct (forallb _ (uses_of l)), (f_subs h l); cbn [meets0 bind] in *; auto.
Qed.
Lemma subs_own l : f_subs h (map Own l) = Ok l.
Proof. induction l as [|s l IH]; [reflexivity|]. cbn [map f_subs deref bind]. rewrite IH. reflexivity. Qed.
Lemma uses_own l : uses_of (map Own l) = [].
Proof. induction l as [|s l IH]; [reflexivity|exact IH]. Qed.
Lemma uses_given l : uses_of (map Given l) = l.
Proof. induction l as [|s l IH]; [reflexivity|]. cbn [map uses_of flat_map app]. f_equal. exact IH. Qed.
Lemma uses_app a b : uses_of (a ++ b) = uses_of a ++ uses_of b.
Proof. apply flat_map_app. Qed.

Lemma sig_meets s m :
  meets0 (judge [Must (forallb (fun p => is_sub (at_ p)) (uses_of (fg_hashed s) ++ uses_of (fg_unhashed s))); Must (written s)] m) (f_sig_encode h (Some s)).
Proof.
  unfold f_sig_encode. cbn [deref bind]. rewrite subs_app. pose proof (subs_meet (fg_hashed s) m) as A. pose proof (subs_meet (fg_unhashed s) m) as B. cbn [judge] in *.
  destruct (forallb _ (uses_of (fg_hashed s))); cbn [andb] in *; destruct (f_subs h (fg_hashed s)) as [x| |]; cbn [meets0 bind] in *; try contradiction; [|exact I].
  destruct (forallb _ (uses_of (fg_unhashed s))); cbn [andb] in *; destruct (f_subs h (fg_unhashed s)) as [y| |]; cbn [meets0 bind] in *; try contradiction; [|exact I].
  unfold written, complete_sig. rewrite Nat.ltb_antisym. destruct (Nat.leb 2 (length (fg_digest s))); cbn [negb andb]; [|exact I].
  destruct (fg_r s), (fg_s s); exact I.
Qed.
Lemma sig_packet_meets s m :
  meets0 (judge [Must (forallb (fun p => is_sub (at_ p)) (uses_of (fg_hashed s) ++ uses_of (fg_unhashed s))); Must (written s)] m) (f_sig_packet h (Some s)).
Proof.
  unfold f_sig_packet. pose proof (sig_meets s m) as M. destruct (judge _ _), (f_sig_encode h (Some s)); cbn [meets0 bind] in *; auto.
Qed.

Definition request_uses (rq : f_request) : list nat := uses_of (fr_hashed rq).
Lemma sign_meets private rq m :
  meets0 (judge [Must (Nat.leb 8 (length (fr_fingerprint rq))); Must (known_hash (fr_hash rq));
                 Must (forallb (fun p => is_sub (at_ p)) (uses_of (fr_hashed rq))); Must (Nat.eqb (length private) 64)] m) (f_sign E h private (Some rq)) /\
  forall s, f_sign E h private (Some rq) = Ok s ->
    uses_of (fg_hashed s) ++ uses_of (fg_unhashed s) = uses_of (fr_hashed rq) ++ uses_of (fr_unhashed rq) /\ written s = true.
Proof.
  unfold f_sign. cbn [deref bind judge]. rewrite Nat.ltb_antisym. destruct (Nat.leb 8 _); cbn [negb]; [|split; [exact I|discriminate]].
  rewrite <- hash_known. destruct (hash_new E (fr_hash rq)) as [f|] eqn:Q; cbn [made deref bind]; [|split; [exact I|discriminate]].
  match goal with |- context [f_subs h ?l] => set (hashed := l) end.
  assert (U : uses_of hashed = uses_of (fr_hashed rq)) by reflexivity.
  pose proof (subs_meet hashed m) as S. rewrite U in S. cbn [judge] in S. clearbody hashed.
  destruct (forallb _ (uses_of (fr_hashed rq))); destruct (f_subs h hashed) as [x| |]; cbn [meets0 bind] in *; try contradiction; [|split; [exact I|discriminate]].
  destruct (Nat.eqb (length private) 64); cbn [negb]; [|split; [exact I|discriminate]]. split; [exact I|].
  intros s R. injection R as <-. cbn [fg_hashed fg_unhashed]. split; [rewrite U; reflexivity|].
  unfold written, complete_sig. cbn [fg_digest fg_r fg_s]. rewrite andb_true_r. apply Nat.leb_le. apply (Nat.le_trans _ 32); [lia|exact (hash_length _ f _ Q)].
Qed.
(** the package's own requests *)
Lemma own_sign private fp data type hashed unhashed t m : length fp = 20%nat ->
  meets0 (judge [Must (Nat.eqb (length private) 64)] m) (f_sign E h private (Some (mk_freq fp hash_sha256 data type (map Own hashed) unhashed t))) /\
  forall s, f_sign E h private (Some (mk_freq fp hash_sha256 data type (map Own hashed) unhashed t)) = Ok s ->
    uses_of (fg_hashed s) ++ uses_of (fg_unhashed s) = uses_of unhashed /\ written s = true.
Proof.
  intros L. destruct (sign_meets private (mk_freq fp hash_sha256 data type (map Own hashed) unhashed t) m) as [M S]. cbn [fr_fingerprint fr_hash fr_hashed fr_unhashed] in *.
  rewrite uses_own in *. rewrite L in M. split; [exact M|]. intros s Q. exact (S s Q).
Qed.

Lemma certify_meets k u m :
  meets0 (judge [Must (made (fe_base k)); Must (made u); Must (Nat.eqb (length (fe_private k)) 64)] m) (f_self_certify E h (Some k) u) /\
  forall s, f_self_certify E h (Some k) u = Ok s -> uses_of (fg_hashed s) ++ uses_of (fg_unhashed s) = [] /\ written s = true.
Proof.
  unfold f_self_certify. cbn [deref bind]. destruct (fe_base k) as [b|]; cbn [made judge f_encode_public f_fingerprint deref bind]; [|split; [exact I|discriminate]].
  destruct u as [u|]; cbn [made f_uid_encode deref bind]; [|split; [exact I|discriminate]]. apply own_sign. apply (size_sha1 E SZ).
Qed.
(** binding: [Must made_master; Must made; Must signs], with no other asks *)
Lemma bind_meets k sub flags expiry m : (flags = flag_sign -> forall b, sub = Some b -> signs_64 b) -> (flags = flag_sign \/ Z.land flags flag_sign = 0) ->
  meets0 (judge [Must (made (fe_base k)); Must (made sub); Must (Nat.eqb (length (fe_private k)) 64)] m) (f_bind_subkey E h (Some k) sub flags expiry) /\
  forall s, f_bind_subkey E h (Some k) sub flags expiry = Ok s -> uses_of (fg_hashed s) ++ uses_of (fg_unhashed s) = [] /\ written s = true.
Proof.
  intros S64 FL. unfold f_bind_subkey. cbn [deref bind]. destruct (fe_base k) as [b|]; cbn [made judge f_encode_public deref bind]; [|split; [exact I|discriminate]].
  destruct sub as [s|]; cbn [made f_encode_public deref bind]; [|split; [exact I|discriminate]].
  match goal with |- context [let* unhashed := ?m in _] => assert (U : exists l, m = Ok (map Own l)) end.
  { destruct FL as [-> | ->].
    - change (negb (Z.land flag_sign flag_sign =? 0)) with true. cbn match. destruct (S64 eq_refl s eq_refl) as (p & -> & L). cbn [deref bind f_fingerprint f_encode_public].
      match goal with |- context [f_sign E h p (Some (mk_freq ?fp hash_sha256 ?d ?t [] [] ?c))] =>
        destruct (own_sign p fp d t [] [] c m (size_sha1 E SZ _)) as [M R]; cbn [map] in M, R end.
      rewrite L in M. destruct (f_sign E h p _) as [sg| |]; cbn [judge meets0 bind] in *; try contradiction.
      destruct (R sg eq_refl) as [R1 R2]. pose proof (sig_meets sg m) as G. rewrite R1, R2 in G.
      destruct (f_sig_encode h (Some sg)) as [e| |]; cbn [judge meets0 bind forallb uses_of flat_map] in *; try contradiction. exists [mk_sub sub_embedded_signature e]. reflexivity.
    - cbn [Z.eqb negb]. exists []. reflexivity. }
  destruct U as [l U]. rewrite U. cbn [bind f_fingerprint f_encode_public deref].
  match goal with |- context [f_sign E h ?p (Some (mk_freq ?fp hash_sha256 ?d ?t (map Own ?a) ?u ?c))] =>
        destruct (own_sign p fp d t a u c m (size_sha1 E SZ _)) as [M R] end.
  rewrite uses_own in R. split; [exact M|exact R].
Qed.

(** *** key sets *)
Lemma subkey_meets k sub flags expiry pw tape : made (fe_base k) = true ->
  (flags = flag_sign -> forall b, sub = Some b -> signs_64 b) -> (flags = flag_sign \/ Z.land flags flag_sign = 0) ->
  meets (judge (Must (made sub) :: secret_asks n pw ++ [Must (Nat.eqb (length (fe_private k)) 64)]) (length tape))
        (f_subkey_packets E h (n_hash n) (Some k) sub flags expiry pw tape).
Proof.
  intros MB S64 FL. unfold f_subkey_packets. change (Must (made sub) :: secret_asks n pw ++ ?l) with ((Must (made sub) :: secret_asks n pw) ++ l).
  apply meets_bind; [apply private_meets|]. intros p t Q.
  assert (MS : made sub = true). { destruct sub; [reflexivity|discriminate Q]. }
  destruct (bind_meets k sub flags expiry (length t) S64 FL) as [M R]. rewrite MB, MS in M. cbn [judge] in *.
  destruct (Nat.eqb _ 64), (f_bind_subkey E h (Some k) sub flags expiry) as [sg| |]; cbn [meets0 bind] in *; try contradiction; [|exact I].
  destruct (R sg eq_refl) as [R1 R2]. pose proof (sig_packet_meets sg (length t)) as G. rewrite R1, R2 in G.
  destruct (f_sig_packet h (Some sg)); cbn [judge meets0 bind forallb meets] in *; try contradiction. reflexivity.
Qed.

Lemma master_fits p : at_ p = match master_at h p with Some k => D_master (made (fe_base k)) (Nat.eqb (length (fe_private k)) 64) | None => at_ p end /\
  (master_at h p = None -> forall a b, at_ p <> D_master a b).
Proof.
  unfold master_at, at_. pose proof (fits_at _ _ F p) as Q. destruct (nth p h F_none); cbn [fits] in Q; try (split; [reflexivity|]); try (intros _ a b X; rewrite X in Q; discriminate).
  - split; [exact Q|discriminate].
  - intros _ a b X. rewrite X in Q. destruct Q. discriminate.
Qed.
Lemma all_subkeys_meets ks k pw tape : master_at h (fs_master ks) = Some k -> made (fe_base k) = true ->
  meets (judge (subkeys_asks n ks pw) (length tape)) (f_all_subkeys E h (n_hash n) ks pw tape).
Proof.
  intros MK MB. unfold f_all_subkeys, subkeys_asks. destruct (master_fits (fs_master ks)) as [MF _]. rewrite MK in *. fold (at_ (fs_master ks)). rewrite MF.
  cbn [subkey_asks signing_master].
  apply meets_bind.
  { unfold curve_at. fold (at_ (fs_enc ks)). pose proof (fits_at _ _ F (fs_enc ks)) as Q. fold (at_ (fs_enc ks)) in Q. destruct (nth (fs_enc ks) h F_none); cbn [fits] in Q; try (rewrite Q; reflexivity).
    - destruct Q as [-> _]. reflexivity.
    - rewrite Q. apply (subkey_meets k); [exact MB|discriminate|right; reflexivity]. }
  intros g0 t0 _. apply meets_bind.
  { unfold subkey_at. fold (at_ (fs_auth ks)). pose proof (fits_at _ _ F (fs_auth ks)) as Q. fold (at_ (fs_auth ks)) in Q. destruct (nth (fs_auth ks) h F_none); cbn [fits] in Q; try (rewrite Q; reflexivity).
    destruct Q as [-> SG]. apply (subkey_meets k); [exact MB|intros _; exact SG|right; reflexivity]. }
  intros g1 t1 _. rewrite <- (app_nil_r (match at_ (fs_sign ks) with D_subkey _ => _ | _ => _ end)). apply meets_bind.
  { unfold subkey_at. fold (at_ (fs_sign ks)). pose proof (fits_at _ _ F (fs_sign ks)) as Q. fold (at_ (fs_sign ks)) in Q. destruct (nth (fs_sign ks) h F_none); cbn [fits] in Q; try (rewrite Q; reflexivity).
    destruct Q as [-> SG]. apply (subkey_meets k); [exact MB|intros _; exact SG|left; reflexivity]. }
  intros g2 t2 _. cbn [judge deref bind].
  pose proof (shuffle_from_calm E RN (shuffle_seed E (fe_private k)) 2 0 [g0; g1; g2] ltac:(cbn; lia)) as C. unfold shuffle. cbn [length Nat.sub].
  destruct (shuffle_from E _ 2 0 [g0; g1; g2]) as [gs|e|] eqn:Q; cbn [bind meets]; [reflexivity| |exact (C eq_refl)].
  exact (shuffle_no_err _ _ _ _ _ Q).
Qed.
Lemma certification_meets ks k m : master_at h (fs_master ks) = Some k -> made (fe_base k) = true -> is_user (at_ (fs_uid ks)) = true ->
  meets0 (judge [Must (signing_master (at_ (fs_master ks)))] m) (f_self_certification E h ks).
Proof.
  intros MK MB U. unfold f_self_certification. destruct (master_fits (fs_master ks)) as [MF _]. rewrite MK in *. rewrite MF. cbn [signing_master].
  rewrite <- user_fits in U. destruct (certify_meets k (user_at h (fs_uid ks)) m) as [M R]. rewrite MB, U in M. cbn [judge] in *.
  destruct (Nat.eqb _ 64), (f_self_certify E h (Some k) _) as [sg| |]; cbn [meets0 bind] in *; try contradiction; [|exact I].
  destruct (R sg eq_refl) as [R1 R2]. pose proof (sig_packet_meets sg m) as G. rewrite R1, R2 in G. exact G.
Qed.
Lemma uid_packet_meets u m : meets0 (judge [Must (is_user (at_ u))] m) (f_uid_packet (user_at h u)).
Proof. rewrite <- user_fits. destruct (user_at h u); exact I. Qed.
Lemma packets_meet ks pw tape :
  meets (judge ([Must (made_master (at_ (fs_master ks)))] ++ secret_asks n pw ++
          [Must (is_user (at_ (fs_uid ks))); Must (signing_master (at_ (fs_master ks)))] ++ subkeys_asks n ks pw) (length tape))
        (f_encode_packets E h (n_hash n) (Some ks) pw tape).
Proof.
  unfold f_encode_packets. cbn [deref bind]. destruct (master_fits (fs_master ks)) as [MF MN]. destruct (master_at h (fs_master ks)) as [k|] eqn:MK; cbn [deref bind].
  2:{ replace (made_master (at_ (fs_master ks))) with false; [exact I|]. specialize (MN eq_refl). destruct (at_ (fs_master ks)) as [|a b| | | | | |]; try reflexivity. exfalso. exact (MN a b eq_refl). }
  rewrite MF. cbn [made_master signing_master]. rewrite app_assoc. apply meets_bind; [apply private_meets|]. intros p t Q.
  assert (MB : made (fe_base k) = true). { destruct (fe_base k); [reflexivity|discriminate Q]. }
  change [?a; ?b] with ([a] ++ [b]). rewrite <- app_assoc. apply meets_bind0; [auto|apply uid_packet_meets|]. intros u QU.
  assert (U : is_user (at_ (fs_uid ks)) = true). { rewrite <- user_fits. destruct (user_at h (fs_uid ks)); [reflexivity|discriminate QU]. }
  apply meets_bind0; [auto| |].
  - pose proof (certification_meets ks k (length t) MK MB U) as C. rewrite MF in C. exact C.
  - intros c _. rewrite <- (app_nil_r (subkeys_asks _ _ _)). apply meets_bind; [apply (all_subkeys_meets ks k); assumption|]. intros s t' _. reflexivity.
Qed.
Lemma subkey_packets_meet ks pw (cert : bool) tape :
  meets (judge ([Must (made_master (at_ (fs_master ks))); Must (is_user (at_ (fs_uid ks)))] ++
          (if cert then [Must (signing_master (at_ (fs_master ks)))] else []) ++ subkeys_asks n ks pw) (length tape))
        (f_encode_subkey_packets E h (n_hash n) (Some ks) pw cert tape).
Proof.
  unfold f_encode_subkey_packets. cbn [deref bind]. destruct (master_fits (fs_master ks)) as [MF MN]. destruct (master_at h (fs_master ks)) as [k|] eqn:MK; cbn [deref bind].
  2:{ replace (made_master (at_ (fs_master ks))) with false; [exact I|]. specialize (MN eq_refl). destruct (at_ (fs_master ks)) as [|a b| | | | | |]; try reflexivity. exfalso. exact (MN a b eq_refl). }
  rewrite MF. cbn [made_master signing_master]. change [?a; ?b] with ([a] ++ [b]). rewrite <- app_assoc. apply meets_bind0; [auto|apply dummy_meets|]. intros p Q.
  assert (MB : made (fe_base k) = true). { destruct (fe_base k); [reflexivity|discriminate Q]. }
  apply meets_bind0; [auto|apply uid_packet_meets|]. intros u QU.
  assert (U : is_user (at_ (fs_uid ks)) = true). { rewrite <- user_fits. destruct (user_at h (fs_uid ks)); [reflexivity|discriminate QU]. }
  apply meets_bind0; [destruct cert; auto| |].
  - destruct cert; [|exact I]. pose proof (certification_meets ks k (length tape) MK MB U) as C. rewrite MF in C. exact C.
  - intros c _. rewrite <- (app_nil_r (subkeys_asks _ _ _)). apply meets_bind; [apply (all_subkeys_meets ks k); assumption|]. intros s t' _. reflexivity.
Qed.
End heap.

(** ** Steps *)
Definition tells (v : verdict) (o : f_seen) : Prop :=
  match v, o with Fine _, F_done => True | Fine _, F_bytes _ => True | Fails, F_failed _ => True | Panics, F_panicked => True | _, _ => False end.
Lemma shows_tells v st r : meets0 v r -> tells v (fst (f_shows st r)).
Proof. destruct v, r; cbn; auto. Qed.
Lemma makes_tells v st r : meets0 v r -> tells v (fst (f_makes st r)).
Proof. destruct v, r; cbn; auto. Qed.
Lemma assigns_tells v st p r : meets0 v r -> tells v (fst (f_assigns st p r)).
Proof. destruct v, r; cbn; auto. Qed.

Lemma fits_snoc l h d o : Forall2 fits l h -> fits d o -> Forall2 fits (l ++ [d]) (h ++ [o]).
Proof. intros. apply Forall2_app; auto. Qed.
Lemma fits_update l h p f o : Forall2 fits l h -> (forall d, fits d (nth p h F_none) -> d <> D_nil -> fits (f d) o) -> nth p h F_none <> F_none ->
  Forall2 fits (note_at l p f) (f_update h p o).
Proof.
  intros FF. revert p. unfold f_update. induction FF as [|d x l h D FF IH]; intros p U N.
  - destruct p; exfalso; exact (N eq_refl).
  - destruct p as [|p]; cbn [note_at firstn skipn app nth] in *.
    + constructor; [|exact FF]. apply U; [exact D|]. intros ->. destruct x; cbn [fits] in D; try discriminate; [congruence|destruct D; discriminate].
    + constructor; [exact D|]. apply IH; assumption.
Qed.
Lemma note_at_same l p : note_at l p (fun d => d) = l.
Proof. revert p. induction l as [|d l IH]; intros [|p]; cbn [note_at]; [reflexivity..|]. f_equal. apply IH. Qed.

Lemma shows_fits n st r : fits_state n st -> fits_state (mk_notes (n_objects n ++ [D_nil]) (n_kdf n) (n_hash n)) (snd (f_shows st r)).
Proof. intros (A & B & C). destruct r; (split; [apply fits_snoc; [exact A|reflexivity]|split; assumption]). Qed.
Lemma makes_fits n st r d : fits_state n st -> (forall o, r = Ok o -> fits d o) ->
  fits_state (mk_notes (n_objects n ++ [match r with Ok _ => d | _ => D_nil end]) (n_kdf n) (n_hash n)) (snd (f_makes st r)).
Proof. intros (A & B & C) R. destruct r; (split; [apply fits_snoc; [exact A|try reflexivity; apply R; reflexivity]|split; assumption]). Qed.
Lemma assigns_fits n st r p f o : fits_state n st -> r = Ok o -> (forall d, fits d (nth p (f_heap st) F_none) -> d <> D_nil -> fits (f d) o) -> nth p (f_heap st) F_none <> F_none ->
  fits_state (mk_notes (note_at (n_objects n) p f ++ [D_nil]) (n_kdf n) (n_hash n)) (snd (f_assigns st p r)).
Proof. intros (A & B & C) -> U N. split; [apply fits_snoc; [apply fits_update; assumption|reflexivity]|split; assumption]. Qed.

Lemma new_ed_meets s cr ex m : meets0 (judge [Should (Nat.eqb (length s) 32)] m) (f_new_ed E s cr ex) /\
  forall k, f_new_ed E s cr ex = Ok k -> made (fe_base k) = true /\ length (fe_private k) = 64%nat /\ (forall b, fe_base k = Some b -> signs_64 b).
Proof.
  unfold f_new_ed, new_ed_key. replace (zlen s =? 32) with (Nat.eqb (length s) 32).
  2:{ unfold zlen. destruct (Nat.eqb_spec (length s) 32) as [L|L]; symmetry; [apply Z.eqb_eq|apply Z.eqb_neq]; lia. }
  cbn [judge]. destruct (Nat.eqb_spec (length s) 32) as [L|L]; cbn [negb bind]; [|split; [exact I|discriminate]]. split; [exact I|].
  intros k Q. injection Q as <-. cbn [fe_base fe_private ed_base ed_private made]. assert (P : length (s ++ ed25519_public E s) = 64%nat) by (rewrite app_length, (size_public E SZ s L); lia).
  split; [reflexivity|]. split; [exact P|]. intros b Q. injection Q as <-. exists (s ++ ed25519_public E s). split; [reflexivity|exact P].
Qed.
Lemma new_curve_meets d s cr ex kdf m :
  meets0 (judge [Should (Nat.eqb (length s) 32); Must (made d || match kdf with Some _ => true | None => false end)] m) (f_new_curve E d s cr ex kdf) /\
  forall k, f_new_curve E d s cr ex kdf = Ok k -> made (fc_base k) = true.
Proof.
  unfold f_new_curve. replace (zlen s =? 32) with (Nat.eqb (length s) 32).
  2:{ unfold zlen. destruct (Nat.eqb_spec (length s) 32) as [L|L]; symmetry; [apply Z.eqb_eq|apply Z.eqb_neq]; lia. }
  cbn [judge]. destruct (Nat.eqb_spec (length s) 32) as [L|L]; cbn [negb bind]; [|split; [exact I|discriminate]].
  assert (N : forall p, exists k, new_curve_key E s cr ex (Some p) = Ok k).
  { intros p. unfold new_curve_key. replace (zlen s =? 32) with true by (unfold zlen; lia). eexists. reflexivity. }
  destruct kdf as [p|]; [|destruct d as [p|]]; cbn [made orb deref bind].
  - rewrite orb_true_r. destruct (N p) as [k ->]. cbn [bind]. split; [exact I|]. intros k' Q. injection Q as <-. reflexivity.
  - destruct (N p) as [k ->]. cbn [bind]. split; [exact I|]. intros k' Q. injection Q as <-. reflexivity.
  - split; [exact I|discriminate].
Qed.

(** a call that makes an object *)
Lemma made_step n st c r : fits_state n st -> f_step E st c = f_makes st r -> meets0 (judged n c) r ->
  (forall o, r = Ok o -> fits (noted c) o) ->
  (forall o, o = F_done \/ (exists e, o = F_failed e) -> take_note n (c, o) = mk_notes (n_objects n ++ [match o with F_done => noted c | _ => D_nil end]) (n_kdf n) (n_hash n)) ->
  tells (judged n c) (fst (f_step E st c)) /\ (fst (f_step E st c) <> F_panicked -> fits_state (take_note n (c, fst (f_step E st c))) (snd (f_step E st c))).
Proof.
  intros FS Q M R T. rewrite Q. split; [apply makes_tells, M|]. intros N. pose proof (makes_fits n st r (noted c) FS R) as G.
  destruct r as [o|e|]; cbn [f_makes fst snd] in *; [| |congruence]; (rewrite T; [exact G|eauto]).
Qed.
(** a call that returns bytes *)
Lemma shown_step n st c r : fits_state n st -> f_step E st c = f_shows st r -> meets0 (judged n c) r ->
  (forall o, take_note n (c, o) = mk_notes (n_objects n ++ [D_nil]) (n_kdf n) (n_hash n)) ->
  tells (judged n c) (fst (f_step E st c)) /\ (fst (f_step E st c) <> F_panicked -> fits_state (take_note n (c, fst (f_step E st c))) (snd (f_step E st c))).
Proof. intros FS Q M T. rewrite Q. split; [apply shows_tells, M|]. intros _. rewrite T. apply shows_fits, FS. Qed.
(** an assignment *)
Lemma assigned_step n st c p r f : fits_state n st -> f_step E st c = f_assigns st p r -> meets0 (judged n c) r ->
  (forall o, r = Ok o -> nth p (f_heap st) F_none <> F_none /\ forall d, fits d (nth p (f_heap st) F_none) -> d <> D_nil -> fits (f d) o) ->
  (forall e, r <> Err e) ->
  take_note n (c, F_done) = mk_notes (note_at (n_objects n) p f ++ [D_nil]) (n_kdf n) (n_hash n) ->
  tells (judged n c) (fst (f_step E st c)) /\ (fst (f_step E st c) <> F_panicked -> fits_state (take_note n (c, fst (f_step E st c))) (snd (f_step E st c))).
Proof.
  intros FS Q M R NE T. rewrite Q. split; [apply assigns_tells, M|]. intros N.
  destruct r as [o|e|] eqn:RQ; cbn [f_assigns fst snd] in N |- *; [|exfalso; exact (NE e eq_refl)|congruence].
  rewrite T. destruct (R o eq_refl) as [R1 R2]. exact (assigns_fits n st (Ok o) p f o FS eq_refl R2 R1).
Qed.

Lemma key_field_meets n st p ed curve m : fits_state n st -> meets0 (judge [Must (any_key (nth p (n_objects n) D_nil))] m) (f_key_field (f_heap st) p ed curve).
Proof.
  intros (A & _). pose proof (fits_at _ _ A p) as Q. unfold f_key_field. destruct (nth p (f_heap st) F_none); cbn [fits] in Q; try (rewrite Q; exact I). destruct Q as [-> _]. exact I.
Qed.
Lemma base_fits n st p : fits_state n st -> made (base_at (f_heap st) p) = made_key (nth p (n_objects n) D_nil).
Proof.
  intros (A & _). pose proof (fits_at _ _ A p) as Q. unfold base_at. destruct (nth p (f_heap st) F_none); cbn [fits] in Q; try (rewrite Q; reflexivity). destruct Q as [-> _]. reflexivity.
Qed.

Theorem step_told n st c : fits_state n st ->
  tells (judged n c) (fst (f_step E st c)) /\ (fst (f_step E st c) <> F_panicked -> fits_state (take_note n (c, fst (f_step E st c))) (snd (f_step E st c))).
Proof.
  intros FS. pose proof FS as (A & B & C).
  destruct c.
  - (* new_master *) destruct (new_ed_meets seed creation expiry 0) as [M R].
    eapply made_step; [exact FS|reflexivity| | |intros o [->|[e ->]]; reflexivity].
    + unfold judged. cbn [asks random_of]. destruct (judge _ _), (f_new_ed E seed creation expiry); cbn [meets0 bind] in *; auto.
    + intros o Q. destruct (f_new_ed E seed creation expiry) as [k| |]; try discriminate. injection Q as <-. destruct (R k eq_refl) as (R1 & R2 & _). cbn [fits noted]. rewrite R1, R2. reflexivity.
  - (* new_subkey *) destruct (new_ed_meets seed creation expiry 0) as [M R].
    eapply made_step; [exact FS|reflexivity| | |intros o [->|[e ->]]; reflexivity].
    + unfold judged. cbn [asks random_of]. destruct (judge _ _), (f_new_ed E seed creation expiry); cbn [meets0 bind] in *; auto.
    + intros o Q. destruct (f_new_ed E seed creation expiry) as [k| |]; try discriminate. injection Q as <-. destruct (R k eq_refl) as (R1 & R2 & R3). cbn [fits noted]. rewrite R1. split; [reflexivity|exact R3].
  - (* new_encryption *) destruct (new_curve_meets (f_kdf st) seed creation expiry kdf 0) as [M R].
    eapply made_step; [exact FS|reflexivity| | |intros o [->|[e ->]]; reflexivity].
    + unfold judged. cbn [asks random_of]. rewrite B. destruct (judge _ _), (f_new_curve E (f_kdf st) seed creation expiry kdf); cbn [meets0 bind] in *; auto.
    + intros o Q. destruct (f_new_curve E (f_kdf st) seed creation expiry kdf) as [k| |]; try discriminate. injection Q as <-. cbn [fits noted]. rewrite (R k eq_refl). reflexivity.
  - (* literals *) eapply made_step; [exact FS|reflexivity|exact I| |intros o [->|[e ->]]; reflexivity]. intros o Q. injection Q as <-. reflexivity.
  - eapply made_step; [exact FS|reflexivity|exact I| |intros o [->|[e ->]]; reflexivity]. intros o Q. injection Q as <-. split; [reflexivity|discriminate].
  - eapply made_step; [exact FS|reflexivity|exact I| |intros o [->|[e ->]]; reflexivity]. intros o Q. injection Q as <-. reflexivity.
  - eapply made_step; [exact FS|reflexivity|exact I| |intros o [->|[e ->]]; reflexivity]. intros o Q. injection Q as <-. reflexivity.
  - eapply made_step; [exact FS|reflexivity|exact I| |intros o [->|[e ->]]; reflexivity]. intros o Q. injection Q as <-. reflexivity.
  - eapply made_step; [exact FS|reflexivity|exact I| |intros o [->|[e ->]]; reflexivity]. intros o Q. injection Q as <-. reflexivity.
  - eapply made_step; [exact FS|reflexivity|exact I| |intros o [->|[e ->]]; reflexivity]. intros o Q. injection Q as <-. cbn [fits noted fg_hashed fg_unhashed]. rewrite !uses_given. reflexivity.
  - (* set_private *) eapply assigned_step; [exact FS|reflexivity|apply key_field_meets, FS| | |reflexivity].
    + unfold f_key_field. intros o Q. destruct (nth k (f_heap st) F_none); try discriminate; injection Q as <-; (split; [discriminate|]); intros d D _; cbn [fits fe_base fc_base fe_private] in *.
      * rewrite D. reflexivity.
      * destruct D as [-> D]. split; [reflexivity|exact D].
      * rewrite D. reflexivity.
    + unfold f_key_field. destruct (nth k (f_heap st) F_none); discriminate.
  - (* set_public *) eapply (assigned_step _ _ _ _ _ (fun d => d)); [exact FS|reflexivity|apply key_field_meets, FS| | |rewrite note_at_same; reflexivity].
    + unfold f_key_field. intros o Q. destruct (nth k (f_heap st) F_none); try discriminate; injection Q as <-; (split; [discriminate|]); intros d D _; exact D.
    + unfold f_key_field. destruct (nth k (f_heap st) F_none); discriminate.
  - (* set_creation *) eapply (assigned_step _ _ _ _ _ (fun d => d)); [exact FS|reflexivity|apply key_field_meets, FS| | |rewrite note_at_same; reflexivity].
    + unfold f_key_field. intros o Q. destruct (nth k (f_heap st) F_none); try discriminate; injection Q as <-; (split; [discriminate|]); intros d D _; exact D.
    + unfold f_key_field. destruct (nth k (f_heap st) F_none); discriminate.
  - (* set_expiry *) eapply (assigned_step _ _ _ _ _ (fun d => d)); [exact FS|reflexivity|apply key_field_meets, FS| | |rewrite note_at_same; reflexivity].
    + unfold f_key_field. intros o Q. destruct (nth k (f_heap st) F_none); try discriminate; injection Q as <-; (split; [discriminate|]); intros d D _; exact D.
    + unfold f_key_field. destruct (nth k (f_heap st) F_none); discriminate.
  - (* set_kdf *) pose proof (fits_at _ _ A k) as Q. eapply (assigned_step _ _ _ k _ (fun d => d)); [exact FS|reflexivity| | | |rewrite note_at_same; reflexivity].
    + unfold judged, curve_at. cbn [asks random_of]. destruct (nth k (f_heap st) F_none); cbn [fits] in Q; try (rewrite Q; exact I). destruct Q as [-> _]. exact I.
    + unfold curve_at. intros o R. destruct (nth k (f_heap st) F_none); try discriminate R. injection R as <-. split; [discriminate|]. intros d D _. exact D.
    + unfold curve_at. destruct (nth k (f_heap st) F_none); discriminate.
  - (* set_user *) pose proof (fits_at _ _ A u) as Q. eapply (assigned_step _ _ _ u _ (fun d => d)); [exact FS|reflexivity| | | |rewrite note_at_same; reflexivity].
    + unfold judged, user_at. cbn [asks random_of]. destruct (nth u (f_heap st) F_none); cbn [fits] in Q; try (rewrite Q; exact I). destruct Q as [-> _]. exact I.
    + unfold user_at. intros o R. destruct (nth u (f_heap st) F_none); try discriminate R. injection R as <-. split; [discriminate|]. intros d D _. exact D.
    + unfold user_at. destruct (nth u (f_heap st) F_none); discriminate.
  - (* set_keys *) pose proof (fits_at _ _ A s) as Q. eapply (assigned_step _ _ _ s _ (fun _ => D_keys v)); [exact FS|reflexivity| | | |reflexivity].
    + unfold judged, keys_at. cbn [asks random_of]. destruct (nth s (f_heap st) F_none); cbn [fits] in Q; try (rewrite Q; exact I). destruct Q as [-> _]. exact I.
    + unfold keys_at. intros o R. destruct (nth s (f_heap st) F_none); try discriminate R. injection R as <-. split; [discriminate|]. intros d D _. reflexivity.
    + unfold keys_at. destruct (nth s (f_heap st) F_none); discriminate.
  - (* set_sub *) pose proof (fits_at _ _ A s) as Q. eapply (assigned_step _ _ _ s _ (fun d => d)); [exact FS|reflexivity| | | |rewrite note_at_same; reflexivity].
    + unfold judged, subpacket_at. cbn [asks random_of]. destruct (nth s (f_heap st) F_none); cbn [fits] in Q; try (rewrite Q; exact I). destruct Q as [-> _]. exact I.
    + unfold subpacket_at. intros o R. destruct (nth s (f_heap st) F_none); try discriminate R. injection R as <-. split; [discriminate|]. intros d D _. exact D.
    + unfold subpacket_at. destruct (nth s (f_heap st) F_none); discriminate.
  - (* set_sig *) pose proof (fits_at _ _ A s) as Q. eapply (assigned_step _ _ _ s _ (fun _ => D_sig (hashed ++ unhashed) (complete_sig digest r v))); [exact FS|reflexivity| | | |reflexivity].
    + unfold judged, signature_at. cbn [asks random_of]. destruct (nth s (f_heap st) F_none); cbn [fits] in Q; try (rewrite Q; exact I). destruct Q as [-> _]. exact I.
    + unfold signature_at. intros o R. destruct (nth s (f_heap st) F_none); try discriminate R. injection R as <-. split; [discriminate|]. intros d D _. cbn [fits fg_hashed fg_unhashed]. rewrite !uses_given. reflexivity.
    + unfold signature_at. destruct (nth s (f_heap st) F_none); discriminate.
  - (* default_kdf *) cbn [f_step fst snd]. split; [exact I|]. intros _. cbn [take_note]. split; [apply fits_snoc; [exact A|reflexivity]|]. split; [destruct p; reflexivity|exact C].
  - (* default_hash *) cbn [f_step fst snd]. split; [exact I|]. intros _. cbn [take_note]. split; [apply fits_snoc; [exact A|reflexivity]|]. split; [exact B|reflexivity].
  - (* fingerprint *) eapply shown_step; [exact FS|reflexivity| |intros []; reflexivity]. unfold judged. cbn [asks random_of]. rewrite <- (base_fits n st k FS). apply fingerprint_meets.
  - (* public *) eapply shown_step; [exact FS|reflexivity| |intros []; reflexivity]. unfold judged. cbn [asks random_of]. rewrite <- (base_fits n st k FS). destruct (base_at (f_heap st) k); exact I.
  - (* private *) eapply shown_step; [exact FS|reflexivity| |intros []; reflexivity]. unfold judged. cbn [asks random_of app]. rewrite <- (base_fits n st k FS), <- C. apply meets_drop, private_meets.
  - (* dummy *) eapply shown_step; [exact FS|reflexivity| |intros []; reflexivity]. unfold judged. cbn [asks random_of].
    pose proof (fits_at _ _ A k) as Q. unfold master_at. destruct (nth k (f_heap st) F_none); cbn [fits] in Q; try (rewrite Q; exact I).
    + rewrite Q. apply dummy_meets.
    + destruct Q as [-> _]. exact I.
  - (* self_certify *) destruct (master_fits n (f_heap st) A k) as [MF MN]. destruct (master_at (f_heap st) k) as [m|] eqn:MK.
    + destruct (certify_meets n (f_heap st) A m (user_at (f_heap st) u) 0) as [M R]. rewrite (user_fits n _ A) in M.
      eapply made_step; [exact FS|reflexivity| | |intros o [->|[e ->]]; reflexivity].
      * unfold judged. cbn [asks random_of]. rewrite MF, MK. cbn [made_master signing_master]. destruct (judge _ _), (f_self_certify E (f_heap st) (Some m) (user_at (f_heap st) u)); cbn [meets0 bind] in *; auto.
      * rewrite MK. intros o Q. destruct (f_self_certify E (f_heap st) (Some m) (user_at (f_heap st) u)) as [s| |]; try discriminate. injection Q as <-. destruct (R s eq_refl) as [R1 R2]. cbn [fits noted]. rewrite R1, R2. reflexivity.
    + eapply made_step; [exact FS|reflexivity| | |intros o [->|[e ->]]; reflexivity].
      * unfold judged. cbn [asks random_of]. rewrite MK. specialize (MN eq_refl). destruct (nth k (n_objects n) D_nil) as [|a b| | | | | |]; try exact I. exfalso. exact (MN a b eq_refl).
      * rewrite MK. discriminate.
  - (* bind_nil *) eapply made_step; [exact FS|reflexivity| | |intros o [->|[e ->]]; reflexivity].
    + unfold judged. cbn [asks random_of]. destruct (master_at (f_heap st) k) as [m|]; [|exact I]. unfold f_bind_subkey. cbn [deref bind]. destruct (fe_base m); exact I.
    + destruct (master_at (f_heap st) k) as [m|]; [|discriminate]. unfold f_bind_subkey. cbn [deref bind]. destruct (fe_base m); discriminate.
  - (* sign *) destruct rq as [[[[[[[fp hash] data] type] hs] us] t]|].
    + destruct (sign_meets n (f_heap st) A private (mk_freq fp hash data type (map Given hs) (map Given us) t) 0) as [M R]. cbn [fr_fingerprint fr_hash fr_hashed fr_unhashed] in *. rewrite !uses_given in *.
      eapply made_step; [exact FS|reflexivity| | |intros o [->|[e ->]]; reflexivity].
      * unfold judged. cbn [asks random_of]. destruct (judge _ _), (f_sign E (f_heap st) private _); cbn [meets0 bind] in *; auto.
      * intros o Q. destruct (f_sign E (f_heap st) private _) as [s| |]; try discriminate. injection Q as <-. destruct (R s eq_refl) as [R1 R2]. cbn [fits noted]. rewrite R1, R2. reflexivity.
    + eapply made_step; [exact FS|reflexivity|exact I|discriminate|intros o [->|[e ->]]; reflexivity].
  - (* sig_encode *) eapply shown_step; [exact FS|reflexivity| |intros []; reflexivity]. unfold judged. cbn [asks random_of].
    pose proof (fits_at _ _ A s) as Q. unfold signature_at. destruct (nth s (f_heap st) F_none); cbn [fits] in Q; try (rewrite Q; exact I); [destruct Q as [-> _]; exact I|].
    rewrite Q. apply sig_meets. exact A.
  - (* sig_packet *) eapply shown_step; [exact FS|reflexivity| |intros []; reflexivity]. unfold judged. cbn [asks random_of].
    pose proof (fits_at _ _ A s) as Q. unfold signature_at. destruct (nth s (f_heap st) F_none); cbn [fits] in Q; try (rewrite Q; exact I); [destruct Q as [-> _]; exact I|].
    rewrite Q. apply sig_packet_meets. exact A.
  - (* sub_encode *) eapply shown_step; [exact FS|reflexivity| |intros []; reflexivity]. unfold judged. cbn [asks random_of]. rewrite <- (sub_fits n _ A). destruct (subpacket_at (f_heap st) s); exact I.
  - (* uid *) eapply shown_step; [exact FS|reflexivity| |intros []; reflexivity]. unfold judged. cbn [asks random_of]. rewrite <- (user_fits n _ A). destruct (user_at (f_heap st) u); exact I.
  - (* uid_packet *) eapply shown_step; [exact FS|reflexivity| |intros []; reflexivity]. unfold judged. cbn [asks random_of]. apply uid_packet_meets. exact A.
  - (* packets *) eapply shown_step; [exact FS|reflexivity| |intros []; reflexivity]. unfold judged. cbn [asks random_of].
    pose proof (fits_at _ _ A s) as Q. unfold keys_at. rewrite <- C. destruct (nth s (f_heap st) F_none); cbn [fits] in Q; try (rewrite Q; exact I); [destruct Q as [-> _]; exact I|].
    rewrite Q. apply meets_drop, packets_meet. exact A.
  - (* subkey_packets *) eapply shown_step; [exact FS|reflexivity| |intros []; reflexivity]. unfold judged. cbn [asks random_of].
    pose proof (fits_at _ _ A s) as Q. unfold keys_at. rewrite <- C. destruct (nth s (f_heap st) F_none); cbn [fits] in Q; try (rewrite Q; exact I); [destruct Q as [-> _]; exact I|].
    rewrite Q. apply meets_drop, subkey_packets_meet. exact A.
  - (* packet *) eapply shown_step; [exact FS|reflexivity|exact I|intros []; reflexivity].
  - (* mpi *) eapply shown_step; [exact FS|reflexivity| |intros []; reflexivity]. destruct n0; exact I.
  - (* s2k *) eapply shown_step; [exact FS|reflexivity| |intros []; reflexivity]. unfold judged. cbn [asks random_of]. apply meets_drop, s2k_meets.
  - (* kdf_encode *) eapply shown_step; [exact FS|reflexivity| |intros []; reflexivity]. destruct p; exact I.
Qed.

Lemma run_told calls : forall n st h st', fits_state n st -> f_run E st calls = (h, st') -> (forall e, In e h -> snd e <> F_panicked) ->
  fits_state (fold_left take_note h n) st' /\ map fst h = calls.
Proof.
  induction calls as [|c calls IH]; intros n st h st' FS R Q; cbn [f_run] in R.
  - apply pair_equal_spec in R as [<- <-]. split; [exact FS|reflexivity].
  - destruct (step_told n st c FS) as [_ S]. destruct (f_step E st c) as [o st1]. cbn [fst snd] in S.
    assert (O : o <> F_panicked). { intros ->. apply pair_equal_spec in R as [<- _]. exact (Q _ (or_introl eq_refl) eq_refl). }
    destruct (f_run E st1 calls) as [h1 st2] eqn:R1.
    assert (R' : h = (c, o) :: h1 /\ st' = st2). { destruct o; try (apply pair_equal_spec in R as [<- <-]; split; reflexivity). congruence. }
    destruct R' as [-> ->]. destruct (IH _ _ _ _ (S O) R1 (fun e I => Q e (or_intror I))) as [G1 G2]. cbn [fold_left map fst]. split; [exact G1|f_equal; exact G2].
Qed.
End env.
