(** C95: slices share memory, and a program that uses the package pgp does not notice, except where it keeps what it
    was given or gives away what it keeps. *)
From Coq Require Import Lia ZifyBool ZifyNat.
From Verif.Model Require Import GoBase Env GoTime PgpWire PgpS2k PgpKeys SliceHeap.
From Verif.Spec Require Import EnvSpec SliceSpec RealEnv Sha Curve25519.
From Verif.Proofs Require Import SliceP SliceRunP RealP EnvInst.

(** With slices in memory, whatever room append leaves ([G]), a program sees what it would see if byte slices, keys
    and signatures were values.  It must not change a slice that it has given to Sign as the fingerprint or in a
    subpacket, and not write to Private or Public of an Ed25519 key. *)
Theorem slices_as_values : forall E G calls, sizes_ok E -> p_careful [] calls ->
  fst (p_run E G calls p_init) = pv_run E calls pv_init.
Proof. intros E G calls S C. exact (run_careful E G S calls [] p_init wf_init apart_init C). Qed.
Print Assumptions slices_as_values.

(** So what append leaves as room cannot be noticed either. *)
Theorem capacity_invisible : forall E G G' calls, sizes_ok E -> p_careful [] calls ->
  fst (p_run E G calls p_init) = fst (p_run E G' calls p_init).
Proof. intros E G G' calls S C. rewrite !slices_as_values by assumption. reflexivity. Qed.
Print Assumptions capacity_invisible.

(** After any program at all, careful or not: a call of the package changes no array there is, not even the room behind
    a slice; its results are in arrays of their own; and it gives what it would give for values. *)
Theorem calls_keep_memory : forall E G calls c, sizes_ok E -> p_assigns c = false ->
  let st := snd (p_run E G calls p_init) in
  let st' := snd (p_step E G c st) in
  extends (pst_mem st) (pst_mem st') /\
  Forall (fun s => length (pst_mem st) <= sl_at s)%nat (skipn (length (pst_slices st)) (pst_slices st')) /\
  pv_step E c (see_state st) = (fst (p_step E G c st), see_state st').
Proof.
  intros E G calls c S A st st'. assert (W : wf st) by (apply run_wf; [exact S|apply wf_init]). destruct (step_agree E G S c st W A) as [Q R]. fold st' in Q, R.
  split; [exact (grows_extends _ _ _ R)|]. split; [|exact Q].
  assert (N : forall l : list slice, skipn (length l) l = []) by (intros l; apply skipn_all2; lia).
  destruct R; cbn [pst_slices with_mem]; rewrite ?N; try constructor. rewrite skipn_app, N, Nat.sub_diag. cbn [skipn app]. constructor; [assumption|constructor].
Qed.
Print Assumptions calls_keep_memory.

(** Whatever the program does, the variables of the package (the two object identifiers and the packet trailer) keep
    their bytes. *)
Theorem package_variables_kept : forall E G calls, sizes_ok E ->
  firstn 3 (pst_mem (snd (p_run E G calls p_init))) = package_arrays.
Proof. intros E G calls S. destruct (wf_mem _ (run_wf E G S calls p_init wf_init)) as [l ->]. reflexivity. Qed.
Print Assumptions package_variables_kept.

(** EncodePackets and EncodeSubkeyPackets of keys whose slices lie anywhere, also over each other or over the
    password: the bytes of the values, in a new array, and no other array changes. *)
Definition as_for_values (m : arrays) (o : res slice * memory) (r : res (bytes * bytes)) : Prop :=
  match r with
  | Ok (b, tape) => exists s m', o = (Ok s, (m', tape)) /\ extends m m' /\ (length m <= sl_at s)%nat /\ content m' s = b
  | Err e => exists m' tape, o = (Err e, (m', tape)) /\ extends m m'
  | Panic => exists m' tape, o = (Panic, (m', tape)) /\ extends m m'
  end.
Theorem export_as_for_values : forall E G ks password m tape,
  sizes_ok E -> extends package_arrays m -> set_in m ks -> in_memory m password ->
  as_for_values m (h_encode_packets E G ks password (m, tape)) (encode_packets E (see_set m ks) (content m password) tape) /\
  forall with_cert, as_for_values m (h_encode_subkey_packets E G ks password with_cert (m, tape))
                                    (encode_subkey_packets E (see_set m ks) (content m password) with_cert tape).
Proof.
  assert (K : forall m o r, sim (new_slice (length m)) m o r -> as_for_values m o r).
  { intros m o [[b t]|e|]; unfold sim, as_for_values; try (intros H; exact H). intros (s & m' & H & X & N & I & C). exists s, m'. repeat (split; [assumption|]). exact C. }
  intros E G ks pw m tape S X KS P. split; [apply K, packets_ok; assumption|]. intros cert. apply K, subkey_set_ok; assumption.
Qed.
Print Assumptions export_as_for_values.

(** After any program: its slices have arrays of their own, no key has an array of such a slice or of the Private of an
    encryption subkey, and a signature has one only if the slice was given to Sign. *)
Theorem sharing_only_by_sign : forall E G calls, sizes_ok E ->
  let st := snd (p_run E G calls p_init) in
  NoDup (map sl_at (pst_slices st)) /\
  (forall k u, In k (pst_keys st) -> In u (slices_ed k) -> ~ In (sl_at u) (map sl_at (pst_slices st))) /\
  (forall c u, In c (pst_curves st) -> In u (slices_curve c) -> ~ In (sl_at u) (map sl_at (pst_slices st))) /\
  (forall g u x s, In g (pst_sigs st) -> In u (slices_sig g) -> nth_error (pst_slices st) x = Some s -> sl_at u = sl_at s ->
     exists c, In c calls /\ In x (hands c)).
Proof.
  intros E G calls S st. destruct (run_apart E G S calls [] p_init wf_init apart_init) as (g & A & K & H); [constructor|]. fold st in A, K. destruct (nodup_app _ _ (apart_own _ _ A)) as (N & _ & D).
  unfold keys_apart in K. rewrite Forall_forall in K. split; [exact N|]. split; [|split].
  - intros k u IK IU Q. apply (K u); [unfold key_inner; apply in_or_app; left; apply in_flat_map; eauto|unfold own; apply in_or_app; left; exact Q].
  - intros c u IC [<-|IU] Q; [apply (D _ Q); apply (in_map (fun c => sl_at (hc_private c))); exact IC|]. apply (K u); [unfold key_inner; apply in_or_app; right; apply in_flat_map; eauto|unfold own; apply in_or_app; left; exact Q].
  - intros sg u x s IG IU NX Q. destruct (in_dec Nat.eq_dec x g) as [X|X]; [destruct (H x X) as [[]|Y]; exact Y|]. exfalso.
    pose proof (apart_inner _ _ A) as F. rewrite Forall_forall in F. apply (F u (inner_sig st sg IG u IU)). left. exists x, s. split; [exact NX|]. split; [symmetry; exact Q|exact X].
Qed.
Print Assumptions sharing_only_by_sign.

(** ** The standard algorithms *)
(** The sizes are those of the standard algorithms, so nothing has to be assumed. *)
Lemma std_sizes E0 : sizes_ok (std_env E0).
Proof.
  constructor; intros.
  - exact (proj1 (sha1_bytes m)).
  - exact (proj1 (sha256_bytes m)).
  - exact (proj1 (sha384_bytes m)).
  - exact (proj1 (sha512_bytes m)).
  - exact (proj1 (ed25519_public_bytes s)).
Qed.
Theorem std_slices_as_values : forall E0 G calls, p_careful [] calls ->
  fst (p_run (std_env E0) G calls p_init) = pv_run (std_env E0) calls pv_init.
Proof. intros E0 G calls C. exact (slices_as_values (std_env E0) G calls (std_sizes E0) C). Qed.
Print Assumptions std_slices_as_values.

(** ** Cases *)
(** cheap digests: the bytes of a sum *)
Definition sum_hash (n : nat) (m : bytes) : bytes := be_bytes n (fold_left (fun a b => (a * 259 + b) mod 16777213) m 1).
Definition case_env : Env := {|
  wl_words := wl_words toy_env; wl_search := wl_search toy_env; unicode_lower := unicode_lower toy_env; trim_space := trim_space toy_env;
  argon2id := argon2id toy_env; aes_encrypt := aes_encrypt toy_env; aes_decrypt := aes_decrypt toy_env;
  sha1 := sum_hash 20; sha256 := sum_hash 32; sha384 := sum_hash 48; sha512 := sum_hash 64;
  hkdf_expand_sha256 := hkdf_expand_sha256 toy_env; ed25519_public := ed25519_public toy_env;
  ed25519_sign := fun priv m => sum_hash 64 (priv ++ m); x25519_base := x25519_base toy_env; rand_int31n := rand_int31n toy_env;
  seconds_u32 := seconds_u32 toy_env; armor_encode := armor_encode toy_env
|}.
Lemma case_sizes : sizes_ok case_env.
Proof.
  constructor; intros; cbn [sha1 sha256 sha384 sha512 ed25519_public case_env toy_env]; unfold sum_hash; try apply BitsP.be_bytes_length. rewrite map_length. assumption.
Qed.
Definition no_room (old needed : nat) : nat := needed.
Definition double_room (old needed : nat) : nat := (needed + old + 8)%nat.
Definition alice : user_id := mk_uid (bs "alice") [].

(** Two seeds, three keys and a set; then the first seed and a result are overwritten, a signature is made with a
    fingerprint, results and the Private of the encryption subkey are overwritten, and the set is exported again. *)
Definition case_program : list p_call :=
  [P_make (repeat 7 32); P_make (repeat 9 32); P_make (bs "secret"); P_make [];
   P_new_key 0 0 zero_time; P_new_key 1 0 zero_time; P_new_curve 0 0 zero_time None;
   P_packets alice 0 (Some 0%nat) None None 3 []; P_set 0 0 200; P_set 4 1 200; P_fingerprint 0;
   P_sign (By_key 1) 5 hash_sha256 3 sig_positive_certification [(2, 3%nat)] [] 0; P_sig_encode 0; P_set 6 0 1;
   P_set_curve_private 0 3 77; P_packets alice 0 (Some 0%nat) None None 3 []; P_sig_encode 0].
Example case_careful : p_careful [] case_program.
Proof. cbn. intuition discriminate. Qed.
Definition at_ (n : nat) (l : list p_seen) : p_seen := nth n l Q_panicked.
(** Both exports are the same, and so are both encodings of the signature. *)
Definition same_bytes (a b : p_seen) (least : nat) : bool :=
  match a, b with Q_bytes x, Q_bytes y => bytes_eqb x y && Nat.leb least (length x) | _, _ => false end.
Example case_seen :
  (let l := fst (p_run case_env no_room case_program p_init) in
   Nat.eqb (length l) 17 && same_bytes (at_ 7 l) (at_ 15 l) 300 && same_bytes (at_ 12 l) (at_ 16 l) 50)%bool = true.
Proof. vm_compute. reflexivity. Qed.
(** With room behind slices, too, by [capacity_invisible]. *)
Example case_room : fst (p_run case_env double_room case_program p_init) = fst (p_run case_env no_room case_program p_init).
Proof. apply capacity_invisible; [exact case_sizes|exact case_careful]. Qed.

(** A key, its public half and the password in one array, one over the other. *)
Definition case_memory : arrays := package_arrays ++ [map Z.of_nat (seq 1 64)].
Definition part (off n : nat) : slice := mk_slice 3 off n (64 - off).
Definition case_key : h_ed :=
  mk_hed (mk_hecc (part 0 32) (part 32 32) (Some (part 0 64)) 0 22 var_oid_ed25519 s_nil) (part 0 64) zero_time.
Example case_overlap : extends package_arrays case_memory /\ set_in case_memory (mk_hset alice case_key None (Some case_key) (Some case_key)) /\
  in_memory case_memory (part 30 6).
Proof.
  assert (I : forall off n, (off + n <= 64)%nat -> in_memory case_memory (part off n)) by (intros off n L; unfold in_memory, part; cbn [sl_at sl_off sl_len sl_cap]; change (length (array case_memory 3)) with 64%nat; change (length case_memory) with 4%nat; lia).
  assert (J : in_memory case_memory var_oid_ed25519 /\ in_memory case_memory s_nil) by (unfold in_memory; cbn; lia).
  assert (K : can_sign case_key) by (split; [reflexivity|]; eexists; split; reflexivity).
  split; [apply ext_app|]. split; [|apply I; lia]. destruct J. split; [|split; [exact K|]; split; [|split]]; try (intros k Q; injection Q as <-; exact K); try discriminate.
  cbn [slices_set hk_master hk_enc hk_auth hk_sign slices_ed slices_ecc hd_private hd_base he_private he_public he_oid he_extra he_signing case_key app]. repeat (constructor; [first [assumption|apply I; lia]|]). constructor.
Qed.

(** ** What is kept of the arguments *)
(** Sign keeps the last eight bytes of the fingerprint it was given: a program that then changes its slice changes the
    signature's encoding.  (pgp.Sign, /repo/pgp/sign.go:39) *)
Definition fingerprint_changed : list p_call :=
  [P_make (repeat 7 32); P_make (repeat 1 20); P_make []; P_new_key 0 0 zero_time;
   P_sign (By_key 0) 1 hash_sha256 2 sig_positive_certification [] [] 0; P_sig_encode 0; P_set 1 19 99; P_sig_encode 0].
Theorem sign_keeps_fingerprint_refuted : exists E G, sizes_ok E /\
  exists b c, fst (p_run E G fingerprint_changed p_init) = [Q_bytes (repeat 7 32); Q_bytes (repeat 1 20); Q_bytes []; Q_nothing; Q_nothing; Q_bytes b; Q_nothing; Q_bytes c] /\
    b <> c /\ pv_run E fingerprint_changed pv_init = [Q_bytes (repeat 7 32); Q_bytes (repeat 1 20); Q_bytes []; Q_nothing; Q_nothing; Q_bytes b; Q_nothing; Q_bytes b].
Proof.
  exists case_env, no_room. split; [exact case_sizes|]. do 2 eexists. split; [vm_compute; reflexivity|]. split; [discriminate|vm_compute; reflexivity].
Qed.
Print Assumptions sign_keeps_fingerprint_refuted.

(** Private of an Ed25519 key is the memory of the secret that the key exports and signs with; the public key is
    apart.  A program that writes to Private has a key whose exported secret does not belong to its public key. *)
Definition private_changed : list p_call :=
  [P_make (repeat 7 32); P_make []; P_new_key 0 0 zero_time; P_private_packet 0 1 []; P_public_packet 0; P_set_private 0 31 99;
   P_private_packet 0 1 []; P_public_packet 0].
Theorem private_is_shared_refuted : exists E G, sizes_ok E /\
  exists b c p, fst (p_run E G private_changed p_init) = [Q_bytes (repeat 7 32); Q_bytes []; Q_nothing; Q_bytes b; Q_bytes p; Q_nothing; Q_bytes c; Q_bytes p] /\
    b <> c /\ pv_run E private_changed pv_init = [Q_bytes (repeat 7 32); Q_bytes []; Q_nothing; Q_bytes b; Q_bytes p; Q_nothing; Q_bytes b; Q_bytes p].
Proof.
  exists case_env, no_room. split; [exact case_sizes|]. do 3 eexists. split; [vm_compute; reflexivity|]. split; [discriminate|vm_compute; reflexivity].
Qed.
Print Assumptions private_is_shared_refuted.

(** Public is the memory of the public key that is exported. *)
Definition public_changed : list p_call :=
  [P_make (repeat 7 32); P_new_key 0 0 zero_time; P_fingerprint 0; P_set_public 0 0 99; P_fingerprint 0].
Theorem public_is_shared_refuted : exists E G, sizes_ok E /\
  exists b c, fst (p_run E G public_changed p_init) = [Q_bytes (repeat 7 32); Q_nothing; Q_bytes b; Q_nothing; Q_bytes c] /\ b <> c /\
    pv_run E public_changed pv_init = [Q_bytes (repeat 7 32); Q_nothing; Q_bytes b; Q_nothing; Q_bytes b].
Proof.
  exists case_env, no_room. split; [exact case_sizes|]. do 2 eexists. split; [vm_compute; reflexivity|]. split; [discriminate|vm_compute; reflexivity].
Qed.
Print Assumptions public_is_shared_refuted.
