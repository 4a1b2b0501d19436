(** What a program that uses /repo/pgp would see if slices of bytes, keys and signatures were values: nothing that
    happens to one of them changes another (C95). *)
From Verif.Model Require Import GoBase Env PgpWire PgpS2k PgpKeys SliceHeap.

(** the sizes of digests and public keys: sha1.Size, sha256.Size, sha512.Size384, sha512.Size, ed25519.PublicKeySize *)
Record sizes_ok (E : Env) : Prop := {
  size_sha1 : forall m, length (sha1 E m) = 20%nat;
  size_sha256 : forall m, length (sha256 E m) = 32%nat;
  size_sha384 : forall m, length (sha384 E m) = 48%nat;
  size_sha512 : forall m, length (sha512 E m) = 64%nat;
  size_public : forall s, length s = 32%nat -> length (ed25519_public E s) = 32%nat
}.

(** ** What memory holds *)
Definition in_memory (m : arrays) (s : slice) : Prop :=
  (sl_at s < length m /\ sl_len s <= sl_cap s /\ sl_off s + sl_cap s <= length (array m (sl_at s)))%nat.
(** the slices behind a key, a signature, a set of keys *)
Definition slices_ecc (k : h_ecc) : list slice :=
  [he_private k; he_public k; he_oid k; he_extra k] ++ match he_signing k with Some s => [s] | None => [] end.
Definition slices_ed (k : h_ed) : list slice := hd_private k :: slices_ecc (hd_base k).
Definition slices_curve (c : h_curve) : list slice := hc_private c :: slices_ecc (hc_base c).
Definition slices_sig (s : h_sig) : list slice := hg_digest s :: map hb_body (hg_hashed s) ++ map hb_body (hg_unhashed s).
Definition slices_set (ks : h_set) : list slice :=
  slices_ed (hk_master ks) ++ match hk_enc ks with Some c => slices_curve c | None => [] end ++
  match hk_auth ks with Some k => slices_ed k | None => [] end ++ match hk_sign ks with Some k => slices_ed k | None => [] end.
(** the values they have *)
Definition see_sub (m : arrays) (s : h_sub) : subpacket := mk_sub (hb_type s) (content m (hb_body s)).
Definition see_sig (m : arrays) (s : h_sig) : signature :=
  mk_sig (map (see_sub m) (hg_hashed s)) (map (see_sub m) (hg_unhashed s)) (hg_type s) (hg_hash s)
         (content m (hg_digest s)) (hg_r s) (hg_s s).
Definition see_ecc (m : arrays) (k : h_ecc) : ecc_key :=
  mk_ecc (content m (he_private k)) (content m (he_public k)) (option_map (content m) (he_signing k))
         (he_creation k) (he_alg k) (content m (he_oid k)) (content m (he_extra k)).
Definition see_ed (m : arrays) (k : h_ed) : ed_key := mk_ed (see_ecc m (hd_base k)) (content m (hd_private k)) (hd_expiry k).
Definition see_curve (m : arrays) (c : h_curve) : curve_key :=
  mk_curve (see_ecc m (hc_base c)) (content m (hc_private c)) (hc_expiry c) (hc_kdf c).
Definition see_set (m : arrays) (ks : h_set) : key_set :=
  mk_set (hk_uid ks) (see_ed m (hk_master ks)) (option_map (see_curve m) (hk_enc ks))
         (option_map (see_ed m) (hk_auth ks)) (option_map (see_ed m) (hk_sign ks)).
Definition see_request (m : arrays) (rq : h_request) : sign_request :=
  mk_req (content m (hr_fingerprint rq)) (hr_hash rq) (content m (hr_data rq)) (hr_type rq)
         (map (see_sub m) (hr_hashed rq)) (map (see_sub m) (hr_unhashed rq)) (hr_time rq).
(** private keys for signing have 64 bytes *)
Definition can_sign (k : h_ed) : Prop :=
  sl_len (hd_private k) = 64%nat /\ exists s, he_signing (hd_base k) = Some s /\ sl_len s = 64%nat.
(** the keys of a set are in memory and can sign *)
Definition set_in (m : arrays) (ks : h_set) : Prop :=
  Forall (in_memory m) (slices_set ks) /\ can_sign (hk_master ks) /\ (forall k, hk_auth ks = Some k -> can_sign k) /\ (forall k, hk_sign ks = Some k -> can_sign k) /\
  forall c, hk_enc ks = Some c -> he_signing (hc_base c) = None.
(** no array that there was has changed *)
Definition extends (m m' : arrays) : Prop := exists l, m' = m ++ l.

(** ** Programs *)
Record p_values := mk_pv { pv_slices : list bytes; pv_keys : list ed_key; pv_curves : list curve_key; pv_sigs : list signature }.
Definition pv_init : p_values := mk_pv [] [] [] [].
Definition replace_at {A} (l : list A) (n : nat) (a : A) : list A := firstn n l ++ a :: skipn (S n) l.

(** the values that a program has *)
Definition see_state (st : p_state) : p_values :=
  mk_pv (map (content (pst_mem st)) (pst_slices st)) (map (see_ed (pst_mem st)) (pst_keys st))
        (map (see_curve (pst_mem st)) (pst_curves st)) (map (see_sig (pst_mem st)) (pst_sigs st)).

(** a result that is a slice, a key, a signature *)
Definition v_slice (v : p_values) (b : bytes) : p_seen * p_values :=
  (Q_bytes b, mk_pv (pv_slices v ++ [b]) (pv_keys v) (pv_curves v) (pv_sigs v)).
Definition v_ed (v : p_values) (k : ed_key) : p_seen * p_values :=
  (Q_nothing, mk_pv (pv_slices v) (pv_keys v ++ [k]) (pv_curves v) (pv_sigs v)).
Definition v_curve (v : p_values) (c : curve_key) : p_seen * p_values :=
  (Q_nothing, mk_pv (pv_slices v) (pv_keys v) (pv_curves v ++ [c]) (pv_sigs v)).
Definition v_sig (v : p_values) (s : signature) : p_seen * p_values :=
  (Q_nothing, mk_pv (pv_slices v) (pv_keys v) (pv_curves v) (pv_sigs v ++ [s])).
Definition v_res {A} (r : res A) (v : p_values) (f : A -> p_seen * p_values) : p_seen * p_values :=
  match r with Ok a => f a | Err e => (Q_failed e, v) | Panic => (Q_panicked, v) end.
(** assigning to an element *)
Definition v_assign (b : bytes) (i : nat) (n : Z) : res bytes :=
  if Nat.ltb i (length b) then Ok (replace_at b i n) else Panic.

(** Sign panics if the fingerprint has fewer than 8 bytes or the private key does not have 64. *)
Definition sign_of (E : Env) (private : bytes) (rq : sign_request) : res signature :=
  if (Nat.ltb (length (rq_fingerprint rq)) 8 || negb (Nat.eqb (length private) 64))%bool then Panic else sign E private rq.
Definition subs_of (l : list (Z * bytes)) : list subpacket := map (fun p => mk_sub (fst p) (snd p)) l.

Definition pv_step (E : Env) (c : p_call) (v : p_values) : p_seen * p_values :=
  let xs := pv_slices v in
  let ks := pv_keys v in
  let cs := pv_curves v in
  let sgs := pv_sigs v in
  match c with
  | P_make b => v_slice v b
  | P_set x i n =>
      p_with xs x v (fun b => v_res (v_assign b i n) v (fun b => (Q_nothing, mk_pv (replace_at xs x b) ks cs sgs)))
  | P_read x => p_with xs x v (fun b => (Q_bytes b, v))
  | P_new_key x cr ex => p_with xs x v (fun b => v_res (new_ed_key E b cr ex) v (v_ed v))
  | P_new_curve x cr ex kdf => p_with xs x v (fun b => v_res (new_curve_key E b cr ex kdf) v (v_curve v))
  | P_private k => p_with ks k v (fun k => (Q_bytes (ed_private k), v))
  | P_public k => p_with ks k v (fun k => (Q_bytes (ec_public (ed_base k)), v))
  | P_set_private k i n =>
      p_with ks k v (fun e => v_res (v_assign (ed_private e) i n) v (fun b =>
        (Q_nothing, mk_pv xs (replace_at ks k (mk_ed (ed_base e) b (ed_expiry e))) cs sgs)))
  | P_set_public k i n =>
      p_with ks k v (fun e => v_res (v_assign (ec_public (ed_base e)) i n) v (fun b =>
        (Q_nothing, v))) (* as if what was assigned to were a copy; [p_careful] programs do not *)
  | P_curve_private c => p_with cs c v (fun c => (Q_bytes (cv_private c), v))
  | P_set_curve_private c i n =>
      p_with cs c v (fun e => v_res (v_assign (cv_private e) i n) v (fun b =>
        (Q_nothing, mk_pv xs ks (replace_at cs c (mk_curve (cv_base e) b (cv_expiry e) (cv_kdf e))) sgs)))
  | P_fingerprint k => p_with ks k v (fun k => v_slice v (fingerprint_v4 E (ed_base k)))
  | P_curve_fingerprint c => p_with cs c v (fun c => v_slice v (fingerprint_v4 E (cv_base c)))
  | P_public_packet k => p_with ks k v (fun k => v_slice v (public_packet (ed_base k)))
  | P_public_subkey k => p_with ks k v (fun k => v_slice v (public_subkey_packet (ed_base k)))
  | P_curve_public_subkey c => p_with cs c v (fun c => v_slice v (public_subkey_packet (cv_base c)))
  | P_private_packet k pw tape =>
      p_with ks k v (fun k => p_with xs pw v (fun pw =>
        v_res (private_packet E tag_secret_key (ed_base k) pw tape) v (fun r => v_slice v (fst r))))
  | P_private_subkey k pw tape =>
      p_with ks k v (fun k => p_with xs pw v (fun pw =>
        v_res (private_packet E tag_secret_subkey (ed_base k) pw tape) v (fun r => v_slice v (fst r))))
  | P_curve_private_subkey c pw tape =>
      p_with cs c v (fun c => p_with xs pw v (fun pw =>
        v_res (private_packet E tag_secret_subkey (cv_base c) pw tape) v (fun r => v_slice v (fst r))))
  | P_dummy_packet k => p_with ks k v (fun k => v_slice v (encode_packet tag_secret_key (encode_private_dummy (ed_base k))))
  | P_self_certify k u => p_with ks k v (fun k => v_res (self_certify E k u) v (v_sig v))
  | P_sign b fp hash data type hs us t =>
      p_with xs fp v (fun fp => p_with xs data v (fun data => p_all xs hs v (fun hs => p_all xs us v (fun us =>
        let rq := mk_req fp hash data type (subs_of hs) (subs_of us) t in
        match b with
        | By_key k => p_with ks k v (fun k => v_res (sign_of E (ed_private k) rq) v (v_sig v))
        | By_slice x => p_with xs x v (fun x => v_res (sign_of E x rq) v (v_sig v))
        end))))
  | P_sig_encode s => p_with sgs s v (fun s => v_slice v (sig_encode s))
  | P_sig_packet s => p_with sgs s v (fun s => v_slice v (sig_packet s))
  | P_sig_digest s => p_with sgs s v (fun s => (Q_bytes (sg_digest s), v))
  | P_packets u m enc auth sign pw tape =>
      p_with ks m v (fun m => p_maybe cs enc v (fun enc => p_maybe ks auth v (fun auth => p_maybe ks sign v (fun sign =>
        p_with xs pw v (fun pw => v_res (encode_packets E (mk_set u m enc auth sign) pw tape) v (fun r => v_slice v (fst r)))))))
  | P_subkey_packets u m enc auth sign pw cert tape =>
      p_with ks m v (fun m => p_maybe cs enc v (fun enc => p_maybe ks auth v (fun auth => p_maybe ks sign v (fun sign =>
        p_with xs pw v (fun pw => v_res (encode_subkey_packets E (mk_set u m enc auth sign) pw cert tape) v (fun r => v_slice v (fst r)))))))
  | P_packet tag x => p_with xs x v (fun x => v_slice v (encode_packet tag x))
  | P_mpi n => v_slice v (encode_mpi n)
  | P_s2k hash x pw tape =>
      p_with xs x v (fun x => p_with xs pw v (fun pw => v_res (encrypt_s2k E hash x pw tape) v (fun r => v_slice v (fst r))))
  | P_uid u => v_slice v (uid_encode u)
  | P_uid_packet u => v_slice v (uid_packet u)
  | P_sub t x => p_with xs x v (fun x => v_slice v (sub_encode (mk_sub t x)))
  end.
Fixpoint pv_run (E : Env) (calls : list p_call) (v : p_values) : list p_seen :=
  match calls with
  | [] => []
  | c :: rest =>
      let (o, v) := pv_step E c v in
      match o with Q_panicked => [Q_panicked] | _ => o :: pv_run E rest v end
  end.

(** The program does not write to Private and Public of an Ed25519 key, and does not change a slice once it has given
    it to Sign as the fingerprint or as the body of a subpacket. *)
Fixpoint p_careful (given : list nat) (calls : list p_call) : Prop :=
  match calls with
  | [] => True
  | c :: rest =>
      match c with
      | P_set x _ _ => ~ In x given /\ p_careful given rest
      | P_set_private _ _ _ | P_set_public _ _ _ => False
      | P_sign _ fp _ _ _ hs us _ => p_careful (fp :: map snd hs ++ map snd us ++ given) rest
      | _ => p_careful given rest
      end
  end.
(** calls that assign to an element of a slice *)
Definition p_assigns (c : p_call) : bool :=
  match c with P_set _ _ _ | P_set_private _ _ _ | P_set_public _ _ _ | P_set_curve_private _ _ _ => true | _ => false end.
(** the slices that a call hands to Sign for keeping *)
Definition hands (c : p_call) : list nat :=
  match c with P_sign _ fp _ _ _ hs us _ => fp :: map snd hs ++ map snd us | _ => [] end.
