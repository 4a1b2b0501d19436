(** When two exports are of the same keys (C103). *)
From Verif.Model Require Import GoBase Env PgpWire PgpKeys CliFlags CliMain.
From Verif.Spec Require Import EnvSpec KeySpec PgpSpec ExportSpec.

(** both passwords give the same number *)
Definition same_number (E : Env) (pw1 : bytes) (s1 : secret_part) (pw2 : bytes) (s2 : secret_part) : Prop :=
  exists n, unlock E pw1 s1 = Some n /\ unlock E pw2 s2 = Some n.
(** the usage a binding gives to its subkey *)
Definition role (b : subkey_block) : option bytes := find_sub 27 (sp_hashed (sb_binding b)).
(** the same primary key and, for each role that both have, the same subkey, public and secret; a stub
    in the place of the primary secret holds nothing to compare *)
Definition same_keys (E : Env) (pw1 : bytes) (t1 : transferable) (pw2 : bytes) (t2 : transferable) : Prop :=
  tk_key t1 = tk_key t2 /\
  (tk_secret t1 = Stub \/ tk_secret t2 = Stub \/ same_number E pw1 (tk_secret t1) pw2 (tk_secret t2)) /\
  forall b1 b2, In b1 (tk_subkeys t1) -> In b2 (tk_subkeys t2) -> role b1 = role b2 ->
    sb_key b1 = sb_key b2 /\ same_number E pw1 (sb_secret b1) pw2 (sb_secret b2).
(** the same user ID and, where both have them, the same signatures to the last bit *)
Definition same_signatures (t1 t2 : transferable) : Prop :=
  tk_uid t1 = tk_uid t2 /\
  (forall c1 c2, tk_cert t1 = Some c1 -> tk_cert t2 = Some c2 -> c1 = c2) /\
  forall b1 b2, In b1 (tk_subkeys t1) -> In b2 (tk_subkeys t2) -> role b1 = role b2 -> sb_binding b1 = sb_binding b2.
(** the same subkeys in the same order *)
Definition same_subkeys (t1 t2 : transferable) : Prop :=
  map (fun b => (role b, sb_key b)) (tk_subkeys t1) = map (fun b => (role b, sb_key b)) (tk_subkeys t2).
(** recover is asked for the identity generate was asked for; nothing is said about the protection of the
    keys, the self-certification or the selection *)
Definition same_identity (g : generate_options) (o : recover_options) : Prop :=
  ro_name o = go_name g /\ ro_email o = go_email g /\ ro_ttl o = go_ttl g.
Definition first_indices (o : recover_options) : Prop := ro_enc_index o = 0 /\ ro_auth_index o = 0 /\ ro_sign_index o = 0.
