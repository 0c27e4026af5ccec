(** * AuCPace: the lengths hashed in the CPace step do not depend on the secrets (C98). *)
From Coq Require Import NArith Lia List.
From Verif Require Import Base.Bytes Base.Outcome Base.Rng Base.Kat Base.Hashed.
From Verif Require Import Curve.Scalar25519 Aucpace.RistrettoGroup Aucpace.PwHash Aucpace.AucpaceModel Aucpace.AucpaceSpec Aucpace.AucpaceRun Aucpace.AucpaceProofs Aucpace.AucpaceToy.
Import ListNotations.
Local Open Scope nat_scope.

Section Lengths.
Context (R : RGroup) (D : bytes -> bytes).
Notation point := (pt R).
Definition finalize_h {E} (h : bytes) : hashed E bytes := digesting D h.

(** utils.rs:59-81 *)
Definition generate_keypair_h (T : Rng) (st : rng_state T) (ssid prs ci : bytes)
  : hashed Empty_set ((scalar * point) * rng_state T) :=
  let hasher := update (update (update H1 ssid) prs) ci in
  let? u := finalize_h hasher in
  let generator := rfrom_uniform R u in
  let '(priv_key, st') := scalar_random T st in
  let cofactor := sone in
  let pub_key := rmul generator (smult priv_key cofactor) in
  silent (Ok ((priv_key, pub_key), st')).
(** utils.rs:85-100 *)
Definition compute_first_session_key_h (ssid : bytes) (priv_key : scalar) (pub_key : point) : hashed Error bytes :=
  let shared_point := rmul pub_key priv_key in
  finalize_h (update (update H2 ssid) (rcompress R shared_point)).
(** utils.rs:104-117 *)
Definition compute_authenticator_messages_h (ssid sk1 : bytes) : hashed Error (bytes * bytes) :=
  let? ta := finalize_h (update (update H3 ssid) sk1) in
  let? tb := finalize_h (update (update H4 ssid) sk1) in silent (Ok (ta, tb)).
(** utils.rs:121-129 *)
Definition compute_session_key_h (ssid sk1 : bytes) : hashed Error bytes :=
  finalize_h (update (update H5 ssid) sk1).

(** client.rs:833-850 *)
Definition receive_server_pubkey_h (c : AuCPaceClientRecvServerKey) (server_pubkey : point)
  : hashed Error (AuCPaceClientExpMutAuth * ClientMessage R) :=
  if is_identity server_pubkey then silent (Err IllegalPointError)
  else
    let? sk1 := compute_first_session_key_h (crs_ssid c) (crs_priv_key c) server_pubkey in
    let? tatb := compute_authenticator_messages_h (crs_ssid c) sk1 in
    let '(ta, tb) := tatb in
    let next_step := {| cem_ssid := crs_ssid c; cem_sk1 := sk1; cem_server_authenticator := ta |} in
    let? message := silent (expect64 tb) in
    silent (Ok (next_step, CAuthenticator message)).
(** client.rs:862-869 *)
Definition client_implicit_auth_h (c : AuCPaceClientRecvServerKey) (server_pubkey : point) : hashed Error bytes :=
  if is_identity server_pubkey then silent (Err IllegalPointError)
  else
    let? sk1 := compute_first_session_key_h (crs_ssid c) (crs_priv_key c) server_pubkey in
    compute_session_key_h (crs_ssid c) sk1.
(** server.rs:599-610 *)
Definition receive_client_pubkey_h (s : AuCPaceServerRecvClientKey) (client_pubkey : point)
  : hashed Error AuCPaceServerExpMutAuth :=
  if is_identity client_pubkey then silent (Err IllegalPointError)
  else
    let? sk1 := compute_first_session_key_h (src_ssid s) (src_priv_key s) client_pubkey in
    silent (Ok {| sem_ssid := src_ssid s; sem_sk1 := sk1 |}).
(** server.rs:622-630 *)
Definition server_implicit_auth_h (s : AuCPaceServerRecvClientKey) (client_pubkey : point) : hashed Error bytes :=
  if is_identity client_pubkey then silent (Err IllegalPointError)
  else
    let? sk1 := compute_first_session_key_h (src_ssid s) (src_priv_key s) client_pubkey in
    compute_session_key_h (src_ssid s) sk1.

(** C98: the functions with the lengths return what the functions of the model return. *)
Theorem C98_aucpace_results :
  (forall T st ssid prs ci, fst (generate_keypair_h T st ssid prs ci) = Ok (generate_keypair R D T st ssid prs ci)) /\
  (forall c Y, fst (receive_server_pubkey_h c Y) = receive_server_pubkey R D c Y) /\
  (forall c Y, fst (client_implicit_auth_h c Y) = client_implicit_auth R D c Y) /\
  (forall s Y, fst (receive_client_pubkey_h s Y) = receive_client_pubkey R D s Y) /\
  (forall s Y, fst (server_implicit_auth_h s Y) = server_implicit_auth R D s Y).
Proof.
  repeat apply conj.
  - intros T st ssid prs ci. unfold generate_keypair_h, generate_keypair, point_from_hash, finalize.
    rewrite hbind_fst. cbn [fst finalize_h digesting obind]. now destruct (scalar_random T st).
  - intros c Y. unfold receive_server_pubkey_h, receive_server_pubkey. destruct (is_identity Y); [reflexivity|].
    rewrite hbind_fst. cbn [fst compute_first_session_key_h finalize_h digesting obind].
    rewrite hbind_fst. unfold compute_authenticator_messages_h. rewrite hbind_fst. cbn [fst finalize_h digesting obind].
    rewrite hbind_fst. cbn [fst finalize_h digesting obind silent]. rewrite hbind_fst. cbn [fst silent].
    unfold compute_authenticator_messages, compute_first_session_key, finalize.
    destruct (expect64 _) as [x|e|]; reflexivity.
  - intros c Y. unfold client_implicit_auth_h, client_implicit_auth. destruct (is_identity Y); reflexivity.
  - intros s Y. unfold receive_client_pubkey_h, receive_client_pubkey. destruct (is_identity Y); reflexivity.
  - intros s Y. unfold server_implicit_auth_h, server_implicit_auth. destruct (is_identity Y); reflexivity.
Qed.

(** C98: with a 64-byte digest the lengths hashed are constants, but for the channel identifier and the sub-session
    identifier: whatever the private keys, the password related string and the point received are. *)
Theorem C98_aucpace_lengths :
  rgroup_laws R -> (forall m, length (D m) = 64) ->
  (forall T st ssid prs ci, length prs = 32 ->
     snd (generate_keypair_h T st ssid prs ci) = [36 + length ssid + length ci]) /\
  (forall c Y, Y <> rzero R ->
     snd (receive_server_pubkey_h c Y) = [36 + length (crs_ssid c); 68 + length (crs_ssid c); 68 + length (crs_ssid c)] /\
     snd (client_implicit_auth_h c Y) = [36 + length (crs_ssid c); 68 + length (crs_ssid c)]) /\
  (forall s Y, Y <> rzero R ->
     snd (receive_client_pubkey_h s Y) = [36 + length (src_ssid s)] /\
     snd (server_implicit_auth_h s Y) = [36 + length (src_ssid s); 68 + length (src_ssid s)]).
Proof.
  intros L DL.
  assert (NI : forall Y, Y <> rzero R -> is_identity Y = false).
  { intros Y HY. destruct (is_identity Y) eqn:E; [|reflexivity]. now apply (is_identity_eq L) in E. }
  assert (HU : forall n a b, length (update (update (H n) a) b) = 4 + length a + length b).
  { intros n a b. unfold update, H, new_hash, update. rewrite !app_length, le_bytes_length. cbn [length]. lia. }
  assert (FK : forall ssid y Y, snd (compute_first_session_key_h ssid y Y) = [36 + length ssid]).
  { intros ssid y Y. unfold compute_first_session_key_h, finalize_h, digesting, H2. cbn [snd]. rewrite HU, (rl_length R L). f_equal. lia. }
  assert (FS : forall ssid y Y, exists sk1, compute_first_session_key_h ssid y Y = (Ok sk1, [36 + length ssid]) /\ length sk1 = 64).
  { intros ssid y Y. eexists. split; [|apply DL]. rewrite <- (FK ssid y Y). reflexivity. }
  assert (SK : forall ssid sk1, length sk1 = 64 -> snd (compute_session_key_h ssid sk1) = [68 + length ssid]).
  { intros ssid sk1 Hs. unfold compute_session_key_h, finalize_h, digesting, H5. cbn [snd]. rewrite HU, Hs. f_equal. lia. }
  repeat apply conj.
  - intros T st ssid prs ci Hp. unfold generate_keypair_h, finalize_h, digesting. rewrite hbind_said.
    destruct (scalar_random T st). cbn [silent snd app]. unfold update at 1. rewrite app_length. unfold H1. rewrite HU, Hp. f_equal. lia.
  - intros c Y HY. split.
    + unfold receive_server_pubkey_h. rewrite (NI Y HY).
      destruct (FS (crs_ssid c) (crs_priv_key c) Y) as (sk1 & -> & Hs). rewrite hbind_said.
      unfold compute_authenticator_messages_h, finalize_h, digesting. cbn [hbind silent app].
      unfold expect64. rewrite DL, Nat.eqb_refl. cbn [hbind silent snd app]. unfold H3, H4. rewrite !HU, Hs.
      repeat (f_equal; try lia).
    + unfold client_implicit_auth_h. rewrite (NI Y HY).
      destruct (FS (crs_ssid c) (crs_priv_key c) Y) as (sk1 & -> & Hs). rewrite hbind_said, (SK _ _ Hs). reflexivity.
  - intros s Y HY. split.
    + unfold receive_client_pubkey_h. rewrite (NI Y HY).
      destruct (FS (src_ssid s) (src_priv_key s) Y) as (sk1 & -> & Hs). rewrite hbind_said. reflexivity.
    + unfold server_implicit_auth_h. rewrite (NI Y HY).
      destruct (FS (src_ssid s) (src_priv_key s) Y) as (sk1 & -> & Hs). rewrite hbind_said, (SK _ _ Hs). reflexivity.
Qed.
End Lengths.

(** Case: the hypotheses are met by the small group and digest of AucpaceToy; with a sub-session identifier of 64 bytes the
    lengths are 100, 132 and 132. *)
Example C98_aucpace_case : rgroup_laws ToyGroup /\ (forall m, length (toyD m) = 64) /\ rbase ToyGroup <> rzero ToyGroup /\
  snd (receive_server_pubkey_h ToyGroup toyD {| crs_ssid := repeat x07 64; crs_priv_key := sof 5 |} (rbase ToyGroup)) = [100; 132; 132].
Proof.
  split; [exact toy_laws|]. split; [exact toyD_length|]. split; [apply (rl_base _ toy_laws)|].
  destruct (C98_aucpace_lengths ToyGroup toyD toy_laws toyD_length) as (_ & HC & _).
  apply (HC {| crs_ssid := repeat x07 64; crs_priv_key := sof 5 |} (rbase ToyGroup) (rl_base _ toy_laws)).
Qed.

(** C34: a whole session with a short pre-established identifier ends with [InsecureSsid], with and without the strong
    variant, whatever the database, the password and the generators are. *)
Theorem C34_sessions :
  forall (R : RGroup) (D : bytes -> bytes) Params (params_of : bytes -> res Params) a Tc Ts m
    (c : AuCPaceClient Tc) (s : AuCPaceServer Ts) info info' user pass (h : hasher Params) ci stb stc ssid fuel,
  length ssid < 16 ->
  run_login R D Params params_of a Tc Ts (PreEstablished ssid) m c s info user pass h ci stc = Err InsecureSsid /\
  run_login_strong R D Params params_of a Tc Ts (PreEstablished ssid) m c s info' fuel user pass h ci stb stc = Some (Err InsecureSsid).
Proof.
  intros R D Params params_of a Tc Ts m c s info info' user pass h ci stb stc ssid fuel Hl.
  apply Nat.ltb_lt in Hl. unfold run_login, run_login_strong, run_ssid, server_begin_prestablished_ssid, MIN_SSID_LEN.
  rewrite Hl. split; reflexivity.
Qed.
Example C34_sessions_case : length (repeat x41 15) < 16. Proof. cbn. lia. Qed.
