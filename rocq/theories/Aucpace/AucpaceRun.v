(** * The application side: complete runs of the protocol, as the tests of the crate make them
    (aucpace/tests/test_key_agreement*.rs).  Messages are delivered unchanged; a message of an
    unexpected kind panics, as in the tests. *)
From Coq Require Import ZArith.
From Verif Require Import Base.Bytes Base.Outcome Base.Rng.
From Verif Require Import Curve.Scalar25519 Aucpace.RistrettoGroup Aucpace.PwHash Aucpace.AucpaceModel.
Local Open Scope nat_scope.

(** The two ways to agree on an SSID, and the two families of client functions. *)
Inductive ssid_mode := ByNonces (K1 : nat) | PreEstablished (ssid : bytes).
Inductive buf_mode := FixedBuf (BUFSIZ : nat) | AllocBuf.

Section Run.
Context (R : RGroup) (D : bytes -> bytes).
Context (Params : Type) (params_try_into : Params -> outcome pherror bytes).
(** The application's conversion of the received parameter string
    (tests/test_key_agreement.rs:284-291). *)
Context (params_of : bytes -> res Params).

(** Registration with either family. *)
Definition do_register (m : buf_mode) (T : Rng) (c : AuCPaceClient T) (user pass : bytes)
  (params : Params) (h : hasher Params) :=
  match m with
  | FixedBuf n => register R Params params_try_into T n c user pass params h
  | AllocBuf => register_alloc R Params params_try_into T c user pass params h
  end.
Definition do_register_strong (m : buf_mode) (T : Rng) (c : AuCPaceClient T) (user pass : bytes)
  (params : Params) (h : hasher Params) :=
  match m with
  | FixedBuf n => register_strong R D Params params_try_into T n c user pass params h
  | AllocBuf => register_alloc_strong R D Params params_try_into T c user pass params h
  end.
Definition do_generate_cpace (m : buf_mode) (c : AuCPaceClientAugLayer) (x_pub : pt R) (salt : bytes)
  (params : Params) (h : hasher Params) :=
  match m with
  | FixedBuf n => generate_cpace R Params n c x_pub salt params h
  | AllocBuf => generate_cpace_alloc R Params c x_pub salt params h
  end.
Definition do_strong_generate_cpace (m : buf_mode) (c : StrongAuCPaceClientAugLayer)
  (x_pub blinded_salt : pt R) (params : Params) (h : hasher Params) :=
  match m with
  | FixedBuf n => strong_generate_cpace R Params n c x_pub blinded_salt params h
  | AllocBuf => strong_generate_cpace_alloc R Params c x_pub blinded_salt params h
  end.

(** SSID establishment. *)
Definition run_ssid (Tc Ts : Rng) (m : ssid_mode) (c : AuCPaceClient Tc) (s : AuCPaceServer Ts)
  : res (AuCPaceClientPreAug * AuCPaceServerAugLayer) :=
  match m with
  | ByNonces K1 =>
      let '((sess_s, msg_s), _) := server_begin R Ts K1 s in
      let '((sess_c, msg_c), _) := client_begin R Tc K1 c in
      match msg_c, msg_s with
      | CNonce t, SNonce n =>
          Ok (client_agree_ssid D sess_c n, server_agree_ssid D sess_s t)
      | _, _ => Panic
      end
  | PreEstablished ssid =>
      let! sess_s := server_begin_prestablished_ssid D Ts s ssid in
      let! sess_c := client_begin_prestablished_ssid D ssid in
      Ok (sess_c, sess_s)
  end.

(** The augmentation layer.  [info] is the server's [generate_client_info] or its partially augmented
    form, applied to everything but the session and the user name. *)
Definition run_aug (T : Rng)
  (info : AuCPaceServerAugLayer -> bytes -> res (AuCPaceServerCPaceSubstep T * ServerMessage R))
  (m : buf_mode) (c : AuCPaceClientPreAug) (s : AuCPaceServerAugLayer) (user pass : bytes)
  (h : hasher Params) : res (AuCPaceClientCPaceSubstep * AuCPaceServerCPaceSubstep T) :=
  let '(c, msg_c) := start_augmentation R c user pass in
  match msg_c with
  | CUsername u =>
      let! (s, msg_s) := info s u in
      match msg_s with
      | SAugmentationInfo _ x_pub salt pbkdf_params =>
          let! params := params_of pbkdf_params in
          let! c := do_generate_cpace m c x_pub salt params h in
          Ok (c, s)
      | _ => Panic
      end
  | _ => Panic
  end.

(** The strong form; [start] is the client in its augmentation layer with its first message. *)
Definition run_aug_strong (T : Rng)
  (info : AuCPaceServerAugLayer -> bytes -> pt R -> res (AuCPaceServerCPaceSubstep T * ServerMessage R))
  (m : buf_mode) (start : StrongAuCPaceClientAugLayer * ClientMessage R) (s : AuCPaceServerAugLayer)
  (h : hasher Params) : res (AuCPaceClientCPaceSubstep * AuCPaceServerCPaceSubstep T) :=
  let '(c, msg_c) := start in
  match msg_c with
  | CStrongUsername u blinded =>
      let! (s, msg_s) := info s u blinded in
      match msg_s with
      | SStrongAugmentationInfo _ x_pub blinded_salt pbkdf_params =>
          let! params := params_of pbkdf_params in
          let! c := do_strong_generate_cpace m c x_pub blinded_salt params h in
          Ok (c, s)
      | _ => Panic
      end
  | _ => Panic
  end.

(** The CPace substep up to the exchange of public keys. *)
Definition run_keys (Tc Ts : Rng) (c : AuCPaceClientCPaceSubstep) (s : AuCPaceServerCPaceSubstep Ts)
  (ci_c ci_s : bytes) (stc : rng_state Tc)
  : res (AuCPaceClientRecvServerKey * AuCPaceServerRecvClientKey * pt R * pt R) :=
  let '(s, msg_s) := server_generate_public_key R D Ts s ci_s in
  let '((c, msg_c), _) := client_generate_public_key R D Tc c ci_c stc in
  match msg_c, msg_s with
  | CPublicKey yb, SPublicKey ya => Ok (c, s, yb, ya)
  | _, _ => Panic
  end.

(** Explicit mutual authentication: (client key, server key). *)
Definition run_explicit (Tc Ts : Rng) (c : AuCPaceClientCPaceSubstep) (s : AuCPaceServerCPaceSubstep Ts)
  (ci_c ci_s : bytes) (stc : rng_state Tc) : res (bytes * bytes) :=
  let! (c, s, yb, ya) := run_keys Tc Ts c s ci_c ci_s stc in
  let! s := receive_client_pubkey R D s yb in
  let! (c, msg_c) := receive_server_pubkey R D c ya in
  match msg_c with
  | CAuthenticator ca =>
      let! (server_key, msg_s) := receive_client_authenticator R D s ca in
      match msg_s with
      | SAuthenticator sa =>
          let! client_key := receive_server_authenticator D c sa in
          Ok (client_key, server_key)
      | _ => Panic
      end
  | _ => Panic
  end.

(** Implicit authentication. *)
Definition run_implicit (Tc Ts : Rng) (c : AuCPaceClientCPaceSubstep) (s : AuCPaceServerCPaceSubstep Ts)
  (ci_c ci_s : bytes) (stc : rng_state Tc) : res (bytes * bytes) :=
  let! (c, s, yb, ya) := run_keys Tc Ts c s ci_c ci_s stc in
  let! server_key := server_implicit_auth R D s yb in
  let! client_key := client_implicit_auth R D c ya in
  Ok (client_key, server_key).

(** A complete login: SSID, augmentation layer, CPace substep, authentication. *)
Inductive auth_mode := Explicit | Implicit.
Definition run_cpace (a : auth_mode) := match a with Explicit => run_explicit | Implicit => run_implicit end.

Definition run_login (a : auth_mode) (Tc Ts : Rng) (sm : ssid_mode) (m : buf_mode)
  (c : AuCPaceClient Tc) (s : AuCPaceServer Ts)
  (info : AuCPaceServerAugLayer -> bytes -> res (AuCPaceServerCPaceSubstep Ts * ServerMessage R))
  (user pass : bytes) (h : hasher Params) (ci : bytes) (stc : rng_state Tc) : res (bytes * bytes) :=
  let! (c, s) := run_ssid Tc Ts sm c s in
  let! (c, s) := run_aug Ts info m c s user pass h in
  run_cpace a Tc Ts c s ci ci stc.

(** The strong form.  [None]: the client is still looking for a blinding value after [fuel] draws. *)
Definition run_login_strong (a : auth_mode) (Tc Ts : Rng) (sm : ssid_mode) (m : buf_mode)
  (c : AuCPaceClient Tc) (s : AuCPaceServer Ts)
  (info : AuCPaceServerAugLayer -> bytes -> pt R -> res (AuCPaceServerCPaceSubstep Ts * ServerMessage R))
  (fuel : nat) (user pass : bytes) (h : hasher Params) (ci : bytes) (stb stc : rng_state Tc)
  : option (res (bytes * bytes)) :=
  match run_ssid Tc Ts sm c s with
  | Ok (c, s) =>
      match start_augmentation_strong R D Tc fuel c user pass stb with
      | Some (start, _) =>
          Some (let! (c, s) := run_aug_strong Ts info m start s h in
                run_cpace a Tc Ts c s ci ci stc)
      | None => None
      end
  | Err e => Some (Err e)
  | Panic => Some Panic
  end.
End Run.
