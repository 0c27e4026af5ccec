(** * Model of the [aucpace] crate: utils.rs, client.rs, server.rs, database.rs, errors.rs, constants.rs.

    Every type-state struct is a record with the fields of the Rust struct (without [PhantomData]);
    a method that consumes [self] is a function from that record.  The digest [D] is any function on
    byte strings: a [Digest] value is the list of bytes fed to it so far.  [R] is the Ristretto group
    interface.  [T] is the generator type [CSPRNG]; its state is threaded where Rust has [&mut]. *)
From Coq Require Import ZArith.
From Verif Require Import Base.Bytes Base.Outcome Base.CtEq Base.Rng.
From Verif Require Import Curve.Scalar25519 Aucpace.RistrettoGroup Aucpace.PwHash.
Local Open Scope nat_scope.

(** constants.rs:2 *)
Definition MIN_SSID_LEN : nat := 16.

(** errors.rs:4-27 *)
Inductive Error :=
| IllegalPointError
| PasswordHashing (e : pherror)
| HashEmpty
| HashSizeInvalid
| MutualAuthFail
| UsernameOrPasswordTooLong
| InsecureSsid
| UserNotRegistered.

(** errors.rs:55 *)
Definition res := outcome Error.

(** ** Database traits: database.rs *)

(** database.rs:6-47 [Database] with [PasswordVerifier = RistrettoPoint]: (verifier, salt, params) *)
Record Database (R : RGroup) := {
  db : Type;
  lookup_verifier : db -> bytes -> option (pt R * bytes * bytes);
  store_verifier : db -> bytes -> bytes -> option bytes -> pt R -> bytes -> db
}.
(** database.rs:51-94 [PartialAugDatabase] on the same database *)
Record PartialAugDatabase (R : RGroup) (db : Type) := {
  lookup_long_term_keypair : db -> bytes -> option (scalar * pt R);
  store_long_term_keypair : db -> bytes -> scalar -> pt R -> res db
}.
(** database.rs:98-142 [StrongDatabase]: (verifier, secret exponent, params) *)
Record StrongDatabase (R : RGroup) := {
  sdb : Type;
  lookup_verifier_strong : sdb -> bytes -> option (pt R * scalar * bytes);
  store_verifier_strong : sdb -> bytes -> option bytes -> pt R -> scalar -> bytes -> sdb
}.
Arguments db {R}. Arguments lookup_verifier {R}. Arguments store_verifier {R}.
Arguments lookup_long_term_keypair {R db}. Arguments store_long_term_keypair {R db}.
Arguments sdb {R}. Arguments lookup_verifier_strong {R}. Arguments store_verifier_strong {R}.

(** ** Messages *)

(** client.rs:986-1044 *)
Inductive ClientMessage (R : RGroup) :=
| CNonce (nonce : bytes)
| CUsername (username : bytes)
| CStrongUsername (username : bytes) (blinded : pt R)
| CPublicKey (key : pt R)
| CAuthenticator (auth : bytes)
| CRegistration (username : bytes) (salt : bytes) (params : bytes) (verifier : pt R)
| CStrongRegistration (username : bytes) (secret_exponent : scalar) (params : bytes) (verifier : pt R).
Arguments CNonce {R}. Arguments CUsername {R}. Arguments CStrongUsername {R}.
Arguments CPublicKey {R}. Arguments CAuthenticator {R}. Arguments CRegistration {R}.
Arguments CStrongRegistration {R}.

(** server.rs:686-729 *)
Inductive ServerMessage (R : RGroup) :=
| SNonce (nonce : bytes)
| SAugmentationInfo (group : bytes) (x_pub : pt R) (salt : bytes) (pbkdf_params : bytes)
| SStrongAugmentationInfo (group : bytes) (x_pub : pt R) (blinded_salt : pt R) (pbkdf_params : bytes)
| SPublicKey (key : pt R)
| SAuthenticator (auth : bytes).
Arguments SNonce {R}. Arguments SAugmentationInfo {R}. Arguments SStrongAugmentationInfo {R}.
Arguments SPublicKey {R}. Arguments SAuthenticator {R}.

Section Aucpace.
Context (R : RGroup) (D : bytes -> bytes).
Context (Params : Type) (params_try_into : Params -> outcome pherror bytes).

Notation point := (pt R).
Notation cmsg := (ClientMessage R).
Notation smsg := (ServerMessage R).

(** ** utils.rs *)

(** A hasher in use: the bytes fed to it.  [Default::default()], [update], [finalize] *)
Definition hash_state := bytes.
Definition new_hash : hash_state := [].
Definition update (h : hash_state) (data : bytes) : hash_state := h ++ data.
Definition finalize (h : hash_state) : bytes := D h.
(** [RistrettoPoint::from_hash], [Scalar::from_hash] *)
Definition point_from_hash (h : hash_state) : point := rfrom_uniform R (finalize h).
Definition scalar_from_digest (h : hash_state) : scalar := scalar_wide (finalize h).

(** utils.rs:14-18 [H::<D, N>()] *)
Definition H (n : N) : hash_state := update new_hash (le_bytes 4 n).
(** utils.rs:30-35 *)
Definition H0 := H 0.
Definition H1 := H 1.
Definition H2 := H 2.
Definition H3 := H 3.
Definition H4 := H 4.
Definition H5 := H 5.

(** utils.rs:39-46 *)
Definition generate_nonce (T : Rng) (n : nat) (st : rng_state T) : bytes * rng_state T :=
  rng_fill T n st.

(** utils.rs:50-55 *)
Definition compute_ssid (s t : bytes) : bytes := finalize (update (update H0 s) t).

(** utils.rs:59-81 *)
Definition generate_keypair (T : Rng) (st : rng_state T) (ssid prs ci : bytes)
  : (scalar * point) * rng_state T :=
  let hasher := update (update (update H1 ssid) prs) ci in
  let generator := point_from_hash hasher in
  let '(priv_key, st') := scalar_random T st in
  let cofactor := sone in
  let pub_key := rmul generator (smult priv_key cofactor) in
  ((priv_key, pub_key), st').

(** utils.rs:85-100 *)
Definition compute_first_session_key (ssid : bytes) (priv_key : scalar) (pub_key : point) : bytes :=
  let shared_point := rmul pub_key priv_key in
  finalize (update (update H2 ssid) (rcompress R shared_point)).

(** utils.rs:104-117: (Ta, Tb) *)
Definition compute_authenticator_messages (ssid sk1 : bytes) : bytes * bytes :=
  (finalize (update (update H3 ssid) sk1), finalize (update (update H4 ssid) sk1)).

(** utils.rs:121-129 *)
Definition compute_session_key (ssid sk1 : bytes) : bytes :=
  finalize (update (update H5 ssid) sk1).

(** utils.rs:133-153; the argument is the [hash] field of the [PasswordHash].  The [try_into]s convert
    a slice of just that length. *)
Definition scalar_from_hash (hash : option bytes) : res scalar :=
  match hash with
  | None => Err HashEmpty
  | Some hash_bytes =>
      if Nat.eqb (length hash_bytes) 32 then Ok (scalar_mod_order hash_bytes)
      else if Nat.eqb (length hash_bytes) 64 then Ok (scalar_wide hash_bytes)
      else Err HashSizeInvalid
  end.

(** utils.rs:157-168 *)
Definition generate_server_keypair (T : Rng) (st : rng_state T) : (scalar * point) * rng_state T :=
  let cofactor := sone in
  let '(private, st') := scalar_random T st in
  let public := rmul (rbase R) (smult private cofactor) in
  ((private, public), st').

(** [output.as_slice().try_into().expect(..)] into a [[u8; 64]] *)
Definition expect64 {E} (b : bytes) : outcome E bytes :=
  if Nat.eqb (length b) 64 then Ok b else Panic.

(** ** client.rs: password hashing *)

(** [buf[off..off + data.len()].copy_from_slice(data)] *)
Definition write_at (buf : bytes) (off : nat) (data : bytes) : res bytes :=
  if Nat.leb (off + length data) (length buf)
  then Ok (firstn off buf ++ data ++ skipn (off + length data) buf)
  else Panic.

(** [&buf[0..n]] *)
Definition slice_to (buf : bytes) (n : nat) : res bytes :=
  if Nat.leb n (length buf) then Ok (firstn n buf) else Panic.

Definition colon : byte := n2b 58.

(** client.rs:920-952 [hash_password].  ([u + p + 1] cannot overflow a [usize]: a slice has at most
    [isize::MAX] bytes.)  The conversion of the salt happens inside the hasher. *)
Definition hash_password (BUFSIZ : nat) (user pass salt : bytes) (params : Params)
  (h : hasher Params) : res (option bytes) :=
  let u := length user in
  let p := length pass in
  if Nat.ltb BUFSIZ (u + p + 1) then Err UsernameOrPasswordTooLong
  else
    let buf := repeat x00 BUFSIZ in
    let! buf := write_at buf 0 user in
    let! buf := write_at buf u [colon] in
    let! buf := write_at buf (u + 1) pass in
    let! input := slice_to buf (u + p + 1) in
    omap_err PasswordHashing (let! s := as_salt salt in h input params s).

(** client.rs:956-981 [hash_password_alloc] *)
Definition hash_password_alloc (user pass salt : bytes) (params : Params)
  (h : hasher Params) : res (option bytes) :=
  let v := [] in
  let v := v ++ user in
  let v := v ++ [colon] in
  let v := v ++ pass in
  omap_err PasswordHashing (let! s := as_salt salt in h v params s).

(** ** client.rs: the client *)

(** client.rs:36-45 *)
Record AuCPaceClient (T : Rng) := { c_rng : rng_state T }.
(** client.rs:344-352 *)
Record AuCPaceClientSsidEstablish := { cse_nonce : bytes }.
(** client.rs:386-393 *)
Record AuCPaceClientPreAug := { cpa_ssid : bytes }.
(** client.rs:477-486 *)
Record AuCPaceClientAugLayer := { cal_ssid : bytes; cal_username : bytes; cal_password : bytes }.
(** client.rs:599-609 *)
Record StrongAuCPaceClientAugLayer :=
  { scal_ssid : bytes; scal_username : bytes; scal_password : bytes; scal_blinding_value : scalar }.
(** client.rs:753-759 *)
Record AuCPaceClientCPaceSubstep := { ccs_ssid : bytes; ccs_prs : bytes }.
(** client.rs:806-812 *)
Record AuCPaceClientRecvServerKey := { crs_ssid : bytes; crs_priv_key : scalar }.
(** client.rs:873-880 *)
Record AuCPaceClientExpMutAuth :=
  { cem_ssid : bytes; cem_sk1 : bytes; cem_server_authenticator : bytes }.

(** client.rs:54-60 *)
Definition client_new (T : Rng) (rng : rng_state T) : AuCPaceClient T := {| c_rng := rng |}.

(** client.rs:69-74 (and 359-368) *)
Definition client_begin (T : Rng) (K1 : nat) (c : AuCPaceClient T)
  : (AuCPaceClientSsidEstablish * cmsg) * AuCPaceClient T :=
  let '(nonce, st) := generate_nonce T K1 (c_rng T c) in
  let next_step := {| cse_nonce := nonce |} in
  ((next_step, CNonce (cse_nonce next_step)), {| c_rng := st |}).

(** client.rs:85-100 *)
Definition client_begin_prestablished_ssid (ssid : bytes) : res AuCPaceClientPreAug :=
  if Nat.ltb (length ssid) MIN_SSID_LEN then Err InsecureSsid
  else
    let hasher := update H0 ssid in
    let ssid_hash := finalize hasher in
    Ok {| cpa_ssid := ssid_hash |}.

(** client.rs:120-154 *)
Definition register (T : Rng) (BUFSIZ : nat) (c : AuCPaceClient T) (username password : bytes)
  (params : Params) (h : hasher Params) : res cmsg * AuCPaceClient T :=
  let '(salt, st) := salt_generate T (c_rng T c) in
  (let! salt_string := omap_err PasswordHashing salt in
   let! pw_hash := hash_password BUFSIZ username password salt_string params h in
   let cofactor := sone in
   let! w := scalar_from_hash pw_hash in
   let verifier := rmul (rbase R) (smult w cofactor) in
   let! params_string := omap_err PasswordHashing (params_try_into params) in
   Ok (CRegistration username salt_string params_string verifier),
   {| c_rng := st |}).

(** client.rs:319-340; [user] and [pass] are hashed one after the other with no separator *)
Definition generate_salt_strong (T : Rng) (user pass : bytes) (st : rng_state T)
  : res (scalar * bytes) * rng_state T :=
  let '(q, st') := scalar_random T st in
  (let hasher := update (update H1 user) pass in
   let z := point_from_hash hasher in
   let cofactor := sone in
   let salt_point := rmul z (smult q cofactor) in
   let salt := rcompress R salt_point in
   let! salt_string := omap_err PasswordHashing (salt_encode_b64 salt) in
   Ok (q, salt_string), st').

(** client.rs:175-210 *)
Definition register_strong (T : Rng) (BUFSIZ : nat) (c : AuCPaceClient T) (username password : bytes)
  (params : Params) (h : hasher Params) : res cmsg * AuCPaceClient T :=
  let '(qs, st) := generate_salt_strong T username password (c_rng T c) in
  (let! (q, salt_string) := qs in
   let! pw_hash := hash_password BUFSIZ username password salt_string params h in
   let cofactor := sone in
   let! w := scalar_from_hash pw_hash in
   let verifier := rmul (rbase R) (smult w cofactor) in
   let! params_string := omap_err PasswordHashing (params_try_into params) in
   Ok (CStrongRegistration username q params_string verifier),
   {| c_rng := st |}).

(** client.rs:228-257 *)
Definition register_alloc (T : Rng) (c : AuCPaceClient T) (username password : bytes)
  (params : Params) (h : hasher Params) : res cmsg * AuCPaceClient T :=
  let '(salt, st) := salt_generate T (c_rng T c) in
  (let! salt_string := omap_err PasswordHashing salt in
   let! pw_hash := hash_password_alloc username password salt_string params h in
   let cofactor := sone in
   let! w := scalar_from_hash pw_hash in
   let verifier := rmul (rbase R) (smult w cofactor) in
   let! params_string := omap_err PasswordHashing (params_try_into params) in
   Ok (CRegistration username salt_string params_string verifier),
   {| c_rng := st |}).

(** client.rs:280-315 *)
Definition register_alloc_strong (T : Rng) (c : AuCPaceClient T) (username password : bytes)
  (params : Params) (h : hasher Params) : res cmsg * AuCPaceClient T :=
  let '(qs, st) := generate_salt_strong T username password (c_rng T c) in
  (let! (q, salt_string) := qs in
   let! pw_hash := hash_password_alloc username password salt_string params h in
   let cofactor := sone in
   let! w := scalar_from_hash pw_hash in
   let verifier := rmul (rbase R) (smult w cofactor) in
   let! params_string := omap_err PasswordHashing (params_try_into params) in
   Ok (CStrongRegistration username q params_string verifier),
   {| c_rng := st |}).

(** client.rs:379-382 *)
Definition client_agree_ssid (c : AuCPaceClientSsidEstablish) (server_nonce : bytes)
  : AuCPaceClientPreAug :=
  let ssid := compute_ssid server_nonce (cse_nonce c) in
  {| cpa_ssid := ssid |}.

(** client.rs:418-427 *)
Definition start_augmentation (c : AuCPaceClientPreAug) (username password : bytes)
  : AuCPaceClientAugLayer * cmsg :=
  let next_step := {| cal_ssid := cpa_ssid c; cal_username := username; cal_password := password |} in
  (next_step, CUsername username).

(** client.rs:455-460: the loop that draws a blinding value.  [None]: still looping after [fuel]
    draws. *)
Fixpoint draw_blinding_value (T : Rng) (fuel : nat) (st : rng_state T)
  : option (scalar * rng_state T) :=
  match fuel with
  | O => None
  | S fuel' =>
      let '(v, st') := scalar_random T st in
      if negb (seqb v szero) then Some (v, st') else draw_blinding_value T fuel' st'
  end.

(** client.rs:441-473 *)
Definition start_augmentation_strong (T : Rng) (fuel : nat) (c : AuCPaceClientPreAug)
  (username password : bytes) (st : rng_state T)
  : option ((StrongAuCPaceClientAugLayer * cmsg) * rng_state T) :=
  match draw_blinding_value T fuel st with
  | None => None
  | Some (blinding_value, st') =>
      let hasher := update (update H1 username) password in
      let z := point_from_hash hasher in
      let cofactor := sone in
      let blinded := rmul z (smult blinding_value cofactor) in
      let next_step := {| scal_ssid := cpa_ssid c; scal_username := username;
                          scal_password := password; scal_blinding_value := blinding_value |} in
      Some ((next_step, CStrongUsername username blinded), st')
  end.

(** client.rs:524-552 *)
Definition generate_cpace (BUFSIZ : nat) (c : AuCPaceClientAugLayer) (x_pub : point) (salt : bytes)
  (params : Params) (h : hasher Params) : res AuCPaceClientCPaceSubstep :=
  if is_identity x_pub then Err IllegalPointError
  else
    let cofactor := sone in
    let! pw_hash := hash_password BUFSIZ (cal_username c) (cal_password c) salt params h in
    let! w := scalar_from_hash pw_hash in
    let prs := rcompress R (rmul x_pub (smult w cofactor)) in
    Ok {| ccs_ssid := cal_ssid c; ccs_prs := prs |}.

(** client.rs:572-594 *)
Definition generate_cpace_alloc (c : AuCPaceClientAugLayer) (x_pub : point) (salt : bytes)
  (params : Params) (h : hasher Params) : res AuCPaceClientCPaceSubstep :=
  if is_identity x_pub then Err IllegalPointError
  else
    let cofactor := sone in
    let! pw_hash := hash_password_alloc (cal_username c) (cal_password c) salt params h in
    let! w := scalar_from_hash pw_hash in
    let prs := rcompress R (rmul x_pub (smult w cofactor)) in
    Ok {| ccs_ssid := cal_ssid c; ccs_prs := prs |}.

(** client.rs:654-688 *)
Definition strong_generate_cpace (BUFSIZ : nat) (c : StrongAuCPaceClientAugLayer)
  (x_pub blinded_salt : point) (params : Params) (h : hasher Params)
  : res AuCPaceClientCPaceSubstep :=
  if is_identity x_pub then Err IllegalPointError
  else
    let cofactor := sone in
    let exponent := smult (sinv (smult (smult (scal_blinding_value c) cofactor) cofactor)) cofactor in
    let salt := rcompress R (rmul blinded_salt exponent) in
    let! salt_string := omap_err PasswordHashing (salt_encode_b64 salt) in
    let! pw_hash :=
      hash_password BUFSIZ (scal_username c) (scal_password c) salt_string params h in
    let! w := scalar_from_hash pw_hash in
    let prs := rcompress R (rmul x_pub (smult w cofactor)) in
    Ok {| ccs_ssid := scal_ssid c; ccs_prs := prs |}.

(** client.rs:709-749 *)
Definition strong_generate_cpace_alloc (c : StrongAuCPaceClientAugLayer)
  (x_pub blinded_salt : point) (params : Params) (h : hasher Params)
  : res AuCPaceClientCPaceSubstep :=
  if is_identity x_pub then Err IllegalPointError
  else
    let cofactor := sone in
    let exponent := smult (sinv (smult (smult (scal_blinding_value c) cofactor) cofactor)) cofactor in
    let salt_point := rmul blinded_salt exponent in
    if is_identity salt_point then Err IllegalPointError
    else
      let salt := rcompress R salt_point in
      let! salt_string := omap_err PasswordHashing (salt_encode_b64 salt) in
      let! pw_hash :=
        hash_password_alloc (scal_username c) (scal_password c) salt_string params h in
      let! w := scalar_from_hash pw_hash in
      let prs := rcompress R (rmul x_pub (smult w cofactor)) in
      Ok {| ccs_ssid := scal_ssid c; ccs_prs := prs |}.

(** client.rs:783-802 *)
Definition client_generate_public_key (T : Rng) (c : AuCPaceClientCPaceSubstep)
  (channel_identifier : bytes) (st : rng_state T)
  : (AuCPaceClientRecvServerKey * cmsg) * rng_state T :=
  let '((priv_key, pub_key), st') :=
    generate_keypair T st (ccs_ssid c) (ccs_prs c) channel_identifier in
  let next_step := {| crs_ssid := ccs_ssid c; crs_priv_key := priv_key |} in
  ((next_step, CPublicKey pub_key), st').

(** client.rs:833-850 *)
Definition receive_server_pubkey (c : AuCPaceClientRecvServerKey) (server_pubkey : point)
  : res (AuCPaceClientExpMutAuth * cmsg) :=
  if is_identity server_pubkey then Err IllegalPointError
  else
    let sk1 := compute_first_session_key (crs_ssid c) (crs_priv_key c) server_pubkey in
    let '(ta, tb) := compute_authenticator_messages (crs_ssid c) sk1 in
    let next_step := {| cem_ssid := crs_ssid c; cem_sk1 := sk1; cem_server_authenticator := ta |} in
    let! message := expect64 tb in
    Ok (next_step, CAuthenticator message).

(** client.rs:862-869 *)
Definition client_implicit_auth (c : AuCPaceClientRecvServerKey) (server_pubkey : point)
  : res bytes :=
  if is_identity server_pubkey then Err IllegalPointError
  else
    let sk1 := compute_first_session_key (crs_ssid c) (crs_priv_key c) server_pubkey in
    Ok (compute_session_key (crs_ssid c) sk1).

(** client.rs:906-916 *)
Definition receive_server_authenticator (c : AuCPaceClientExpMutAuth) (server_authenticator : bytes)
  : res bytes :=
  if N.eqb (slice_ct_eq (cem_server_authenticator c) server_authenticator) 1
  then Ok (compute_session_key (cem_ssid c) (cem_sk1 c))
  else Err MutualAuthFail.

(** ** server.rs *)

(** server.rs:34, 43-55; [ServerSecret] is the [u64] *)
Record AuCPaceServer (T : Rng) := { s_rng : rng_state T; s_secret : N }.
(** server.rs:133-140 *)
Record AuCPaceServerSsidEstablish := { sse_secret : N; sse_nonce : bytes }.
(** server.rs:173-179 *)
Record AuCPaceServerAugLayer := { sal_secret : N; sal_ssid : bytes }.
(** server.rs:519-527 *)
Record AuCPaceServerCPaceSubstep (T : Rng) :=
  { scs_ssid : bytes; scs_prs : bytes; scs_rng : rng_state T }.
(** server.rs:574-580 *)
Record AuCPaceServerRecvClientKey := { src_ssid : bytes; src_priv_key : scalar }.
(** server.rs:634-640 *)
Record AuCPaceServerExpMutAuth := { sem_ssid : bytes; sem_sk1 : bytes }.

(** server.rs:63-70 *)
Definition server_new (T : Rng) (rng : rng_state T) : AuCPaceServer T :=
  let '(secret, rng') := rng_next_u64 T rng in
  {| s_rng := rng'; s_secret := secret |}.

(** server.rs:79-88 (and 146-155) *)
Definition server_begin (T : Rng) (K1 : nat) (s : AuCPaceServer T)
  : (AuCPaceServerSsidEstablish * smsg) * AuCPaceServer T :=
  let '(nonce, st) := generate_nonce T K1 (s_rng T s) in
  let next_step := {| sse_secret := s_secret T s; sse_nonce := nonce |} in
  ((next_step, SNonce (sse_nonce next_step)), {| s_rng := st; s_secret := s_secret T s |}).

(** server.rs:99-114 *)
Definition server_begin_prestablished_ssid (T : Rng) (s : AuCPaceServer T) (ssid : bytes)
  : res AuCPaceServerAugLayer :=
  if Nat.ltb (length ssid) MIN_SSID_LEN then Err InsecureSsid
  else
    let hasher := update H0 ssid in
    let ssid_hash := finalize hasher in
    Ok {| sal_secret := s_secret T s; sal_ssid := ssid_hash |}.

(** server.rs:127-129 *)
Definition generate_long_term_keypair (T : Rng) (s : AuCPaceServer T)
  : (scalar * point) * AuCPaceServer T :=
  let '(kp, st) := generate_server_keypair T (s_rng T s) in
  (kp, {| s_rng := st; s_secret := s_secret T s |}).

(** server.rs:166-169 *)
Definition server_agree_ssid (s : AuCPaceServerSsidEstablish) (client_nonce : bytes)
  : AuCPaceServerAugLayer :=
  let ssid := compute_ssid (sse_nonce s) client_nonce in
  {| sal_secret := sse_secret s; sal_ssid := ssid |}.

(** "ristretto255" *)
Definition group_name : bytes := str "ristretto255".

(** [&bytes[..n]] *)
Definition prefix {E} (n : nat) (b : bytes) : outcome E bytes :=
  if Nat.leb n (length b) then Ok (firstn n b) else Panic.
(** [.expect(..)] on a [password_hash] result *)
Definition expect {A} (m : outcome pherror A) : res A :=
  match m with Ok a => Ok a | _ => Panic end.

(** server.rs:438-474 *)
Definition lookup_failed (T : Rng) (s : AuCPaceServerAugLayer) (username : bytes) (x_pub : point)
  (st : rng_state T) : res (bytes * smsg) * rng_state T :=
  let '(prs, st') := rng_fill T 32 st in
  (let hasher := update (update new_hash (le_bytes 8 (sal_secret s))) username in
   let hash_bytes := finalize hasher in
   let! p := prefix 48 hash_bytes in
   let! salt := expect (salt_encode_b64 p) in
   Ok (prs, SAugmentationInfo group_name x_pub salt params_default), st').

(** server.rs:478-515 *)
Definition lookup_failed_strong (T : Rng) (s : AuCPaceServerAugLayer) (username : bytes)
  (blinded x_pub : point) (st : rng_state T) : res (bytes * smsg) * rng_state T :=
  let '(prs, st') := rng_fill T 32 st in
  (let hasher := update (update new_hash (le_bytes 8 (sal_secret s))) username in
   let cofactor := sone in
   let q := scalar_from_digest hasher in
   let fake_blinded_salt := rmul blinded (smult q cofactor) in
   if is_identity fake_blinded_salt then Err IllegalPointError
   else Ok (prs, SStrongAugmentationInfo group_name x_pub fake_blinded_salt params_default), st').

(** server.rs:371-398 *)
Definition generate_prs (DB : Database R) (T : Rng) (s : AuCPaceServerAugLayer) (username : bytes)
  (database : db DB) (st : rng_state T) (x : scalar) (x_pub : point)
  : res (bytes * smsg) * rng_state T :=
  match lookup_verifier DB database username with
  | Some (w, salt, sigma) =>
      let cofactor := sone in
      let prs := rcompress R (rmul (rmul w x) cofactor) in
      (Ok (prs, SAugmentationInfo group_name x_pub salt sigma), st)
  | None => lookup_failed T s username x_pub st
  end.

(** server.rs:403-435 *)
Definition generate_prs_strong (DB : StrongDatabase R) (T : Rng) (s : AuCPaceServerAugLayer)
  (username : bytes) (blinded : point) (database : sdb DB) (st : rng_state T) (x : scalar)
  (x_pub : point) : res (bytes * smsg) * rng_state T :=
  match lookup_verifier_strong DB database username with
  | Some (w, q, sigma) =>
      let cofactor := sone in
      let prs := rcompress R (rmul w (smult x cofactor)) in
      let uq := rmul blinded (smult q cofactor) in
      if is_identity uq then (Err IllegalPointError, st)
      else (Ok (prs, SStrongAugmentationInfo group_name x_pub uq sigma), st)
  | None => lookup_failed_strong T s username blinded x_pub st
  end.

(** [AuCPaceServerCPaceSubstep::new(self.ssid, prs, rng)] after the reply has been computed *)
Definition cpace_substep (T : Rng) (s : AuCPaceServerAugLayer)
  (r : res (bytes * smsg) * rng_state T) : res (AuCPaceServerCPaceSubstep T * smsg) :=
  let '(r, st) := r in
  let! (prs, message) := r in
  Ok ({| scs_ssid := sal_ssid s; scs_prs := prs; scs_rng := st |}, message).

(** server.rs:201-222.  (The Rust function returns no [Result]; here the only failure is a panic.) *)
Definition generate_client_info (DB : Database R) (T : Rng) (s : AuCPaceServerAugLayer)
  (username : bytes) (database : db DB) (rng : rng_state T)
  : res (AuCPaceServerCPaceSubstep T * smsg) :=
  let '((x, x_pub), rng) := generate_server_keypair T rng in
  cpace_substep T s (generate_prs DB T s username database rng x x_pub).

(** [RistrettoPoint::random]: 64 bytes, [from_uniform_bytes] *)
Definition point_random (T : Rng) (st : rng_state T) : point * rng_state T :=
  let '(b, st') := rng_fill T 64 st in (rfrom_uniform R b, st').

(** server.rs:245-273 *)
Definition generate_client_info_partial_aug (DB : Database R) (PDB : PartialAugDatabase R (db DB))
  (T : Rng) (s : AuCPaceServerAugLayer) (username : bytes) (database : db DB) (rng : rng_state T)
  : res (AuCPaceServerCPaceSubstep T * smsg) :=
  cpace_substep T s
    (match lookup_long_term_keypair PDB database username with
     | Some (x, x_pub) => generate_prs DB T s username database rng x x_pub
     | None =>
         let '(x_pub, rng) := point_random T rng in
         lookup_failed T s username x_pub rng
     end).

(** server.rs:294-317 *)
Definition generate_client_info_strong (DB : StrongDatabase R) (T : Rng) (s : AuCPaceServerAugLayer)
  (username : bytes) (blinded : point) (database : sdb DB) (rng : rng_state T)
  : res (AuCPaceServerCPaceSubstep T * smsg) :=
  let '((x, x_pub), rng) := generate_server_keypair T rng in
  cpace_substep T s (generate_prs_strong DB T s username blinded database rng x x_pub).

(** server.rs:339-368 *)
Definition generate_client_info_partial_strong (DB : StrongDatabase R)
  (PDB : PartialAugDatabase R (sdb DB)) (T : Rng) (s : AuCPaceServerAugLayer) (username : bytes)
  (blinded : point) (database : sdb DB) (rng : rng_state T)
  : res (AuCPaceServerCPaceSubstep T * smsg) :=
  cpace_substep T s
    (match lookup_long_term_keypair PDB database username with
     | Some (x, x_pub) => generate_prs_strong DB T s username blinded database rng x x_pub
     | None =>
         let '(x_pub, rng) := point_random T rng in
         lookup_failed_strong T s username blinded x_pub rng
     end).

(** server.rs:552-570 *)
Definition server_generate_public_key (T : Rng) (s : AuCPaceServerCPaceSubstep T)
  (channel_identifier : bytes) : AuCPaceServerRecvClientKey * smsg :=
  let '((priv_key, pub_key), _) :=
    generate_keypair T (scs_rng T s) (scs_ssid T s) (scs_prs T s) channel_identifier in
  ({| src_ssid := scs_ssid T s; src_priv_key := priv_key |}, SPublicKey pub_key).

(** server.rs:599-610 *)
Definition receive_client_pubkey (s : AuCPaceServerRecvClientKey) (client_pubkey : point)
  : res AuCPaceServerExpMutAuth :=
  if is_identity client_pubkey then Err IllegalPointError
  else
    let sk1 := compute_first_session_key (src_ssid s) (src_priv_key s) client_pubkey in
    Ok {| sem_ssid := src_ssid s; sem_sk1 := sk1 |}.

(** server.rs:622-630 *)
Definition server_implicit_auth (s : AuCPaceServerRecvClientKey) (client_pubkey : point)
  : res bytes :=
  if is_identity client_pubkey then Err IllegalPointError
  else
    let sk1 := compute_first_session_key (src_ssid s) (src_priv_key s) client_pubkey in
    Ok (compute_session_key (src_ssid s) sk1).

(** server.rs:664-680 *)
Definition receive_client_authenticator (s : AuCPaceServerExpMutAuth) (client_authenticator : bytes)
  : res (bytes * smsg) :=
  let '(ta, tb) := compute_authenticator_messages (sem_ssid s) (sem_sk1 s) in
  if N.eqb (slice_ct_eq tb client_authenticator) 1 then
    let sk := compute_session_key (sem_ssid s) (sem_sk1 s) in
    let! message := expect64 ta in
    Ok (sk, SAuthenticator message)
  else Err MutualAuthFail.
End Aucpace.
