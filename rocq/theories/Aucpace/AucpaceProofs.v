(** * Proofs about the aucpace model: each function against the specification, and complete runs. *)
From Coq Require Import ZArith Lia.
From Verif Require Import Base.Bytes Base.Outcome Base.CtEq Base.Rng.
From Verif Require Import Curve.Primes Curve.Scalar25519.
From Verif Require Import Aucpace.RistrettoGroup Aucpace.PwHash Aucpace.AucpaceModel Aucpace.AucpaceSpec
  Aucpace.AucpaceRun.
Local Open Scope nat_scope.

(** The salt a [SaltString::generate] makes from a generator state. *)
Definition spec_salt (T : Rng) (st : rng_state T) : bytes := b64_encode (fst (rng_fill T 16 st)).

(** What the password hasher must be fed. *)
Definition userpass (user pass : bytes) : bytes := user ++ str ":" ++ pass.

(** The scalar of a password hash, as an outcome. *)
Definition spec_scalar (hash : option bytes) : res scalar :=
  match hash with
  | None => Err HashEmpty
  | Some b =>
      if Nat.eqb (length b) 32 || Nat.eqb (length b) 64
      then Ok (sof (Z.of_N (le_val b))) else Err HashSizeInvalid
  end.

(** The scalar [w] of a user name, password and salt. *)
Definition spec_w {Params} (h : hasher Params) (user pass salt : bytes) (params : Params) : res scalar :=
  let! hash := omap_err PasswordHashing (h (userpass user pass) params salt) in
  spec_scalar hash.

(** The buffer is long enough. *)
Definition fits (m : buf_mode) (user pass : bytes) : Prop :=
  match m with FixedBuf n => length user + length pass + 1 <= n | AllocBuf => True end.

Lemma slice_ct_eqb a b : N.eqb (slice_ct_eq a b) 1 = bytes_eqb a b.
Proof.
  rewrite slice_ct_eq_spec. destruct (bytes_eqb a b); reflexivity.
Qed.
Lemma bytes_eqb_refl a : bytes_eqb a a = true.
Proof. now apply bytes_eqb_eq. Qed.
Lemma bytes_eqb_neq a b : bytes_eqb a b = false <-> a <> b.
Proof. rewrite <- bytes_eqb_eq. destruct (bytes_eqb a b); split; congruence. Qed.

Lemma scalar_random_eq T st : scalar_random T st = (drawn T st, after T 64 st).
Proof. unfold scalar_random, drawn, after. now destruct (rng_fill T 64 st). Qed.

Lemma H_words : H0 = word x00 /\ H1 = word x01 /\ H2 = word x02 /\ H3 = word x03 /\ H4 = word x04 /\ H5 = word x05.
Proof. repeat split; reflexivity. Qed.

(** ** Password hashing *)
Section Hashing.
Context (Params : Type).

Lemma write_at_ok buf off data : off + length data <= length buf ->
  write_at buf off data = Ok (firstn off buf ++ data ++ skipn (off + length data) buf).
Proof. intros Hl. unfold write_at. now rewrite (proj2 (Nat.leb_le _ _) Hl). Qed.

Lemma hash_password_alloc_eq user pass salt params (h : hasher Params) :
  hash_password_alloc Params user pass salt params h
  = omap_err PasswordHashing (let! s := as_salt salt in h (userpass user pass) params s).
Proof. unfold hash_password_alloc, userpass. cbn [app]. now rewrite <- app_assoc. Qed.

(** Appending to the written part of a zeroed buffer. *)
Lemma write_at_append a data k :
  write_at (a ++ repeat x00 (length data + k)) (length a) data = Ok ((a ++ data) ++ repeat x00 k).
Proof.
  rewrite write_at_ok by (rewrite app_length, repeat_length; lia). f_equal.
  rewrite firstn_app, Nat.sub_diag, firstn_all. cbn [firstn].
  rewrite app_nil_r, skipn_app, (skipn_all2 a) by lia. cbn [app].
  replace (length a + length data - length a) with (length (repeat x00 (length data)))
    by (rewrite repeat_length; lia).
  rewrite repeat_app, skipn_app, Nat.sub_diag, skipn_all. cbn [app skipn]. now rewrite <- app_assoc.
Qed.

Lemma hash_password_eq BUFSIZ user pass salt params (h : hasher Params) :
  hash_password Params BUFSIZ user pass salt params h
  = if Nat.ltb BUFSIZ (length user + length pass + 1) then Err UsernameOrPasswordTooLong
    else hash_password_alloc Params user pass salt params h.
Proof.
  unfold hash_password. destruct (Nat.ltb_spec BUFSIZ (length user + length pass + 1)) as [|Hl]; [reflexivity|].
  replace BUFSIZ with (length user + (length [colon] + (length pass + (BUFSIZ - (length user + length pass + 1)))))
    by (cbn [length]; lia).
  match goal with |- context [write_at (repeat x00 (length user + ?k)) 0 user] =>
    change (write_at (repeat x00 (length user + k)) 0 user)
      with (write_at ([] ++ repeat x00 (length user + k)) (length (@nil byte)) user) end.
  rewrite write_at_append. cbn [obind app].
  rewrite write_at_append. cbn [obind].
  replace (length user + 1) with (length (user ++ [colon])) by (rewrite app_length; reflexivity).
  rewrite write_at_append. cbn [obind]. unfold slice_to.
  replace (length user + length pass + 1) with (length ((user ++ [colon]) ++ pass))
    by (rewrite !app_length; cbn [length]; lia).
  rewrite (proj2 (Nat.leb_le _ _)) by (rewrite (app_length (_ ++ pass)); lia).
  rewrite firstn_app, Nat.sub_diag, firstn_all. cbn [obind firstn]. rewrite app_nil_r.
  reflexivity.
Qed.

Lemma scalar_from_hash_eq hash : scalar_from_hash hash = spec_scalar hash.
Proof.
  destruct hash as [b|]; [|reflexivity]. unfold scalar_from_hash, spec_scalar.
  destruct (Nat.eqb (length b) 32); [reflexivity|]. now destruct (Nat.eqb (length b) 64).
Qed.

(** With a valid salt and enough room both paths compute the specified scalar. *)
Lemma hash_then_scalar (m : buf_mode) user pass salt params (h : hasher Params) :
  salt_valid salt -> fits m user pass ->
  (let! hash := match m with
                | FixedBuf n => hash_password Params n user pass salt params h
                | AllocBuf => hash_password_alloc Params user pass salt params h
                end in scalar_from_hash hash)
  = spec_w h user pass salt params.
Proof.
  intros HS HF. unfold spec_w.
  assert (hash_password_alloc Params user pass salt params h
          = omap_err PasswordHashing (h (userpass user pass) params salt)) as HA.
  { rewrite hash_password_alloc_eq, as_salt_ok by exact HS. reflexivity. }
  destruct m as [n|]; cbn [fits] in HF.
  - rewrite hash_password_eq. destruct (Nat.ltb_spec n (length user + length pass + 1)); [lia|].
    rewrite HA. destruct (h _ _ _); cbn; try reflexivity. apply scalar_from_hash_eq.
  - rewrite HA. destruct (h _ _ _); cbn; try reflexivity. apply scalar_from_hash_eq.
Qed.
End Hashing.

Lemma salt_generate_eq T st :
  salt_generate T st = (Ok (spec_salt T st), after T 16 st) /\ salt_valid (spec_salt T st) /\
  length (spec_salt T st) = 22.
Proof.
  pose proof (rng_fill_length T 16 st) as HL.
  unfold salt_generate, spec_salt, after.
  destruct (rng_fill T 16 st) as [b st']. cbn [fst snd] in *.
  assert (3 <= length b <= 48) as H by lia.
  destruct (salt_encode_ok b H) as [E V]. rewrite E. repeat split; try apply V.
  now rewrite b64_length, HL.
Qed.

(** ** Everything else is against a lawful group and a digest of 64 bytes *)
Section Protocol.
Context (R : RGroup) (L : rgroup_laws R) (D : bytes -> bytes).
Context (Dlen : forall m, length (D m) = 64).
Context (Params : Type) (params_try_into : Params -> outcome pherror bytes).
Context (params_of : bytes -> res Params).

Lemma compute_ssid_eq s t : compute_ssid D s t = spec_ssid D s t.
Proof. unfold compute_ssid, spec_ssid, finalize, update. now rewrite <- app_assoc. Qed.

Lemma generate_keypair_eq T st ssid prs ci :
  generate_keypair R D T st ssid prs ci
  = ((drawn T st, rmul (spec_G R D ssid prs ci) (drawn T st)), after T 64 st).
Proof.
  unfold generate_keypair. rewrite scalar_random_eq, smult_one_r.
  unfold point_from_hash, spec_G, finalize, update. now rewrite <- !app_assoc.
Qed.

Lemma generate_server_keypair_eq T st :
  generate_server_keypair R T st = ((drawn T st, spec_X R (drawn T st)), after T 64 st).
Proof. unfold generate_server_keypair. now rewrite scalar_random_eq, smult_one_r. Qed.

Lemma first_session_key_eq ssid prs ci ya yb :
  compute_first_session_key R D ssid ya (rmul (spec_G R D ssid prs ci) yb)
  = spec_sk1 R D ssid prs ci ya yb.
Proof.
  unfold compute_first_session_key, spec_sk1, spec_K, finalize, update.
  rewrite (rmul_mul L), smult_comm. now rewrite <- app_assoc.
Qed.
Lemma sk1_comm ssid prs ci ya yb :
  spec_sk1 R D ssid prs ci ya yb = spec_sk1 R D ssid prs ci yb ya.
Proof. unfold spec_sk1, spec_K. now rewrite smult_comm. Qed.
Lemma first_session_key_eq' ssid prs ci ya yb :
  compute_first_session_key R D ssid yb (rmul (spec_G R D ssid prs ci) ya)
  = spec_sk1 R D ssid prs ci ya yb.
Proof. rewrite first_session_key_eq. unfold spec_sk1, spec_K. now rewrite smult_comm. Qed.

Lemma authenticators_eq ssid sk1 :
  compute_authenticator_messages D ssid sk1 = (spec_Ta D ssid sk1, spec_Tb D ssid sk1).
Proof.
  unfold compute_authenticator_messages, spec_Ta, spec_Tb, finalize, update.
  now rewrite <- !app_assoc.
Qed.
Lemma session_key_eq ssid sk1 : compute_session_key D ssid sk1 = spec_sk D ssid sk1.
Proof. unfold compute_session_key, spec_sk, finalize, update. now rewrite <- app_assoc. Qed.

Lemma expect64_D {E} m : @expect64 E (D m) = Ok (D m).
Proof. unfold expect64. now rewrite Dlen. Qed.

(** *** The CPace substep *)

(** The session key and the two public keys of a CPace substep. *)
Definition cpace_key (ssid prs ci : bytes) (ya yb : scalar) : bytes :=
  spec_sk D ssid (spec_sk1 R D ssid prs ci ya yb).
Definition cpace_result (ssid prs ci : bytes) (ya yb : scalar) : res (bytes * bytes) :=
  if is_identity (rmul (spec_G R D ssid prs ci) ya) || is_identity (rmul (spec_G R D ssid prs ci) yb)
  then Err IllegalPointError
  else Ok (cpace_key ssid prs ci ya yb, cpace_key ssid prs ci ya yb).

Lemma run_keys_eq Tc Ts ssid prs ci sts stc :
  run_keys R D Tc Ts {| ccs_ssid := ssid; ccs_prs := prs |}
    {| scs_ssid := ssid; scs_prs := prs; scs_rng := sts |} ci ci stc
  = Ok ({| crs_ssid := ssid; crs_priv_key := drawn Tc stc |},
        {| src_ssid := ssid; src_priv_key := drawn Ts sts |},
        rmul (spec_G R D ssid prs ci) (drawn Tc stc), rmul (spec_G R D ssid prs ci) (drawn Ts sts)).
Proof.
  unfold run_keys, server_generate_public_key, client_generate_public_key.
  cbn [ccs_ssid ccs_prs scs_ssid scs_prs scs_rng]. now rewrite !generate_keypair_eq.
Qed.

Lemma run_explicit_eq Tc Ts ssid prs ci sts stc :
  run_explicit R D Tc Ts {| ccs_ssid := ssid; ccs_prs := prs |}
    {| scs_ssid := ssid; scs_prs := prs; scs_rng := sts |} ci ci stc
  = cpace_result ssid prs ci (drawn Ts sts) (drawn Tc stc).
Proof.
  unfold run_explicit. rewrite run_keys_eq. cbn [obind]. unfold cpace_result, cpace_key.
  unfold receive_client_pubkey.
  destruct (is_identity (rmul _ (drawn Tc stc))) eqn:Eb.
  { cbn [obind]. now rewrite Bool.orb_true_r. }
  cbn [obind src_ssid src_priv_key]. rewrite Bool.orb_false_r.
  unfold receive_server_pubkey.
  destruct (is_identity (rmul _ (drawn Ts sts))) eqn:Ea; [reflexivity|].
  cbn [crs_ssid crs_priv_key]. rewrite first_session_key_eq, first_session_key_eq', authenticators_eq.
  unfold spec_Tb at 1. rewrite expect64_D. cbn [obind].
  unfold receive_client_authenticator. cbn [sem_ssid sem_sk1].
  rewrite authenticators_eq, slice_ct_eqb. unfold spec_Tb at 1. rewrite bytes_eqb_refl.
  unfold spec_Ta at 1. rewrite expect64_D. cbn [obind].
  unfold receive_server_authenticator. cbn [cem_ssid cem_sk1 cem_server_authenticator].
  rewrite slice_ct_eqb. unfold spec_Ta at 1. rewrite bytes_eqb_refl. cbn [obind].
  rewrite !session_key_eq, (sk1_comm ssid prs ci (drawn Tc stc)). reflexivity.
Qed.

Lemma run_implicit_eq Tc Ts ssid prs ci sts stc :
  run_implicit R D Tc Ts {| ccs_ssid := ssid; ccs_prs := prs |}
    {| scs_ssid := ssid; scs_prs := prs; scs_rng := sts |} ci ci stc
  = cpace_result ssid prs ci (drawn Ts sts) (drawn Tc stc).
Proof.
  unfold run_implicit. rewrite run_keys_eq. cbn [obind]. unfold cpace_result, cpace_key.
  unfold server_implicit_auth.
  destruct (is_identity (rmul _ (drawn Tc stc))) eqn:Eb.
  { cbn [obind]. now rewrite Bool.orb_true_r. }
  cbn [obind src_ssid src_priv_key]. rewrite Bool.orb_false_r.
  unfold client_implicit_auth.
  destruct (is_identity (rmul _ (drawn Ts sts))) eqn:Ea; [reflexivity|].
  cbn [crs_ssid crs_priv_key obind].
  now rewrite first_session_key_eq, first_session_key_eq', !session_key_eq, (sk1_comm ssid prs ci (drawn Tc stc)).
Qed.

(** *** SSID establishment *)

(** The SSID two honest parties agree on. *)
Definition agreed_ssid (Tc Ts : Rng) (m : ssid_mode) (c : AuCPaceClient Tc) (s : AuCPaceServer Ts) : bytes :=
  match m with
  | ByNonces K1 => spec_ssid D (fst (rng_fill Ts K1 (s_rng Ts s))) (fst (rng_fill Tc K1 (c_rng Tc c)))
  | PreEstablished ssid => spec_ssid_pre D ssid
  end.
Definition ssid_mode_ok (m : ssid_mode) : Prop :=
  match m with ByNonces _ => True | PreEstablished ssid => 16 <= length ssid end.

Lemma run_ssid_eq Tc Ts m c s : ssid_mode_ok m ->
  run_ssid R D Tc Ts m c s
  = Ok ({| cpa_ssid := agreed_ssid Tc Ts m c s |},
        {| sal_secret := s_secret Ts s; sal_ssid := agreed_ssid Tc Ts m c s |}).
Proof.
  destruct m as [K1|ssid]; cbn [ssid_mode_ok run_ssid agreed_ssid]; intros Hm.
  - unfold server_begin, client_begin, generate_nonce.
    destruct (rng_fill Ts K1 (s_rng Ts s)) as [ns sts], (rng_fill Tc K1 (c_rng Tc c)) as [nc stc].
    cbn [cse_nonce sse_nonce fst]. unfold client_agree_ssid, server_agree_ssid.
    cbn [cse_nonce sse_nonce sse_secret]. now rewrite compute_ssid_eq.
  - unfold server_begin_prestablished_ssid, client_begin_prestablished_ssid, MIN_SSID_LEN.
    apply Nat.ltb_ge in Hm. rewrite Hm. reflexivity.
Qed.

(** *** Registration *)

Definition do_register_eq m T c user pass params h :
  fits m user pass ->
  do_register R Params params_try_into m T c user pass params h
  = (let! w := spec_w h user pass (spec_salt T (c_rng T c)) params in
     let! ps := omap_err PasswordHashing (params_try_into params) in
     Ok (CRegistration user (spec_salt T (c_rng T c)) ps (spec_W R w)),
     {| c_rng := after T 16 (c_rng T c) |}).
Proof.
  intros HF.
  destruct (salt_generate_eq T (c_rng T c)) as (E & V & _).
  rewrite <- (hash_then_scalar Params m user pass (spec_salt T (c_rng T c)) params h V HF).
  unfold do_register. destruct m as [n|].
  - unfold register. rewrite E. cbn [omap_err obind].
    destruct (hash_password _ _ _ _ _ _ _); cbn [obind]; try reflexivity.
    destruct (scalar_from_hash a); cbn [obind]; try reflexivity. now rewrite smult_one_r.
  - unfold register_alloc. rewrite E. cbn [omap_err obind].
    destruct (hash_password_alloc _ _ _ _ _ _); cbn [obind]; try reflexivity.
    destruct (scalar_from_hash a); cbn [obind]; try reflexivity. now rewrite smult_one_r.
Qed.

(** A successful registration. *)
Lemma do_register_ok m T c user pass params h u salt ps W c' :
  fits m user pass ->
  do_register R Params params_try_into m T c user pass params h = (Ok (CRegistration u salt ps W), c') ->
  u = user /\ salt = spec_salt T (c_rng T c) /\ params_try_into params = Ok ps /\
  exists w, spec_w h user pass salt params = Ok w /\ W = spec_W R w.
Proof.
  intros HF. rewrite do_register_eq by exact HF. intros E.
  injection E as E _.
  destruct (spec_w h user pass (spec_salt T (c_rng T c)) params) as [w|e|] eqn:Ew;
    cbn [obind] in E; try discriminate.
  destruct (params_try_into params) as [p|e|] eqn:Ep; cbn [omap_err obind] in E; try discriminate.
  injection E as <- <- <- <-. repeat split; eauto.
Qed.

(** The salt of the strong variant. *)
Definition strong_salt (user pass : bytes) (q : scalar) : bytes :=
  b64_encode (rcompress R (rmul (spec_Z R D user pass) q)).

Lemma strong_salt_encode P : salt_encode_b64 (rcompress R P) = Ok (b64_encode (rcompress R P)) /\
  salt_valid (b64_encode (rcompress R P)).
Proof. apply salt_encode_ok. rewrite (rl_length R L). lia. Qed.

Lemma generate_salt_strong_eq T user pass st :
  generate_salt_strong R D T user pass st
  = (Ok (drawn T st, strong_salt user pass (drawn T st)), after T 64 st).
Proof.
  unfold generate_salt_strong. rewrite scalar_random_eq, smult_one_r.
  destruct (strong_salt_encode (rmul (point_from_hash R D (update (update H1 user) pass)) (drawn T st)))
    as [E _]. rewrite E. cbn [omap_err obind].
  unfold strong_salt, spec_Z, point_from_hash, finalize, update. now rewrite <- app_assoc.
Qed.

Lemma do_register_strong_eq m T c user pass params h :
  fits m user pass ->
  do_register_strong R D Params params_try_into m T c user pass params h
  = (let q := drawn T (c_rng T c) in
     let! w := spec_w h user pass (strong_salt user pass q) params in
     let! ps := omap_err PasswordHashing (params_try_into params) in
     Ok (CStrongRegistration user q ps (spec_W R w)),
     {| c_rng := after T 64 (c_rng T c) |}).
Proof.
  intros HF. cbv zeta. set (q := drawn T (c_rng T c)).
  assert (salt_valid (strong_salt user pass q)) as V by apply strong_salt_encode.
  rewrite <- (hash_then_scalar Params m user pass (strong_salt user pass q) params h V HF).
  unfold do_register_strong. destruct m as [n|].
  - unfold register_strong. rewrite generate_salt_strong_eq. fold q. cbn [obind].
    destruct (hash_password _ _ _ _ _ _ _); cbn [obind]; try reflexivity.
    destruct (scalar_from_hash a); cbn [obind]; try reflexivity. now rewrite smult_one_r.
  - unfold register_alloc_strong. rewrite generate_salt_strong_eq. fold q. cbn [obind].
    destruct (hash_password_alloc _ _ _ _ _ _); cbn [obind]; try reflexivity.
    destruct (scalar_from_hash a); cbn [obind]; try reflexivity. now rewrite smult_one_r.
Qed.

Lemma do_register_strong_ok m T c user pass params h u q ps W c' :
  fits m user pass ->
  do_register_strong R D Params params_try_into m T c user pass params h
    = (Ok (CStrongRegistration u q ps W), c') ->
  u = user /\ params_try_into params = Ok ps /\
  exists w, spec_w h user pass (strong_salt user pass q) params = Ok w /\ W = spec_W R w.
Proof.
  intros HF. rewrite do_register_strong_eq by exact HF. cbv zeta. intros E. injection E as E _.
  destruct (spec_w _ _ _ _ _) as [w|e|] eqn:Ew; cbn [obind] in E; try discriminate.
  destruct (params_try_into params) as [p|e|] eqn:Ep; cbn [omap_err obind] in E; try discriminate.
  injection E as <- <- <- <-. repeat split; eauto.
Qed.

(** *** Augmentation layer *)

Lemma do_generate_cpace_eq m ssid user pass x_pub salt params h :
  fits m user pass -> salt_valid salt ->
  do_generate_cpace R Params m {| cal_ssid := ssid; cal_username := user; cal_password := pass |}
    x_pub salt params h
  = if is_identity x_pub then Err IllegalPointError
    else let! w := spec_w h user pass salt params in
         Ok {| ccs_ssid := ssid; ccs_prs := rcompress R (rmul x_pub w) |}.
Proof.
  intros HF V. rewrite <- (hash_then_scalar Params m user pass salt params h V HF).
  unfold do_generate_cpace. destruct m as [n|].
  - unfold generate_cpace. destruct (is_identity x_pub); [reflexivity|].
    cbn [cal_username cal_password cal_ssid].
    destruct (hash_password _ _ _ _ _ _ _); cbn [obind]; try reflexivity.
    destruct (scalar_from_hash a); cbn [obind]; try reflexivity. now rewrite smult_one_r.
  - unfold generate_cpace_alloc. destruct (is_identity x_pub); [reflexivity|].
    cbn [cal_username cal_password cal_ssid].
    destruct (hash_password_alloc _ _ _ _ _ _); cbn [obind]; try reflexivity.
    destruct (scalar_from_hash a); cbn [obind]; try reflexivity. now rewrite smult_one_r.
Qed.

(** The unblinded salt point is the identity, and this is checked. *)
Definition salt_rejected (m : buf_mode) (P : pt R) : bool :=
  match m with FixedBuf _ => false | AllocBuf => is_identity P end.

Lemma do_strong_generate_cpace_eq m ssid user pass r x_pub blinded_salt params h :
  fits m user pass ->
  do_strong_generate_cpace R Params m
    {| scal_ssid := ssid; scal_username := user; scal_password := pass; scal_blinding_value := r |}
    x_pub blinded_salt params h
  = if is_identity x_pub || salt_rejected m (rmul blinded_salt (sinv r)) then Err IllegalPointError
    else let! w := spec_w h user pass (b64_encode (rcompress R (rmul blinded_salt (sinv r)))) params in
         Ok {| ccs_ssid := ssid; ccs_prs := rcompress R (rmul x_pub w) |}.
Proof.
  intros HF.
  destruct (strong_salt_encode (rmul blinded_salt (sinv r))) as [E V].
  rewrite <- (hash_then_scalar Params m user pass _ params h V HF).
  unfold do_strong_generate_cpace. destruct m as [n|].
  - unfold strong_generate_cpace. destruct (is_identity x_pub); [reflexivity|].
    cbn [orb salt_rejected scal_blinding_value scal_username scal_password scal_ssid].
    rewrite !smult_one_r, E. cbn [omap_err obind].
    destruct (hash_password _ _ _ _ _ _ _); cbn [obind]; try reflexivity.
    destruct (scalar_from_hash a); cbn [obind]; try reflexivity. now rewrite smult_one_r.
  - unfold strong_generate_cpace_alloc. destruct (is_identity x_pub); [reflexivity|].
    cbn [orb salt_rejected scal_blinding_value scal_username scal_password scal_ssid].
    rewrite !smult_one_r. destruct (is_identity (rmul blinded_salt (sinv r))); [reflexivity|].
    rewrite E. cbn [omap_err obind].
    destruct (hash_password_alloc _ _ _ _ _ _); cbn [obind]; try reflexivity.
    destruct (scalar_from_hash a); cbn [obind]; try reflexivity. now rewrite smult_one_r.
Qed.

(** PRS of both sides. *)
Lemma prs_server_eq w x : rmul (rmul (spec_W R w) x) sone = rmul (rbase R) (smult w x).
Proof. unfold spec_W. now rewrite (rmul_one (R:=R)), (rmul_mul L). Qed.
Lemma prs_client_eq w x : rmul (spec_X R x) w = rmul (rbase R) (smult w x).
Proof. unfold spec_X. now rewrite (rmul_mul L), smult_comm. Qed.

(** Login of a user whose record is in the database; [X] is the (key, public key) the server uses and
    [st] its generator state after choosing it. *)
Lemma run_aug_registered (DB : Database R) T info m ssid secret user pass params h d w salt ps x st :
  fits m user pass -> salt_valid salt ->
  spec_w h user pass salt params = Ok w ->
  params_of ps = Ok params ->
  lookup_verifier DB d user = Some (spec_W R w, salt, ps) ->
  info {| sal_secret := secret; sal_ssid := ssid |} user
    = cpace_substep R T {| sal_secret := secret; sal_ssid := ssid |}
        (generate_prs R D DB T {| sal_secret := secret; sal_ssid := ssid |} user d st x (spec_X R x)) ->
  run_aug R Params params_of T info m {| cpa_ssid := ssid |}
    {| sal_secret := secret; sal_ssid := ssid |} user pass h
  = if is_identity (spec_X R x) then Err IllegalPointError
    else Ok ({| ccs_ssid := ssid; ccs_prs := spec_PRS R w x |},
             {| scs_ssid := ssid; scs_prs := spec_PRS R w x; scs_rng := st |}).
Proof.
  intros HF V Hw Hp Hl Hi. unfold run_aug, start_augmentation. cbn [cpa_ssid]. rewrite Hi.
  unfold generate_prs. rewrite Hl. cbn [cpace_substep obind sal_ssid]. rewrite Hp. cbn [obind].
  rewrite do_generate_cpace_eq by assumption.
  destruct (is_identity (spec_X R x)); [reflexivity|].
  rewrite Hw. cbn [obind]. unfold spec_PRS. now rewrite prs_server_eq, prs_client_eq.
Qed.

Lemma generate_client_info_eq (DB : Database R) T s user d st :
  generate_client_info R D DB T s user d st
  = cpace_substep R T s (generate_prs R D DB T s user d (after T 64 st) (drawn T st) (spec_X R (drawn T st))).
Proof. unfold generate_client_info. now rewrite generate_server_keypair_eq. Qed.

Lemma generate_client_info_strong_eq (DB : StrongDatabase R) T s user U d st :
  generate_client_info_strong R D DB T s user U d st
  = cpace_substep R T s (generate_prs_strong R D DB T s user U d (after T 64 st) (drawn T st) (spec_X R (drawn T st))).
Proof. unfold generate_client_info_strong. now rewrite generate_server_keypair_eq. Qed.

(** Replies for unknown users. *)
Definition fake_salt (secret : N) (user : bytes) : bytes :=
  b64_encode (firstn 48 (D (le_bytes 8 secret ++ user))).
Definition fake_exponent (secret : N) (user : bytes) : scalar :=
  sof (Z.of_N (le_val (D (le_bytes 8 secret ++ user)))).

Lemma lookup_failed_eq T s user X st :
  lookup_failed R D T s user X st
  = (Ok (fst (rng_fill T 32 st),
         SAugmentationInfo group_name X (fake_salt (sal_secret s) user) params_default), after T 32 st).
Proof.
  unfold lookup_failed, fake_salt, after, finalize, update, new_hash. cbn [app].
  destruct (rng_fill T 32 st) as [prs st']. cbn [fst snd]. f_equal.
  unfold prefix. rewrite (Dlen (le_bytes 8 (sal_secret s) ++ user)). cbn [Nat.leb obind].
  assert (3 <= length (firstn 48 (D (le_bytes 8 (sal_secret s) ++ user))) <= 48) as HL.
  { rewrite firstn_length, Dlen. split; apply Nat.leb_le; reflexivity. }
  destruct (salt_encode_ok _ HL) as [E _]. rewrite E. reflexivity.
Qed.

Lemma lookup_failed_strong_eq T s user U X st :
  lookup_failed_strong R D T s user U X st
  = (let bs := rmul U (fake_exponent (sal_secret s) user) in
     if is_identity bs then Err IllegalPointError
     else Ok (fst (rng_fill T 32 st), SStrongAugmentationInfo group_name X bs params_default),
     after T 32 st).
Proof.
  unfold lookup_failed_strong, after. destruct (rng_fill T 32 st) as [prs st'].
  rewrite smult_one_r. reflexivity.
Qed.

(** The strong client's first message. *)
Lemma start_augmentation_strong_eq T fuel c user pass st :
  start_augmentation_strong R D T fuel c user pass st
  = match draw_blinding_value T fuel st with
    | None => None
    | Some (r, st') =>
        Some (({| scal_ssid := cpa_ssid c; scal_username := user; scal_password := pass;
                  scal_blinding_value := r |},
               CStrongUsername user (rmul (spec_Z R D user pass) r)), st')
    end.
Proof.
  unfold start_augmentation_strong. destruct (draw_blinding_value T fuel st) as [[r st']|]; [|reflexivity].
  rewrite smult_one_r. unfold spec_Z, point_from_hash, finalize, update. now rewrite <- app_assoc.
Qed.

Lemma draw_blinding_value_nonzero T fuel st r st' :
  draw_blinding_value T fuel st = Some (r, st') -> r <> szero.
Proof.
  revert st. induction fuel as [|fuel IH]; intros st; cbn [draw_blinding_value]; [discriminate|].
  destruct (scalar_random T st) as [v st1]. destruct (seqb v szero) eqn:E; cbn [negb].
  - apply IH.
  - intros H. injection H as <- <-. now apply seqb_neq.
Qed.

Lemma draw_blinding_value_mono T fuel fuel' st r :
  draw_blinding_value T fuel st = Some r -> fuel <= fuel' -> draw_blinding_value T fuel' st = Some r.
Proof.
  revert fuel' st. induction fuel as [|fuel IH]; intros [|fuel'] st; cbn [draw_blinding_value];
    try discriminate; [lia|].
  destruct (scalar_random T st) as [v st1]. destruct (negb (seqb v szero)); [auto|].
  intros H Hl. apply IH; [exact H|lia].
Qed.

(** Unblinding. *)
Lemma unblind (P : pt R) r q : r <> szero -> rmul (rmul (rmul P r) q) (sinv r) = rmul P q.
Proof.
  intros Hr. rewrite !(rmul_mul L), (smult_comm q), smult_assoc, (smult_comm r).
  now rewrite sinv_l, smult_one_l by exact Hr.
Qed.

Lemma run_aug_strong_registered (DB : StrongDatabase R) T info m ssid secret user pass params h d w q ps r x st :
  fits m user pass -> r <> szero ->
  spec_w h user pass (strong_salt user pass q) params = Ok w ->
  params_of ps = Ok params ->
  lookup_verifier_strong DB d user = Some (spec_W R w, q, ps) ->
  (forall U, info {| sal_secret := secret; sal_ssid := ssid |} user U
    = cpace_substep R T {| sal_secret := secret; sal_ssid := ssid |}
        (generate_prs_strong R D DB T {| sal_secret := secret; sal_ssid := ssid |} user U d st x (spec_X R x))) ->
  run_aug_strong R Params params_of T info m
    ({| scal_ssid := ssid; scal_username := user; scal_password := pass; scal_blinding_value := r |},
     CStrongUsername user (rmul (spec_Z R D user pass) r))
    {| sal_secret := secret; sal_ssid := ssid |} h
  = if is_identity (spec_X R x) || is_identity (rmul (spec_Z R D user pass) q)
    then Err IllegalPointError
    else Ok ({| ccs_ssid := ssid; ccs_prs := spec_PRS R w x |},
             {| scs_ssid := ssid; scs_prs := spec_PRS R w x; scs_rng := st |}).
Proof.
  intros HF Hr Hw Hp Hl Hi. unfold run_aug_strong. rewrite Hi.
  unfold generate_prs_strong. rewrite Hl, !smult_one_r.
  assert (is_identity (rmul (rmul (spec_Z R D user pass) r) q)
          = is_identity (rmul (spec_Z R D user pass) q)) as EI.
  { apply Bool.eq_true_iff_eq. rewrite !(is_identity_eq L), !(rmul_identity L). clear - Hr. tauto. }
  rewrite EI.
  destruct (is_identity (rmul (spec_Z R D user pass) q)) eqn:Eq.
  { cbn [cpace_substep obind]. now rewrite Bool.orb_true_r. }
  cbn [cpace_substep obind sal_ssid]. rewrite Hp. cbn [obind].
  rewrite do_strong_generate_cpace_eq by assumption. rewrite unblind by exact Hr.
  assert (salt_rejected m (rmul (spec_Z R D user pass) q) = false) as ->.
  { destruct m; [reflexivity|exact Eq]. }
  destruct (is_identity (spec_X R x)); [reflexivity|].
  cbn [orb]. unfold strong_salt in Hw. rewrite Hw. cbn [obind]. unfold spec_PRS.
  rewrite prs_client_eq. unfold spec_W. rewrite (rmul_mul L). reflexivity.
Qed.
End Protocol.
