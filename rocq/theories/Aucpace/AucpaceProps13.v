(** * AuCPace: the crate's tests, for every generator (C79). *)
From Coq Require Import ZArith Lia.
From Verif Require Import Base.Bytes Base.Outcome Base.Rng Base.RustTest Base.Kat.
From Verif Require Import Curve.Scalar25519.
From Verif Require Import Aucpace.RistrettoGroup Aucpace.PwHash Aucpace.AucpaceModel Aucpace.AucpaceSpec
  Aucpace.AucpaceRun Aucpace.AucpaceDb Aucpace.AucpaceToy Aucpace.PwHashProofs Aucpace.AucpaceProofs Aucpace.AucpaceProps
  Aucpace.ScryptParams Aucpace.TcpExample Aucpace.AucpaceProps8.
Local Open Scope nat_scope.

(** ** Programs *)

(** tests/test_key_agreement.rs:10-14 and its copies *)
Definition USERNAME : bytes := str "jlpicard_1701".
Definition PASSWORD : bytes := str "g04tEd_c4pT41N".
Definition CI : bytes := str "test_channel_identifier".
Definition PRE_SSID : bytes := str "bestest_ssid_ever_i_promise".

(** The four tests of each file: with nonces of [K1] = 16 bytes or the SSID above; explicit or implicit. *)
Definition ssid_of (prestablished : bool) : ssid_mode := if prestablished then PreEstablished PRE_SSID else ByNonces K1.

Section Tests.
Context (R : RGroup) (D : bytes -> bytes) (Tc Ts : Rng) (scrypt : hasher scrypt_params).
(** [OsRng] yields whatever it likes at every use: [crng] and [srng] are the generators the client and the
    server are made from, [rng_info] and [rng_blind] the ones of the augmentation layer, [rng_key] the one of
    the client's CPace substep, [rng_start] the client's in the login (an [OsRng] has no state to advance). *)
Context (crng crng' rng_blind rng_key : rng_state Tc) (srng srng' rng_info : rng_state Ts).

(** tests/test_key_agreement.rs:49-302 *)
Definition test_key_agreement (am : auth_mode) (pre : bool) : res unit :=
  let base_server := server_new Ts srng in
  let base_client := client_new Tc crng in
  let '(registration, _) := register_alloc R scrypt_params scrypt_to_params Tc base_client USERNAME PASSWORD recommended scrypt in
  let! registration := registration in
  let database := match registration with
    | CRegistration username salt params verifier =>
        store_verifier (SingleDb R) single_default username salt None verifier params
    | _ => single_default
    end in
  let! (client_key, server_key) := run_login R D scrypt_params scrypt_params_of am Tc Ts (ssid_of pre) AllocBuf
    {| c_rng := crng' |} {| s_rng := srng'; s_secret := s_secret Ts base_server |}
    (fun server username => generate_client_info R D (SingleDb R) Ts server username database rng_info)
    USERNAME PASSWORD scrypt CI rng_key in
  assert_eq client_key server_key.

(** tests/test_key_agreement_partial_aug.rs:82-337 *)
Definition test_key_agreement_partial (am : auth_mode) (pre : bool) : res unit :=
  let base_server := server_new Ts srng in
  let base_client := client_new Tc crng in
  let '(registration, _) := register_alloc R scrypt_params scrypt_to_params Tc base_client USERNAME PASSWORD recommended scrypt in
  let! registration := registration in
  let! database := match registration with
    | CRegistration username salt params verifier =>
        let database := store_verifier (SingleDb R) single_default username salt None verifier params in
        let '((private, public), _) := generate_long_term_keypair R Ts base_server in
        store_long_term_keypair (SinglePartialDb R) database username private public
    | _ => Ok single_default
    end in
  let! (client_key, server_key) := run_login R D scrypt_params scrypt_params_of am Tc Ts (ssid_of pre) AllocBuf
    {| c_rng := crng' |} {| s_rng := srng'; s_secret := s_secret Ts base_server |}
    (fun server username => generate_client_info_partial_aug R D (SingleDb R) (SinglePartialDb R) Ts server username database rng_info)
    USERNAME PASSWORD scrypt CI rng_key in
  assert_eq client_key server_key.

(** tests/test_key_agreement_strong_partial_aug.rs:19-81, the database of both strong files (the field for
    the key pair is missing, and unused, in test_key_agreement_strong.rs:17-48) *)
Definition TestStrongDb : StrongDatabase R := {|
  sdb := single (pt R * scalar * bytes) (scalar * pt R);
  lookup_verifier_strong := fun d username => for_user d username (su_data d);
  store_verifier_strong := fun d username _uad verifier secret_exponent params =>
    single_store d username (verifier, secret_exponent, params)
|}.
Definition TestStrongPartialDb : PartialAugDatabase R (sdb TestStrongDb) := {|
  lookup_long_term_keypair := fun d username => for_user d username (su_keypair (d : single _ _));
  store_long_term_keypair := fun (d : single _ _) username priv_key pub_key =>
    match su_user d with
    | Some stored_user =>
        if bytes_eqb stored_user username
        then Ok {| su_user := su_user d; su_data := su_data d; su_keypair := Some (priv_key, pub_key) |}
        else Err UserNotRegistered
    | None => Err UserNotRegistered
    end
|}.

(** tests/test_key_agreement_strong.rs:50-304 and test_key_agreement_strong_partial_aug.rs:83-339.  [None]: the
    client is still looking for a blinding value after [fuel] draws. *)
Definition test_key_agreement_strong (fuel : nat) (am : auth_mode) (pre : bool) : option (res unit) :=
  let base_server := server_new Ts srng in
  let base_client := client_new Tc crng in
  let '(registration, _) := register_alloc_strong R D scrypt_params scrypt_to_params Tc base_client USERNAME PASSWORD recommended scrypt in
  match registration with
  | Ok registration =>
      let database := match registration with
        | CStrongRegistration username secret_exponent params verifier =>
            store_verifier_strong TestStrongDb single_default username None verifier secret_exponent params
        | _ => single_default
        end in
      match run_login_strong R D scrypt_params scrypt_params_of am Tc Ts (ssid_of pre) AllocBuf
        {| c_rng := crng' |} {| s_rng := srng'; s_secret := s_secret Ts base_server |}
        (fun server username blinded => generate_client_info_strong R D TestStrongDb Ts server username blinded database rng_info)
        fuel USERNAME PASSWORD scrypt CI rng_blind rng_key with
      | Some keys => Some (let! (client_key, server_key) := keys in assert_eq client_key server_key)
      | None => None
      end
  | Err e => Some (Err e)
  | Panic => Some Panic
  end.
Definition test_key_agreement_strong_partial (fuel : nat) (am : auth_mode) (pre : bool) : option (res unit) :=
  let base_server := server_new Ts srng in
  let base_client := client_new Tc crng in
  let '(registration, _) := register_alloc_strong R D scrypt_params scrypt_to_params Tc base_client USERNAME PASSWORD recommended scrypt in
  match registration with
  | Ok registration =>
      let database := match registration with
        | CStrongRegistration username secret_exponent params verifier =>
            let database := store_verifier_strong TestStrongDb single_default username None verifier secret_exponent params in
            let '((private, public), _) := generate_long_term_keypair R Ts base_server in
            store_long_term_keypair TestStrongPartialDb database username private public
        | _ => Ok single_default
        end in
      match database with
      | Ok database =>
          match run_login_strong R D scrypt_params scrypt_params_of am Tc Ts (ssid_of pre) AllocBuf
            {| c_rng := crng' |} {| s_rng := srng'; s_secret := s_secret Ts base_server |}
            (fun server username blinded =>
               generate_client_info_partial_strong R D TestStrongDb TestStrongPartialDb Ts server username blinded database rng_info)
            fuel USERNAME PASSWORD scrypt CI rng_blind rng_key with
          | Some keys => Some (let! (client_key, server_key) := keys in assert_eq client_key server_key)
          | None => None
          end
      | Err e => Some (Err e)
      | Panic => Some Panic
      end
  | Err e => Some (Err e)
  | Panic => Some Panic
  end.
End Tests.

(** ** Proofs *)
Section Proofs.
Context (R : RGroup) (L : rgroup_laws R) (D : bytes -> bytes) (Dlen : forall m, length (D m) = 64).
Context (Tc Ts : Rng) (scrypt : hasher scrypt_params).
(** scrypt succeeds for salts in base64, with the recommended length of 32 bytes ([scrypt_hasher_32]). *)
Context (Hscrypt : forall m p b, exists o, scrypt m p (b64_encode b) = Ok (Some o) /\ length o = 32).
Context (crng crng' rng_blind rng_key : rng_state Tc) (srng srng' rng_info : rng_state Ts).

Lemma scrypt_w user pass salt p : (exists b, salt = b64_encode b) -> exists w, spec_w scrypt user pass salt p = Ok w.
Proof.
  intros [b ->]. unfold spec_w. destruct (Hscrypt (userpass user pass) p b) as (o & -> & Ho). cbn [omap_err obind].
  unfold spec_scalar. rewrite Ho. cbn [Nat.eqb orb]. eexists. reflexivity.
Qed.

Lemma recommended_ok : exists ps, scrypt_to_params recommended = Ok ps /\ scrypt_params_of ps = Ok recommended.
Proof.
  destruct (C68_roundtrip recommended) as (ps & H1 & _ & H2); [|now exists ps].
  unfold scrypt_ok, recommended. cbn [sp_log_n sp_r sp_p]. repeat split.
Qed.
Lemma ssid_of_ok pre : ssid_mode_ok (ssid_of pre).
Proof. destruct pre; cbn; [|exact I]. lia. Qed.

(** The outcome of a test in terms of the points that are exchanged. *)
Definition verdict (points : list (pt R)) : res unit :=
  if existsb is_identity points then Err IllegalPointError else Ok tt.
Lemma verdict_eq points key :
  (let! (client_key, server_key) := honest_outcome R points key in assert_eq client_key server_key) = verdict points.
Proof.
  unfold honest_outcome, verdict. destruct (existsb is_identity points); [reflexivity|]. apply assert_eq_refl.
Qed.
Lemma verdict_spec points : (passes (verdict points) <-> existsb is_identity points = false) /\
  (verdict points = Err IllegalPointError <-> ~ existsb is_identity points = false) /\ verdict points <> Panic.
Proof.
  unfold passes, verdict.
  destruct (existsb is_identity points); repeat split; intros H; try discriminate H; try reflexivity; now elim H.
Qed.

Lemma points_ok ssid w x ya yb :
  existsb is_identity (honest_points R D ssid w x CI ya yb) = false <->
  x <> szero /\ ya <> szero /\ yb <> szero /\ spec_G R D ssid (spec_PRS R w x) CI <> rzero R.
Proof.
  unfold honest_points. cbn [existsb]. rewrite !Bool.orb_false_iff. rewrite !(is_identity_neq L). unfold spec_X.
  rewrite !(rmul_identity L). pose proof (rl_base R L) as HB. clear - HB. split.
  - intros (H1 & H2 & H3 & _). repeat split; intros E; [apply H1|apply H2|apply H3|apply H2]; auto.
  - intros (H1 & H2 & H3 & H4). repeat split; intros [E|E]; auto.
Qed.

(** C79, test_key_agreement.rs: the four tests pass exactly when none of the three scalars drawn in the login
    is zero and the generator of the CPace substep is not the identity.  Otherwise they end with
    [IllegalPointError]; they never panic. *)
Theorem C79_aucpace_plain :
  forall am pre, exists w, spec_w scrypt USERNAME PASSWORD (spec_salt Tc crng) recommended = Ok w /\
  let t := test_key_agreement R D Tc Ts scrypt crng crng' rng_key srng srng' rng_info am pre in
  let ssid := agreed_ssid D Tc Ts (ssid_of pre) {| c_rng := crng' |} {| s_rng := srng'; s_secret := s_secret Ts (server_new Ts srng) |} in
  let x := drawn Ts rng_info in
  let ok := x <> szero /\ drawn Ts (after Ts 64 rng_info) <> szero /\ drawn Tc rng_key <> szero /\
            spec_G R D ssid (spec_PRS R w x) CI <> rzero R in
  (passes t <-> ok) /\ (t = Err IllegalPointError <-> ~ ok) /\ t <> Panic.
Proof.
  intros am pre. destruct (scrypt_w USERNAME PASSWORD (spec_salt Tc crng) recommended (ex_intro _ _ eq_refl)) as [w Hw]. exists w. split; [exact Hw|].
  cbv zeta. destruct recommended_ok as (ps & Hps & Hpo).
  pose proof (do_register_eq R scrypt_params scrypt_to_params AllocBuf Tc (client_new Tc crng) USERNAME PASSWORD recommended scrypt I) as Hreg.
  cbn [do_register client_new c_rng] in Hreg. rewrite Hw, Hps in Hreg. cbn [obind omap_err] in Hreg.
  set (t := test_key_agreement R D Tc Ts scrypt crng crng' rng_key srng srng' rng_info am pre).
  match goal with |- context [agreed_ssid D Tc Ts (ssid_of pre) ?c ?s] =>
    set (cl := c); set (sv := s) end.
  set (ssid := agreed_ssid D Tc Ts (ssid_of pre) cl sv).
  assert (Ht : t = verdict (honest_points R D ssid w (drawn Ts rng_info) CI (drawn Ts (after Ts 64 rng_info)) (drawn Tc rng_key))).
  { unfold t, test_key_agreement. rewrite Hreg. cbn [obind]. fold sv. fold cl.
    rewrite <- (verdict_eq _ (honest_key R D ssid w (drawn Ts rng_info) CI (drawn Ts (after Ts 64 rng_info)) (drawn Tc rng_key))).
    f_equal. apply (honest_login_generic R L D Dlen scrypt_params scrypt_params_of (SingleDb R) Tc Ts am (ssid_of pre) AllocBuf cl sv _
      USERNAME PASSWORD recommended scrypt (store_verifier (SingleDb R) single_default USERNAME (spec_salt Tc crng) None (spec_W R w) ps)
      w (spec_salt Tc crng) ps (drawn Ts rng_info) (after Ts 64 rng_info) CI rng_key).
    - apply ssid_of_ok.
    - exact I.
    - exact (proj1 (proj2 (salt_generate_eq Tc crng))).
    - exact Hw.
    - exact Hpo.
    - reflexivity.
    - intros sess. apply generate_client_info_eq. }
  pose proof (points_ok ssid w (drawn Ts rng_info) (drawn Ts (after Ts 64 rng_info)) (drawn Tc rng_key)) as P.
  rewrite <- P, Ht. apply verdict_spec.
Qed.

(** test_key_agreement_partial_aug.rs: the same, the server's key being the long-term one. *)
Theorem C79_aucpace_partial_aug :
  forall am pre, exists w, spec_w scrypt USERNAME PASSWORD (spec_salt Tc crng) recommended = Ok w /\
  let t := test_key_agreement_partial R D Tc Ts scrypt crng crng' rng_key srng srng' rng_info am pre in
  let ssid := agreed_ssid D Tc Ts (ssid_of pre) {| c_rng := crng' |} {| s_rng := srng'; s_secret := s_secret Ts (server_new Ts srng) |} in
  let x := drawn Ts (s_rng Ts (server_new Ts srng)) in
  let ok := x <> szero /\ drawn Ts rng_info <> szero /\ drawn Tc rng_key <> szero /\
            spec_G R D ssid (spec_PRS R w x) CI <> rzero R in
  (passes t <-> ok) /\ (t = Err IllegalPointError <-> ~ ok) /\ t <> Panic.
Proof.
  intros am pre. destruct (scrypt_w USERNAME PASSWORD (spec_salt Tc crng) recommended (ex_intro _ _ eq_refl)) as [w Hw]. exists w. split; [exact Hw|].
  cbv zeta. destruct recommended_ok as (ps & Hps & Hpo).
  pose proof (do_register_eq R scrypt_params scrypt_to_params AllocBuf Tc (client_new Tc crng) USERNAME PASSWORD recommended scrypt I) as Hreg.
  cbn [do_register client_new c_rng] in Hreg. rewrite Hw, Hps in Hreg. cbn [obind omap_err] in Hreg.
  set (t := test_key_agreement_partial R D Tc Ts scrypt crng crng' rng_key srng srng' rng_info am pre).
  match goal with |- context [agreed_ssid D Tc Ts (ssid_of pre) ?c ?s] => set (cl := c); set (sv := s) end.
  set (ssid := agreed_ssid D Tc Ts (ssid_of pre) cl sv). set (x := drawn Ts (s_rng Ts (server_new Ts srng))).
  assert (Ht : t = verdict (honest_points R D ssid w x CI (drawn Ts rng_info) (drawn Tc rng_key))).
  { unfold t, test_key_agreement_partial. rewrite Hreg. cbn [obind]. rewrite C32_long_term_keypair. fold sv. fold cl. fold x.
    cbn [store_long_term_keypair SinglePartialDb store_verifier SingleDb single_store single_default su_user su_data su_keypair].
    rewrite bytes_eqb_refl. cbn [obind].
    rewrite <- (verdict_eq _ (honest_key R D ssid w x CI (drawn Ts rng_info) (drawn Tc rng_key))).
    f_equal. match goal with |- context [generate_client_info_partial_aug _ _ _ _ _ _ _ ?d _] => set (d' := d) end.
    apply (honest_login_generic R L D Dlen scrypt_params scrypt_params_of (SingleDb R) Tc Ts am (ssid_of pre) AllocBuf cl sv _
      USERNAME PASSWORD recommended scrypt d' w (spec_salt Tc crng) ps x rng_info CI rng_key).
    - apply ssid_of_ok.
    - exact I.
    - exact (proj1 (proj2 (salt_generate_eq Tc crng))).
    - exact Hw.
    - exact Hpo.
    - reflexivity.
    - intros sess. reflexivity. }
  rewrite <- (points_ok ssid w x (drawn Ts rng_info) (drawn Tc rng_key)), Ht. apply verdict_spec.
Qed.

Lemma points_strong_ok ssid user pass q w x ya yb :
  existsb is_identity (honest_points_strong R D ssid user pass q w x CI ya yb) = false <->
  q <> szero /\ spec_Z R D user pass <> rzero R /\
  x <> szero /\ ya <> szero /\ yb <> szero /\ spec_G R D ssid (spec_PRS R w x) CI <> rzero R.
Proof.
  unfold honest_points_strong, honest_points. cbn [existsb tl]. rewrite !Bool.orb_false_iff. rewrite !(is_identity_neq L). unfold spec_X.
  rewrite !(rmul_identity L). pose proof (rl_base R L) as HB. clear - HB. split.
  - intros (H1 & H0 & H2 & H3 & _). repeat split; intros E; [apply H0|apply H0|apply H1|apply H2|apply H3|apply H2]; auto.
  - intros (H5 & H6 & H1 & H2 & H3 & H4). repeat split; intros [E|E]; auto.
Qed.

(** test_key_agreement_strong.rs and test_key_agreement_strong_partial_aug.rs: if the client finds a blinding
    value, the tests pass exactly when, besides, the secret exponent of the registration is not zero and the
    point hashed from the user name and password is not the identity. *)
Theorem C79_aucpace_strong :
  forall fuel am pre r stb', draw_blinding_value Tc fuel rng_blind = Some (r, stb') ->
  let q := drawn Tc crng in
  let Z := spec_Z R D USERNAME PASSWORD in
  exists w t, spec_w scrypt USERNAME PASSWORD (b64_encode (rcompress R (rmul Z q))) recommended = Ok w /\
  test_key_agreement_strong R D Tc Ts scrypt crng crng' rng_blind rng_key srng srng' rng_info fuel am pre = Some t /\
  let ssid := agreed_ssid D Tc Ts (ssid_of pre) {| c_rng := crng' |} {| s_rng := srng'; s_secret := s_secret Ts (server_new Ts srng) |} in
  let x := drawn Ts rng_info in
  let ok := q <> szero /\ Z <> rzero R /\
            x <> szero /\ drawn Ts (after Ts 64 rng_info) <> szero /\ drawn Tc rng_key <> szero /\
            spec_G R D ssid (spec_PRS R w x) CI <> rzero R in
  (passes t <-> ok) /\ (t = Err IllegalPointError <-> ~ ok) /\ t <> Panic.
Proof.
  intros fuel am pre r stb' Hb q Z. destruct (scrypt_w USERNAME PASSWORD (strong_salt R D USERNAME PASSWORD q) recommended (ex_intro _ _ eq_refl)) as [w Hw].
  exists w. cbv zeta. destruct recommended_ok as (ps & Hps & Hpo).
  pose proof (do_register_strong_eq R L D scrypt_params scrypt_to_params AllocBuf Tc (client_new Tc crng) USERNAME PASSWORD recommended scrypt I) as Hreg.
  cbn [do_register_strong client_new c_rng] in Hreg. cbv zeta in Hreg. fold q in Hreg.
  rewrite Hw, Hps in Hreg. cbn [obind omap_err] in Hreg.
  match goal with |- context [agreed_ssid D Tc Ts (ssid_of pre) ?c ?s] => set (cl := c); set (sv := s) end.
  set (ssid := agreed_ssid D Tc Ts (ssid_of pre) cl sv). set (x := drawn Ts rng_info). set (ya := drawn Ts (after Ts 64 rng_info)).
  set (yb := drawn Tc rng_key). set (points := honest_points_strong R D ssid USERNAME PASSWORD q w x CI ya yb).
  exists (verdict points). split; [exact Hw|]. split.
  { unfold test_key_agreement_strong. rewrite Hreg. fold sv. fold cl.
    match goal with |- context [generate_client_info_strong _ _ _ _ _ _ _ ?d _] => set (d' := d) end.
    rewrite (honest_login_strong_generic R L D Dlen scrypt_params scrypt_params_of (TestStrongDb R) Tc Ts am (ssid_of pre) AllocBuf cl sv _
      USERNAME PASSWORD recommended scrypt d' w q ps fuel rng_blind r stb' x (after Ts 64 rng_info) CI rng_key).
    - exact (f_equal Some (verdict_eq _ _)).
    - apply ssid_of_ok.
    - exact I.
    - exact Hw.
    - exact Hpo.
    - reflexivity.
    - exact Hb.
    - intros sess U. apply generate_client_info_strong_eq. }
  unfold Z. rewrite <- (points_strong_ok ssid USERNAME PASSWORD q w x ya yb). apply verdict_spec.
Qed.

Theorem C79_aucpace_strong_partial_aug :
  forall fuel am pre r stb', draw_blinding_value Tc fuel rng_blind = Some (r, stb') ->
  let q := drawn Tc crng in
  let Z := spec_Z R D USERNAME PASSWORD in
  exists w t, spec_w scrypt USERNAME PASSWORD (b64_encode (rcompress R (rmul Z q))) recommended = Ok w /\
  test_key_agreement_strong_partial R D Tc Ts scrypt crng crng' rng_blind rng_key srng srng' rng_info fuel am pre = Some t /\
  let ssid := agreed_ssid D Tc Ts (ssid_of pre) {| c_rng := crng' |} {| s_rng := srng'; s_secret := s_secret Ts (server_new Ts srng) |} in
  let x := drawn Ts (s_rng Ts (server_new Ts srng)) in
  let ok := q <> szero /\ Z <> rzero R /\
            x <> szero /\ drawn Ts rng_info <> szero /\ drawn Tc rng_key <> szero /\
            spec_G R D ssid (spec_PRS R w x) CI <> rzero R in
  (passes t <-> ok) /\ (t = Err IllegalPointError <-> ~ ok) /\ t <> Panic.
Proof.
  intros fuel am pre r stb' Hb q Z. destruct (scrypt_w USERNAME PASSWORD (strong_salt R D USERNAME PASSWORD q) recommended (ex_intro _ _ eq_refl)) as [w Hw].
  exists w. cbv zeta. destruct recommended_ok as (ps & Hps & Hpo).
  pose proof (do_register_strong_eq R L D scrypt_params scrypt_to_params AllocBuf Tc (client_new Tc crng) USERNAME PASSWORD recommended scrypt I) as Hreg.
  cbn [do_register_strong client_new c_rng] in Hreg. cbv zeta in Hreg. fold q in Hreg.
  rewrite Hw, Hps in Hreg. cbn [obind omap_err] in Hreg.
  match goal with |- context [agreed_ssid D Tc Ts (ssid_of pre) ?c ?s] => set (cl := c); set (sv := s) end.
  set (ssid := agreed_ssid D Tc Ts (ssid_of pre) cl sv). set (x := drawn Ts (s_rng Ts (server_new Ts srng))). set (ya := drawn Ts rng_info).
  set (yb := drawn Tc rng_key). set (points := honest_points_strong R D ssid USERNAME PASSWORD q w x CI ya yb).
  exists (verdict points). split; [exact Hw|]. split.
  { unfold test_key_agreement_strong_partial. rewrite Hreg. rewrite C32_long_term_keypair. fold sv. fold cl. fold x.
    cbn [store_long_term_keypair TestStrongPartialDb store_verifier_strong TestStrongDb single_store single_default su_user su_data su_keypair].
    rewrite bytes_eqb_refl.
    match goal with |- context [generate_client_info_partial_strong _ _ _ _ _ _ _ _ ?d _] => set (d' := d) end.
    rewrite (honest_login_strong_generic R L D Dlen scrypt_params scrypt_params_of (TestStrongDb R) Tc Ts am (ssid_of pre) AllocBuf cl sv _
      USERNAME PASSWORD recommended scrypt d' w q ps fuel rng_blind r stb' x rng_info CI rng_key).
    - exact (f_equal Some (verdict_eq _ _)).
    - apply ssid_of_ok.
    - exact I.
    - exact Hw.
    - exact Hpo.
    - reflexivity.
    - exact Hb.
    - intros sess U. unfold generate_client_info_partial_strong. reflexivity. }
  unfold Z. rewrite <- (points_strong_ok ssid USERNAME PASSWORD q w x ya yb). apply verdict_spec.
Qed.
End Proofs.

(** ** The tests in src/client.rs:1046-1268 and src/server.rs:731-881 *)

(** [if let Err(e) = res { assert_eq!(e, Error::IllegalPointError) } else { panic!() }], and the [matches!] on
    [InsecureSsid] *)
Definition expect_illegal_point {A} (r : res A) : res unit := match r with Err IllegalPointError => Ok tt | _ => Panic end.
Definition expect_insecure_ssid {A} (r : res A) : res unit := match r with Err InsecureSsid => Ok tt | _ => Panic end.

Section Unit.
Context (R : RGroup) (L : rgroup_laws R) (D : bytes -> bytes) (Dlen : forall m, length (D m) = 64).
Context (T : Rng) (scrypt : hasher scrypt_params).
Context (Hscrypt : forall m p b, exists o, scrypt m p (b64_encode b) = Ok (Some o) /\ length o = 32).

(** client.rs:1051-1073; [Salt::RECOMMENDED_LENGTH] is 16; the default parameters of scrypt are the
    recommended ones.  Options of hashes are compared. *)
Definition test_hash_password_no_std_and_alloc_agree (rng : rng_state T) : res unit :=
  let username := str "worf@starship.enterprise" in
  let password := str "data_x_worf_4ever_<3" in
  let bytes := fst (rng_fill T 16 rng) in
  let! salt := unwrap_ok (salt_encode_b64 bytes) in
  let! no_std_res := unwrap_ok (hash_password scrypt_params 100 username password salt recommended scrypt) in
  let! alloc_res := unwrap_ok (hash_password_alloc scrypt_params username password salt recommended scrypt) in
  match alloc_res, no_std_res with
  | Some a, Some b => assert_eq a b
  | None, None => Ok tt
  | _, _ => Panic
  end.

(** server.rs:785-833 [FakeDatabase]; its [store] functions are never called *)
Definition FakeDatabase : StrongDatabase R := {|
  sdb := unit;
  lookup_verifier_strong := fun _ _username => Some (rbase R, szero, []);
  store_verifier_strong := fun d _ _ _ _ _ => d
|}.
Definition FakePartialDatabase : PartialAugDatabase R (sdb FakeDatabase) := {|
  lookup_long_term_keypair := fun _ _username => Some (szero, rbase R);
  store_long_term_keypair := fun _ _ _ _ => Panic
|}.

Theorem C79_aucpace_hash_agree : forall rng, passes (test_hash_password_no_std_and_alloc_agree rng).
Proof.
  intros rng. unfold passes, test_hash_password_no_std_and_alloc_agree.
  pose proof (salt_encode_ok (fst (rng_fill T 16 rng))) as H. rewrite (rng_fill_length T 16 rng) in H.
  destruct H as [E V]; [lia|]. rewrite E. cbn [unwrap_ok obind].
  set (user := str "worf@starship.enterprise"). set (pass := str "data_x_worf_4ever_<3").
  set (salt := b64_encode (fst (rng_fill T 16 rng))) in *.
  rewrite hash_password_eq.
  assert (F : Nat.ltb 100 (length user + length pass + 1) = false) by reflexivity. rewrite F. clear F.
  rewrite hash_password_alloc_eq, as_salt_ok by exact V. cbn [obind].
  unfold salt. destruct (Hscrypt (userpass user pass) recommended (fst (rng_fill T 16 rng))) as (o & -> & _). cbn [omap_err unwrap_ok obind]. apply assert_eq_refl.
Qed.

(** The other tests.  [H0::<Sha512>().finalize()] is the digest of the index; the scalars 69 and 420. *)
Definition ssid0 : bytes := D (word x00).
Definition bob_password : bytes := str "bob's very secure password that nobody knows about, honest".
Definition bob : AuCPaceClientAugLayer := {| cal_ssid := ssid0; cal_username := str "bob"; cal_password := bob_password |}.
Definition strong_bob : StrongAuCPaceClientAugLayer :=
  {| scal_ssid := ssid0; scal_username := str "bob"; scal_password := bob_password; scal_blinding_value := sof 69 |}.
Definition saltyboi : bytes := b64_encode (str "saltyboi").
Definition aug_server : AuCPaceServerAugLayer := {| sal_secret := 25519; sal_ssid := ssid0 |}.

Definition unit_tests (rng : rng_state T) : list (res unit) := [
  (* client.rs:1075-1084 *)
  expect_insecure_ssid (client_begin_prestablished_ssid D (str "bad ssid"));
  (* client.rs:1086-1110, 1112-1136 *)
  expect_illegal_point (generate_cpace R scrypt_params 100 bob (rzero R) saltyboi recommended scrypt);
  expect_illegal_point (generate_cpace_alloc R scrypt_params bob (rzero R) saltyboi recommended scrypt);
  (* client.rs:1138-1165, 1167-1199 *)
  expect_illegal_point (strong_generate_cpace R scrypt_params 100 strong_bob (rzero R) (rbase R) recommended scrypt);
  expect_illegal_point (strong_generate_cpace_alloc R scrypt_params strong_bob (rzero R) (rbase R) recommended scrypt);
  (* client.rs:1201-1216, 1218-1233 *)
  expect_illegal_point (receive_server_pubkey R D {| crs_ssid := ssid0; crs_priv_key := sof 420 |} (rzero R));
  expect_illegal_point (client_implicit_auth R D {| crs_ssid := ssid0; crs_priv_key := sof 420 |} (rzero R));
  (* client.rs:1235-1267 *)
  expect_illegal_point (strong_generate_cpace_alloc R scrypt_params strong_bob (rbase R) (rzero R) recommended scrypt);
  (* server.rs:738-746 *)
  expect_insecure_ssid (server_begin_prestablished_ssid D T (server_new T rng) (str "bad ssid"));
  (* server.rs:748-763, 765-780 *)
  expect_illegal_point (receive_client_pubkey R D {| src_ssid := ssid0; src_priv_key := sof 420 |} (rzero R));
  expect_illegal_point (server_implicit_auth R D {| src_ssid := ssid0; src_priv_key := sof 420 |} (rzero R));
  (* server.rs:835-857, 859-880 *)
  expect_illegal_point (generate_client_info_strong R D FakeDatabase T aug_server (str "bobbyyyy") (rzero R) tt rng);
  expect_illegal_point (generate_client_info_partial_strong R D FakeDatabase FakePartialDatabase T aug_server (str "bobbyyyy")
    (rzero R) tt rng)
].

Theorem C79_aucpace_unit_tests : forall rng, Forall passes (unit_tests rng).
Proof.
  intros rng. unfold unit_tests, passes.
  destruct (C35_identity_refused R L D scrypt_params) as (P1 & P2 & P3 & _ & P5 & P6 & P7 & P8 & P9 & P10).
  pose proof (fun c salt => P1 (FixedBuf 100) c salt) as P1f. pose proof (fun c salt => P1 AllocBuf c salt) as P1a.
  pose proof (fun c salt => P2 (FixedBuf 100) c salt) as P2f. pose proof (fun c salt => P2 AllocBuf c salt) as P2a.
  cbn [do_generate_cpace do_strong_generate_cpace] in P1f, P1a, P2f, P2a, P3.
  rewrite P1f, P1a, P2f, P2a, P3, P5, P6, P7, P8, P9, P10.
  repeat constructor; reflexivity.
Qed.
End Unit.

Print Assumptions C79_aucpace_plain.
Print Assumptions C79_aucpace_partial_aug.
Print Assumptions C79_aucpace_strong.
Print Assumptions C79_aucpace_strong_partial_aug.
Print Assumptions C79_aucpace_hash_agree.
Print Assumptions C79_aucpace_unit_tests.

(** ** Cases: the sixteen tests over the toy group pass; with a generator of zeros they end with an error *)
Lemma sc_hash_32 : forall m p b, exists o, sc_hash m p (b64_encode b) = Ok (Some o) /\ length o = 32.
Proof. intros m p b. eexists. split; [reflexivity|]. reflexivity. Qed.

Definition returned (t : res unit) : bool := match t with Ok _ => true | _ => false end.
Definition illegal (t : res unit) : bool := match t with Err IllegalPointError => true | _ => false end.
Definition some_returned (t : option (res unit)) : bool := match t with Some t => returned t | None => false end.
Definition sixteen (R : RGroup) (D : bytes -> bytes) (t1 t2 t3 t4 : bytes) : bool :=
  forallb (fun am => forallb (fun pre =>
    returned (test_key_agreement R D tape_rng tape_rng sc_hash t1 t2 t3 t2 t1 t4 am pre) &&
    returned (test_key_agreement_partial R D tape_rng tape_rng sc_hash t1 t2 t3 t2 t1 t4 am pre) &&
    some_returned (test_key_agreement_strong R D tape_rng tape_rng sc_hash t1 t2 t4 t3 t2 t1 t4 1 am pre) &&
    some_returned (test_key_agreement_strong_partial R D tape_rng tape_rng sc_hash t1 t2 t4 t3 t2 t1 t4 1 am pre))
    [true; false]) [Explicit; Implicit].
Check (test (sixteen ToyGroup toyD (toy_tape 3001 3002) (toy_tape 4001 4002) (toy_tape 5001 5002) (toy_tape 6001 6002)) true).
Example C79_aucpace_case : returned (test_key_agreement ToyGroup toyD tape_rng tape_rng sc_hash (toy_tape 3001 3002)
  (toy_tape 4001 4002) (toy_tape 5001 5002) (toy_tape 4001 4002) (toy_tape 3001 3002) (toy_tape 6001 6002) Implicit false) = true.
Proof. vm_cast_no_check (eq_refl true). Qed.
Example C79_aucpace_case_zeros :
  illegal (test_key_agreement ToyGroup toyD tape_rng tape_rng sc_hash [] [] [] [] [] [] Explicit false) = true.
Proof. vm_cast_no_check (eq_refl true). Qed.
