(** * Properties C29-C36, C40-C46, C50 of the aucpace crate.

    Everything is for any group [R] with the laws of ristretto255, any digest [D] of 64 bytes, any
    password hasher with any parameter type, any random generators and any database. *)
From Coq Require Import ZArith Lia.
From Verif Require Import Base.Bytes Base.Outcome Base.CtEq Base.Rng Base.Kat.
From Verif Require Import Curve.Primes Curve.Scalar25519.
From Verif Require Import Aucpace.RistrettoGroup Aucpace.PwHash Aucpace.AucpaceModel Aucpace.AucpaceSpec
  Aucpace.AucpaceRun Aucpace.AucpaceDb Aucpace.AucpaceToy Aucpace.AucpaceProofs.
Local Open Scope nat_scope.

Section Props.
Context (R : RGroup) (L : rgroup_laws R) (D : bytes -> bytes).
Context (Dlen : forall m, length (D m) = 64).
Context (Params : Type) (params_try_into : Params -> outcome pherror bytes).
Context (params_of : bytes -> res Params).

(** ** Honest runs *)

(** The two session keys of an honest run, from the protocol table: [w] is the password scalar, [x]
    the server's augmentation key, [ya] and [yb] the CPace keys. *)
Definition honest_key (ssid : bytes) (w x : scalar) (ci : bytes) (ya yb : scalar) : bytes :=
  spec_sk D ssid (spec_sk1 R D ssid (spec_PRS R w x) ci ya yb).

(** The points exchanged in an honest run. *)
Definition honest_points (ssid : bytes) (w x : scalar) (ci : bytes) (ya yb : scalar) : list (pt R) :=
  [ spec_X R x;
    rmul (spec_G R D ssid (spec_PRS R w x) ci) ya;
    rmul (spec_G R D ssid (spec_PRS R w x) ci) yb ].

(** Its outcome, given the points exchanged. *)
Definition honest_outcome (points : list (pt R)) (key : bytes) : res (bytes * bytes) :=
  if existsb is_identity points then Err IllegalPointError else Ok (key, key).

Lemma run_cpace_eq am Tc Ts ssid prs ci sts stc :
  run_cpace R D am Tc Ts {| ccs_ssid := ssid; ccs_prs := prs |}
    {| scs_ssid := ssid; scs_prs := prs; scs_rng := sts |} ci ci stc
  = cpace_result R D ssid prs ci (drawn Ts sts) (drawn Tc stc).
Proof.
  destruct am; cbn [run_cpace]; [now apply run_explicit_eq|now apply run_implicit_eq].
Qed.

Lemma honest_login_generic (DB : Database R) Tc Ts am sm m (c : AuCPaceClient Tc) (s : AuCPaceServer Ts)
  info user pass params h d w salt ps x st ci stc :
  ssid_mode_ok sm -> fits m user pass -> salt_valid salt ->
  spec_w h user pass salt params = Ok w -> params_of ps = Ok params ->
  lookup_verifier DB d user = Some (spec_W R w, salt, ps) ->
  (forall sess, info sess user
    = cpace_substep R Ts sess (generate_prs R D DB Ts sess user d st x (spec_X R x))) ->
  let ssid := agreed_ssid D Tc Ts sm c s in
  run_login R D Params params_of am Tc Ts sm m c s info user pass h ci stc
  = honest_outcome (honest_points ssid w x ci (drawn Ts st) (drawn Tc stc))
                   (honest_key ssid w x ci (drawn Ts st) (drawn Tc stc)).
Proof.
  intros Hm HF V Hw Hp Hl Hi ssid. unfold run_login.
  rewrite run_ssid_eq by assumption. cbn [obind]. fold ssid.
  rewrite (run_aug_registered R L D Params params_of DB Ts info m ssid (s_secret Ts s) user pass
             params h d w salt ps x st HF V Hw Hp Hl (Hi _)).
  unfold honest_outcome, honest_points. cbn [existsb].
  destruct (is_identity (spec_X R x)); [reflexivity|]. cbn [obind orb].
  rewrite run_cpace_eq. unfold cpace_result. rewrite Bool.orb_false_r. reflexivity.
Qed.

Lemma honest_outcome_ok points key :
  (forall P, In P points -> P <> rzero R) -> honest_outcome points key = Ok (key, key).
Proof.
  intros H. unfold honest_outcome. destruct (existsb is_identity points) eqn:E; [|reflexivity].
  apply existsb_exists in E. destruct E as (P & Hin & HP).
  apply (is_identity_eq L) in HP. now apply H in Hin.
Qed.

(** C29: after [register] and [store_verifier], a login with the same password returns, on both sides,
    the session key of the protocol table, unless one of the three points exchanged is the identity,
    and then it ends with [IllegalPointError]. *)
Theorem C29_honest_login :
  forall (DB : Database R) Treg Tc Ts (creg : AuCPaceClient Treg) (c : AuCPaceClient Tc)
    (s : AuCPaceServer Ts) sm mreg m user pass params (h : hasher Params) u salt ps W creg' d uad ci
    (sts : rng_state Ts) (stc : rng_state Tc),
  ssid_mode_ok sm -> fits mreg user pass -> fits m user pass ->
  do_register R Params params_try_into mreg Treg creg user pass params h
    = (Ok (CRegistration u salt ps W), creg') ->
  params_of ps = Ok params ->
  let d' := store_verifier DB d u salt uad W ps in
  lookup_verifier DB d' user = Some (W, salt, ps) ->
  exists w, spec_w h user pass salt params = Ok w /\
  let ssid := agreed_ssid D Tc Ts sm c s in
  let x := drawn Ts sts in
  let ya := drawn Ts (after Ts 64 sts) in
  let yb := drawn Tc stc in
  run_login R D Params params_of Explicit Tc Ts sm m c s
    (fun sess u => generate_client_info R D DB Ts sess u d' sts) user pass h ci stc
  = honest_outcome (honest_points ssid w x ci ya yb) (honest_key ssid w x ci ya yb).
Proof.
  intros DB Treg Tc Ts creg c s sm mreg m user pass params h u salt ps W creg' d uad ci sts stc
    Hm HFr HF Hreg Hp d' Hl.
  apply do_register_ok in Hreg; [|exact HFr].
  destruct Hreg as (-> & Hs & Ht & w & Hw & ->). exists w. split; [exact Hw|]. cbv zeta.
  apply (honest_login_generic DB Tc Ts Explicit sm m c s
           (fun sess u => generate_client_info R D DB Ts sess u d' sts) user pass params h d' w salt ps
           (drawn Ts sts) (after Ts 64 sts) ci stc); try assumption.
  - rewrite Hs. apply salt_generate_eq.
  - intros sess. apply generate_client_info_eq.
Qed.

(** ... so both sides return the same 64-byte key when no exchanged point is the identity. *)
Theorem C29_agreement :
  forall (DB : Database R) Treg Tc Ts (creg : AuCPaceClient Treg) (c : AuCPaceClient Tc)
    (s : AuCPaceServer Ts) sm mreg m user pass params (h : hasher Params) u salt ps W creg' d uad ci
    (sts : rng_state Ts) (stc : rng_state Tc),
  ssid_mode_ok sm -> fits mreg user pass -> fits m user pass ->
  do_register R Params params_try_into mreg Treg creg user pass params h
    = (Ok (CRegistration u salt ps W), creg') ->
  params_of ps = Ok params ->
  let d' := store_verifier DB d u salt uad W ps in
  lookup_verifier DB d' user = Some (W, salt, ps) ->
  (forall w, spec_w h user pass salt params = Ok w ->
     forall P, In P (honest_points (agreed_ssid D Tc Ts sm c s) w (drawn Ts sts) ci
                       (drawn Ts (after Ts 64 sts)) (drawn Tc stc)) -> P <> rzero R) ->
  exists key, length key = 64 /\
  run_login R D Params params_of Explicit Tc Ts sm m c s
    (fun sess u => generate_client_info R D DB Ts sess u d' sts) user pass h ci stc = Ok (key, key).
Proof.
  intros DB Treg Tc Ts creg c s sm mreg m user pass params h u salt ps W creg' d uad ci sts stc
    Hm HFr HF Hreg Hp d' Hl Hpts.
  destruct (C29_honest_login DB Treg Tc Ts creg c s sm mreg m user pass params h u salt ps W creg' d
              uad ci sts stc Hm HFr HF Hreg Hp Hl) as (w & Hw & E).
  cbv zeta in E. eexists. split; [|etransitivity; [exact E|apply honest_outcome_ok, (Hpts w Hw)]].
  apply Dlen.
Qed.

(** ** C30: implicit authentication *)

(** On each side, for every state and every received key: the explicit path returns a key only if
    implicit authentication returns that key; implicit authentication returns a key only if some
    authenticator makes the explicit path return it; they refuse the same points. *)
Theorem C30_client_implicit_is_explicit : forall c Y,
  (forall st msg a k, receive_server_pubkey R D c Y = Ok (st, msg) ->
     receive_server_authenticator D st a = Ok k -> client_implicit_auth R D c Y = Ok k) /\
  (forall k, client_implicit_auth R D c Y = Ok k ->
     exists st msg a, receive_server_pubkey R D c Y = Ok (st, msg) /\
                      receive_server_authenticator D st a = Ok k) /\
  (forall e, client_implicit_auth R D c Y = Err e <-> receive_server_pubkey R D c Y = Err e).
Proof.
  intros c Y. unfold client_implicit_auth, receive_server_pubkey.
  destruct (is_identity Y).
  { repeat apply conj; [discriminate|discriminate|intros e; split; intros E; injection E as <-; reflexivity]. }
  rewrite authenticators_eq. unfold spec_Tb. rewrite expect64_D by exact Dlen. cbn [obind].
  repeat apply conj; [| |intros e; split; discriminate].
  - intros st msg a k E. injection E as <- <-. unfold receive_server_authenticator. cbn.
    destruct (N.eqb _ 1); congruence.
  - intros k E. injection E as <-. do 3 eexists. split; [reflexivity|].
    unfold receive_server_authenticator. cbn [cem_ssid cem_sk1 cem_server_authenticator].
    rewrite slice_ct_eqb, bytes_eqb_refl. reflexivity.
Qed.

Theorem C30_server_implicit_is_explicit : forall s Y,
  (forall st a k msg, receive_client_pubkey R D s Y = Ok st ->
     receive_client_authenticator R D st a = Ok (k, msg) -> server_implicit_auth R D s Y = Ok k) /\
  (forall k, server_implicit_auth R D s Y = Ok k ->
     exists st a msg, receive_client_pubkey R D s Y = Ok st /\
                      receive_client_authenticator R D st a = Ok (k, msg)) /\
  (forall e, server_implicit_auth R D s Y = Err e <-> receive_client_pubkey R D s Y = Err e).
Proof.
  intros s Y. unfold server_implicit_auth, receive_client_pubkey.
  destruct (is_identity Y).
  { repeat apply conj; [discriminate|discriminate|intros e; split; intros E; injection E as <-; reflexivity]. }
  repeat apply conj; [| |intros e; split; discriminate].
  - intros st a k msg E. injection E as <-. unfold receive_client_authenticator.
    rewrite authenticators_eq. unfold spec_Ta. rewrite expect64_D by exact Dlen. cbn.
    destruct (N.eqb _ 1); congruence.
  - intros k E. injection E as <-. do 3 eexists. split; [reflexivity|].
    unfold receive_client_authenticator. rewrite authenticators_eq, slice_ct_eqb, bytes_eqb_refl.
    unfold spec_Ta. rewrite expect64_D by exact Dlen. reflexivity.
Qed.

(** In an honest run implicit authentication ends as explicit authentication does. *)
Theorem C30_honest_login :
  forall (DB : Database R) Treg Tc Ts (creg : AuCPaceClient Treg) (c : AuCPaceClient Tc)
    (s : AuCPaceServer Ts) sm mreg m user pass params (h : hasher Params) u salt ps W creg' d uad ci
    (sts : rng_state Ts) (stc : rng_state Tc),
  ssid_mode_ok sm -> fits mreg user pass -> fits m user pass ->
  do_register R Params params_try_into mreg Treg creg user pass params h
    = (Ok (CRegistration u salt ps W), creg') ->
  params_of ps = Ok params ->
  let d' := store_verifier DB d u salt uad W ps in
  lookup_verifier DB d' user = Some (W, salt, ps) ->
  let info := fun sess u => generate_client_info R D DB Ts sess u d' sts in
  exists w, spec_w h user pass salt params = Ok w /\
  let ssid := agreed_ssid D Tc Ts sm c s in
  let x := drawn Ts sts in
  let ya := drawn Ts (after Ts 64 sts) in
  let yb := drawn Tc stc in
  run_login R D Params params_of Implicit Tc Ts sm m c s info user pass h ci stc
  = honest_outcome (honest_points ssid w x ci ya yb) (honest_key ssid w x ci ya yb) /\
  run_login R D Params params_of Implicit Tc Ts sm m c s info user pass h ci stc
  = run_login R D Params params_of Explicit Tc Ts sm m c s info user pass h ci stc.
Proof.
  intros DB Treg Tc Ts creg c s sm mreg m user pass params h u salt ps W creg' d uad ci sts stc
    Hm HFr HF Hreg Hp d' Hl info.
  pose proof Hreg as Hreg'. apply do_register_ok in Hreg; [|exact HFr].
  destruct Hreg as (-> & Hs & Ht & w & Hw & HW). exists w. split; [exact Hw|]. cbv zeta.
  assert (V : salt_valid salt) by (rewrite Hs; apply salt_generate_eq).
  rewrite HW in Hl.
  pose proof (fun am => honest_login_generic DB Tc Ts am sm m c s info user pass params h d' w salt ps
           (drawn Ts sts) (after Ts 64 sts) ci stc Hm HF V Hw Hp Hl
           (fun sess => generate_client_info_eq R D DB Ts sess user d' sts)) as G.
  cbv zeta in G. split; [apply (G Implicit)|].
  now rewrite (G Implicit), (G Explicit).
Qed.

(** ** C31: the strong variant *)

(** The points exchanged: also the blinded salt, which is the identity exactly when the salt point is
    (the client's blinded point is when [Z] is). *)
Definition honest_points_strong (ssid user pass : bytes) (q w x : scalar) (ci : bytes) (ya yb : scalar)
  : list (pt R) :=
  spec_X R x :: rmul (spec_Z R D user pass) q :: tl (honest_points ssid w x ci ya yb).

Lemma honest_login_strong_generic (DB : StrongDatabase R) Tc Ts am sm m (c : AuCPaceClient Tc)
  (s : AuCPaceServer Ts) info user pass params h d w q ps fuel stb r stb' x st ci stc :
  ssid_mode_ok sm -> fits m user pass ->
  spec_w h user pass (strong_salt R D user pass q) params = Ok w -> params_of ps = Ok params ->
  lookup_verifier_strong DB d user = Some (spec_W R w, q, ps) ->
  draw_blinding_value Tc fuel stb = Some (r, stb') ->
  (forall sess U, info sess user U
    = cpace_substep R Ts sess (generate_prs_strong R D DB Ts sess user U d st x (spec_X R x))) ->
  let ssid := agreed_ssid D Tc Ts sm c s in
  run_login_strong R D Params params_of am Tc Ts sm m c s info fuel user pass h ci stb stc
  = Some (honest_outcome (honest_points_strong ssid user pass q w x ci (drawn Ts st) (drawn Tc stc))
                         (honest_key ssid w x ci (drawn Ts st) (drawn Tc stc))).
Proof.
  intros Hm HF Hw Hp Hl Hb Hi ssid. unfold run_login_strong.
  rewrite run_ssid_eq by assumption. fold ssid.
  rewrite start_augmentation_strong_eq, Hb. cbn [cpa_ssid]. f_equal.
  rewrite (run_aug_strong_registered R L D Params params_of DB Ts info m ssid (s_secret Ts s) user pass
             params h d w q ps r x st HF (draw_blinding_value_nonzero _ _ _ _ _ Hb) Hw Hp Hl (Hi _)).
  unfold honest_outcome, honest_points_strong, honest_points. cbn [existsb tl].
  destruct (is_identity (spec_X R x)); [reflexivity|].
  destruct (is_identity (rmul (spec_Z R D user pass) q)); [reflexivity|]. cbn [obind orb].
  rewrite run_cpace_eq. unfold cpace_result. rewrite Bool.orb_false_r. reflexivity.
Qed.

(** C31: after [register_strong] and [store_verifier_strong], with whatever blinding value was drawn,
    both sides return the session key of the protocol table (for explicit and implicit
    authentication), unless an exchanged point is the identity. *)
Theorem C31_honest_login :
  forall (DB : StrongDatabase R) Treg Tc Ts am (creg : AuCPaceClient Treg) (c : AuCPaceClient Tc)
    (s : AuCPaceServer Ts) sm mreg m user pass params (h : hasher Params) u q ps W creg' d uad ci
    (sts : rng_state Ts) (stb stc : rng_state Tc) fuel r stb',
  ssid_mode_ok sm -> fits mreg user pass -> fits m user pass ->
  do_register_strong R D Params params_try_into mreg Treg creg user pass params h
    = (Ok (CStrongRegistration u q ps W), creg') ->
  params_of ps = Ok params ->
  let d' := store_verifier_strong DB d u uad W q ps in
  lookup_verifier_strong DB d' user = Some (W, q, ps) ->
  draw_blinding_value Tc fuel stb = Some (r, stb') ->
  exists w, spec_w h user pass (b64_encode (rcompress R (rmul (spec_Z R D user pass) q))) params = Ok w /\
  let ssid := agreed_ssid D Tc Ts sm c s in
  let x := drawn Ts sts in
  let ya := drawn Ts (after Ts 64 sts) in
  let yb := drawn Tc stc in
  run_login_strong R D Params params_of am Tc Ts sm m c s
    (fun sess u U => generate_client_info_strong R D DB Ts sess u U d' sts) fuel user pass h ci stb stc
  = Some (honest_outcome (honest_points_strong ssid user pass q w x ci ya yb)
                         (honest_key ssid w x ci ya yb)).
Proof.
  intros DB Treg Tc Ts am creg c s sm mreg m user pass params h u q ps W creg' d uad ci sts stb stc
    fuel r stb' Hm HFr HF Hreg Hp d' Hl Hb.
  apply do_register_strong_ok in Hreg; [|exact L|exact HFr].
  destruct Hreg as (-> & Ht & w & Hw & ->). exists w. split; [exact Hw|]. cbv zeta.
  apply (honest_login_strong_generic DB Tc Ts am sm m c s
           (fun sess u U => generate_client_info_strong R D DB Ts sess u U d' sts) user pass params h d' w q ps
           fuel stb r stb' (drawn Ts sts) (after Ts 64 sts) ci stc); try assumption.
  intros sess U. apply generate_client_info_strong_eq.
Qed.

(** The salt the client recovers is the one used at registration: the server's answer to the client's
    blinded point, unblinded, is the salt point, for every non-zero blinding value. *)
Theorem C31_salt_recovered :
  forall Tc fuel c user pass stb cl u U stb' (q : scalar),
  start_augmentation_strong R D Tc fuel c user pass stb = Some ((cl, CStrongUsername u U), stb') ->
  rmul (rmul U q) (sinv (scal_blinding_value cl)) = rmul (spec_Z R D user pass) q.
Proof.
  intros Tc fuel c user pass stb cl u U stb' q. rewrite start_augmentation_strong_eq.
  destruct (draw_blinding_value Tc fuel stb) as [[r st]|] eqn:E; [|discriminate].
  intros H. injection H as <- <- <- <-. cbn [scal_blinding_value].
  apply unblind; [exact L|]. now apply draw_blinding_value_nonzero in E.
Qed.

(** ** C32: partial augmentation *)

(** A key pair from [generate_long_term_keypair] is (x, B^x). *)
Theorem C32_long_term_keypair : forall Ts (s : AuCPaceServer Ts),
  generate_long_term_keypair R Ts s
  = ((drawn Ts (s_rng Ts s), spec_X R (drawn Ts (s_rng Ts s))),
     {| s_rng := after Ts 64 (s_rng Ts s); s_secret := s_secret Ts s |}).
Proof.
  intros Ts s. unfold generate_long_term_keypair. now rewrite generate_server_keypair_eq.
Qed.

(** After register, store, [generate_long_term_keypair] and [store_long_term_keypair], a login with
    [generate_client_info_partial_aug] ends as with a fresh key: same key on both sides. *)
Theorem C32_honest_login :
  forall (DB : Database R) (PDB : PartialAugDatabase R (db DB)) Treg Tc Ts Tk am
    (creg : AuCPaceClient Treg) (c : AuCPaceClient Tc)
    (s : AuCPaceServer Ts) (sk sk' : AuCPaceServer Tk) sm mreg m user pass params (h : hasher Params)
    u salt ps W creg' d d' uad ci (sts : rng_state Ts) (stc : rng_state Tc) x X,
  db_lawful DB -> pdb_lawful PDB (lookup_verifier DB) ->
  ssid_mode_ok sm -> fits mreg user pass -> fits m user pass ->
  do_register R Params params_try_into mreg Treg creg user pass params h
    = (Ok (CRegistration u salt ps W), creg') ->
  params_of ps = Ok params ->
  generate_long_term_keypair R Tk sk = ((x, X), sk') ->
  store_long_term_keypair PDB (store_verifier DB d u salt uad W ps) user x X = Ok d' ->
  exists w, spec_w h user pass salt params = Ok w /\
  let ssid := agreed_ssid D Tc Ts sm c s in
  run_login R D Params params_of am Tc Ts sm m c s
    (fun sess u => generate_client_info_partial_aug R D DB PDB Ts sess u d' sts) user pass h ci stc
  = honest_outcome (honest_points ssid w x ci (drawn Ts sts) (drawn Tc stc))
                   (honest_key ssid w x ci (drawn Ts sts) (drawn Tc stc)).
Proof.
  intros DB PDB Treg Tc Ts Tk am creg c s sk sk' sm mreg m user pass params h u salt ps W creg' d d' uad
    ci sts stc x X HDB HPDB Hm HFr HF Hreg Hp Hk Hst.
  rewrite C32_long_term_keypair in Hk. injection Hk as Hx HX _. rewrite Hx in HX. subst X.
  apply do_register_ok in Hreg; [|exact HFr].
  destruct Hreg as (-> & Hs & Ht & w & Hw & ->). exists w. split; [exact Hw|]. cbv zeta.
  apply (honest_login_generic DB Tc Ts am sm m c s
           (fun sess u => generate_client_info_partial_aug R D DB PDB Ts sess u d' sts)
           user pass params h d' w salt ps x sts ci stc); try assumption.
  - rewrite Hs. apply salt_generate_eq.
  - rewrite (pdl_verifier _ _ HPDB _ _ _ _ _ _ Hst). apply (dl_same _ HDB).
  - intros sess. unfold generate_client_info_partial_aug.
    now rewrite (pdl_same _ _ HPDB _ _ _ _ _ Hst).
Qed.

Theorem C32_honest_login_strong :
  forall (DB : StrongDatabase R) (PDB : PartialAugDatabase R (sdb DB)) Treg Tc Ts Tk am
    (creg : AuCPaceClient Treg) (c : AuCPaceClient Tc)
    (s : AuCPaceServer Ts) (sk sk' : AuCPaceServer Tk) sm mreg m user pass params (h : hasher Params)
    u q ps W creg' d d' uad ci (sts : rng_state Ts) (stb stc : rng_state Tc) fuel r stb' x X,
  sdb_lawful DB -> pdb_lawful PDB (lookup_verifier_strong DB) ->
  ssid_mode_ok sm -> fits mreg user pass -> fits m user pass ->
  do_register_strong R D Params params_try_into mreg Treg creg user pass params h
    = (Ok (CStrongRegistration u q ps W), creg') ->
  params_of ps = Ok params ->
  generate_long_term_keypair R Tk sk = ((x, X), sk') ->
  store_long_term_keypair PDB (store_verifier_strong DB d u uad W q ps) user x X = Ok d' ->
  draw_blinding_value Tc fuel stb = Some (r, stb') ->
  exists w, spec_w h user pass (b64_encode (rcompress R (rmul (spec_Z R D user pass) q))) params = Ok w /\
  let ssid := agreed_ssid D Tc Ts sm c s in
  run_login_strong R D Params params_of am Tc Ts sm m c s
    (fun sess u U => generate_client_info_partial_strong R D DB PDB Ts sess u U d' sts)
    fuel user pass h ci stb stc
  = Some (honest_outcome (honest_points_strong ssid user pass q w x ci (drawn Ts sts) (drawn Tc stc))
                         (honest_key ssid w x ci (drawn Ts sts) (drawn Tc stc))).
Proof.
  intros DB PDB Treg Tc Ts Tk am creg c s sk sk' sm mreg m user pass params h u q ps W creg' d d' uad
    ci sts stb stc fuel r stb' x X HDB HPDB Hm HFr HF Hreg Hp Hk Hst Hb.
  rewrite C32_long_term_keypair in Hk. injection Hk as Hx HX _. rewrite Hx in HX. subst X.
  apply do_register_strong_ok in Hreg; [|exact L|exact HFr].
  destruct Hreg as (-> & Ht & w & Hw & ->). exists w. split; [exact Hw|]. cbv zeta.
  apply (honest_login_strong_generic DB Tc Ts am sm m c s
           (fun sess u U => generate_client_info_partial_strong R D DB PDB Ts sess u U d' sts)
           user pass params h d' w q ps fuel stb r stb' x sts ci stc); try assumption.
  - rewrite (pdl_verifier _ _ HPDB _ _ _ _ _ _ Hst). apply (sdl_same _ HDB).
  - intros sess U. unfold generate_client_info_partial_strong.
    now rewrite (pdl_same _ _ HPDB _ _ _ _ _ Hst).
Qed.

(** ** C33: the SSID *)

(** Both sides derive the same SSID. *)
Theorem C33_same_ssid :
  forall Tc Ts K1 (c : AuCPaceClient Tc) (s : AuCPaceServer Ts),
  let '((sess_s, msg_s), _) := server_begin R Ts K1 s in
  let '((sess_c, msg_c), _) := client_begin R Tc K1 c in
  exists ns nc, msg_s = SNonce ns /\ msg_c = CNonce nc /\ length ns = K1 /\ length nc = K1 /\
  cpa_ssid (client_agree_ssid D sess_c ns) = spec_ssid D ns nc /\
  sal_ssid (server_agree_ssid D sess_s nc) = spec_ssid D ns nc.
Proof.
  intros Tc Ts K1 c s. unfold server_begin, client_begin, generate_nonce.
  pose proof (rng_fill_length Ts K1 (s_rng Ts s)). pose proof (rng_fill_length Tc K1 (c_rng Tc c)).
  destruct (rng_fill Ts K1 (s_rng Ts s)) as [ns sts], (rng_fill Tc K1 (c_rng Tc c)) as [nc stc].
  exists ns, nc. do 4 (split; [first [reflexivity|assumption]|]). split.
  - unfold client_agree_ssid. cbn. apply compute_ssid_eq.
  - unfold server_agree_ssid. cbn. apply compute_ssid_eq.
Qed.

(** Two sessions (of any nonce sizes) with the same SSID used the same nonces, or their SSID messages
    are a collision of the digest. *)
Theorem C33_ssid_determines_nonces :
  forall (cl : AuCPaceClientSsidEstablish) (sv : AuCPaceServerSsidEstablish) ns nc K1 K1',
  length ns = K1 -> length (cse_nonce cl) = K1 ->
  length (sse_nonce sv) = K1' -> length nc = K1' ->
  cpa_ssid (client_agree_ssid D cl ns) = sal_ssid (server_agree_ssid D sv nc) ->
  (ns = sse_nonce sv /\ cse_nonce cl = nc) \/
  collision D (word x00 ++ ns ++ cse_nonce cl) (word x00 ++ sse_nonce sv ++ nc).
Proof.
  intros cl sv ns nc K1 K1' H1 H2 H3 H4 E. unfold client_agree_ssid, server_agree_ssid in E.
  cbn [cpa_ssid sal_ssid] in E. rewrite (compute_ssid_eq D ns), (compute_ssid_eq D (sse_nonce sv)) in E. unfold spec_ssid in E.
  destruct (list_eq_dec byte_eq_dec (ns ++ cse_nonce cl) (sse_nonce sv ++ nc)) as [Eq|Ne].
  - left. pose proof (f_equal (@length _) Eq) as HL. rewrite !app_length in HL.
    apply app_inj_length; [lia|exact Eq].
  - right. split; [|exact E]. intros Eq. now apply app_inv_head in Eq.
Qed.

(** The same for two sessions of the same side. *)
Theorem C33_ssid_determines_nonces_client :
  forall (cl cl' : AuCPaceClientSsidEstablish) ns ns' K1 K1',
  length ns = K1 -> length (cse_nonce cl) = K1 -> length ns' = K1' -> length (cse_nonce cl') = K1' ->
  cpa_ssid (client_agree_ssid D cl ns) = cpa_ssid (client_agree_ssid D cl' ns') ->
  (ns = ns' /\ cse_nonce cl = cse_nonce cl') \/
  collision D (word x00 ++ ns ++ cse_nonce cl) (word x00 ++ ns' ++ cse_nonce cl').
Proof.
  intros cl cl' ns ns' K1 K1' H1 H2 H3 H4 E.
  exact (C33_ssid_determines_nonces cl {| sse_secret := 0; sse_nonce := ns' |} ns (cse_nonce cl') K1 K1'
           H1 H2 H3 H4 E).
Qed.
Theorem C33_ssid_determines_nonces_server :
  forall (sv sv' : AuCPaceServerSsidEstablish) nc nc' K1 K1',
  length (sse_nonce sv) = K1 -> length nc = K1 -> length (sse_nonce sv') = K1' -> length nc' = K1' ->
  sal_ssid (server_agree_ssid D sv nc) = sal_ssid (server_agree_ssid D sv' nc') ->
  (sse_nonce sv = sse_nonce sv' /\ nc = nc') \/
  collision D (word x00 ++ sse_nonce sv ++ nc) (word x00 ++ sse_nonce sv' ++ nc').
Proof.
  intros sv sv' nc nc' K1 K1' H1 H2 H3 H4 E.
  exact (C33_ssid_determines_nonces {| cse_nonce := nc |} sv' (sse_nonce sv) nc' K1 K1' H1 H2 H3 H4 E).
Qed.

(** ** C34: pre-established SSIDs *)
Theorem C34_prestablished_ssid :
  forall Ts (s : AuCPaceServer Ts) ssid,
  (length ssid < 16 ->
     client_begin_prestablished_ssid D ssid = Err InsecureSsid /\
     server_begin_prestablished_ssid D Ts s ssid = Err InsecureSsid) /\
  (16 <= length ssid -> exists c sv,
     client_begin_prestablished_ssid D ssid = Ok c /\
     server_begin_prestablished_ssid D Ts s ssid = Ok sv /\
     cpa_ssid c = D (word x00 ++ ssid) /\ sal_ssid sv = D (word x00 ++ ssid) /\
     sal_secret sv = s_secret Ts s).
Proof.
  intros Ts s ssid. unfold client_begin_prestablished_ssid, server_begin_prestablished_ssid, MIN_SSID_LEN.
  split; intros Hl.
  - apply Nat.ltb_lt in Hl. now rewrite Hl.
  - apply Nat.ltb_ge in Hl. rewrite Hl. do 2 eexists. repeat split.
Qed.

(** ** C35: the identity is refused *)
Theorem C35_identity_refused :
  (forall m c salt params h,
     do_generate_cpace R Params m c (rzero R) salt params h = Err IllegalPointError) /\
  (forall m c blinded_salt params h,
     do_strong_generate_cpace R Params m c (rzero R) blinded_salt params h = Err IllegalPointError) /\
  (forall c x_pub params h,
     do_strong_generate_cpace R Params AllocBuf c x_pub (rzero R) params h = Err IllegalPointError) /\
  (forall c x_pub blinded_salt params h,
     rmul blinded_salt (sinv (scal_blinding_value c)) = rzero R ->
     do_strong_generate_cpace R Params AllocBuf c x_pub blinded_salt params h = Err IllegalPointError) /\
  (forall c, receive_server_pubkey R D c (rzero R) = Err IllegalPointError) /\
  (forall c, client_implicit_auth R D c (rzero R) = Err IllegalPointError) /\
  (forall s, receive_client_pubkey R D s (rzero R) = Err IllegalPointError) /\
  (forall s, server_implicit_auth R D s (rzero R) = Err IllegalPointError) /\
  (forall DB Ts s u d (st : rng_state Ts),
     generate_client_info_strong R D DB Ts s u (rzero R) d st = Err IllegalPointError) /\
  (forall DB PDB Ts s u d (st : rng_state Ts),
     generate_client_info_partial_strong R D DB PDB Ts s u (rzero R) d st = Err IllegalPointError).
Proof.
  assert (I : is_identity (rzero R) = true) by now apply (is_identity_eq L).
  assert (M : forall k, is_identity (rmul (rzero R) k) = true).
  { intros k. rewrite (rmul_rzero L). exact I. }
  assert (A : forall c x_pub blinded_salt params h,
     rmul blinded_salt (sinv (scal_blinding_value c)) = rzero R ->
     do_strong_generate_cpace R Params AllocBuf c x_pub blinded_salt params h = Err IllegalPointError).
  { intros c x_pub bs params h E. cbn [do_strong_generate_cpace]. unfold strong_generate_cpace_alloc.
    destruct (is_identity x_pub); [reflexivity|]. now rewrite !smult_one_r, E, I. }
  assert (G : forall DB Ts s u d (st : rng_state Ts) x X, exists st',
            generate_prs_strong R D DB Ts s u (rzero R) d st x X = (Err IllegalPointError, st')).
  { intros DB Ts s u d st x X. unfold generate_prs_strong, lookup_failed_strong.
    destruct (lookup_verifier_strong DB d u) as [[[W q] ps]|].
    - rewrite M. eauto.
    - destruct (rng_fill Ts 32 st). rewrite M. eauto. }
  repeat apply conj.
  - intros [n|] c salt params h; cbn [do_generate_cpace].
    + unfold generate_cpace. now rewrite I.
    + unfold generate_cpace_alloc. now rewrite I.
  - intros [n|] c bs params h; cbn [do_strong_generate_cpace].
    + unfold strong_generate_cpace. now rewrite I.
    + unfold strong_generate_cpace_alloc. now rewrite I.
  - intros c x_pub params h. apply A, (rmul_rzero L).
  - exact A.
  - intros c. unfold receive_server_pubkey. now rewrite I.
  - intros c. unfold client_implicit_auth. now rewrite I.
  - intros s. unfold receive_client_pubkey. now rewrite I.
  - intros s. unfold server_implicit_auth. now rewrite I.
  - intros DB Ts s u d st. rewrite generate_client_info_strong_eq.
    destruct (G DB Ts s u d (after Ts 64 st) (drawn Ts st) (spec_X R (drawn Ts st))) as [st' E].
    rewrite E. reflexivity.
  - intros DB PDB Ts s u d st. unfold generate_client_info_partial_strong.
    destruct (lookup_long_term_keypair PDB d u) as [[x X]|].
    + destruct (G DB Ts s u d st x X) as [st' E]. rewrite E. reflexivity.
    + destruct (point_random R Ts st) as [X st1]. unfold lookup_failed_strong.
      destruct (rng_fill Ts 32 st1). rewrite M. reflexivity.
Qed.

(** Conversely the checks refuse nothing else. *)
Theorem C35_only_identity_refused :
  (forall c Y, receive_server_pubkey R D c Y = Err IllegalPointError -> Y = rzero R) /\
  (forall c Y, client_implicit_auth R D c Y = Err IllegalPointError -> Y = rzero R) /\
  (forall s Y, receive_client_pubkey R D s Y = Err IllegalPointError -> Y = rzero R) /\
  (forall s Y, server_implicit_auth R D s Y = Err IllegalPointError -> Y = rzero R) /\
  (forall m c X salt params h,
     do_generate_cpace R Params m c X salt params h = Err IllegalPointError -> X = rzero R) /\
  (forall m c X bs params h,
     do_strong_generate_cpace R Params m c X bs params h = Err IllegalPointError ->
     X = rzero R \/ rmul bs (sinv (scal_blinding_value c)) = rzero R).
Proof.
  assert (S : forall hash, scalar_from_hash hash <> Err IllegalPointError).
  { intros hash. rewrite scalar_from_hash_eq. destruct hash as [b|]; cbn; [|discriminate].
    destruct (_ || _); discriminate. }
  assert (A : forall u p salt params h, hash_password_alloc Params u p salt params h <> Err IllegalPointError).
  { intros u p salt params h. unfold hash_password_alloc.
    destruct (let! s := as_salt salt in _); cbn; discriminate. }
  assert (B : forall n u p salt params h, hash_password Params n u p salt params h <> Err IllegalPointError).
  { intros n u p salt params h. rewrite hash_password_eq. destruct (Nat.ltb _ _); [discriminate|apply A]. }
  assert (X : forall T (o : res (option bytes)) (f : scalar -> T), o <> Err IllegalPointError ->
            (let! pw := o in let! w := scalar_from_hash pw in Ok (f w)) <> Err IllegalPointError).
  { intros T [a|e|] f Ho; cbn; [|congruence|discriminate].
    pose proof (S a). destruct (scalar_from_hash a); cbn; congruence. }
  repeat apply conj.
  - intros c Y. unfold receive_server_pubkey. destruct (is_identity Y) eqn:E; [intros _; now apply (is_identity_eq L)|].
    rewrite authenticators_eq. unfold spec_Tb. rewrite expect64_D by exact Dlen. discriminate.
  - intros c Y. unfold client_implicit_auth. destruct (is_identity Y) eqn:E; [intros _; now apply (is_identity_eq L)|discriminate].
  - intros c Y. unfold receive_client_pubkey. destruct (is_identity Y) eqn:E; [intros _; now apply (is_identity_eq L)|discriminate].
  - intros c Y. unfold server_implicit_auth. destruct (is_identity Y) eqn:E; [intros _; now apply (is_identity_eq L)|discriminate].
  - intros [n|] c Y salt params h; cbn [do_generate_cpace].
    + unfold generate_cpace. destruct (is_identity Y) eqn:E; [intros _; now apply (is_identity_eq L)|].
      intros H. now apply X in H.
    + unfold generate_cpace_alloc. destruct (is_identity Y) eqn:E; [intros _; now apply (is_identity_eq L)|].
      intros H. now apply X in H.
  - intros [n|] c Y bs params h; cbn [do_strong_generate_cpace].
    + unfold strong_generate_cpace. destruct (is_identity Y) eqn:E; [intros _; left; now apply (is_identity_eq L)|].
      destruct (salt_encode_b64 _); cbn [omap_err obind]; try discriminate.
      intros H. now apply X in H.
    + unfold strong_generate_cpace_alloc. destruct (is_identity Y) eqn:E; [intros _; left; now apply (is_identity_eq L)|].
      rewrite !smult_one_r.
      destruct (is_identity (rmul bs _)) eqn:E'; [intros _; right; now apply (is_identity_eq L)|].
      destruct (salt_encode_b64 _); cbn [omap_err obind]; try discriminate.
      intros H. now apply X in H.
Qed.

(** ... but the strong client without alloc accepts the identity as blinded salt: it goes on with the
    salt [b64 (compress identity)], the same for all credentials. *)
Theorem C35_strong_salt_refuted :
  forall n c x_pub params h,
  x_pub <> rzero R -> length (scal_username c) + length (scal_password c) + 1 <= n ->
  do_strong_generate_cpace R Params (FixedBuf n) c x_pub (rzero R) params h
  = let! w := spec_w h (scal_username c) (scal_password c) (b64_encode (rcompress R (rzero R))) params in
    Ok {| ccs_ssid := scal_ssid c; ccs_prs := rcompress R (rmul x_pub w) |}.
Proof.
  intros n [ssid user pass r] x_pub params h HX HF. cbn [scal_username scal_password scal_ssid] in *.
  rewrite do_strong_generate_cpace_eq by (cbn; assumption). cbn [salt_rejected].
  rewrite (rmul_rzero L). apply (is_identity_neq L) in HX. now rewrite HX.
Qed.

(** ** C36: authenticators *)
Theorem C36_authenticators :
  (forall c a,
     receive_server_authenticator D c a
     = if bytes_eqb a (cem_server_authenticator c)
       then Ok (spec_sk D (cem_ssid c) (cem_sk1 c)) else Err MutualAuthFail) /\
  (forall s a,
     receive_client_authenticator R D s a
     = if bytes_eqb a (spec_Tb D (sem_ssid s) (sem_sk1 s))
       then Ok (spec_sk D (sem_ssid s) (sem_sk1 s), SAuthenticator (spec_Ta D (sem_ssid s) (sem_sk1 s)))
       else Err MutualAuthFail) /\
  (forall c Y st msg, receive_server_pubkey R D c Y = Ok (st, msg) ->
     cem_ssid st = crs_ssid c /\
     cem_server_authenticator st = spec_Ta D (cem_ssid st) (cem_sk1 st) /\
     msg = CAuthenticator (spec_Tb D (cem_ssid st) (cem_sk1 st))).
Proof.
  assert (B : forall a b, bytes_eqb a b = bytes_eqb b a).
  { intros a b. destruct (bytes_eqb b a) eqn:E.
    - apply bytes_eqb_eq in E. subst. apply bytes_eqb_refl.
    - apply bytes_eqb_neq in E. apply bytes_eqb_neq. congruence. }
  repeat apply conj.
  - intros c a. unfold receive_server_authenticator. rewrite slice_ct_eqb, B.
    now destruct (bytes_eqb _ _).
  - intros s a. unfold receive_client_authenticator. rewrite authenticators_eq, slice_ct_eqb, B.
    destruct (bytes_eqb _ _); [|reflexivity]. unfold spec_Ta. rewrite expect64_D by exact Dlen.
    reflexivity.
  - intros c Y st msg. unfold receive_server_pubkey. destruct (is_identity Y); [discriminate|].
    rewrite authenticators_eq. unfold spec_Tb at 1. rewrite expect64_D by exact Dlen. cbn [obind].
    intros E. injection E as <- <-. repeat split.
Qed.

(** ** C40: password hashing *)
Theorem C40_hash_password :
  forall BUFSIZ user pass salt params (h : hasher Params),
  (BUFSIZ < length user + length pass + 1 ->
     hash_password Params BUFSIZ user pass salt params h = Err UsernameOrPasswordTooLong) /\
  (length user + length pass + 1 <= BUFSIZ ->
     hash_password Params BUFSIZ user pass salt params h = hash_password_alloc Params user pass salt params h) /\
  (salt_valid salt ->
     hash_password_alloc Params user pass salt params h
     = omap_err PasswordHashing (h (user ++ str ":" ++ pass) params salt)) /\
  (hash_password_alloc Params user pass salt params h <> Err UsernameOrPasswordTooLong).
Proof.
  intros BUFSIZ user pass salt params h. rewrite hash_password_eq. repeat apply conj.
  - intros Hl. apply Nat.ltb_lt in Hl. now rewrite Hl.
  - intros Hl. apply Nat.ltb_ge in Hl. now rewrite Hl.
  - intros V. rewrite hash_password_alloc_eq, as_salt_ok by exact V. reflexivity.
  - rewrite hash_password_alloc_eq. destruct (let! s := as_salt salt in _); discriminate.
Qed.

(** It panics only if the application's hasher does.  ([salt_valid] is the invariant of
    [SaltString]; only values with it can be built or received.) *)
Theorem C40_no_panic :
  forall BUFSIZ user pass salt params (h : hasher Params),
  salt_valid salt -> (forall i p s, h i p s <> Panic) ->
  hash_password Params BUFSIZ user pass salt params h <> Panic /\
  hash_password_alloc Params user pass salt params h <> Panic.
Proof.
  intros BUFSIZ user pass salt params h V Hh.
  assert (A : hash_password_alloc Params user pass salt params h <> Panic).
  { rewrite hash_password_alloc_eq, as_salt_ok by exact V. cbn [obind].
    pose proof (Hh (userpass user pass) params salt). destruct (h _ _ _); cbn; congruence. }
  split; [|exact A]. rewrite hash_password_eq. destruct (Nat.ltb _ _); [discriminate|exact A].
Qed.

(** ** C41: who returns UsernameOrPasswordTooLong *)

(** The documentation has it the wrong way round: no alloc function ever returns it ... *)
Theorem C41_alloc_never :
  (forall T c user pass params h,
     fst (do_register R Params params_try_into AllocBuf T c user pass params h) <> Err UsernameOrPasswordTooLong) /\
  (forall T c user pass params h,
     fst (do_register_strong R D Params params_try_into AllocBuf T c user pass params h) <> Err UsernameOrPasswordTooLong) /\
  (forall c X salt params h,
     do_generate_cpace R Params AllocBuf c X salt params h <> Err UsernameOrPasswordTooLong) /\
  (forall c X bs params h,
     do_strong_generate_cpace R Params AllocBuf c X bs params h <> Err UsernameOrPasswordTooLong).
Proof.
  assert (S : forall hash, scalar_from_hash hash <> Err UsernameOrPasswordTooLong).
  { intros hash. rewrite scalar_from_hash_eq. destruct hash as [b|]; cbn; [|discriminate].
    destruct (_ || _); discriminate. }
  assert (X : forall T (f : scalar -> res T) u p salt params h,
            (forall w, f w <> Err UsernameOrPasswordTooLong) ->
            (let! pw := hash_password_alloc Params u p salt params h in
             let! w := scalar_from_hash pw in f w) <> Err UsernameOrPasswordTooLong).
  { intros T f u p salt params h Hf. rewrite hash_password_alloc_eq.
    destruct (let! s := as_salt salt in _) as [a|e|]; cbn; try discriminate.
    pose proof (S a). destruct (scalar_from_hash a); cbn; [apply Hf|congruence|discriminate]. }
  assert (P : forall T (f : bytes -> T) params,
            (let! ps := omap_err PasswordHashing (params_try_into params) in Ok (f ps))
            <> Err UsernameOrPasswordTooLong).
  { intros T f params. destruct (params_try_into params); cbn; discriminate. }
  repeat apply conj.
  - intros T c user pass params h. cbn [do_register]. unfold register_alloc.
    destruct (salt_generate T (c_rng T c)) as [[salt|e|] st]; cbn [fst omap_err obind]; try discriminate.
    apply X. intros w. apply P.
  - intros T c user pass params h. cbn [do_register_strong]. unfold register_alloc_strong, generate_salt_strong.
    destruct (scalar_random T (c_rng T c)) as [q st]. cbn [fst].
    destruct (salt_encode_b64 _); cbn [omap_err obind]; try discriminate.
    apply X. intros w. apply P.
  - intros c Y salt params h. cbn [do_generate_cpace]. unfold generate_cpace_alloc.
    destruct (is_identity Y); [discriminate|]. apply X. discriminate.
  - intros c Y bs params h. cbn [do_strong_generate_cpace]. unfold strong_generate_cpace_alloc.
    destruct (is_identity Y); [discriminate|]. destruct (is_identity _); [discriminate|].
    destruct (salt_encode_b64 _); cbn [omap_err obind]; try discriminate.
    apply X. discriminate.
Qed.

(** ... and the functions with a fixed buffer do, whenever the input is too long. *)
Theorem C41_documented_refuted :
  forall n T c user pass params h, n < length user + length pass + 1 ->
  fst (do_register R Params params_try_into (FixedBuf n) T c user pass params h) = Err UsernameOrPasswordTooLong /\
  fst (do_register_strong R D Params params_try_into (FixedBuf n) T c user pass params h) = Err UsernameOrPasswordTooLong /\
  (forall ssid X salt, X <> rzero R ->
     do_generate_cpace R Params (FixedBuf n) {| cal_ssid := ssid; cal_username := user; cal_password := pass |}
       X salt params h = Err UsernameOrPasswordTooLong) /\
  (forall ssid r X bs, X <> rzero R ->
     do_strong_generate_cpace R Params (FixedBuf n)
       {| scal_ssid := ssid; scal_username := user; scal_password := pass; scal_blinding_value := r |}
       X bs params h = Err UsernameOrPasswordTooLong).
Proof.
  intros n T c user pass params h Hl.
  assert (E : forall salt, hash_password Params n user pass salt params h = Err UsernameOrPasswordTooLong).
  { intros salt. rewrite hash_password_eq. apply Nat.ltb_lt in Hl. now rewrite Hl. }
  repeat apply conj.
  - cbn [do_register]. unfold register. destruct (salt_generate_eq T (c_rng T c)) as [-> _].
    cbn [fst omap_err obind]. now rewrite E.
  - cbn [do_register_strong]. unfold register_strong. rewrite (generate_salt_strong_eq R L).
    cbn [fst omap_err obind]. now rewrite E.
  - intros ssid X salt HX. cbn [do_generate_cpace]. unfold generate_cpace.
    apply (is_identity_neq L) in HX. rewrite HX. cbn [cal_username cal_password]. now rewrite E.
  - intros ssid r X bs HX. cbn [do_strong_generate_cpace]. unfold strong_generate_cpace.
    apply (is_identity_neq L) in HX. rewrite HX. cbn [scal_username scal_password scal_blinding_value].
    rewrite !smult_one_r. destruct (strong_salt_encode R L (rmul bs (sinv r))) as [-> _].
    cbn [omap_err obind]. now rewrite E.
Qed.

(** ** C42: password hash to scalar *)
Theorem C42_scalar_from_hash :
  scalar_from_hash None = Err HashEmpty /\
  (forall b, length b <> 32 -> length b <> 64 -> scalar_from_hash (Some b) = Err HashSizeInvalid) /\
  (forall b, length b = 32 \/ length b = 64 -> exists s, scalar_from_hash (Some b) = Ok s /\
     sval s = (Z.of_N (le_val b) mod ell)%Z).
Proof.
  repeat apply conj.
  - reflexivity.
  - intros b H32 H64. rewrite scalar_from_hash_eq. cbn.
    apply Nat.eqb_neq in H32, H64. now rewrite H32, H64.
  - intros b Hb. rewrite scalar_from_hash_eq. cbn. eexists. split; [|apply sval_sof].
    destruct Hb as [E|E]; rewrite E; reflexivity.
Qed.

(** ** C43: the blinded user message *)

(** The blinding value drawn is never zero. *)
Theorem C43_blinding_nonzero :
  forall T fuel c user pass st cl msg st',
  start_augmentation_strong R D T fuel c user pass st = Some ((cl, msg), st') ->
  scal_blinding_value cl <> szero /\
  msg = CStrongUsername user (rmul (spec_Z R D user pass) (scal_blinding_value cl)).
Proof.
  intros T fuel c user pass st cl msg st'. rewrite start_augmentation_strong_eq.
  destruct (draw_blinding_value T fuel st) as [[r st1]|] eqn:E; [|discriminate].
  intros H. injection H as <- <- <-. split; [|reflexivity]. now apply draw_blinding_value_nonzero in E.
Qed.

(** For C60 and later: one round of the loop. *)
Lemma draw_blinding_unfold : forall T fuel st,
  draw_blinding_value T fuel st
  = match fuel with
    | 0 => None
    | S fuel' => if seqb (drawn T st) szero then draw_blinding_value T fuel' (after T 64 st)
                 else Some (drawn T st, after T 64 st)
    end.
Proof.
  intros T [|fuel] st; [reflexivity|]. cbn [draw_blinding_value]. rewrite scalar_random_eq.
  now destruct (seqb (drawn T st) szero).
Qed.

(** For every blinded point of some credentials and every other credentials exactly one blinding value
    gives that point, and it is not zero: the point says nothing about the password. *)
Theorem C43_perfect_hiding :
  forall user pass user' pass' (r : scalar),
  spec_Z R D user pass <> rzero R -> spec_Z R D user' pass' <> rzero R -> r <> szero ->
  exists r', (r' <> szero /\ rmul (spec_Z R D user' pass') r' = rmul (spec_Z R D user pass) r) /\
    forall r'', rmul (spec_Z R D user' pass') r'' = rmul (spec_Z R D user pass) r -> r'' = r'.
Proof.
  intros user pass user' pass' r HZ HZ' Hr.
  destruct (rmul_onto L (spec_Z R D user' pass') (rmul (spec_Z R D user pass) r) HZ') as [r' Hr'].
  exists r'. repeat split.
  - intros ->. rewrite (rmul_szero (R:=R)) in Hr'. symmetry in Hr'. apply (rmul_identity L) in Hr'.
    tauto.
  - exact Hr'.
  - intros r'' H. rewrite <- Hr' in H. now apply (rmul_inj L) in H.
Qed.

(** ** C44: domain separation *)

(** The values the crate computes with H0, H2, H3, H4, H5 (for sessions of any kind) differ between
    any two of these functions, unless the two messages are a digest collision: SSIDs, first session
    keys, authenticators and session keys are never confused. *)
Definition hashed (i : nat) (a b : bytes) : bytes :=
  match i with
  | 0 => compute_ssid D a b
  | 3 => fst (compute_authenticator_messages D a b)
  | 4 => snd (compute_authenticator_messages D a b)
  | _ => compute_session_key D a b
  end.
Definition index (i : nat) : byte := match i with 0 => x00 | 3 => x03 | 4 => x04 | _ => x05 end.

Theorem C44_domain_separation :
  forall i j a b a' b', index i <> index j ->
  hashed i a b = hashed j a' b' ->
  collision D (word (index i) ++ a ++ b) (word (index j) ++ a' ++ b').
Proof.
  intros i j a b a' b' Hij E. split.
  - intros Eq. apply Hij. now injection Eq.
  - assert (F : forall k p q, hashed k p q = D (word (index k) ++ p ++ q)).
    { intros k p q. unfold hashed, index.
      assert (compute_ssid D p q = D (word x00 ++ p ++ q)) as S0 by apply compute_ssid_eq.
      assert (compute_session_key D p q = D (word x05 ++ p ++ q)) as S5 by apply session_key_eq.
      pose proof (authenticators_eq D p q) as SA.
      destruct k as [|[|[|[|[|k]]]]]; try assumption; rewrite SA; reflexivity. }
    now rewrite <- !F.
Qed.

(** The generator of a CPace substep and the first session key against the others. *)
Theorem C44_domain_separation_sk1 :
  forall i a b ssid x (P : pt R),
  hashed i a b = compute_first_session_key R D ssid x P ->
  collision D (word (index i) ++ a ++ b) (word x02 ++ ssid ++ rcompress R (rmul P x)).
Proof.
  intros i a b ssid x P E. split.
  - intros Eq. assert (index i = x02) as H by now injection Eq.
    destruct i as [|[|[|[|[|i]]]]]; discriminate H.
  - assert (F : forall k p q, hashed k p q = D (word (index k) ++ p ++ q)).
    { intros k p q. unfold hashed, index.
      assert (compute_ssid D p q = D (word x00 ++ p ++ q)) as S0 by apply compute_ssid_eq.
      assert (compute_session_key D p q = D (word x05 ++ p ++ q)) as S5 by apply session_key_eq.
      pose proof (authenticators_eq D p q) as SA.
      destruct k as [|[|[|[|[|k]]]]]; try assumption; rewrite SA; reflexivity. }
    rewrite <- F, E. unfold compute_first_session_key, finalize, update. now rewrite <- app_assoc.
Qed.

(** The fake-salt hash has no prefix: for a server secret whose low four bytes are 1, the fake salt of a
    suitable user name is (the first 48 bytes of) the digest a CPace generator is made from. *)
Theorem C44_fake_salt_refuted :
  forall hi ssid' prs ci T s (X : pt R) (st : rng_state T), (hi < 2 ^ 32)%N ->
  sal_secret s = (2 ^ 32 * hi + 1)%N ->
  let ssid := le_bytes 4 hi ++ ssid' in
  exists uniform : bytes, spec_G R D ssid prs ci = rfrom_uniform R uniform /\
  exists prs0 st',
    lookup_failed R D T s (ssid' ++ prs ++ ci) X st
    = (Ok (prs0, SAugmentationInfo group_name X (b64_encode (firstn 48 uniform)) params_default), st').
Proof.
  intros hi ssid' prs ci T s X st Hhi Hs ssid. eexists. split; [reflexivity|].
  assert (E8 : le_bytes 8 (2 ^ 32 * hi + 1) = word x01 ++ le_bytes 4 hi).
  { apply le_val_inj; [now rewrite app_length, !le_bytes_length|].
    rewrite le_val_app, (le_val_le_bytes 8), (le_val_le_bytes 4), !N.mod_small.
    - cbn [length word]. change (le_val (word x01)) with 1%N. change (256 ^ N.of_nat 4)%N with (2 ^ 32)%N. lia.
    - change (256 ^ N.of_nat 4)%N with (2 ^ 32)%N. exact Hhi.
    - change (256 ^ N.of_nat 8)%N with (2 ^ 32 * 2 ^ 32)%N. nia. }
  do 2 eexists. rewrite lookup_failed_eq by exact Dlen. unfold fake_salt. rewrite Hs, E8.
  unfold ssid. rewrite <- !app_assoc. reflexivity.
Qed.

(** The strong salt point of some credentials is the CPace generator of any session whose SSID, PRS and
    channel identifier concatenate to the credentials: both use H1 with no further separation.  So the
    public key a party of that session makes is a known multiple of the point a client with the
    credentials sends blinded. *)
Theorem C44_shared_H1_refuted :
  forall user pass ssid prs ci Tc fuel c st cl u U st' T stk y Y stk',
  user ++ pass = ssid ++ prs ++ ci ->
  start_augmentation_strong R D Tc fuel c user pass st = Some ((cl, CStrongUsername u U), st') ->
  generate_keypair R D T stk ssid prs ci = ((y, Y), stk') ->
  Y = rmul U (smult (sinv (scal_blinding_value cl)) y).
Proof.
  intros user pass ssid prs ci Tc fuel c st cl u U st' T stk y Y stk' E Hs Hk.
  assert (EZ : spec_Z R D user pass = spec_G R D ssid prs ci) by (unfold spec_Z, spec_G; now rewrite E).
  rewrite generate_keypair_eq in Hk. injection Hk as <- <- <-.
  pose proof (draw_blinding_value_nonzero Tc fuel st) as HN.
  rewrite start_augmentation_strong_eq in Hs.
  destruct (draw_blinding_value Tc fuel st) as [[r st1]|]; [|discriminate].
  injection Hs as <- <- <- <-. cbn [scal_blinding_value]. rewrite <- EZ.
  rewrite !(rmul_mul L), smult_assoc, (smult_comm r), sinv_l by exact (HN _ _ eq_refl).
  now rewrite smult_one_l.
Qed.

(** ** C45: generators *)

(** Substeps with SSIDs and PRSs of the sizes the crate makes use the same generator message exactly
    when SSID, PRS and channel identifier agree; so they use different generators, or a collision of
    the map from messages to points is exhibited.  The public keys show the generator: for a private
    key [y], [G·y] equal for two generators means equal generators. *)
Theorem C45_generators :
  forall T st ssid prs ci ssid' prs' ci',
  length ssid = 64 -> length ssid' = 64 -> length prs = 32 -> length prs' = 32 ->
  drawn T st <> szero ->
  generate_keypair R D T st ssid prs ci = generate_keypair R D T st ssid' prs' ci' ->
  (ssid = ssid' /\ prs = prs' /\ ci = ci') \/
  collision (fun m => rfrom_uniform R (D m)) (word x01 ++ ssid ++ prs ++ ci) (word x01 ++ ssid' ++ prs' ++ ci').
Proof.
  intros T st ssid prs ci ssid' prs' ci' H1 H2 H3 H4 Hy. rewrite !generate_keypair_eq. intros E.
  injection E as E.
  assert (G : spec_G R D ssid prs ci = spec_G R D ssid' prs' ci').
  { rewrite <- (rmul_one (spec_G R D ssid prs ci)), <- (rmul_one (spec_G R D ssid' prs' ci')).
    rewrite <- (sinv_l _ Hy), smult_comm, <- !(rmul_mul L). now f_equal. }
  destruct (list_eq_dec byte_eq_dec (ssid ++ prs ++ ci) (ssid' ++ prs' ++ ci')) as [Eq|Ne].
  - left. apply app_inj_length in Eq; [|congruence]. destruct Eq as [-> Eq].
    apply app_inj_length in Eq; [|congruence]. now destruct Eq as [-> ->].
  - right. split; [|exact G]. intros Eq. now apply app_inv_head in Eq.
Qed.

(** ** C46: credentials of the strong variant *)

(** Distinct credentials share the point hash, hence the exponent and salt made at registration: moving
    the boundary between user name and password changes nothing. *)
Theorem C46_credentials_refuted :
  forall T user x pass st,
  generate_salt_strong R D T (user ++ x) pass st = generate_salt_strong R D T user (x ++ pass) st.
Proof. intros. unfold generate_salt_strong, update. now rewrite <- !app_assoc. Qed.

(** So an honest client with the credentials (user ++ x, pass) sends the blinded point that a client with
    (user, x ++ pass) would send with the same randomness. *)
Theorem C46_same_blinded_point_refuted :
  forall T fuel c user x pass st,
  match start_augmentation_strong R D T fuel c (user ++ x) pass st,
        start_augmentation_strong R D T fuel c user (x ++ pass) st with
  | Some ((_, CStrongUsername _ U), _), Some ((_, CStrongUsername _ U'), _) => U = U'
  | None, None => True
  | _, _ => False
  end.
Proof.
  intros T fuel c user x pass st. rewrite !start_augmentation_strong_eq.
  replace (spec_Z R D (user ++ x) pass) with (spec_Z R D user (x ++ pass)) by (unfold spec_Z; now rewrite <- app_assoc).
  now destruct (draw_blinding_value T fuel st) as [[r st']|].
Qed.

(** What does hold: the credentials are determined up to the position of the boundary. *)
Theorem C46_up_to_boundary_partial :
  forall user pass user' pass',
  spec_Z R D user pass = spec_Z R D user' pass' ->
  user ++ pass = user' ++ pass' \/
  collision (fun m => rfrom_uniform R (D m)) (word x01 ++ user ++ pass) (word x01 ++ user' ++ pass').
Proof.
  intros user pass user' pass' E.
  destruct (list_eq_dec byte_eq_dec (user ++ pass) (user' ++ pass')) as [Eq|Ne]; [now left|right].
  split; [|exact E]. intros Eq. now apply app_inv_head in Eq.
Qed.

(** ** C50: with and without alloc *)
Theorem C50_plain :
  forall n c X salt params h, length (cal_username c) + length (cal_password c) + 1 <= n ->
  generate_cpace R Params n c X salt params h = generate_cpace_alloc R Params c X salt params h.
Proof.
  intros n c X salt params h Hl. unfold generate_cpace, generate_cpace_alloc.
  rewrite hash_password_eq. apply Nat.ltb_ge in Hl. now rewrite Hl.
Qed.

(** Registration, too. *)
Theorem C50_register :
  forall n T c user pass params h, length user + length pass + 1 <= n ->
  register R Params params_try_into T n c user pass params h
    = register_alloc R Params params_try_into T c user pass params h /\
  register_strong R D Params params_try_into T n c user pass params h
    = register_alloc_strong R D Params params_try_into T c user pass params h.
Proof.
  intros n T c user pass params h Hl.
  assert (E : forall salt, hash_password Params n user pass salt params h = hash_password_alloc Params user pass salt params h).
  { intros salt. rewrite hash_password_eq. apply Nat.ltb_ge in Hl. now rewrite Hl. }
  split.
  - unfold register, register_alloc. destruct (salt_generate T (c_rng T c)) as [[salt|e|] st];
      cbn [omap_err obind]; try reflexivity. now rewrite E.
  - unfold register_strong, register_alloc_strong.
    destruct (generate_salt_strong R D T user pass (c_rng T c)) as [[[q salt]|e|] st];
      cbn [omap_err obind]; try reflexivity. now rewrite E.
Qed.

(** The strong clients agree unless the unblinded salt is the identity ... *)
Theorem C50_strong_partial :
  forall n c X bs params h, length (scal_username c) + length (scal_password c) + 1 <= n ->
  rmul bs (sinv (scal_blinding_value c)) <> rzero R ->
  strong_generate_cpace R Params n c X bs params h = strong_generate_cpace_alloc R Params c X bs params h.
Proof.
  intros n c X bs params h Hl Hbs. unfold strong_generate_cpace, strong_generate_cpace_alloc.
  destruct (is_identity X); [reflexivity|]. rewrite !smult_one_r.
  apply (is_identity_neq L) in Hbs. rewrite Hbs.
  destruct (salt_encode_b64 _) as [salt|e|]; cbn [omap_err obind]; try reflexivity.
  rewrite hash_password_eq. apply Nat.ltb_ge in Hl. now rewrite Hl.
Qed.

(** ... and then they differ, whatever the hasher does: one refuses, the other goes on. *)
Theorem C50_strong_refuted :
  forall n c X params h w, length (scal_username c) + length (scal_password c) + 1 <= n ->
  X <> rzero R ->
  spec_w h (scal_username c) (scal_password c) (b64_encode (rcompress R (rzero R))) params = Ok w ->
  strong_generate_cpace_alloc R Params c X (rzero R) params h = Err IllegalPointError /\
  strong_generate_cpace R Params n c X (rzero R) params h
  = Ok {| ccs_ssid := scal_ssid c; ccs_prs := rcompress R (rmul X w) |}.
Proof.
  intros n c X params h w Hl HX Hw. split.
  - apply (proj1 (proj2 (proj2 C35_identity_refused))).
  - pose proof (C35_strong_salt_refuted n c X params h HX Hl) as E. cbn [do_strong_generate_cpace] in E.
    rewrite E, Hw. reflexivity.
Qed.
End Props.

(** * Cases: the toy instance meets the hypotheses of each theorem *)

Lemma toy_fits : fits AllocBuf alice secret /\ fits (FixedBuf 40) alice secret.
Proof. split; [exact I|]. cbn. lia. Qed.

(** C29, C30: registration succeeds with some salt and parameters, the login agrees, with either buffer
    and either kind of SSID; with a wrong password explicit authentication fails and implicit
    authentication gives different keys. *)
Example C29_case_registration :
  match fst (toy_reg AllocBuf) with
  | Ok (CRegistration u salt ps W) =>
      bytes_eqb u alice && Nat.eqb (length salt) 22 && bytes_eqb ps toy_params && negb (is_identity W)
  | _ => false
  end = true.
Proof. vm_compute. reflexivity. Qed.
Example C29_case : agreed (toy_login Explicit (ByNonces 16) (FixedBuf 40) secret) = true.
Proof. vm_cast_no_check (eq_refl true). Qed.
Check (test (agreed (toy_login Explicit (PreEstablished (str "sixteen or more bytes")) AllocBuf secret)) true).
Check (test (auth_failed (toy_login Explicit (ByNonces 16) AllocBuf wrong)) true).
Check (test (agreed (toy_login Implicit (ByNonces 16) AllocBuf secret)) true).
Check (test (agreed (toy_login Implicit (ByNonces 16) AllocBuf wrong)) false).
Check (test (is_ok (toy_login Implicit (ByNonces 16) AllocBuf wrong)) true).
(** The same key either way. *)
Check (test (toy_login Implicit (ByNonces 16) AllocBuf secret) (toy_login Explicit (ByNonces 16) (FixedBuf 19) secret)).

(** C29: the outcome with an identity point is reachable too (a server generator that yields zeros). *)
Check (test (illegal_point (run_login ToyGroup toyD bytes toy_params_of Explicit tape_rng tape_rng (ByNonces 16)
    AllocBuf toy_client toy_server
    (fun sess u => generate_client_info ToyGroup toyD (AssocDb ToyGroup) tape_rng sess u toy_db (toy_tape 3001 0))
    alice secret toy_hash channel (toy_tape 4001 4002))) true).

(** C31: the first blinding value on the tape is zero and is skipped. *)
Example C31_case_blinding :
  option_map (fun p => sval (fst p)) (draw_blinding_value tape_rng 3 (toy_tape 0 5002)) = Some 5002%Z.
Proof. vm_compute. reflexivity. Qed.
Check (test (option_map agreed (toy_login_strong Explicit (ByNonces 16) (FixedBuf 40) secret)) (Some true)).
Check (test (option_map agreed (toy_login_strong Implicit (ByNonces 8) AllocBuf secret)) (Some true)).
Check (test (option_map auth_failed (toy_login_strong Explicit (ByNonces 16) AllocBuf wrong)) (Some true)).

(** C32: the association lists are lawful and accept the key pair of a registered user. *)
Definition toy_pdb : res (db (AssocDb ToyGroup)) :=
  let '((x, X), _) := generate_long_term_keypair ToyGroup tape_rng toy_server in
  store_long_term_keypair (AssocPartial ToyGroup) toy_db alice x X.
Example C32_case_store : is_ok toy_pdb = true.
Proof. vm_compute. reflexivity. Qed.
Check (test (match toy_pdb with
  | Ok d => agreed (run_login ToyGroup toyD bytes toy_params_of Explicit tape_rng tape_rng (ByNonces 16) AllocBuf
      toy_client toy_server
      (fun sess u => generate_client_info_partial_aug ToyGroup toyD (AssocDb ToyGroup) (AssocPartial ToyGroup)
                       tape_rng sess u d (toy_tape 3001 3002)) alice secret toy_hash channel (toy_tape 4001 4002))
  | _ => false end) true).

(** C33: nonces of 16 bytes on either side. *)
Example C33_case :
  cpa_ssid (client_agree_ssid toyD {| cse_nonce := repeat x05 16 |} (repeat x09 16))
  = sal_ssid (server_agree_ssid toyD {| sse_secret := 3; sse_nonce := repeat x09 16 |} (repeat x05 16)) /\
  cpa_ssid (client_agree_ssid toyD {| cse_nonce := repeat x05 16 |} (repeat x09 16))
  <> cpa_ssid (client_agree_ssid toyD {| cse_nonce := repeat x09 16 |} (repeat x05 16)).
Proof. split; [reflexivity|]. vm_compute. discriminate. Qed.

(** C34: fifteen and sixteen bytes. *)
Example C34_case :
  client_begin_prestablished_ssid toyD (repeat x41 15) = Err InsecureSsid /\
  is_ok (client_begin_prestablished_ssid toyD (repeat x41 16)) = true.
Proof. split; vm_compute; reflexivity. Qed.

(** C35, C50: a strong client in its augmentation layer meets a server that sends the identity. *)
Definition toy_strong_aug : StrongAuCPaceClientAugLayer :=
  {| scal_ssid := repeat x01 64; scal_username := alice; scal_password := secret;
     scal_blinding_value := sof 5002 |}.
Example C35_case :
  sone <> szero /\
  is_ok (spec_w toy_hash alice secret (b64_encode (rcompress ToyGroup (rzero ToyGroup))) toy_params) = true.
Proof. split; [|vm_compute; reflexivity]. intros E. now apply (f_equal sval) in E. Qed.
Check (test (is_ok (strong_generate_cpace ToyGroup bytes 40 toy_strong_aug sone szero toy_params toy_hash)) true).
Check (test (illegal_point (strong_generate_cpace_alloc ToyGroup bytes toy_strong_aug sone szero toy_params toy_hash)) true).
Check (test (strong_generate_cpace ToyGroup bytes 40 toy_strong_aug sone (sof 9) toy_params toy_hash)
            (strong_generate_cpace_alloc ToyGroup bytes toy_strong_aug sone (sof 9) toy_params toy_hash)).

(** C36: an authenticator with one bit changed. *)
Definition toy_expect : AuCPaceServerExpMutAuth := {| sem_ssid := repeat x01 64; sem_sk1 := repeat x02 64 |}.
Example C36_case :
  is_ok (receive_client_authenticator ToyGroup toyD toy_expect (spec_Tb toyD (repeat x01 64) (repeat x02 64))) = true /\
  auth_failed (receive_client_authenticator ToyGroup toyD toy_expect (repeat x00 64)) = true.
Proof. split; vm_cast_no_check (eq_refl true). Qed.

(** C40, C41: "alice:correct horse" has 19 bytes. *)
Example C40_case :
  hash_password bytes 18 alice secret (str "saltsalt") toy_params toy_hash = Err UsernameOrPasswordTooLong /\
  hash_password bytes 19 alice secret (str "saltsalt") toy_params toy_hash
  = Ok (Some (le_bytes 32 (le_val (str "saltsalt" ++ toy_params ++ str "alice:correct horse") mod 65521))).
Proof. split; vm_compute; reflexivity. Qed.

(** C42: 31, 32, 33 and 64 bytes. *)
Example C42_case :
  scalar_from_hash (Some (repeat xff 31)) = Err HashSizeInvalid /\
  is_ok (scalar_from_hash (Some (repeat xff 32))) = true /\
  scalar_from_hash (Some (repeat xff 33)) = Err HashSizeInvalid /\
  is_ok (scalar_from_hash (Some (repeat xff 64))) = true.
Proof. repeat apply conj; vm_compute; reflexivity. Qed.

(** C43: two credentials with points other than the identity. *)
Example C43_case :
  is_identity (spec_Z ToyGroup toyD alice secret) = false /\ is_identity (spec_Z ToyGroup toyD alice wrong) = false /\
  sof 5002 <> szero.
Proof.
  split; [vm_cast_no_check (eq_refl false)|split; [vm_cast_no_check (eq_refl false)|]].
  intros E. now apply (f_equal sval) in E.
Qed.

(** C44: a server secret with low half 1 exists. *)
Example C44_case : (7 < 2 ^ 32)%N /\ s_secret _ (server_new tape_rng [x01; x00; x00; x00; x07]) = (2 ^ 32 * 7 + 1)%N.
Proof. split; vm_compute; reflexivity. Qed.

(** C45: channels that differ in the last byte give different public keys for the same private key. *)
Example C45_case :
  drawn tape_rng (toy_tape 4001 4002) <> szero /\
  snd (fst (generate_keypair ToyGroup toyD tape_rng (toy_tape 4001 4002) (repeat x01 64) (repeat x02 32) (str "a")))
  <> snd (fst (generate_keypair ToyGroup toyD tape_rng (toy_tape 4001 4002) (repeat x01 64) (repeat x02 32) (str "b"))).
Proof.
  split; intros E; apply (f_equal sval) in E; vm_compute in E; discriminate E.
Qed.

(** C46: alice with password "1234" and alice1 with password "234". *)
Example C46_case :
  (alice, str "1234") <> (alice ++ str "1", str "234") /\
  generate_salt_strong ToyGroup toyD tape_rng (alice ++ str "1") (str "234") (toy_tape 5 6)
  = generate_salt_strong ToyGroup toyD tape_rng alice (str "1" ++ str "234") (toy_tape 5 6).
Proof. split; [discriminate|]. apply C46_credentials_refuted. Qed.
