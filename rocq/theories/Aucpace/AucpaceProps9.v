(** * Property C69 of the aucpace crate: a login with a wrong password is refused.

    C37 says that accepted authentication means a shared key; here: a shared key means the same SSID,
    the same PRS, the same channel identifier, hence the same password scalar. *)
From Coq Require Import ZArith Lia.
From Verif Require Import Base.Bytes Base.Outcome Base.CtEq Base.Rng Base.Kat.
From Verif Require Import Curve.Primes Curve.Scalar25519.
From Verif Require Import Aucpace.RistrettoGroup Aucpace.PwHash Aucpace.AucpaceModel Aucpace.AucpaceSpec
  Aucpace.AucpaceRun Aucpace.AucpaceDb Aucpace.AucpaceToy Aucpace.AucpaceProofs Aucpace.AucpaceProps.
Local Open Scope nat_scope.

Section Refused.
Context (R : RGroup) (L : rgroup_laws R) (D : bytes -> bytes).
Context (Dlen : forall m, length (D m) = 64).
Context (Params : Type) (params_try_into : Params -> outcome pherror bytes).
Context (params_of : bytes -> res Params).

(** ** The CPace substep between parties with different inputs *)

(** What a party puts into CPace: SSID, PRS and channel identifier. *)
Record cpace_input := { ci_ssid : bytes; ci_prs : bytes; ci_chan : bytes }.
Definition sized (i : cpace_input) : Prop := length (ci_ssid i) = 64 /\ length (ci_prs i) = 32.

(** The three messages a party with input [i] whose peer has input [j] feeds to the digest: for its
    generator, for the first session key (the peer's public key is [G_j·y], so [K] is [G_j·(ya·yb)]),
    and for the authenticator or session key of index [n]. *)
Definition msg_G (i : cpace_input) : bytes := word x01 ++ ci_ssid i ++ ci_prs i ++ ci_chan i.
Definition msg_sk1 (i j : cpace_input) (ya yb : scalar) : bytes :=
  word x02 ++ ci_ssid i ++ rcompress R (rmul (rfrom_uniform R (D (msg_G j))) (smult ya yb)).
Definition msg_end (n : byte) (i j : cpace_input) (ya yb : scalar) : bytes :=
  word n ++ ci_ssid i ++ D (msg_sk1 i j ya yb).

(** The collisions that an agreement of parties with inputs [i] and [j] can rest on. *)
Definition lucky (n : byte) (i j : cpace_input) (ya yb : scalar) : Prop :=
  collision (fun m => rfrom_uniform R (D m)) (msg_G i) (msg_G j) \/
  collision D (msg_sk1 i j ya yb) (msg_sk1 j i ya yb) \/
  collision D (msg_end n i j ya yb) (msg_end n j i ya yb).

(** The index that decides: explicit authentication compares H4, with implicit authentication the
    session keys H5 are compared by using them. *)
Definition deciding (am : auth_mode) : byte := match am with Explicit => x04 | Implicit => x05 end.

Definition client_input (cs : AuCPaceClientCPaceSubstep) (ci : bytes) : cpace_input :=
  {| ci_ssid := ccs_ssid cs; ci_prs := ccs_prs cs; ci_chan := ci |}.
Definition server_input {T} (ss : AuCPaceServerCPaceSubstep T) (ci : bytes) : cpace_input :=
  {| ci_ssid := scs_ssid T ss; ci_prs := scs_prs T ss; ci_chan := ci |}.

Lemma rmul_cancel (P Q : pt R) s : s <> szero -> rmul P s = rmul Q s -> P = Q.
Proof.
  intros Hs E. rewrite <- (rmul_one P), <- (rmul_one Q), <- (sinv_l _ Hs), smult_comm, <- !(rmul_mul L).
  now f_equal.
Qed.
Lemma nonzero_product a b : a <> szero -> b <> szero -> smult a b <> szero.
Proof.
  intros Ha Hb E. apply Ha. rewrite <- (smult_one_l a), <- (sinv_l _ Hb), (smult_comm _ b), smult_comm, smult_assoc, E.
  apply sval_inj. rewrite sval_smult. rewrite sval_szero. now rewrite Z.mul_0_l, Zmod_0_l.
Qed.

(** Equal end messages mean equal inputs, or luck. *)
Lemma agreement_sound n i j ya yb :
  sized i -> sized j -> ya <> szero -> yb <> szero ->
  D (msg_end n i j ya yb) = D (msg_end n j i ya yb) -> i = j \/ lucky n i j ya yb.
Proof.
  intros [Hi1 Hi2] [Hj1 Hj2] Ha Hb E.
  destruct (list_eq_dec byte_eq_dec (msg_end n i j ya yb) (msg_end n j i ya yb)) as [E1|N1];
    [|right; right; right; split; [exact N1|exact E]].
  destruct (list_eq_dec byte_eq_dec (msg_sk1 i j ya yb) (msg_sk1 j i ya yb)) as [E2|N2].
  2:{ right; right; left. split; [exact N2|]. unfold msg_end in E1. apply app_inv_head in E1.
      apply app_inj_length in E1; [|congruence]. exact (proj2 E1). }
  destruct (list_eq_dec byte_eq_dec (msg_G i) (msg_G j)) as [E3|N3].
  - left. destruct i as [s p c], j as [s' p' c']. unfold msg_G in E3. cbn [ci_ssid ci_prs ci_chan] in *.
    apply app_inv_head in E3. apply app_inj_length in E3; [|congruence]. destruct E3 as [-> E3].
    apply app_inj_length in E3; [|congruence]. destruct E3 as [-> ->]. reflexivity.
  - right; left. split; [exact N3|]. unfold msg_sk1 in E2. apply app_inv_head in E2.
    apply app_inj_length in E2; [|congruence]. destruct E2 as [_ E2].
    apply (rcompress_inj L) in E2. apply rmul_cancel in E2; [exact (eq_sym E2)|].
    now apply nonzero_product.
Qed.

Definition secret_key (i j : cpace_input) (ya yb : scalar) : bytes := D (msg_end x05 i j ya yb).

(** What the substep does with any inputs. *)
Lemma run_cpace_any am Tc Ts cs ss ci_c ci_s (stc : rng_state Tc) :
  let i := client_input cs ci_c in
  let j := server_input ss ci_s in
  let ya := drawn Ts (scs_rng Ts ss) in
  let yb := drawn Tc stc in
  run_cpace R D am Tc Ts cs ss ci_c ci_s stc
  = if is_identity (rmul (rfrom_uniform R (D (msg_G i))) yb)
       || is_identity (rmul (rfrom_uniform R (D (msg_G j))) ya)
    then Err IllegalPointError
    else match am with
         | Implicit => Ok (secret_key i j ya yb, secret_key j i ya yb)
         | Explicit =>
             if bytes_eqb (D (msg_end x04 j i ya yb)) (D (msg_end x04 i j ya yb))
             then if bytes_eqb (D (msg_end x03 i j ya yb)) (D (msg_end x03 j i ya yb))
                  then Ok (secret_key i j ya yb, secret_key j i ya yb) else Err MutualAuthFail
             else Err MutualAuthFail
         end.
Proof.
  destruct cs as [sc pc], ss as [s_s ps sts]. cbv zeta.
  assert (K1 : forall sd i y P, compute_first_session_key R D sd y (rmul P i)
     = D (word x02 ++ sd ++ rcompress R (rmul P (smult i y)))).
  { intros sd i y P. unfold compute_first_session_key, finalize, update. now rewrite (rmul_mul L), <- app_assoc. }
  assert (RK : run_keys R D Tc Ts {| ccs_ssid := sc; ccs_prs := pc |} {| scs_ssid := s_s; scs_prs := ps; scs_rng := sts |}
                 ci_c ci_s stc
    = Ok ({| crs_ssid := sc; crs_priv_key := drawn Tc stc |}, {| src_ssid := s_s; src_priv_key := drawn Ts sts |},
          rmul (spec_G R D sc pc ci_c) (drawn Tc stc), rmul (spec_G R D s_s ps ci_s) (drawn Ts sts))).
  { unfold run_keys, server_generate_public_key, client_generate_public_key.
    cbn [ccs_ssid ccs_prs scs_ssid scs_prs scs_rng]. now rewrite !generate_keypair_eq. }
  assert (A64 : forall sd k, @expect64 Error (spec_Ta D sd k) = Ok (spec_Ta D sd k)) by (intros; apply (expect64_D D Dlen)).
  assert (B64 : forall sd k, @expect64 Error (spec_Tb D sd k) = Ok (spec_Tb D sd k)) by (intros; apply (expect64_D D Dlen)).
  unfold client_input, server_input, secret_key, msg_end, msg_sk1, msg_G.
  cbn [ci_ssid ci_prs ci_chan ccs_ssid ccs_prs scs_ssid scs_prs scs_rng].
  change (rfrom_uniform R (D (word x01 ++ sc ++ pc ++ ci_c))) with (spec_G R D sc pc ci_c).
  change (rfrom_uniform R (D (word x01 ++ s_s ++ ps ++ ci_s))) with (spec_G R D s_s ps ci_s).
  rewrite (smult_comm (drawn Ts sts) (drawn Tc stc)).
  destruct am; cbn [run_cpace].
  - unfold run_explicit. rewrite RK. cbn [obind]. unfold receive_client_pubkey.
    destruct (is_identity (rmul _ (drawn Tc stc))) eqn:Eb; [reflexivity|].
    cbn [obind orb src_ssid src_priv_key]. unfold receive_server_pubkey.
    destruct (is_identity (rmul _ (drawn Ts sts))) eqn:Ea; [reflexivity|].
    cbn [crs_ssid crs_priv_key]. rewrite !K1, authenticators_eq.
    rewrite (smult_comm (drawn Ts sts) (drawn Tc stc)).
    rewrite B64. cbn [obind].
    unfold receive_client_authenticator. cbn [sem_ssid sem_sk1].
    rewrite authenticators_eq, slice_ct_eqb. unfold spec_Tb.
    match goal with |- context [bytes_eqb ?a ?b] => destruct (bytes_eqb a b) end; [|reflexivity].
    rewrite A64. cbn [obind].
    unfold receive_server_authenticator. cbn [cem_ssid cem_sk1 cem_server_authenticator].
    rewrite slice_ct_eqb. unfold spec_Ta.
    match goal with |- context [bytes_eqb ?a ?b] => destruct (bytes_eqb a b) end; [|reflexivity].
    cbn [obind]. rewrite !session_key_eq. reflexivity.
  - unfold run_implicit. rewrite RK. cbn [obind]. unfold server_implicit_auth.
    destruct (is_identity (rmul _ (drawn Tc stc))) eqn:Eb; [reflexivity|].
    cbn [obind orb src_ssid src_priv_key]. unfold client_implicit_auth.
    destruct (is_identity (rmul _ (drawn Ts sts))) eqn:Ea; [reflexivity|].
    cbn [crs_ssid crs_priv_key obind]. rewrite !K1, (smult_comm (drawn Ts sts) (drawn Tc stc)).
    now rewrite !session_key_eq.
Qed.

(** C69: with explicit authentication (or implicit authentication and equal keys) the parties had the same
    SSID, PRS and channel identifier, or one of three collisions is exhibited.  Otherwise the run ends with
    [IllegalPointError] or, with explicit authentication, [MutualAuthFail]; it never panics. *)
Theorem C69_substep :
  forall am Tc Ts cs (ss : AuCPaceServerCPaceSubstep Ts) ci_c ci_s (stc : rng_state Tc),
  length (ccs_ssid cs) = 64 -> length (ccs_prs cs) = 32 ->
  length (scs_ssid Ts ss) = 64 -> length (scs_prs Ts ss) = 32 ->
  match run_cpace R D am Tc Ts cs ss ci_c ci_s stc with
  | Ok (kc, ks) => am = Explicit \/ kc = ks ->
      (ccs_ssid cs = scs_ssid Ts ss /\ ccs_prs cs = scs_prs Ts ss /\ ci_c = ci_s) \/
      lucky (deciding am) (client_input cs ci_c) (server_input ss ci_s) (drawn Ts (scs_rng Ts ss)) (drawn Tc stc)
  | Err e => e = IllegalPointError \/ (am = Explicit /\ e = MutualAuthFail)
  | Panic => False
  end.
Proof.
  intros am Tc Ts cs ss ci_c ci_s stc H1 H2 H3 H4. rewrite run_cpace_any. cbv zeta.
  set (i := client_input cs ci_c). set (j := server_input ss ci_s).
  set (ya := drawn Ts (scs_rng Ts ss)). set (yb := drawn Tc stc).
  destruct (is_identity (rmul _ yb)) eqn:Ib; [left; reflexivity|].
  destruct (is_identity (rmul _ ya)) eqn:Ia; [left; reflexivity|]. cbn [orb].
  apply (is_identity_neq L) in Ia, Ib.
  assert (Hya : ya <> szero) by (intros E; apply Ia; apply (rmul_identity L); now left).
  assert (Hyb : yb <> szero) by (intros E; apply Ib; apply (rmul_identity L); now left).
  assert (G : forall n, D (msg_end n i j ya yb) = D (msg_end n j i ya yb) ->
    (ccs_ssid cs = scs_ssid Ts ss /\ ccs_prs cs = scs_prs Ts ss /\ ci_c = ci_s) \/ lucky n i j ya yb).
  { intros n E. destruct (agreement_sound n i j ya yb) as [Eij|Hl]; [split; assumption|split; assumption|exact Hya|exact Hyb|exact E| |right; exact Hl].
    left. unfold i, j, client_input, server_input in Eij. injection Eij as -> -> ->. repeat split. }
  destruct am.
  - destruct (bytes_eqb (D (msg_end x04 j i ya yb)) _) eqn:E4; [|right; split; reflexivity].
    destruct (bytes_eqb (D (msg_end x03 i j ya yb)) _) eqn:E3; [|right; split; reflexivity].
    intros _. apply G. apply bytes_eqb_eq in E4. exact (eq_sym E4).
  - intros [E|E]; [discriminate E|]. apply G. exact E.
Qed.

(** ** A login of a known user *)

(** The CPace inputs in a login: the SSID is the agreed one, the client's PRS is [X^w], the server's
    [W^x]. *)
Definition login_input (ssid : bytes) (P : pt R) (ci : bytes) : cpace_input :=
  {| ci_ssid := ssid; ci_prs := rcompress R P; ci_chan := ci |}.

Lemma prs_match (W : pt R) w x : x <> szero -> rmul (spec_X R x) w = rmul W x -> W = spec_W R w.
Proof.
  intros Hx E. apply (rmul_cancel _ _ x Hx). rewrite <- E. unfold spec_X, spec_W.
  now rewrite !(rmul_mul L), smult_comm.
Qed.
Lemma X_nonzero x : is_identity (spec_X R x) = false -> x <> szero.
Proof.
  intros Hx E. apply (is_identity_neq L) in Hx. apply Hx. unfold spec_X. apply (rmul_identity L). now left.
Qed.
Lemma agreed_ssid_length Tc Ts sm c s : length (agreed_ssid D Tc Ts sm c s) = 64.
Proof. destruct sm; apply Dlen. Qed.

Lemma finish_login am Tc Ts ssid (P Q : pt R) ci st (stc : rng_state Tc) kc ks :
  length ssid = 64 ->
  run_cpace R D am Tc Ts {| ccs_ssid := ssid; ccs_prs := rcompress R P |}
    {| scs_ssid := ssid; scs_prs := rcompress R Q; scs_rng := st |} ci ci stc = Ok (kc, ks) ->
  am = Explicit \/ kc = ks ->
  P = Q \/ lucky (deciding am) (login_input ssid P ci) (login_input ssid Q ci) (drawn Ts st) (drawn Tc stc).
Proof.
  intros Hl Hr Hk.
  pose proof (C69_substep am Tc Ts {| ccs_ssid := ssid; ccs_prs := rcompress R P |}
    {| scs_ssid := ssid; scs_prs := rcompress R Q; scs_rng := st |} ci ci stc) as H.
  cbn [ccs_ssid ccs_prs scs_ssid scs_prs scs_rng] in H.
  specialize (H Hl (rl_length R L P) Hl (rl_length R L Q)).
  rewrite Hr in H. destruct (H Hk) as [(_ & E & _)|E]; [left; now apply (rcompress_inj L)|right; exact E].
Qed.

Lemma login_generic (DB : Database R) Tc Ts am sm m (c : AuCPaceClient Tc) (s : AuCPaceServer Ts)
  info user user' pass h d W salt ps x st ci stc kc ks :
  ssid_mode_ok sm -> fits m user pass -> salt_valid salt ->
  lookup_verifier DB d user' = Some (W, salt, ps) ->
  (forall sess, info sess user
    = cpace_substep R Ts sess (generate_prs R D DB Ts sess user' d st x (spec_X R x))) ->
  let ssid := agreed_ssid D Tc Ts sm c s in
  run_login R D Params params_of am Tc Ts sm m c s info user pass h ci stc = Ok (kc, ks) ->
  am = Explicit \/ kc = ks ->
  exists params w, params_of ps = Ok params /\ spec_w h user pass salt params = Ok w /\
    (W = spec_W R w \/
     lucky (deciding am) (login_input ssid (rmul (spec_X R x) w) ci) (login_input ssid (rmul W x) ci)
       (drawn Ts st) (drawn Tc stc)).
Proof.
  intros Hm HF V Hl Hi ssid. unfold run_login. rewrite run_ssid_eq by assumption. cbn [obind]. fold ssid.
  unfold run_aug, start_augmentation. cbn [cpa_ssid]. rewrite Hi. unfold generate_prs. rewrite Hl.
  cbn [cpace_substep obind sal_ssid]. intros Hr Hk.
  destruct (params_of ps) as [params|e|]; [|discriminate Hr|discriminate Hr]. cbn [obind] in Hr.
  rewrite do_generate_cpace_eq in Hr by assumption.
  destruct (is_identity (spec_X R x)) eqn:Ix; [discriminate Hr|].
  destruct (spec_w h user pass salt params) as [w|e|] eqn:Ew; [|discriminate Hr|discriminate Hr].
  cbn [obind] in Hr. rewrite (rmul_one (R:=R)) in Hr.
  exists params, w. split; [reflexivity|]. split; [exact Ew|].
  destruct (finish_login _ _ _ _ _ _ _ _ _ _ _ (agreed_ssid_length Tc Ts sm c s) Hr Hk) as [E|E].
  - left. exact (prs_match W w x (X_nonzero x Ix) E).
  - right. exact E.
Qed.

(** C69: whoever logs in as a user with verifier [W] used a password whose scalar [w] gives [W = B^w], or
    a collision is exhibited. *)
Theorem C69_login :
  forall (DB : Database R) Tc Ts am sm m (c : AuCPaceClient Tc) (s : AuCPaceServer Ts) user pass h d W salt ps
    (sts : rng_state Ts) ci (stc : rng_state Tc) kc ks,
  ssid_mode_ok sm -> fits m user pass -> salt_valid salt ->
  lookup_verifier DB d user = Some (W, salt, ps) ->
  run_login R D Params params_of am Tc Ts sm m c s
    (fun sess u => generate_client_info R D DB Ts sess u d sts) user pass h ci stc = Ok (kc, ks) ->
  am = Explicit \/ kc = ks ->
  let ssid := agreed_ssid D Tc Ts sm c s in
  let x := drawn Ts sts in
  exists params w, params_of ps = Ok params /\ spec_w h user pass salt params = Ok w /\
    (W = spec_W R w \/
     lucky (deciding am) (login_input ssid (rmul (spec_X R x) w) ci) (login_input ssid (rmul W x) ci)
       (drawn Ts (after Ts 64 sts)) (drawn Tc stc)).
Proof.
  intros DB Tc Ts am sm m c s user pass h d W salt ps sts ci stc kc ks Hm HF V Hl Hr Hk.
  exact (login_generic DB Tc Ts am sm m c s _ user user pass h d W salt ps (drawn Ts sts) (after Ts 64 sts) ci stc kc ks
    Hm HF V Hl (fun sess => generate_client_info_eq R D DB Ts sess user d sts) Hr Hk).
Qed.

Theorem C69_login_partial_aug :
  forall (DB : Database R) (PDB : PartialAugDatabase R (db DB)) Tc Ts am sm m (c : AuCPaceClient Tc)
    (s : AuCPaceServer Ts) user pass h d W salt ps x (sts : rng_state Ts) ci (stc : rng_state Tc) kc ks,
  ssid_mode_ok sm -> fits m user pass -> salt_valid salt ->
  lookup_verifier DB d user = Some (W, salt, ps) ->
  lookup_long_term_keypair PDB d user = Some (x, spec_X R x) ->
  run_login R D Params params_of am Tc Ts sm m c s
    (fun sess u => generate_client_info_partial_aug R D DB PDB Ts sess u d sts) user pass h ci stc = Ok (kc, ks) ->
  am = Explicit \/ kc = ks ->
  let ssid := agreed_ssid D Tc Ts sm c s in
  exists params w, params_of ps = Ok params /\ spec_w h user pass salt params = Ok w /\
    (W = spec_W R w \/
     lucky (deciding am) (login_input ssid (rmul (spec_X R x) w) ci) (login_input ssid (rmul W x) ci)
       (drawn Ts sts) (drawn Tc stc)).
Proof.
  intros DB PDB Tc Ts am sm m c s user pass h d W salt ps x sts ci stc kc ks Hm HF V Hl Hlk Hr Hk.
  refine (login_generic DB Tc Ts am sm m c s _ user user pass h d W salt ps x sts ci stc kc ks
    Hm HF V Hl _ Hr Hk).
  intros sess. unfold generate_client_info_partial_aug. now rewrite Hlk.
Qed.

(** ... in the strong variant the salt also comes from the password given. *)
Lemma login_strong_generic (DB : StrongDatabase R) Tc Ts am sm m (c : AuCPaceClient Tc) (s : AuCPaceServer Ts)
  info fuel user user' pass h d W q ps x st ci stb stc kc ks :
  ssid_mode_ok sm -> fits m user pass ->
  lookup_verifier_strong DB d user' = Some (W, q, ps) ->
  (forall sess U, info sess user U
    = cpace_substep R Ts sess (generate_prs_strong R D DB Ts sess user' U d st x (spec_X R x))) ->
  let ssid := agreed_ssid D Tc Ts sm c s in
  run_login_strong R D Params params_of am Tc Ts sm m c s info fuel user pass h ci stb stc = Some (Ok (kc, ks)) ->
  am = Explicit \/ kc = ks ->
  q <> szero /\ exists params w, params_of ps = Ok params /\
    spec_w h user pass (b64_encode (rcompress R (rmul (spec_Z R D user pass) q))) params = Ok w /\
    (W = spec_W R w \/
     lucky (deciding am) (login_input ssid (rmul (spec_X R x) w) ci) (login_input ssid (rmul W x) ci)
       (drawn Ts st) (drawn Tc stc)).
Proof.
  intros Hm HF Hl Hi ssid. unfold run_login_strong. rewrite run_ssid_eq by assumption. fold ssid.
  rewrite start_augmentation_strong_eq. cbn [cpa_ssid].
  destruct (draw_blinding_value Tc fuel stb) as [[r stb']|] eqn:Eb; [|intros H; discriminate H].
  intros Hr Hk. injection Hr as Hr. unfold run_aug_strong in Hr. rewrite Hi in Hr.
  unfold generate_prs_strong in Hr. rewrite Hl in Hr.
  destruct (is_identity (rmul (rmul (spec_Z R D user pass) r) (smult q sone))) eqn:Iz; [discriminate Hr|].
  rewrite !smult_one_r in Hr. rewrite smult_one_r in Iz. split.
  { intros ->. apply (is_identity_neq L) in Iz. apply Iz. apply (rmul_identity L). now left. } cbn [cpace_substep obind sal_ssid] in Hr.
  destruct (params_of ps) as [params|e|]; [|discriminate Hr|discriminate Hr]. cbn [obind] in Hr.
  rewrite do_strong_generate_cpace_eq in Hr by assumption.
  rewrite (unblind R L) in Hr by (exact (draw_blinding_value_nonzero _ _ _ _ _ Eb)).
  destruct (is_identity (spec_X R x)) eqn:Ix; [discriminate Hr|]. cbn [orb] in Hr.
  destruct (salt_rejected _ _ _); [discriminate Hr|].
  destruct (spec_w h user pass _ params) as [w|e|] eqn:Ew; [|discriminate Hr|discriminate Hr].
  cbn [obind] in Hr. exists params, w. split; [reflexivity|]. split; [exact Ew|].
  destruct (finish_login _ _ _ _ _ _ _ _ _ _ _ (agreed_ssid_length Tc Ts sm c s) Hr Hk) as [E|E].
  - left. exact (prs_match W w x (X_nonzero x Ix) E).
  - right. exact E.
Qed.

Theorem C69_login_strong :
  forall (DB : StrongDatabase R) Tc Ts am sm m (c : AuCPaceClient Tc) (s : AuCPaceServer Ts) fuel user pass h d W q ps
    (sts : rng_state Ts) ci (stb stc : rng_state Tc) kc ks,
  ssid_mode_ok sm -> fits m user pass ->
  lookup_verifier_strong DB d user = Some (W, q, ps) ->
  run_login_strong R D Params params_of am Tc Ts sm m c s
    (fun sess u U => generate_client_info_strong R D DB Ts sess u U d sts) fuel user pass h ci stb stc
    = Some (Ok (kc, ks)) ->
  am = Explicit \/ kc = ks ->
  let ssid := agreed_ssid D Tc Ts sm c s in
  let x := drawn Ts sts in
  exists params w, params_of ps = Ok params /\
    spec_w h user pass (b64_encode (rcompress R (rmul (spec_Z R D user pass) q))) params = Ok w /\
    (W = spec_W R w \/
     lucky (deciding am) (login_input ssid (rmul (spec_X R x) w) ci) (login_input ssid (rmul W x) ci)
       (drawn Ts (after Ts 64 sts)) (drawn Tc stc)).
Proof.
  intros DB Tc Ts am sm m c s fuel user pass h d W q ps sts ci stb stc kc ks Hm HF Hl Hr Hk.
  exact (proj2 (login_strong_generic DB Tc Ts am sm m c s _ fuel user user pass h d W q ps (drawn Ts sts) (after Ts 64 sts) ci
    stb stc kc ks Hm HF Hl (fun sess U => generate_client_info_strong_eq R D DB Ts sess user U d sts) Hr Hk)).
Qed.

Theorem C69_login_partial_strong :
  forall (DB : StrongDatabase R) (PDB : PartialAugDatabase R (sdb DB)) Tc Ts am sm m (c : AuCPaceClient Tc)
    (s : AuCPaceServer Ts) fuel user pass h d W q ps x (sts : rng_state Ts) ci (stb stc : rng_state Tc) kc ks,
  ssid_mode_ok sm -> fits m user pass ->
  lookup_verifier_strong DB d user = Some (W, q, ps) ->
  lookup_long_term_keypair PDB d user = Some (x, spec_X R x) ->
  run_login_strong R D Params params_of am Tc Ts sm m c s
    (fun sess u U => generate_client_info_partial_strong R D DB PDB Ts sess u U d sts) fuel user pass h ci stb stc
    = Some (Ok (kc, ks)) ->
  am = Explicit \/ kc = ks ->
  let ssid := agreed_ssid D Tc Ts sm c s in
  exists params w, params_of ps = Ok params /\
    spec_w h user pass (b64_encode (rcompress R (rmul (spec_Z R D user pass) q))) params = Ok w /\
    (W = spec_W R w \/
     lucky (deciding am) (login_input ssid (rmul (spec_X R x) w) ci) (login_input ssid (rmul W x) ci)
       (drawn Ts sts) (drawn Tc stc)).
Proof.
  intros DB PDB Tc Ts am sm m c s fuel user pass h d W q ps x sts ci stb stc kc ks Hm HF Hl Hlk Hr Hk.
  refine (proj2 (login_strong_generic DB Tc Ts am sm m c s _ fuel user user pass h d W q ps x sts ci
    stb stc kc ks Hm HF Hl _ Hr Hk)).
  intros sess U. unfold generate_client_info_partial_strong. now rewrite Hlk.
Qed.

(** ** A wrong password *)

(** C69: the user registered with [pass]; a login with another password succeeds only by a collision: of
    the password scalar, or one of the three of CPace. *)
Theorem C69_wrong_password :
  forall (DB : Database R) Treg Tc Ts am (creg : AuCPaceClient Treg) (c : AuCPaceClient Tc)
    (s : AuCPaceServer Ts) sm mreg m user pass pass' params (h : hasher Params) u salt ps W creg' d uad ci
    (sts : rng_state Ts) (stc : rng_state Tc) kc ks,
  ssid_mode_ok sm -> fits mreg user pass -> fits m user pass' ->
  do_register R Params params_try_into mreg Treg creg user pass params h
    = (Ok (CRegistration u salt ps W), creg') ->
  params_of ps = Ok params ->
  let d' := store_verifier DB d u salt uad W ps in
  lookup_verifier DB d' user = Some (W, salt, ps) ->
  run_login R D Params params_of am Tc Ts sm m c s
    (fun sess u => generate_client_info R D DB Ts sess u d' sts) user pass' h ci stc = Ok (kc, ks) ->
  am = Explicit \/ kc = ks ->
  pass' = pass \/ collision (fun p => spec_w h user p salt params) pass' pass \/
  exists w w', spec_w h user pass salt params = Ok w /\ spec_w h user pass' salt params = Ok w' /\
    let ssid := agreed_ssid D Tc Ts sm c s in
    let x := drawn Ts sts in
    lucky (deciding am) (login_input ssid (rmul (rbase R) (smult w' x)) ci)
      (login_input ssid (rmul (rbase R) (smult w x)) ci) (drawn Ts (after Ts 64 sts)) (drawn Tc stc).
Proof.
  intros DB Treg Tc Ts am creg c s sm mreg m user pass pass' params h u salt ps W creg' d uad ci sts stc kc ks
    Hm HFr HF Hreg Hp d' Hl Hr Hk.
  apply do_register_ok in Hreg; [|exact HFr]. destruct Hreg as (-> & Hs & Ht & w & Hw & ->).
  destruct (list_eq_dec byte_eq_dec pass' pass) as [Ep|Np]; [left; exact Ep|right].
  assert (V : salt_valid salt) by (rewrite Hs; apply salt_generate_eq).
  destruct (C69_login DB Tc Ts am sm m c s user pass' h d' _ salt ps sts ci stc kc ks Hm HF V Hl Hr Hk)
    as (params' & w' & Hp' & Hw' & H).
  assert (Epp : params' = params) by congruence. subst params'.
  destruct H as [E|H].
  - left. split; [exact Np|]. rewrite Hw, Hw'. f_equal.
    symmetry. exact (rmul_inj L (rbase R) w w' (rl_base R L) E).
  - right. exists w, w'. split; [exact Hw|]. split; [exact Hw'|]. cbv zeta in *.
    rewrite (prs_client_eq R L) in H. unfold spec_W in H. rewrite (rmul_mul L) in H. exact H.
Qed.

Theorem C69_wrong_password_strong :
  forall (DB : StrongDatabase R) Treg Tc Ts am (creg : AuCPaceClient Treg) (c : AuCPaceClient Tc)
    (s : AuCPaceServer Ts) sm mreg m user pass pass' params (h : hasher Params) u q ps W creg' d uad ci
    (sts : rng_state Ts) (stb stc : rng_state Tc) fuel kc ks,
  ssid_mode_ok sm -> fits mreg user pass -> fits m user pass' ->
  do_register_strong R D Params params_try_into mreg Treg creg user pass params h
    = (Ok (CStrongRegistration u q ps W), creg') ->
  params_of ps = Ok params ->
  let d' := store_verifier_strong DB d u uad W q ps in
  lookup_verifier_strong DB d' user = Some (W, q, ps) ->
  run_login_strong R D Params params_of am Tc Ts sm m c s
    (fun sess u U => generate_client_info_strong R D DB Ts sess u U d' sts) fuel user pass' h ci stb stc
    = Some (Ok (kc, ks)) ->
  am = Explicit \/ kc = ks ->
  let scalar_of p := spec_w h user p (b64_encode (rcompress R (rmul (spec_Z R D user p) q))) params in
  pass' = pass \/ collision scalar_of pass' pass \/
  exists w w', scalar_of pass = Ok w /\ scalar_of pass' = Ok w' /\
    let ssid := agreed_ssid D Tc Ts sm c s in
    let x := drawn Ts sts in
    lucky (deciding am) (login_input ssid (rmul (rbase R) (smult w' x)) ci)
      (login_input ssid (rmul (rbase R) (smult w x)) ci) (drawn Ts (after Ts 64 sts)) (drawn Tc stc).
Proof.
  intros DB Treg Tc Ts am creg c s sm mreg m user pass pass' params h u q ps W creg' d uad ci sts stb stc fuel kc ks
    Hm HFr HF Hreg Hp d' Hl Hr Hk scalar_of.
  apply do_register_strong_ok in Hreg; [|exact L|exact HFr]. destruct Hreg as (-> & Ht & w & Hw & ->).
  destruct (list_eq_dec byte_eq_dec pass' pass) as [Ep|Np]; [left; exact Ep|right].
  destruct (C69_login_strong DB Tc Ts am sm m c s fuel user pass' h d' _ q ps sts ci stb stc kc ks Hm HF Hl Hr Hk)
    as (params' & w' & Hp' & Hw' & H).
  assert (Epp : params' = params) by congruence. subst params'.
  destruct H as [E|H].
  - left. split; [exact Np|]. transitivity (@Ok Error _ w'); [exact Hw'|]. transitivity (@Ok Error _ w); [|symmetry; exact Hw].
    f_equal. symmetry. exact (rmul_inj L (rbase R) w w' (rl_base R L) E).
  - right. exists w, w'. split; [exact Hw|]. split; [exact Hw'|]. cbv zeta in *.
    rewrite (prs_client_eq R L) in H. unfold spec_W in H. rewrite (rmul_mul L) in H. exact H.
Qed.

(** ** An unknown user *)

(** C69: nobody logs in as a user the server does not know, unless the 32 random bytes the server draws as
    PRS happen to be the client's PRS, or by one of the collisions. *)
Theorem C69_unknown_user :
  forall (DB : Database R) Tc Ts am sm m (c : AuCPaceClient Tc) (s : AuCPaceServer Ts) user pass h d
    (sts : rng_state Ts) ci (stc : rng_state Tc) kc ks,
  ssid_mode_ok sm -> fits m user pass ->
  lookup_verifier DB d user = None ->
  run_login R D Params params_of am Tc Ts sm m c s
    (fun sess u => generate_client_info R D DB Ts sess u d sts) user pass h ci stc = Ok (kc, ks) ->
  am = Explicit \/ kc = ks ->
  let ssid := agreed_ssid D Tc Ts sm c s in
  let x := drawn Ts sts in
  let guess := fst (rng_fill Ts 32 (after Ts 64 sts)) in
  let salt := b64_encode (firstn 48 (D (le_bytes 8 (s_secret Ts s) ++ user))) in
  exists params w, params_of params_default = Ok params /\ spec_w h user pass salt params = Ok w /\
    (guess = spec_PRS R w x \/
     lucky (deciding am) (login_input ssid (rmul (rbase R) (smult w x)) ci)
       {| ci_ssid := ssid; ci_prs := guess; ci_chan := ci |}
       (drawn Ts (after Ts 32 (after Ts 64 sts))) (drawn Tc stc)).
Proof.
  intros DB Tc Ts am sm m c s user pass h d sts ci stc kc ks Hm HF Hl. unfold run_login.
  rewrite run_ssid_eq by assumption. cbn [obind].
  unfold run_aug, start_augmentation. cbn [cpa_ssid]. rewrite generate_client_info_eq. unfold generate_prs. rewrite Hl.
  rewrite lookup_failed_eq by exact Dlen. cbn [cpace_substep obind sal_ssid sal_secret]. intros Hr Hk.
  destruct (params_of params_default) as [params|e|]; [|discriminate Hr|discriminate Hr]. cbn [obind] in Hr.
  assert (V : salt_valid (fake_salt D (s_secret Ts s) user)).
  { unfold fake_salt.
    refine (proj2 (salt_encode_ok _ _)). rewrite firstn_length, Dlen. split; apply Nat.leb_le; reflexivity. }
  rewrite do_generate_cpace_eq in Hr by assumption.
  destruct (is_identity (spec_X R (drawn Ts sts))) eqn:Ix; [discriminate Hr|].
  destruct (spec_w h user pass _ params) as [w|e|] eqn:Ew; [|discriminate Hr|discriminate Hr].
  cbn [obind] in Hr. exists params, w. split; [reflexivity|]. split; [exact Ew|].
  rewrite (prs_client_eq R L) in Hr.
  match type of Hr with run_cpace _ _ _ _ _ ?cs ?ss _ _ _ = _ =>
    pose proof (C69_substep am Tc Ts cs ss ci ci stc) as H end.
  cbn [ccs_ssid ccs_prs scs_ssid scs_prs scs_rng] in H.
  specialize (H (agreed_ssid_length Tc Ts sm c s) (rl_length R L _) (agreed_ssid_length Tc Ts sm c s)
    (rng_fill_length Ts 32 _)).
  rewrite Hr in H. destruct (H Hk) as [(_ & E & _)|E]; [left; exact (eq_sym E)|right; exact E].
Qed.

(** The other three servers.  The strong servers invent an exponent for the unknown user, so the salt is
    the one the client's own password gives with it; the partially augmented servers have no key pair for
    the user and send a random point. *)
Lemma unknown_strong_generic (Tc Ts : Rng) am sm m (c : AuCPaceClient Tc) (s : AuCPaceServer Ts) info fuel
  user pass h X (st : rng_state Ts) ci (stb stc : rng_state Tc) kc ks :
  ssid_mode_ok sm -> fits m user pass ->
  (forall sess U, info sess user U = cpace_substep R Ts sess (lookup_failed_strong R D Ts sess user U X st)) ->
  run_login_strong R D Params params_of am Tc Ts sm m c s info fuel user pass h ci stb stc = Some (Ok (kc, ks)) ->
  am = Explicit \/ kc = ks ->
  let ssid := agreed_ssid D Tc Ts sm c s in
  let guess := fst (rng_fill Ts 32 st) in
  let salt := b64_encode (rcompress R (rmul (spec_Z R D user pass) (fake_exponent D (s_secret Ts s) user))) in
  exists params w, params_of params_default = Ok params /\ spec_w h user pass salt params = Ok w /\
    (guess = rcompress R (rmul X w) \/
     lucky (deciding am) (login_input ssid (rmul X w) ci)
       {| ci_ssid := ssid; ci_prs := guess; ci_chan := ci |} (drawn Ts (after Ts 32 st)) (drawn Tc stc)).
Proof.
  intros Hm HF Hi. unfold run_login_strong. rewrite run_ssid_eq by assumption.
  rewrite start_augmentation_strong_eq. cbn [cpa_ssid].
  destruct (draw_blinding_value Tc fuel stb) as [[r stb']|] eqn:Eb; [|intros H; discriminate H].
  intros Hr Hk. injection Hr as Hr. unfold run_aug_strong in Hr. rewrite Hi in Hr.
  rewrite lookup_failed_strong_eq in Hr. cbv zeta in Hr. cbn [sal_secret] in Hr.
  destruct (is_identity (rmul (rmul (spec_Z R D user pass) r) (fake_exponent D (s_secret Ts s) user))) eqn:Iz;
    [discriminate Hr|].
  cbn [cpace_substep obind sal_ssid] in Hr.
  destruct (params_of params_default) as [params|e|]; [|discriminate Hr|discriminate Hr]. cbn [obind] in Hr.
  rewrite do_strong_generate_cpace_eq in Hr by assumption.
  rewrite (unblind R L) in Hr by (exact (draw_blinding_value_nonzero _ _ _ _ _ Eb)).
  destruct (is_identity X) eqn:Ix; [discriminate Hr|]. cbn [orb] in Hr.
  destruct (salt_rejected _ _ _); [discriminate Hr|].
  destruct (spec_w h user pass _ params) as [w|e|] eqn:Ew; [|discriminate Hr|discriminate Hr].
  cbn [obind] in Hr. exists params, w. split; [reflexivity|]. split; [exact Ew|].
  match type of Hr with run_cpace _ _ _ _ _ ?cs ?ss _ _ _ = _ =>
    pose proof (C69_substep am Tc Ts cs ss ci ci stc) as H end.
  cbn [ccs_ssid ccs_prs scs_ssid scs_prs scs_rng] in H.
  specialize (H (agreed_ssid_length Tc Ts sm c s) (rl_length R L _) (agreed_ssid_length Tc Ts sm c s)
    (rng_fill_length Ts 32 _)).
  rewrite Hr in H. destruct (H Hk) as [(_ & E & _)|E]; [left; exact (eq_sym E)|right; exact E].
Qed.

Theorem C69_unknown_user_strong :
  forall (DB : StrongDatabase R) Tc Ts am sm m (c : AuCPaceClient Tc) (s : AuCPaceServer Ts) fuel user pass h d
    (sts : rng_state Ts) ci (stb stc : rng_state Tc) kc ks,
  ssid_mode_ok sm -> fits m user pass ->
  lookup_verifier_strong DB d user = None ->
  run_login_strong R D Params params_of am Tc Ts sm m c s
    (fun sess u U => generate_client_info_strong R D DB Ts sess u U d sts) fuel user pass h ci stb stc
    = Some (Ok (kc, ks)) ->
  am = Explicit \/ kc = ks ->
  let ssid := agreed_ssid D Tc Ts sm c s in
  let x := drawn Ts sts in
  let guess := fst (rng_fill Ts 32 (after Ts 64 sts)) in
  let q := sof (Z.of_N (le_val (D (le_bytes 8 (s_secret Ts s) ++ user)))) in
  let salt := b64_encode (rcompress R (rmul (spec_Z R D user pass) q)) in
  exists params w, params_of params_default = Ok params /\ spec_w h user pass salt params = Ok w /\
    (guess = spec_PRS R w x \/
     lucky (deciding am) (login_input ssid (rmul (rbase R) (smult w x)) ci)
       {| ci_ssid := ssid; ci_prs := guess; ci_chan := ci |}
       (drawn Ts (after Ts 32 (after Ts 64 sts))) (drawn Tc stc)).
Proof.
  intros DB Tc Ts am sm m c s fuel user pass h d sts ci stb stc kc ks Hm HF Hl Hr Hk ssid x guess q salt.
  destruct (unknown_strong_generic Tc Ts am sm m c s _ fuel user pass h (spec_X R (drawn Ts sts)) (after Ts 64 sts) ci
    stb stc kc ks Hm HF (fun sess U => eq_trans (generate_client_info_strong_eq R D DB Ts sess user U d sts)
      ltac:(unfold generate_prs_strong; rewrite Hl; reflexivity)) Hr Hk) as (params & w & Hp & Hw & H).
  exists params, w. split; [exact Hp|]. split; [exact Hw|].
  rewrite (prs_client_eq R L) in H. exact H.
Qed.

Theorem C69_unknown_user_partial_strong :
  forall (DB : StrongDatabase R) (PDB : PartialAugDatabase R (sdb DB)) Tc Ts am sm m (c : AuCPaceClient Tc)
    (s : AuCPaceServer Ts) fuel user pass h d (sts : rng_state Ts) ci (stb stc : rng_state Tc) kc ks,
  ssid_mode_ok sm -> fits m user pass ->
  lookup_long_term_keypair PDB d user = None ->
  run_login_strong R D Params params_of am Tc Ts sm m c s
    (fun sess u U => generate_client_info_partial_strong R D DB PDB Ts sess u U d sts) fuel user pass h ci stb stc
    = Some (Ok (kc, ks)) ->
  am = Explicit \/ kc = ks ->
  let ssid := agreed_ssid D Tc Ts sm c s in
  let X := rfrom_uniform R (fst (rng_fill Ts 64 sts)) in
  let guess := fst (rng_fill Ts 32 (after Ts 64 sts)) in
  let q := sof (Z.of_N (le_val (D (le_bytes 8 (s_secret Ts s) ++ user)))) in
  let salt := b64_encode (rcompress R (rmul (spec_Z R D user pass) q)) in
  exists params w, params_of params_default = Ok params /\ spec_w h user pass salt params = Ok w /\
    (guess = rcompress R (rmul X w) \/
     lucky (deciding am) (login_input ssid (rmul X w) ci)
       {| ci_ssid := ssid; ci_prs := guess; ci_chan := ci |}
       (drawn Ts (after Ts 32 (after Ts 64 sts))) (drawn Tc stc)).
Proof.
  intros DB PDB Tc Ts am sm m c s fuel user pass h d sts ci stb stc kc ks Hm HF Hl Hr Hk ssid X guess q salt.
  refine (unknown_strong_generic Tc Ts am sm m c s _ fuel user pass h X (after Ts 64 sts) ci
    stb stc kc ks Hm HF _ Hr Hk).
  intros sess U. unfold generate_client_info_partial_strong, X, point_random, after. rewrite Hl.
  destruct (rng_fill Ts 64 sts). reflexivity.
Qed.

Theorem C69_unknown_user_partial_aug :
  forall (DB : Database R) (PDB : PartialAugDatabase R (db DB)) Tc Ts am sm m (c : AuCPaceClient Tc)
    (s : AuCPaceServer Ts) user pass h d (sts : rng_state Ts) ci (stc : rng_state Tc) kc ks,
  ssid_mode_ok sm -> fits m user pass ->
  lookup_long_term_keypair PDB d user = None ->
  run_login R D Params params_of am Tc Ts sm m c s
    (fun sess u => generate_client_info_partial_aug R D DB PDB Ts sess u d sts) user pass h ci stc = Ok (kc, ks) ->
  am = Explicit \/ kc = ks ->
  let ssid := agreed_ssid D Tc Ts sm c s in
  let X := rfrom_uniform R (fst (rng_fill Ts 64 sts)) in
  let guess := fst (rng_fill Ts 32 (after Ts 64 sts)) in
  let salt := b64_encode (firstn 48 (D (le_bytes 8 (s_secret Ts s) ++ user))) in
  exists params w, params_of params_default = Ok params /\ spec_w h user pass salt params = Ok w /\
    (guess = rcompress R (rmul X w) \/
     lucky (deciding am) (login_input ssid (rmul X w) ci)
       {| ci_ssid := ssid; ci_prs := guess; ci_chan := ci |}
       (drawn Ts (after Ts 32 (after Ts 64 sts))) (drawn Tc stc)).
Proof.
  intros DB PDB Tc Ts am sm m c s user pass h d sts ci stc kc ks Hm HF Hl. unfold run_login.
  rewrite run_ssid_eq by assumption. cbn [obind].
  unfold run_aug, start_augmentation. cbn [cpa_ssid]. unfold generate_client_info_partial_aug. rewrite Hl.
  unfold point_random, after. destruct (rng_fill Ts 64 sts) as [bs st1]. cbn [fst snd].
  rewrite lookup_failed_eq by exact Dlen. cbn [cpace_substep obind sal_ssid sal_secret]. intros Hr Hk.
  destruct (params_of params_default) as [params|e|]; [|discriminate Hr|discriminate Hr]. cbn [obind] in Hr.
  assert (V : salt_valid (fake_salt D (s_secret Ts s) user)).
  { unfold fake_salt.
    refine (proj2 (salt_encode_ok _ _)). rewrite firstn_length, Dlen. split; apply Nat.leb_le; reflexivity. }
  rewrite do_generate_cpace_eq in Hr by assumption.
  destruct (is_identity (rfrom_uniform R bs)) eqn:Ix; [discriminate Hr|].
  destruct (spec_w h user pass _ params) as [w|e|] eqn:Ew; [|discriminate Hr|discriminate Hr].
  cbn [obind] in Hr. exists params, w. split; [reflexivity|]. split; [exact Ew|].
  match type of Hr with run_cpace _ _ _ _ _ ?cs ?ss _ _ _ = _ =>
    pose proof (C69_substep am Tc Ts cs ss ci ci stc) as H end.
  cbn [ccs_ssid ccs_prs scs_ssid scs_prs scs_rng] in H.
  specialize (H (agreed_ssid_length Tc Ts sm c s) (rl_length R L _) (agreed_ssid_length Tc Ts sm c s)
    (rng_fill_length Ts 32 _)).
  rewrite Hr in H. destruct (H Hk) as [(_ & E & _)|E]; [left; exact (eq_sym E)|right; exact E].
Qed.
End Refused.

(** ** Cases *)

(** C69_wrong_password: the toy hasher has collisions, and with one of them another password logs in; an
    ordinary wrong password is refused. *)
Definition colliding := str "correct fppat".
Example C69_case : colliding <> secret /\ agreed (toy_login Explicit (ByNonces 16) AllocBuf colliding) = true.
Proof. split; [intros E; discriminate E|vm_cast_no_check (eq_refl true)]. Qed.
Check (test (auth_failed (toy_login Explicit (ByNonces 16) AllocBuf wrong)) true).
Check (test (agreed (toy_login Implicit (PreEstablished (str "sixteen or more bytes")) AllocBuf colliding)) true).
Check (test (option_map agreed (toy_login_strong Explicit (ByNonces 16) AllocBuf secret)) (Some true)).
(** C69_substep: the same SSID and PRS agree on one channel, not on two; different SSIDs and different PRSs
    are refused. *)
Definition toy_substep (am : auth_mode) (ssid prs ssid' prs' ci ci' : bytes) : res (bytes * bytes) :=
  run_cpace ToyGroup toyD am tape_rng tape_rng {| ccs_ssid := ssid; ccs_prs := prs |}
    (Build_AuCPaceServerCPaceSubstep tape_rng ssid' prs' (toy_tape 3001 3002)) ci ci' (toy_tape 4001 4002).
Notation fill n b := (repeat b n).
Check (test (agreed (toy_substep Explicit (fill 64 x07) (fill 32 x08) (fill 64 x07) (fill 32 x08) channel channel)) true).
Check (test (auth_failed (toy_substep Explicit (fill 64 x07) (fill 32 x08) (fill 64 x07) (fill 32 x08) channel alice)) true).
Check (test (auth_failed (toy_substep Explicit (fill 64 x07) (fill 32 x08) (fill 64 x07) (fill 32 x09) channel channel)) true).
Check (test (auth_failed (toy_substep Explicit (fill 64 x07) (fill 32 x08) (fill 64 x06) (fill 32 x08) channel channel)) true).
Check (test (agreed (toy_substep Implicit (fill 64 x07) (fill 32 x08) (fill 64 x07) (fill 32 x08) channel alice)) false).
(** C69_unknown_user: a server whose generator yields, after its key, the PRS of the client. *)
Definition lucky_server (st : bytes) : res (bytes * bytes) :=
  run_login ToyGroup toyD bytes toy_params_of Explicit tape_rng tape_rng (ByNonces 16) AllocBuf toy_client toy_server
    (fun sess u => generate_client_info ToyGroup toyD (AssocDb ToyGroup) tape_rng sess u empty_db st)
    alice secret toy_hash channel (toy_tape 4001 4002).
Definition their_prs : bytes :=
  match spec_w toy_hash alice secret (b64_encode (firstn 48 (toyD (le_bytes 8 (s_secret tape_rng toy_server) ++ alice))))
          params_default with
  | Ok w => spec_PRS ToyGroup w (drawn tape_rng (toy_tape 3001 3002))
  | _ => []
  end.
Check (test (agreed (lucky_server (le_bytes 64 3001 ++ their_prs ++ le_bytes 64 3002))) true).
Check (test (auth_failed (lucky_server (toy_tape 3001 3002 ++ le_bytes 64 3003))) true).
(** The strong and the partially augmented servers in the same situation. *)
Definition toy_exponent : scalar := sof (Z.of_N (le_val (toyD (le_bytes 8 (s_secret tape_rng toy_server) ++ alice)))).
Definition prs_with (X : pt ToyGroup) (salt : bytes) : bytes :=
  match spec_w toy_hash alice secret salt params_default with
  | Ok w => rcompress ToyGroup (rmul X w)
  | _ => []
  end.
Definition strong_salt_of : bytes := b64_encode (rcompress ToyGroup (rmul (spec_Z ToyGroup toyD alice secret) toy_exponent)).
Definition fake_salt_of : bytes := b64_encode (firstn 48 (toyD (le_bytes 8 (s_secret tape_rng toy_server) ++ alice))).
Definition lucky_strong (st : bytes) : option (res (bytes * bytes)) :=
  run_login_strong ToyGroup toyD bytes toy_params_of Explicit tape_rng tape_rng (ByNonces 16) AllocBuf toy_client toy_server
    (fun sess u U => generate_client_info_strong ToyGroup toyD (AssocStrongDb ToyGroup) tape_rng sess u U empty_db st)
    3 alice secret toy_hash channel (toy_tape 0 5002) (toy_tape 4001 4002).
Definition lucky_partial_strong (st : bytes) : option (res (bytes * bytes)) :=
  run_login_strong ToyGroup toyD bytes toy_params_of Explicit tape_rng tape_rng (ByNonces 16) AllocBuf toy_client toy_server
    (fun sess u U => generate_client_info_partial_strong ToyGroup toyD (AssocStrongDb ToyGroup)
                       (AssocPartial ToyGroup) tape_rng sess u U empty_db st)
    3 alice secret toy_hash channel (toy_tape 0 5002) (toy_tape 4001 4002).
Definition lucky_partial_aug (st : bytes) : res (bytes * bytes) :=
  run_login ToyGroup toyD bytes toy_params_of Explicit tape_rng tape_rng (ByNonces 16) AllocBuf toy_client toy_server
    (fun sess u => generate_client_info_partial_aug ToyGroup toyD (AssocDb ToyGroup) (AssocPartial ToyGroup) tape_rng
                     sess u empty_db st)
    alice secret toy_hash channel (toy_tape 4001 4002).
Definition tape_with (prs : bytes) : bytes := le_bytes 64 3001 ++ prs ++ le_bytes 64 3002.
Definition toy_key : pt ToyGroup := spec_X ToyGroup (drawn tape_rng (toy_tape 3001 3002)).
Definition toy_point : pt ToyGroup := rfrom_uniform ToyGroup (le_bytes 64 3001).
Check (test (option_map agreed (lucky_strong (tape_with (prs_with toy_key strong_salt_of)))) (Some true)).
Check (test (option_map auth_failed (lucky_strong (tape_with (prs_with toy_key fake_salt_of)))) (Some true)).
Check (test (option_map agreed (lucky_partial_strong (tape_with (prs_with toy_point strong_salt_of)))) (Some true)).
Check (test (option_map auth_failed (lucky_partial_strong (tape_with (prs_with toy_point fake_salt_of)))) (Some true)).
Check (test (agreed (lucky_partial_aug (tape_with (prs_with toy_point fake_salt_of)))) true).
Check (test (auth_failed (lucky_partial_aug (tape_with (prs_with toy_point strong_salt_of)))) true).
