(** * Properties C72 and C73 of the aucpace crate: what the messages of CPace say about the password. *)
From Coq Require Import ZArith Lia.
From Verif Require Import Base.Bytes Base.Outcome Base.CtEq Base.Rng Base.Kat.
From Verif Require Import Curve.Primes Curve.Scalar25519.
From Verif Require Import Aucpace.RistrettoGroup Aucpace.PwHash Aucpace.AucpaceModel Aucpace.AucpaceSpec
  Aucpace.AucpaceRun Aucpace.AucpaceDb Aucpace.AucpaceToy Aucpace.AucpaceProofs Aucpace.AucpaceProps
  Aucpace.AucpaceProps9.
Local Open Scope nat_scope.

Section Guess.
Context (R : RGroup) (L : rgroup_laws R) (D : bytes -> bytes).
Context (Dlen : forall m, length (D m) = 64).
Context (Params : Type).

(** A party in its CPace substep. *)
Notation server_at T ssid prs st := (Build_AuCPaceServerCPaceSubstep T ssid prs st).
Notation client_at ssid prs := {| ccs_ssid := ssid; ccs_prs := prs |}.

Lemma server_key_eq T ssid prs st ci :
  server_generate_public_key R D T (server_at T ssid prs st) ci
  = ({| src_ssid := ssid; src_priv_key := drawn T st |}, SPublicKey (rmul (spec_G R D ssid prs ci) (drawn T st))).
Proof. unfold server_generate_public_key. cbn [scs_ssid scs_prs scs_rng]. now rewrite generate_keypair_eq. Qed.
Lemma client_key_eq T ssid prs st ci :
  client_generate_public_key R D T (client_at ssid prs) ci st
  = (({| crs_ssid := ssid; crs_priv_key := drawn T st |}, CPublicKey (rmul (spec_G R D ssid prs ci) (drawn T st))),
     after T 64 st).
Proof. unfold client_generate_public_key. cbn [ccs_ssid ccs_prs]. now rewrite generate_keypair_eq. Qed.

(** ** C72: public keys hide the PRS *)

Lemma one_scalar (G Y : pt R) : G <> rzero R -> exists y, forall y', rmul G y' = Y <-> y' = y.
Proof.
  intros HG. destruct (rmul_onto L G Y HG) as [y Hy]. exists y. intros y'. split; [|intros ->; exact Hy].
  intros E. rewrite <- Hy in E. exact (rmul_inj L G y' y HG E).
Qed.

(** C72: whatever public key [Y] a server sends with one PRS, with any other PRS it sends [Y] for exactly one
    value of the scalar it draws.  (The generator is the identity only for a message the map sends there.) *)
Theorem C72_server_key :
  forall ssid prs ci (Y : pt R), spec_G R D ssid prs ci <> rzero R ->
  exists y : scalar, forall T (st : rng_state T),
    snd (server_generate_public_key R D T (server_at T ssid prs st) ci) = SPublicKey Y <-> drawn T st = y.
Proof.
  intros ssid prs ci Y HG. destruct (one_scalar _ Y HG) as [y Hy]. exists y. intros T st.
  rewrite server_key_eq. cbn [snd]. rewrite <- Hy. split; [intros E; injection E as E; exact E|intros ->; reflexivity].
Qed.

Theorem C72_client_key :
  forall ssid prs ci (Y : pt R), spec_G R D ssid prs ci <> rzero R ->
  exists y : scalar, forall T (st : rng_state T),
    snd (fst (client_generate_public_key R D T (client_at ssid prs) ci st)) = CPublicKey Y <-> drawn T st = y.
Proof.
  intros ssid prs ci Y HG. destruct (one_scalar _ Y HG) as [y Hy]. exists y. intros T st.
  rewrite client_key_eq. cbn [fst snd]. rewrite <- Hy. split; [intros E; injection E as E; exact E|intros ->; reflexivity].
Qed.

(** C72: the whole login as an eavesdropper sees it, with implicit authentication (there are no other
    messages): take a user whose stored verifier is [W], or instead [W'].  The reply to the user name is the
    same message, and every pair of public keys has exactly one pair of private keys in either case. *)
Theorem C72_login :
  forall (DB : Database R) T s user d d' W W' salt ps (st : rng_state T) ss msg,
  lookup_verifier DB d user = Some (W, salt, ps) -> lookup_verifier DB d' user = Some (W', salt, ps) ->
  generate_client_info R D DB T s user d st = Ok (ss, msg) ->
  exists ss', generate_client_info R D DB T s user d' st = Ok (ss', msg) /\
    scs_ssid T ss = sal_ssid s /\ scs_ssid T ss' = sal_ssid s /\ scs_rng T ss' = scs_rng T ss /\
    forall ci, spec_G R D (sal_ssid s) (scs_prs T ss) ci <> rzero R ->
      spec_G R D (sal_ssid s) (scs_prs T ss') ci <> rzero R ->
    forall Ys Yc : pt R, exists ys yc ys' yc' : scalar, forall Ts Tc (sts : rng_state Ts) (stc : rng_state Tc),
      let sees prs := snd (server_generate_public_key R D Ts (server_at Ts (sal_ssid s) prs sts) ci) = SPublicKey Ys /\
        snd (fst (client_generate_public_key R D Tc (client_at (sal_ssid s) prs) ci stc)) = CPublicKey Yc in
      (sees (scs_prs T ss) <-> drawn Ts sts = ys /\ drawn Tc stc = yc) /\
      (sees (scs_prs T ss') <-> drawn Ts sts = ys' /\ drawn Tc stc = yc').
Proof.
  intros DB T s user d d' W W' salt ps st ss msg Hl Hl' E.
  rewrite generate_client_info_eq in E. unfold generate_prs in E. rewrite Hl in E.
  cbn [cpace_substep obind] in E. injection E as <- <-.
  rewrite generate_client_info_eq. unfold generate_prs. rewrite Hl'. cbn [cpace_substep obind].
  eexists. split; [reflexivity|]. cbn [scs_ssid scs_rng scs_prs].
  do 3 (split; [reflexivity|]). intros ci HG HG' Ys Yc.
  destruct (C72_server_key _ _ _ Ys HG) as [ys A1]. destruct (C72_client_key _ _ _ Yc HG) as [yc A2].
  destruct (C72_server_key _ _ _ Ys HG') as [ys' A3]. destruct (C72_client_key _ _ _ Yc HG') as [yc' A4].
  exists ys, yc, ys', yc'. intros Ts Tc sts stc. cbv zeta. rewrite A1, A2, A3, A4. split; reflexivity.
Qed.

(** ** C73: one guess per session *)

(** The collisions by which one answer can fit two PRSs: of the generator map, of the digest at the first
    session key ([Y] the peer's public key) and at the message of index [n]. *)
Definition two_guesses (n : byte) (ssid ci prs1 prs2 : bytes) (y1 y2 : scalar) (Y : pt R) : Prop :=
  let k y := word x02 ++ ssid ++ rcompress R (rmul Y y) in
  collision (fun m => rfrom_uniform R (D m)) (word x01 ++ ssid ++ prs1 ++ ci) (word x01 ++ ssid ++ prs2 ++ ci) \/
  collision D (k y1) (k y2) \/
  collision D (word n ++ ssid ++ D (k y1)) (word n ++ ssid ++ D (k y2)).

Lemma one_guess n ssid ci prs1 prs2 y1 y2 (Y Z : pt R) :
  length prs1 = 32 -> length prs2 = 32 -> Y <> rzero R -> Z <> rzero R ->
  rmul (spec_G R D ssid prs1 ci) y1 = Z -> rmul (spec_G R D ssid prs2 ci) y2 = Z ->
  D (word n ++ ssid ++ D (word x02 ++ ssid ++ rcompress R (rmul Y y1)))
    = D (word n ++ ssid ++ D (word x02 ++ ssid ++ rcompress R (rmul Y y2))) ->
  prs1 = prs2 \/ two_guesses n ssid ci prs1 prs2 y1 y2 Y.
Proof.
  intros L1 L2 HY HZ E1 E2 E. unfold two_guesses. cbv zeta.
  set (k1 := word x02 ++ ssid ++ rcompress R (rmul Y y1)) in *.
  set (k2 := word x02 ++ ssid ++ rcompress R (rmul Y y2)) in *.
  destruct (list_eq_dec byte_eq_dec (word n ++ ssid ++ D k1) (word n ++ ssid ++ D k2)) as [H1|H1];
    [|right; right; right; split; [exact H1|exact E]].
  do 2 apply app_inv_head in H1.
  destruct (list_eq_dec byte_eq_dec k1 k2) as [H2|H2]; [|right; right; left; split; [exact H2|exact H1]].
  unfold k1, k2 in H2. do 2 apply app_inv_head in H2. apply (rcompress_inj L) in H2. apply (rmul_inj L Y _ _ HY) in H2.
  subst y2. assert (Hy : y1 <> szero) by (intros ->; apply HZ; rewrite <- E1; apply (rmul_szero (R:=R))).
  rewrite <- E2 in E1. apply (rmul_cancel R L _ _ _ Hy) in E1. unfold spec_G in E1.
  destruct (list_eq_dec byte_eq_dec (word x01 ++ ssid ++ prs1 ++ ci) (word x01 ++ ssid ++ prs2 ++ ci)) as [H3|H3].
  - left. do 2 apply app_inv_head in H3. apply app_inj_length in H3; [exact (proj1 H3)|congruence].
  - right. left. split; [exact H3|exact E1].
Qed.

Lemma first_key_eq ssid y Y :
  compute_first_session_key R D ssid y Y = D (word x02 ++ ssid ++ rcompress R (rmul Y y)).
Proof. unfold compute_first_session_key, finalize, update. now rewrite <- app_assoc. Qed.

(** C73: two servers of one session (SSID and channel) that sent the same public key [Ys], whatever their PRSs
    and private keys, and were sent the same public key [Yc] and the same authenticator [t].  Both accept only
    if their PRSs are equal, or by a collision: a client that does not know the PRS tests one value. *)
Theorem C73_server :
  forall T1 T2 ssid prs1 prs2 ci (st1 : rng_state T1) (st2 : rng_state T2) s1 s2 Ys Yc e1 e2 t r1 r2,
  length prs1 = 32 -> length prs2 = 32 -> Ys <> rzero R ->
  server_generate_public_key R D T1 (server_at T1 ssid prs1 st1) ci = (s1, SPublicKey Ys) ->
  server_generate_public_key R D T2 (server_at T2 ssid prs2 st2) ci = (s2, SPublicKey Ys) ->
  receive_client_pubkey R D s1 Yc = Ok e1 -> receive_client_pubkey R D s2 Yc = Ok e2 ->
  receive_client_authenticator R D e1 t = Ok r1 -> receive_client_authenticator R D e2 t = Ok r2 ->
  prs1 = prs2 \/ two_guesses x04 ssid ci prs1 prs2 (src_priv_key s1) (src_priv_key s2) Yc.
Proof.
  intros T1 T2 ssid prs1 prs2 ci st1 st2 s1 s2 Ys Yc e1 e2 t r1 r2 L1 L2 HY.
  rewrite !server_key_eq. intros E1 E2. injection E1 as <- G1. injection E2 as <- G2.
  unfold receive_client_pubkey. destruct (is_identity Yc) eqn:Ic; [discriminate|].
  cbn [src_ssid src_priv_key]. intros E1 E2. injection E1 as <-. injection E2 as <-.
  unfold receive_client_authenticator. cbn [sem_ssid sem_sk1]. rewrite !authenticators_eq, !slice_ct_eqb.
  destruct (bytes_eqb (spec_Tb D ssid (compute_first_session_key R D ssid (drawn T1 st1) Yc)) t) eqn:B1; [|discriminate].
  destruct (bytes_eqb (spec_Tb D ssid (compute_first_session_key R D ssid (drawn T2 st2) Yc)) t) eqn:B2; [|discriminate].
  intros _ _. apply bytes_eqb_eq in B1, B2. rewrite <- B2 in B1. unfold spec_Tb in B1. rewrite !first_key_eq in B1.
  apply (is_identity_neq L) in Ic.
  exact (one_guess _ _ _ _ _ _ _ _ Ys L1 L2 Ic HY G1 G2 B1).
Qed.

(** Likewise with implicit authentication: one session key. *)
Theorem C73_server_implicit :
  forall T1 T2 ssid prs1 prs2 ci (st1 : rng_state T1) (st2 : rng_state T2) s1 s2 Ys Yc key,
  length prs1 = 32 -> length prs2 = 32 -> Ys <> rzero R ->
  server_generate_public_key R D T1 (server_at T1 ssid prs1 st1) ci = (s1, SPublicKey Ys) ->
  server_generate_public_key R D T2 (server_at T2 ssid prs2 st2) ci = (s2, SPublicKey Ys) ->
  server_implicit_auth R D s1 Yc = Ok key -> server_implicit_auth R D s2 Yc = Ok key ->
  prs1 = prs2 \/ two_guesses x05 ssid ci prs1 prs2 (src_priv_key s1) (src_priv_key s2) Yc.
Proof.
  intros T1 T2 ssid prs1 prs2 ci st1 st2 s1 s2 Ys Yc key L1 L2 HY.
  rewrite !server_key_eq. intros E1 E2. injection E1 as <- G1. injection E2 as <- G2.
  unfold server_implicit_auth. destruct (is_identity Yc) eqn:Ic; [discriminate|].
  cbn [src_ssid src_priv_key]. intros E1 E2. injection E1 as E1. injection E2 as E2. rewrite <- E2 in E1.
  rewrite !session_key_eq in E1. unfold spec_sk in E1. rewrite !first_key_eq in E1.
  apply (is_identity_neq L) in Ic.
  exact (one_guess _ _ _ _ _ _ _ _ Ys L1 L2 Ic HY G1 G2 E1).
Qed.

(** C73: two clients that sent the same public key [Yc] and received the same public key [Ys] send the same
    authenticator only if their PRSs are equal, or by a collision: whoever poses as the server and knows the
    key for one PRS cannot tell the other PRSs apart by it. *)
Theorem C73_client :
  forall T1 T2 ssid prs1 prs2 ci (st1 : rng_state T1) (st2 : rng_state T2) c1 c2 Ys Yc n1 n2 st1' st2' t,
  length prs1 = 32 -> length prs2 = 32 -> Yc <> rzero R ->
  client_generate_public_key R D T1 (client_at ssid prs1) ci st1 = ((c1, CPublicKey Yc), st1') ->
  client_generate_public_key R D T2 (client_at ssid prs2) ci st2 = ((c2, CPublicKey Yc), st2') ->
  receive_server_pubkey R D c1 Ys = Ok (n1, CAuthenticator t) ->
  receive_server_pubkey R D c2 Ys = Ok (n2, CAuthenticator t) ->
  prs1 = prs2 \/ two_guesses x04 ssid ci prs1 prs2 (crs_priv_key c1) (crs_priv_key c2) Ys.
Proof.
  intros T1 T2 ssid prs1 prs2 ci st1 st2 c1 c2 Ys Yc n1 n2 st1' st2' t L1 L2 HY.
  rewrite !client_key_eq. intros E1 E2. injection E1 as <- G1 _. injection E2 as <- G2 _.
  unfold receive_server_pubkey. destruct (is_identity Ys) eqn:Ic; [discriminate|].
  cbn [crs_ssid crs_priv_key]. rewrite !authenticators_eq. unfold spec_Tb. rewrite !(expect64_D D Dlen). cbn [obind].
  intros E1 E2. injection E1 as _ E1. injection E2 as _ E2. rewrite <- E2 in E1. rewrite !first_key_eq in E1.
  apply (is_identity_neq L) in Ic.
  exact (one_guess _ _ _ _ _ _ _ _ Yc L1 L2 Ic HY G1 G2 E1).
Qed.

Theorem C73_client_implicit :
  forall T1 T2 ssid prs1 prs2 ci (st1 : rng_state T1) (st2 : rng_state T2) c1 c2 Ys Yc st1' st2' key,
  length prs1 = 32 -> length prs2 = 32 -> Yc <> rzero R ->
  client_generate_public_key R D T1 (client_at ssid prs1) ci st1 = ((c1, CPublicKey Yc), st1') ->
  client_generate_public_key R D T2 (client_at ssid prs2) ci st2 = ((c2, CPublicKey Yc), st2') ->
  client_implicit_auth R D c1 Ys = Ok key -> client_implicit_auth R D c2 Ys = Ok key ->
  prs1 = prs2 \/ two_guesses x05 ssid ci prs1 prs2 (crs_priv_key c1) (crs_priv_key c2) Ys.
Proof.
  intros T1 T2 ssid prs1 prs2 ci st1 st2 c1 c2 Ys Yc st1' st2' key L1 L2 HY.
  rewrite !client_key_eq. intros E1 E2. injection E1 as <- G1 _. injection E2 as <- G2 _.
  unfold client_implicit_auth. destruct (is_identity Ys) eqn:Ic; [discriminate|].
  cbn [crs_ssid crs_priv_key]. intros E1 E2. injection E1 as E1. injection E2 as E2. rewrite <- E2 in E1.
  rewrite !session_key_eq in E1. unfold spec_sk in E1. rewrite !first_key_eq in E1.
  apply (is_identity_neq L) in Ic.
  exact (one_guess _ _ _ _ _ _ _ _ Yc L1 L2 Ic HY G1 G2 E1).
Qed.

(** ** From PRSs to passwords *)

(** C73: a guess of the PRS is a guess of the password.  For clients: with one reply of the server (even of a
    server that chose [X] as it liked) equal PRSs mean equal password scalars. *)
Theorem C73_password :
  forall m ssid user pass1 pass2 X salt params (h : hasher Params) c1 c2,
  fits m user pass1 -> fits m user pass2 -> salt_valid salt ->
  do_generate_cpace R Params m {| cal_ssid := ssid; cal_username := user; cal_password := pass1 |} X salt params h = Ok c1 ->
  do_generate_cpace R Params m {| cal_ssid := ssid; cal_username := user; cal_password := pass2 |} X salt params h = Ok c2 ->
  ccs_prs c1 = ccs_prs c2 ->
  pass1 = pass2 \/ collision (fun p => spec_w h user p salt params) pass1 pass2.
Proof.
  intros m ssid user pass1 pass2 X salt params h c1 c2 F1 F2 V.
  rewrite !do_generate_cpace_eq by assumption. destruct (is_identity X) eqn:IX; [discriminate|].
  destruct (spec_w h user pass1 salt params) as [w1|e|] eqn:W1; [|discriminate|discriminate].
  destruct (spec_w h user pass2 salt params) as [w2|e|] eqn:W2; [|discriminate|discriminate].
  cbn [obind]. intros E1 E2. injection E1 as <-. injection E2 as <-. cbn [ccs_prs]. intros E.
  apply (rcompress_inj L) in E. apply (is_identity_neq L) in IX. apply (rmul_inj L X _ _ IX) in E.
  destruct (list_eq_dec byte_eq_dec pass1 pass2) as [Ep|Np]; [left; exact Ep|right].
  split; [exact Np|]. rewrite W1, W2, E. reflexivity.
Qed.

(** For servers: with one key of the server that is not zero equal PRSs mean equal verifiers. *)
Theorem C73_verifier :
  forall (DB : Database R) T s user d1 d2 W1 W2 salt1 salt2 ps1 ps2 (st : rng_state T) s1 s2 m1 m2,
  lookup_verifier DB d1 user = Some (W1, salt1, ps1) -> lookup_verifier DB d2 user = Some (W2, salt2, ps2) ->
  drawn T st <> szero ->
  generate_client_info R D DB T s user d1 st = Ok (s1, m1) ->
  generate_client_info R D DB T s user d2 st = Ok (s2, m2) ->
  scs_prs T s1 = scs_prs T s2 -> W1 = W2.
Proof.
  intros DB T s user d1 d2 W1 W2 salt1 salt2 ps1 ps2 st s1 s2 m1 m2 H1 H2 Hx.
  rewrite !generate_client_info_eq. unfold generate_prs. rewrite H1, H2. cbn [cpace_substep obind].
  intros E1 E2. injection E1 as <- _. injection E2 as <- _. cbn [scs_prs]. intros E.
  apply (rcompress_inj L) in E. rewrite !(rmul_one (R:=R)) in E. exact (rmul_cancel R L _ _ _ Hx E).
Qed.
End Guess.

(** ** Cases *)

(** Two PRSs with one generator: the toy digest takes its input modulo 2^127 - 1. *)
Definition prs_a : bytes := le_bytes 32 5.
Definition prs_b : bytes := le_bytes 32 (5 + (2 ^ 127 - 1)).
(** ... and one with another, for which the scalar is computed that gives the same public key. *)
Definition prs_c : bytes := le_bytes 32 77.
Definition ssid0 : bytes := repeat x07 64.
Definition toy_G (prs : bytes) : scalar := spec_G ToyGroup toyD ssid0 prs channel.
Definition matching (y : scalar) : bytes := scalar_bytes (smult (smult y (toy_G prs_a)) (sinv (toy_G prs_c))) ++ repeat x00 32.

(** What a server with a PRS and generator state does: its public key, and whether it accepts. *)
Definition toy_server_key (prs st : bytes) : bytes :=
  match snd (server_generate_public_key ToyGroup toyD tape_rng (Build_AuCPaceServerCPaceSubstep tape_rng ssid0 prs st) channel) with
  | SPublicKey Y => scalar_bytes Y
  | _ => []
  end.
Definition toy_accepts (prs st : bytes) (Yc : pt ToyGroup) (t : bytes) : bool :=
  let '(s, _) := server_generate_public_key ToyGroup toyD tape_rng (Build_AuCPaceServerCPaceSubstep tape_rng ssid0 prs st) channel in
  is_ok (let! e := receive_client_pubkey ToyGroup toyD s Yc in receive_client_authenticator ToyGroup toyD e t).
(** The authenticator of a client with public key [Yc] for the server's state. *)
Definition toy_tb (prs st : bytes) (Yc : pt ToyGroup) : bytes :=
  spec_Tb toyD ssid0 (compute_first_session_key ToyGroup toyD ssid0 (drawn tape_rng st) Yc).
Definition toy_Yc : pt ToyGroup := sof 424242.

(** C73_server: the hypotheses are met by two different PRSs (and the conclusion by the first collision). *)
Definition c73_case : bool :=
  negb (bytes_eqb prs_a prs_b) && Nat.eqb (length prs_a) 32 && Nat.eqb (length prs_b) 32 &&
  bytes_eqb (toy_server_key prs_a (toy_tape 3001 3002)) (toy_server_key prs_b (toy_tape 3001 3002)) &&
  toy_accepts prs_a (toy_tape 3001 3002) toy_Yc (toy_tb prs_a (toy_tape 3001 3002) toy_Yc) &&
  toy_accepts prs_b (toy_tape 3001 3002) toy_Yc (toy_tb prs_a (toy_tape 3001 3002) toy_Yc) &&
  negb (seqb toy_Yc szero) && negb (bytes_eqb (toy_server_key prs_a (toy_tape 3001 3002)) (scalar_bytes szero)).
Example C73_server_case : c73_case = true.
Proof. vm_cast_no_check (eq_refl true). Qed.
(** The same public key with a PRS that has another generator (so C72_server_key gives the scalar): the
    authenticator is refused. *)
Definition c73_other : bool :=
  let st := matching (sof 3001) in
  let key := toy_server_key prs_a (toy_tape 3001 3002) in
  bytes_eqb key (toy_server_key prs_c st) && negb (bytes_eqb key (toy_server_key prs_c (toy_tape 3001 3002))) &&
  negb (toy_accepts prs_c st toy_Yc (toy_tb prs_a (toy_tape 3001 3002) toy_Yc)) &&
  toy_accepts prs_c st toy_Yc (toy_tb prs_c st toy_Yc).
Check (test c73_other true).

(** C72_login: the registered user, and another verifier in its place; the generators are not the identity. *)
Definition db_with (W : pt ToyGroup) : db (AssocDb ToyGroup) :=
  store_verifier (AssocDb ToyGroup) empty_db alice (str "c29tZSBzYWx0") None W toy_params.
Definition toy_info (W : pt ToyGroup) :=
  generate_client_info ToyGroup toyD (AssocDb ToyGroup) tape_rng {| sal_secret := 9; sal_ssid := ssid0 |} alice (db_with W)
    (toy_tape 3001 3002).
Definition c72_case : bool :=
  match toy_info (sof 600), toy_info (sof 601) with
  | Ok (s1, SAugmentationInfo _ x1 _ _), Ok (s2, SAugmentationInfo _ x2 _ _) =>
      seqb x1 x2 && negb (bytes_eqb (scs_prs tape_rng s1) (scs_prs tape_rng s2)) &&
      negb (seqb (toy_G (scs_prs tape_rng s1)) szero) && negb (seqb (toy_G (scs_prs tape_rng s2)) szero)
  | _, _ => false
  end.
Check (test c72_case true).
(** C73_password: the colliding password of C69 gives the PRS of the right one, another does not. *)
Definition toy_prs (pass : bytes) : bytes :=
  match do_generate_cpace ToyGroup bytes AllocBuf {| cal_ssid := ssid0; cal_username := alice; cal_password := pass |}
    (sof 31) (str "c29tZSBzYWx0") toy_params toy_hash with
  | Ok c => ccs_prs c
  | _ => []
  end.
Check (test (bytes_eqb (toy_prs secret) (toy_prs colliding)) true).
Check (test (bytes_eqb (toy_prs secret) (toy_prs wrong)) false).
