(** * AuCPace: guessing passwords online (C81). *)
From Coq Require Import ZArith Lia.
From Verif Require Import Base.Bytes Base.Outcome Base.CtEq Base.Rng Base.Count Base.Guess.
From Verif Require Import Curve.Scalar25519 Curve.NearUniform.
From Verif Require Import Aucpace.RistrettoGroup Aucpace.PwHash Aucpace.AucpaceModel Aucpace.AucpaceSpec
  Aucpace.AucpaceRun Aucpace.AucpaceDb Aucpace.AucpaceToy Aucpace.AucpaceProofs Aucpace.AucpaceProps Aucpace.AucpaceProps4
  Aucpace.AucpaceProps10 Aucpace.AucpaceProps11.
Local Open Scope nat_scope.

Lemma forall2_nth {A B} (P : A -> B -> Prop) l l' : Forall2 P l l' ->
  forall i b, nth_error l' i = Some b -> exists a, nth_error l i = Some a /\ P a b.
Proof.
  induction 1 as [|a b l l' H _ IH]; intros [|i] c E; try discriminate E; cbn in *.
  - injection E as <-. eauto.
  - now apply IH.
Qed.

Section Online.
Context (R : RGroup) (L : rgroup_laws R) (D : bytes -> bytes) (Dlen : forall m, length (D m) = 64).

(** The public key in a reply. *)
Definition x_pub_of (m : ServerMessage R) : option (pt R) :=
  match m with
  | SAugmentationInfo _ X _ _ => Some X
  | SStrongAugmentationInfo _ X _ _ => Some X
  | _ => None
  end.

(** The four ways a server answers for a user whose verifier is [W]: it goes to its CPace substep and sends
    a reply.  A stored long-term key pair has to be one. *)
Inductive serves (W : pt R) (T : Rng) (s : AuCPaceServerAugLayer) : AuCPaceServerCPaceSubstep T -> ServerMessage R -> Prop :=
| sv_plain (DB : Database R) user d st salt ps ss msg :
    lookup_verifier DB d user = Some (W, salt, ps) ->
    generate_client_info R D DB T s user d st = Ok (ss, msg) -> serves W T s ss msg
| sv_partial (DB : Database R) PDB user d st salt ps x ss msg :
    lookup_verifier DB d user = Some (W, salt, ps) ->
    lookup_long_term_keypair PDB d user = Some (x, rmul (rbase R) x) ->
    generate_client_info_partial_aug R D DB PDB T s user d st = Ok (ss, msg) -> serves W T s ss msg
| sv_strong (DB : StrongDatabase R) user U d st q ps ss msg :
    lookup_verifier_strong DB d user = Some (W, q, ps) ->
    generate_client_info_strong R D DB T s user U d st = Ok (ss, msg) -> serves W T s ss msg
| sv_partial_strong (DB : StrongDatabase R) PDB user U d st q ps x ss msg :
    lookup_verifier_strong DB d user = Some (W, q, ps) ->
    lookup_long_term_keypair PDB d user = Some (x, rmul (rbase R) x) ->
    generate_client_info_partial_strong R D DB PDB T s user U d st = Ok (ss, msg) -> serves W T s ss msg.

(** What a client sees of a session before it has to send anything that depends on the password: the SSID,
    the server's first public key [rmul (rbase R) x], the channel, and the server's second public key. *)
Record view := { v_ssid : bytes; v_x : scalar; v_ci : bytes; v_Y : pt R }.

(** A session of a server with verifier [W] that looks like [v]; [rk] is the state it waits in. *)
Definition session_of (W : pt R) (v : view) (rk : AuCPaceServerRecvClientKey) : Prop :=
  exists T s ss msg, serves W T s ss msg /\ sal_ssid s = v_ssid v /\
    x_pub_of msg = Some (rmul (rbase R) (v_x v)) /\
    server_generate_public_key R D T ss (v_ci v) = (rk, SPublicKey (v_Y v)).

(** The server accepts a public key and an authenticator. *)
Definition accepts (rk : AuCPaceServerRecvClientKey) (Yc : pt R) (t : bytes) : bool :=
  match receive_client_pubkey R D rk Yc with
  | Ok em => match receive_client_authenticator R D em t with Ok _ => true | _ => false end
  | _ => false
  end.

Lemma prs_parts (W : pt R) x : rcompress R (rmul (rmul W x) sone) = rcompress R (rmul W x).
Proof. now rewrite rmul_one. Qed.

Lemma serves_prs W T s ss msg : serves W T s ss msg ->
  exists x, x_pub_of msg = Some (rmul (rbase R) x) /\ scs_prs T ss = rcompress R (rmul W x) /\ scs_ssid T ss = sal_ssid s.
Proof.
  intros [DB user d st salt ps ss' msg' HL E|DB PDB user d st salt ps x ss' msg' HL HK E
         |DB user U d st q ps ss' msg' HL E|DB PDB user U d st q ps x ss' msg' HL HK E].
  - rewrite generate_client_info_eq in E. unfold generate_prs in E. rewrite HL in E. cbn [cpace_substep obind] in E.
    injection E as <- <-. exists (drawn T st). split; [reflexivity|]. split; [apply prs_parts|reflexivity].
  - unfold generate_client_info_partial_aug, generate_prs in E. rewrite HK, HL in E. cbn [cpace_substep obind] in E.
    injection E as <- <-. exists x. split; [reflexivity|]. split; [apply prs_parts|reflexivity].
  - rewrite generate_client_info_strong_eq in E. unfold generate_prs_strong in E. rewrite HL in E.
    destruct (is_identity _) in E; cbn [cpace_substep obind] in E; [discriminate E|].
    injection E as <- <-. exists (drawn T st). split; [reflexivity|]. split; [|reflexivity].
    cbn [scs_prs]. now rewrite smult_one_r.
  - unfold generate_client_info_partial_strong, generate_prs_strong in E. rewrite HK, HL in E.
    destruct (is_identity _) in E; cbn [cpace_substep obind] in E; [discriminate E|].
    injection E as <- <-. exists x. split; [reflexivity|]. split; [|reflexivity].
    cbn [scs_prs]. now rewrite smult_one_r.
Qed.

Lemma session_values W v rk : session_of W v rk ->
  src_ssid rk = v_ssid v /\
  v_Y v = rmul (spec_G R D (v_ssid v) (rcompress R (rmul W (v_x v))) (v_ci v)) (src_priv_key rk).
Proof.
  intros (T & s & ss & msg & HS & Es & EX & EK).
  destruct (serves_prs W T s ss msg HS) as (x & EX' & Ep & Ess).
  rewrite EX in EX'. injection EX' as EX'. apply (rmul_inj L) in EX'; [|exact (rl_base R L)]. subst x.
  unfold server_generate_public_key in EK. rewrite generate_keypair_eq in EK. injection EK as <- EY.
  cbn [src_ssid src_priv_key]. rewrite Ess, Es, Ep in *. split; [reflexivity|]. now symmetry.
Qed.

Lemma accepts_values rk Yc t : accepts rk Yc t = true <->
  Yc <> rzero R /\
  t = spec_Tb D (src_ssid rk) (D (word x02 ++ src_ssid rk ++ rcompress R (rmul Yc (src_priv_key rk)))).
Proof.
  unfold accepts, receive_client_pubkey. destruct (is_identity Yc) eqn:EI.
  - apply (is_identity_eq L) in EI. split; [discriminate|]. now intros [H _].
  - apply (is_identity_neq L) in EI.
    rewrite (proj1 (proj2 (C36_authenticators R D Dlen))). cbn [sem_ssid sem_sk1].
    assert (compute_first_session_key R D (src_ssid rk) (src_priv_key rk) Yc
            = D (word x02 ++ src_ssid rk ++ rcompress R (rmul Yc (src_priv_key rk)))) as ->
      by (unfold compute_first_session_key, finalize, update; now rewrite <- app_assoc).
    destruct (bytes_eqb t _) eqn:E.
    + apply bytes_eqb_eq in E. now split.
    + apply bytes_eqb_neq in E. split; [discriminate|]. now intros [_ H].
Qed.

(** The collisions a second accepting verifier would exhibit: of the map to generators at the two password
    related strings; of the digest at the two shared points; or of the digest at the two first session
    keys. *)
Definition guess_collision (v : view) (Yc : pt R) (W W' : pt R) (y y' : scalar) : Prop :=
  let gen P := word x01 ++ v_ssid v ++ rcompress R (rmul P (v_x v)) ++ v_ci v in
  let key z := word x02 ++ v_ssid v ++ rcompress R (rmul Yc z) in
  let auth z := word x04 ++ v_ssid v ++ D (key z) in
  collision (fun m => rfrom_uniform R (D m)) (gen W) (gen W') \/
  collision D (key y) (key y') \/ collision D (auth y) (auth y').

(** ** C81.  A public key and an authenticator that a server accepts: any other verifier with which the server
    could have sent the same messages refuses them, or there is a collision. *)
Theorem C81_one_verifier_per_session :
  forall W W' v rk rk' Yc t,
  session_of W v rk -> session_of W' v rk' -> v_x v <> szero -> v_Y v <> rzero R ->
  accepts rk Yc t = true -> accepts rk' Yc t = true ->
  W = W' \/ guess_collision v Yc W W' (src_priv_key rk) (src_priv_key rk').
Proof.
  intros W W' v rk rk' Yc t S S' Hx HY A A'.
  apply session_values in S, S'. destruct S as [Es EY]. destruct S' as [Es' EY'].
  apply accepts_values in A, A'. destruct A as [HYc Et]. destruct A' as [_ Et'].
  rewrite Es in Et. rewrite Es' in Et'. rewrite Et in Et'. clear Et.
  set (y := src_priv_key rk) in *. set (y' := src_priv_key rk') in *. unfold guess_collision. cbv zeta.
  assert (Hy : y <> szero). { intros E. apply HY. rewrite EY, E. apply (rmul_szero (R:=R)). }
  set (key z := word x02 ++ v_ssid v ++ rcompress R (rmul Yc z)) in *.
  change (spec_Tb D (v_ssid v) (D (key y)) = spec_Tb D (v_ssid v) (D (key y'))) in Et'.
  unfold spec_Tb in Et'.
  destruct (list_eq_dec byte_eq_dec (D (key y)) (D (key y'))) as [E1|N1].
  2:{ right. right. right. split; [|exact Et']. intros E. apply app_inv_head, app_inv_head in E. contradiction. }
  destruct (list_eq_dec byte_eq_dec (key y) (key y')) as [E2|N2]; [|right; right; left; now split].
  unfold key in E2. apply app_inv_head, app_inv_head in E2. apply (rcompress_inj L), (rmul_inj L) in E2; [|exact HYc].
  rewrite <- E2 in EY'. clearbody y y'. subst y'. rewrite EY in EY'.
  set (P := rcompress R (rmul W (v_x v))) in *. set (P' := rcompress R (rmul W' (v_x v))) in *.
  assert (spec_G R D (v_ssid v) P (v_ci v) = spec_G R D (v_ssid v) P' (v_ci v)) as EG.
  { rewrite <- (rmul_one (spec_G R D (v_ssid v) P (v_ci v))), <- (rmul_one (spec_G R D (v_ssid v) P' (v_ci v))).
    rewrite <- (sinv_l y Hy), smult_comm, <- !(rmul_mul L). now rewrite EY'. }
  destruct (list_eq_dec byte_eq_dec (word x01 ++ v_ssid v ++ P ++ v_ci v) (word x01 ++ v_ssid v ++ P' ++ v_ci v)) as [E|N].
  - left. apply app_inv_head, app_inv_head, app_inv_tail in E. subst P P'. apply (rcompress_inj L) in E.
    rewrite <- (rmul_one W), <- (rmul_one W'). rewrite <- (sinv_l (v_x v) Hx), smult_comm, <- !(rmul_mul L). now rewrite E.
  - right. left. now split.
Qed.

(** A server that has sent the views [vs] to an attacker, with the verifier [wd_verifier]. *)
Record world := { wd_verifier : pt R; wd_sessions : list AuCPaceServerRecvClientKey }.
Definition looks_like (vs : list view) (w : world) : Prop :=
  Forall2 (fun v rk => session_of (wd_verifier w) v rk) vs (wd_sessions w).

(** An attempt: which session, the public key, the authenticator. *)
Definition attempt : Type := nat * pt R * bytes.
Definition attempt_accepted (w : world) (a : attempt) : bool :=
  let '(i, Yc, t) := a in
  match nth_error (wd_sessions w) i with Some rk => accepts rk Yc t | None => false end.

(** An attacker, unbounded in computation, chooses each attempt from all it has seen: the servers' messages [vs]
    and the outcomes of its earlier attempts.  Among the verifiers with which the server could have sent
    [vs], at most [n] let one of its first [n] attempts succeed; or two of them exhibit a collision in a
    session, at a public key it sends there. *)
Theorem C81_online_guessing :
  forall vs (attacker : list (attempt * bool) -> attempt) n (worlds : list world),
  Forall (fun v => v_x v <> szero /\ v_Y v <> rzero R) vs ->
  NoDup (map wd_verifier worlds) -> (forall w, In w worlds -> looks_like vs w) ->
  (forall w, In w worlds -> wins attempt_accepted attacker w [] n = true) ->
  length worlds <= n \/
  exists w w' i v rk rk' Yc t, In (i, Yc, t) (refused attacker [] n) /\ In w worlds /\ In w' worlds /\ wd_verifier w <> wd_verifier w' /\
    nth_error vs i = Some v /\ nth_error (wd_sessions w) i = Some rk /\ nth_error (wd_sessions w') i = Some rk' /\
    guess_collision v Yc (wd_verifier w) (wd_verifier w') (src_priv_key rk) (src_priv_key rk').
Proof.
  intros vs attacker n worlds Hvs ND HL HW.
  destruct (guess_bound attempt_accepted attacker n worlds) as [H|H].
  - exact (NoDup_map_inv _ _ ND).
  - exact HW.
  - now left.
  - right. destruct H as (w & w' & [[i Yc] t] & Hw & Hw' & Hne & Hq & A & A'). unfold attempt_accepted in A, A'.
    destruct (nth_error (wd_sessions w) i) as [rk|] eqn:E; [|discriminate A].
    destruct (nth_error (wd_sessions w') i) as [rk'|] eqn:E'; [|discriminate A'].
    assert (wd_verifier w <> wd_verifier w') as HV.
    { intros Q. apply Hne. revert Hw Hw' Q ND. clear. induction worlds as [|u l IH]; intros Hw Hw' Q ND; [destruct Hw|].
      cbn [map] in ND. apply NoDup_cons_iff in ND. destruct ND as [NI ND].
      destruct Hw as [->|Hw], Hw' as [->|Hw']; [reflexivity| | |now apply IH].
      - exfalso. apply NI. rewrite Q. now apply in_map.
      - exfalso. apply NI. rewrite <- Q. now apply in_map. }
    destruct (forall2_nth _ _ _ (HL w Hw) i rk E) as (v & Ev & S).
    destruct (forall2_nth _ _ _ (HL w' Hw') i rk' E') as (v' & Ev' & S').
    rewrite Ev in Ev'. injection Ev' as <-.
    rewrite Forall_forall in Hvs. destruct (Hvs v (nth_error_In _ _ Ev)) as [Hx HY].
    destruct (C81_one_verifier_per_session _ _ _ _ _ _ _ S S' Hx HY A A') as [Q|C]; [contradiction|].
    exists w, w', i, v, rk, rk', Yc, t. repeat (split; [assumption|]). exact C.
Qed.

(** The bound is met: knowing a verifier that fits, an attempt that succeeds is computed from it ... *)
Theorem C81_right_guess_accepted :
  forall W v rk yc, session_of W v rk ->
  let G := spec_G R D (v_ssid v) (rcompress R (rmul W (v_x v))) (v_ci v) in
  G <> rzero R -> yc <> szero ->
  accepts rk (rmul G yc)
    (spec_Tb D (v_ssid v) (D (word x02 ++ v_ssid v ++ rcompress R (rmul (v_Y v) yc)))) = true.
Proof.
  intros W v rk yc S G HG Hyc. destruct (session_values _ _ _ S) as [Es EY]. fold G in EY.
  apply accepts_values. split.
  - intros E. apply (rmul_identity L) in E. destruct E as [E|E]; contradiction.
  - rewrite Es. now rewrite EY, !(rmul_mul L), smult_comm.
Qed.

(** ... and every verifier whose generator is not the identity fits every view, for some private key. *)
Lemma scalar_tape (x : scalar) : exists b, length b = 64 /\ fst (scalar_random tape_rng b) = x.
Proof.
  assert (E : (0 <= sval x < 256 ^ Z.of_nat 64)%Z).
  { pose proof (sval_range x) as H. split; [exact (proj1 H)|]. eapply Z.lt_trans; [exact (proj2 H)|reflexivity]. }
  exists (le_bytes 64 (Z.to_N (sval x))). split; [apply le_bytes_length|].
  rewrite drawn_tape by apply le_bytes_length. rewrite zval_string by exact E. apply sof_sval.
Qed.

Theorem C81_every_verifier_fits :
  forall W v, spec_G R D (v_ssid v) (rcompress R (rmul W (v_x v))) (v_ci v) <> rzero R ->
  exists rk, session_of W v rk.
Proof.
  intros W v HG. destruct (rmul_onto L _ (v_Y v) HG) as [y Hy].
  destruct (scalar_tape (v_x v)) as (tx & Lx & Ex). destruct (scalar_tape y) as (ty & Ly & Ey).
  set (d := store_verifier (AssocDb R) empty_db [] [] None W []).
  set (s := {| sal_secret := 0; sal_ssid := v_ssid v |}).
  exists {| src_ssid := v_ssid v; src_priv_key := y |}.
  exists tape_rng, s, (Build_AuCPaceServerCPaceSubstep tape_rng (v_ssid v) (rcompress R (rmul W (v_x v))) ty).
  exists (SAugmentationInfo group_name (rmul (rbase R) (v_x v)) [] []).
  destruct (tape_split D tx ty Lx) as [Dx Ax].
  split; [|split; [reflexivity|split; [reflexivity|]]].
  - apply (sv_plain W tape_rng s (AssocDb R) [] d (tx ++ ty) [] []); [reflexivity|].
    rewrite generate_client_info_eq. unfold generate_prs. cbn [lookup_verifier AssocDb d store_verifier add_verifier a_verifiers assoc].
    rewrite bytes_eqb_refl. rewrite Dx, Ax, Ex. cbn [cpace_substep obind]. rewrite prs_parts. reflexivity.
  - rewrite server_key_eq. change (drawn tape_rng ty) with (fst (scalar_random tape_rng ty)). rewrite Ey, Hy. reflexivity.
Qed.

(** Without the condition on the server's public key there is no bound: a server that draws the exponent zero
    sends the identity, and then a client without a password is accepted. *)
Theorem C81_zero_exponent :
  forall W v rk, session_of W v rk ->
  spec_G R D (v_ssid v) (rcompress R (rmul W (v_x v))) (v_ci v) <> rzero R -> v_Y v = rzero R ->
  forall Yc, Yc <> rzero R ->
  accepts rk Yc (spec_Tb D (v_ssid v) (D (word x02 ++ v_ssid v ++ rcompress R (rzero R)))) = true.
Proof.
  intros W v rk S HG HY Yc HYc. destruct (session_values _ _ _ S) as [Es EY].
  apply accepts_values. split; [exact HYc|]. rewrite Es. rewrite HY in EY. symmetry in EY.
  apply (rmul_identity L) in EY. destruct EY as [EY|EY]; [|exfalso; exact (HG EY)].
  rewrite EY. now rewrite (rmul_szero (R:=R)).
Qed.
End Online.

Print Assumptions C81_one_verifier_per_session.
Print Assumptions C81_online_guessing.
Print Assumptions C81_right_guess_accepted.
Print Assumptions C81_every_verifier_fits.
Print Assumptions C81_zero_exponent.
