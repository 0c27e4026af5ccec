(** * AuCPace: what a network can change in a session that both ends complete (C85). *)
From Coq Require Import ZArith Lia.
From Verif Require Import Base.Bytes Base.Outcome Base.CtEq Base.Rng Base.Kat.
From Verif Require Import Curve.Scalar25519.
From Verif Require Import Aucpace.RistrettoGroup Aucpace.PwHash Aucpace.AucpaceModel Aucpace.AucpaceSpec
  Aucpace.AucpaceRun Aucpace.AucpaceToy Aucpace.AucpaceProofs Aucpace.AucpaceProps Aucpace.AucpaceProps10.
Local Open Scope nat_scope.

Lemma smult_swap a b d : smult a (smult b d) = smult b (smult a d).
Proof. now rewrite !smult_assoc, (smult_comm a). Qed.

Section Altered.
Context (R : RGroup) (L : rgroup_laws R) (D : bytes -> bytes) (Dlen : forall m, length (D m) = 64).

(** A network that replaces each of the four messages of the CPace substep by one it computes from all it has
    seen: the two public keys, and then the authenticators. *)
Record network := {
  to_client_key : pt R -> pt R -> pt R;        (* from the server's and the client's public key *)
  to_server_key : pt R -> pt R -> pt R;
  to_server_auth : pt R -> pt R -> bytes -> bytes;
  to_client_auth : pt R -> pt R -> bytes -> bytes -> bytes
}.
Definition faithful : network := {|
  to_client_key Ys Yc := Ys; to_server_key Ys Yc := Yc; to_server_auth Ys Yc tb := tb; to_client_auth Ys Yc tb ta := ta |}.

(** [run_explicit] and [run_implicit] over such a network: (client key, server key). *)
Definition explicit_via (n : network) (Tc Ts : Rng) (c : AuCPaceClientCPaceSubstep) (s : AuCPaceServerCPaceSubstep Ts)
  (ci_c ci_s : bytes) (stc : rng_state Tc) : res (bytes * bytes) :=
  let! (c, s, yb, ya) := run_keys R D Tc Ts c s ci_c ci_s stc in
  let! s := receive_client_pubkey R D s (to_server_key n ya yb) in
  let! (c, msg_c) := receive_server_pubkey R D c (to_client_key n ya yb) in
  match msg_c with
  | CAuthenticator ca =>
      let! (server_key, msg_s) := receive_client_authenticator R D s (to_server_auth n ya yb ca) in
      match msg_s with
      | SAuthenticator sa =>
          let! client_key := receive_server_authenticator D c (to_client_auth n ya yb ca sa) in
          Ok (client_key, server_key)
      | _ => Panic
      end
  | _ => Panic
  end.
Definition implicit_via (n : network) (Tc Ts : Rng) (c : AuCPaceClientCPaceSubstep) (s : AuCPaceServerCPaceSubstep Ts)
  (ci_c ci_s : bytes) (stc : rng_state Tc) : res (bytes * bytes) :=
  let! (c, s, yb, ya) := run_keys R D Tc Ts c s ci_c ci_s stc in
  let! server_key := server_implicit_auth R D s (to_server_key n ya yb) in
  let! client_key := client_implicit_auth R D c (to_client_key n ya yb) in
  Ok (client_key, server_key).

Lemma explicit_via_faithful Tc Ts c s ci_c ci_s stc :
  explicit_via faithful Tc Ts c s ci_c ci_s stc = run_explicit R D Tc Ts c s ci_c ci_s stc.
Proof. reflexivity. Qed.
Lemma implicit_via_faithful Tc Ts c s ci_c ci_s stc :
  implicit_via faithful Tc Ts c s ci_c ci_s stc = run_implicit R D Tc Ts c s ci_c ci_s stc.
Proof. reflexivity. Qed.

Section Session.
Context (Tc Ts : Rng) (ssid prs ci : bytes) (sts : rng_state Ts) (stc : rng_state Tc) (n : network).
(** Both ends have one SSID, one PRS and one channel, as after an honest augmentation layer. *)
Let c := {| ccs_ssid := ssid; ccs_prs := prs |}.
Let s := {| scs_ssid := ssid; scs_prs := prs; scs_rng := sts |}.
Let G := spec_G R D ssid prs ci.
Let ys := drawn Ts sts.
Let yc := drawn Tc stc.
Let Ys := rmul G ys.
Let Yc := rmul G yc.
Let Ys' := to_client_key n Ys Yc.
Let Yc' := to_server_key n Ys Yc.
(** what each end hashes: its private key times what it received *)
Let hc := word x02 ++ ssid ++ rcompress R (rmul Ys' yc).
Let hs := word x02 ++ ssid ++ rcompress R (rmul Yc' ys).
Let tb := spec_Tb D ssid (D hc).
Let ta := spec_Ta D ssid (D hs).

Lemma explicit_via_eq : explicit_via n Tc Ts c s ci ci stc =
  if is_identity Yc' || is_identity Ys' then Err IllegalPointError
  else if bytes_eqb (spec_Tb D ssid (D hs)) (to_server_auth n Ys Yc tb) &&
          bytes_eqb (spec_Ta D ssid (D hc)) (to_client_auth n Ys Yc tb ta)
  then Ok (spec_sk D ssid (D hc), spec_sk D ssid (D hs)) else Err MutualAuthFail.
Proof.
  unfold explicit_via. unfold c, s. rewrite run_keys_eq. cbn [obind]. fold G ys yc Ys Yc Ys' Yc'.
  unfold receive_client_pubkey. destruct (is_identity Yc'); [reflexivity|]. cbn [obind orb src_ssid src_priv_key].
  unfold receive_server_pubkey. destruct (is_identity Ys'); [reflexivity|]. cbn [crs_ssid crs_priv_key].
  rewrite !first_key_eq, authenticators_eq. fold hc hs. unfold spec_Tb at 1. rewrite (expect64_D D Dlen). cbn [obind].
  change (D (word x04 ++ ssid ++ D hc)) with tb.
  unfold receive_client_authenticator. cbn [sem_ssid sem_sk1]. rewrite authenticators_eq, slice_ct_eqb.
  destruct (bytes_eqb (spec_Tb D ssid (D hs)) _); [|reflexivity]. cbn [andb]. unfold spec_Ta at 1. rewrite (expect64_D D Dlen). cbn [obind].
  change (D (word x03 ++ ssid ++ D hs)) with ta.
  unfold receive_server_authenticator. cbn [cem_ssid cem_sk1 cem_server_authenticator]. rewrite slice_ct_eqb.
  destruct (bytes_eqb (spec_Ta D ssid (D hc)) _); [|reflexivity]. cbn [obind]. now rewrite !session_key_eq.
Qed.

Lemma implicit_via_eq : implicit_via n Tc Ts c s ci ci stc =
  if is_identity Yc' || is_identity Ys' then Err IllegalPointError
  else Ok (spec_sk D ssid (D hc), spec_sk D ssid (D hs)).
Proof.
  unfold implicit_via. unfold c, s. rewrite run_keys_eq. cbn [obind]. fold G ys yc Ys Yc Ys' Yc'.
  unfold server_implicit_auth. destruct (is_identity Yc'); [reflexivity|]. cbn [obind orb src_ssid src_priv_key].
  unfold client_implicit_auth. destruct (is_identity Ys'); [reflexivity|]. cbn [crs_ssid crs_priv_key obind].
  rewrite !first_key_eq, !session_key_eq. reflexivity.
Qed.

(** The key of a session in which both public keys were multiplied by [r]. *)
Definition scaled_key (r : scalar) : bytes :=
  spec_sk D ssid (D (word x02 ++ ssid ++ rcompress R (rmul G (smult r (smult ys yc))))).

Lemma scaled_hc r : Ys' = rmul Ys r -> spec_sk D ssid (D hc) = scaled_key r.
Proof.
  intros E. unfold hc, scaled_key. rewrite E. unfold Ys. rewrite !(rmul_mul L), smult_swap. reflexivity.
Qed.
Lemma scaled_hs r : Yc' = rmul Yc r -> spec_sk D ssid (D hs) = scaled_key r.
Proof.
  intros E. unfold hs, scaled_key. rewrite E. unfold Yc. rewrite !(rmul_mul L), smult_swap, (smult_comm yc). reflexivity.
Qed.

(** The public keys arrive multiplied by one number other than zero. *)
Definition scaled (r : scalar) : Prop := r <> szero /\ Ys' = rmul Ys r /\ Yc' = rmul Yc r.
(** The authenticators arrive as they were sent. *)
Definition authenticators_kept : Prop := to_server_auth n Ys Yc tb = tb /\ to_client_auth n Ys Yc tb ta = ta.
(** Two different strings hashed by the ends. *)
Definition ends_collide : Prop :=
  collision D hc hs \/ collision D (word x05 ++ ssid ++ D hc) (word x05 ++ ssid ++ D hs).

Hypothesis (HG : G <> rzero R) (Hys : ys <> szero) (Hyc : yc <> szero).

Lemma scaled_same r : scaled r -> hc = hs /\ is_identity Yc' = false /\ is_identity Ys' = false.
Proof.
  intros (Hr & E & E'). split; [|split].
  - unfold hc, hs. rewrite E, E'. unfold Ys, Yc. rewrite !(rmul_mul L). do 4 f_equal.
    rewrite !(smult_swap _ r), (smult_comm ys yc). reflexivity.
  - apply (is_identity_neq L). rewrite E'. unfold Yc. rewrite (rmul_mul L). intros Z. apply (rmul_identity L) in Z.
    destruct Z as [Z|Z]; [exact (smult_nonzero _ _ Hyc Hr Z)|exact (HG Z)].
  - apply (is_identity_neq L). rewrite E. unfold Ys. rewrite (rmul_mul L). intros Z. apply (rmul_identity L) in Z.
    destruct Z as [Z|Z]; [exact (smult_nonzero _ _ Hys Hr Z)|exact (HG Z)].
Qed.

Lemma same_scaled : hc = hs -> is_identity Ys' = false -> exists r, scaled r.
Proof.
  intros E I. apply (is_identity_neq L) in I. unfold hc, hs in E. do 2 apply app_inv_head in E. apply (rcompress_inj L) in E.
  assert (HYs : Ys <> rzero R).
  { unfold Ys. intros Z. apply (rmul_identity L) in Z. destruct Z as [Z|Z]; [exact (Hys Z)|exact (HG Z)]. }
  destruct (rmul_onto L Ys Ys' HYs) as [r Hr]. exists r. split; [|split; [now symmetry|]].
  - intros ->. apply I. rewrite <- Hr. apply rmul_szero.
  - assert (HE : rmul (rmul Yc r) ys = rmul Yc' ys).
    { rewrite <- E, <- Hr. unfold Ys, Yc. rewrite !(rmul_mul L). f_equal.
      rewrite !(smult_swap _ r), (smult_comm ys yc). reflexivity. }
    assert (U : forall P : pt R, rmul (rmul P ys) (sinv ys) = P).
    { intros P. rewrite (rmul_mul L), smult_comm, sinv_l by exact Hys. apply rmul_one. }
    rewrite <- (U Yc'), <- HE, U. reflexivity.
Qed.

Lemma keys_same : spec_sk D ssid (D hc) = spec_sk D ssid (D hs) -> hc = hs \/ ends_collide.
Proof.
  intros E. unfold spec_sk in E.
  destruct (list_eq_dec byte_eq_dec (word x05 ++ ssid ++ D hc) (word x05 ++ ssid ++ D hs)) as [E1|N1];
    [|right; right; split; [exact N1|exact E]].
  do 2 apply app_inv_head in E1.
  destruct (list_eq_dec byte_eq_dec hc hs) as [E2|N2]; [now left|right; left; split; [exact N2|exact E1]].
Qed.

(** ** C85.  Both ends of a session complete it with one key exactly when the network has multiplied both public
    keys by one number and left the authenticators alone; or there is a collision. *)
Theorem C85_aucpace_explicit :
  (forall r, scaled r -> authenticators_kept -> explicit_via n Tc Ts c s ci ci stc = Ok (scaled_key r, scaled_key r)) /\
  (forall k, explicit_via n Tc Ts c s ci ci stc = Ok (k, k) ->
     (exists r, scaled r /\ authenticators_kept /\ k = scaled_key r) \/ ends_collide).
Proof.
  split.
  - intros r Hr (Kb & Ka). rewrite explicit_via_eq. destruct (scaled_same r Hr) as (E & -> & ->). cbn [orb].
    rewrite Kb, Ka. unfold tb at 1, ta at 1. rewrite E, !bytes_eqb_refl. cbn [andb]. rewrite <- E at 1.
    destruct Hr as (_ & ES & EC). rewrite (scaled_hc r ES), (scaled_hs r EC). reflexivity.
  - intros k. rewrite explicit_via_eq. destruct (is_identity Yc') eqn:I; [discriminate|]. cbn [orb].
    destruct (is_identity Ys') eqn:I'; [discriminate|].
    destruct (bytes_eqb (spec_Tb D ssid (D hs)) _) eqn:Eb; [|discriminate].
    destruct (bytes_eqb (spec_Ta D ssid (D hc)) _) eqn:Ea; [|discriminate]. cbn [andb].
    apply bytes_eqb_eq in Eb, Ea. intros E. injection E as E1 E2.
    destruct (keys_same (eq_trans E1 (eq_sym E2))) as [E|]; [left|now right].
    destruct (same_scaled E I') as [r Hr]. exists r. split; [exact Hr|]. split.
    + split; [rewrite <- Eb; unfold tb; now rewrite E|rewrite <- Ea; unfold ta; now rewrite E].
    + rewrite <- E1. apply scaled_hc, Hr.
Qed.
Theorem C85_aucpace_implicit :
  (forall r, scaled r -> implicit_via n Tc Ts c s ci ci stc = Ok (scaled_key r, scaled_key r)) /\
  (forall k, implicit_via n Tc Ts c s ci ci stc = Ok (k, k) ->
     (exists r, scaled r /\ k = scaled_key r) \/ ends_collide).
Proof.
  split.
  - intros r Hr. rewrite implicit_via_eq. destruct (scaled_same r Hr) as (E & -> & ->). cbn [orb].
    destruct Hr as (_ & ES & EC). rewrite (scaled_hc r ES), (scaled_hs r EC). reflexivity.
  - intros k. rewrite implicit_via_eq. destruct (is_identity Yc') eqn:I; [discriminate|]. cbn [orb].
    destruct (is_identity Ys') eqn:I'; [discriminate|]. intros E. injection E as E1 E2.
    destruct (keys_same (eq_trans E1 (eq_sym E2))) as [E|]; [left|now right].
    destruct (same_scaled E I') as [r Hr]. exists r. split; [exact Hr|]. rewrite <- E1. apply scaled_hc, Hr.
Qed.

(** If the authenticators are left alone and both ends complete, they have one key, or there is a collision. *)
Theorem C85_aucpace_accepted :
  forall kc ks, authenticators_kept -> explicit_via n Tc Ts c s ci ci stc = Ok (kc, ks) ->
  (exists r, scaled r /\ kc = scaled_key r /\ ks = scaled_key r) \/
  collision D hc hs \/ collision D (word x04 ++ ssid ++ D hc) (word x04 ++ ssid ++ D hs).
Proof.
  intros kc ks (Kb & Ka). rewrite explicit_via_eq. destruct (is_identity Yc') eqn:I; [discriminate|]. cbn [orb].
  destruct (is_identity Ys') eqn:I'; [discriminate|].
  destruct (bytes_eqb (spec_Tb D ssid (D hs)) _) eqn:Eb; [|discriminate].
  destruct (bytes_eqb (spec_Ta D ssid (D hc)) _) eqn:Ea; [|discriminate]. cbn [andb].
  apply bytes_eqb_eq in Eb. rewrite Kb in Eb. intros E. injection E as <- <-. unfold tb, spec_Tb in Eb.
  destruct (list_eq_dec byte_eq_dec (word x04 ++ ssid ++ D hc) (word x04 ++ ssid ++ D hs)) as [E1|N1];
    [|right; right; split; [exact N1|now symmetry]].
  do 2 apply app_inv_head in E1.
  destruct (list_eq_dec byte_eq_dec hc hs) as [E2|N2]; [left|right; left; split; [exact N2|exact E1]].
  destruct (same_scaled E2 I') as [r Hr]. exists r. split; [exact Hr|]. destruct Hr as (_ & ES & EC).
  split; [now apply scaled_hc|now apply scaled_hs].
Qed.
End Session.

(** The network that multiplies both public keys by [r]. *)
Definition scaling (r : scalar) : network := {|
  to_client_key Ys Yc := rmul Ys r; to_server_key Ys Yc := rmul Yc r;
  to_server_auth Ys Yc tb := tb; to_client_auth Ys Yc tb ta := ta |}.

Lemma scalar_two : exists r : scalar, r <> szero /\ r <> sone.
Proof.
  exists (sof 2). split; intros E; apply (f_equal sval) in E; rewrite sval_sof in E;
    [rewrite sval_szero in E|rewrite sval_sone in E]; discriminate E.
Qed.

(** C85: so "ends that complete a session with one key have received what the other sent" is false of every
    session: there is a network that changes both public keys, and both ends accept, with explicit and with
    implicit authentication.  The key is not that of the undisturbed session (or there is a collision): the
    messages really were others. *)
Theorem C85_aucpace_refuted :
  forall (Tc Ts : Rng) ssid prs ci (sts : rng_state Ts) (stc : rng_state Tc),
  let c := {| ccs_ssid := ssid; ccs_prs := prs |} in
  let s := {| scs_ssid := ssid; scs_prs := prs; scs_rng := sts |} in
  let G := spec_G R D ssid prs ci in
  let ys := drawn Ts sts in let yc := drawn Tc stc in
  G <> rzero R -> ys <> szero -> yc <> szero ->
  exists (n : network) k k0,
    to_client_key n (rmul G ys) (rmul G yc) <> rmul G ys /\ to_server_key n (rmul G ys) (rmul G yc) <> rmul G yc /\
    explicit_via n Tc Ts c s ci ci stc = Ok (k, k) /\ implicit_via n Tc Ts c s ci ci stc = Ok (k, k) /\
    run_explicit R D Tc Ts c s ci ci stc = Ok (k0, k0) /\
    let h P := word x02 ++ ssid ++ rcompress R P in
    let K := rmul (to_client_key n (rmul G ys) (rmul G yc)) yc in let K' := rmul (rmul G ys) yc in
    (k <> k0 \/ collision D (h K) (h K') \/ collision D (word x05 ++ ssid ++ D (h K)) (word x05 ++ ssid ++ D (h K'))).
Proof.
  intros Tc Ts ssid prs ci sts stc c s G ys yc HG Hys Hyc. destruct scalar_two as (r & Hr & Hr1).
  assert (NE : forall y, y <> szero -> rmul (rmul G y) r <> rmul G y).
  { intros y Hy E. rewrite (rmul_mul L) in E. apply (rmul_inj L G _ _ HG) in E.
    rewrite <- (smult_one_r y) in E at 2. exact (Hr1 (smult_cancel_l _ _ _ Hy E)). }
  exists (scaling r), (scaled_key Tc Ts ssid prs ci sts stc r), (scaled_key Tc Ts ssid prs ci sts stc sone).
  split; [now apply NE|]. split; [now apply NE|].
  assert (Sc : scaled Tc Ts ssid prs ci sts stc (scaling r) r) by (split; [exact Hr|]; split; reflexivity).
  assert (S1 : scaled Tc Ts ssid prs ci sts stc faithful sone).
  { split; [|split; cbn [to_client_key to_server_key faithful]; now rewrite rmul_one].
    intros E. apply (f_equal sval) in E. rewrite sval_szero, sval_sone in E. discriminate E. }
  split; [apply (C85_aucpace_explicit Tc Ts ssid prs ci sts stc (scaling r) HG Hys Hyc); [exact Sc|now split]|].
  split; [now apply (C85_aucpace_implicit Tc Ts ssid prs ci sts stc (scaling r) HG Hys Hyc)|].
  split; [rewrite <- explicit_via_faithful; apply (C85_aucpace_explicit Tc Ts ssid prs ci sts stc faithful HG Hys Hyc); [exact S1|now split]|].
  cbv zeta. cbn [to_client_key scaling]. unfold scaled_key. fold G ys yc.
  assert (EK : rmul (rmul (rmul G ys) r) yc = rmul G (smult r (smult ys yc))).
  { rewrite !(rmul_mul L), !smult_assoc, (smult_comm ys r). reflexivity. }
  assert (EK' : rmul (rmul G ys) yc = rmul G (smult sone (smult ys yc))).
  { rewrite (rmul_mul L), smult_one_l. reflexivity. }
  rewrite EK, EK'. set (K := rmul G (smult r (smult ys yc))). set (K' := rmul G (smult sone (smult ys yc))).
  assert (NK : K <> K').
  { intros E. apply (rmul_inj L G _ _ HG) in E. rewrite !(smult_comm _ (smult ys yc)) in E.
    exact (Hr1 (smult_cancel_l _ _ _ (smult_nonzero _ _ Hys Hyc) E)). }
  set (h := fun P => word x02 ++ ssid ++ rcompress R P).
  change (spec_sk D ssid (D (h K)) <> spec_sk D ssid (D (h K')) \/ collision D (h K) (h K') \/ collision D (word x05 ++ ssid ++ D (h K)) (word x05 ++ ssid ++ D (h K'))).
  destruct (list_eq_dec byte_eq_dec (spec_sk D ssid (D (h K))) (spec_sk D ssid (D (h K')))) as [E|N]; [right|now left].
  unfold spec_sk in E.
  destruct (list_eq_dec byte_eq_dec (word x05 ++ ssid ++ D (h K)) (word x05 ++ ssid ++ D (h K'))) as [E1|N1]; [left|right; now split].
  do 2 apply app_inv_head in E1. split; [|exact E1]. intros E2. unfold h in E2. do 2 apply app_inv_head in E2.
  exact (NK (rcompress_inj L _ _ E2)).
Qed.

(** The strong variant has two more points that can be changed unseen: the blinded point sent to the server by [t],
    the blinded salt that comes back by its inverse.  The reply that reaches the client and the state of the server
    are then those of the undisturbed session, for every user, registered or not. *)
Definition alter_salt {T} (k : scalar) (r : res (AuCPaceServerCPaceSubstep T * ServerMessage R)) :=
  match r with
  | Ok (s, SStrongAugmentationInfo g X bs ps) => Ok (s, SStrongAugmentationInfo g X (rmul bs k) ps)
  | r => r
  end.

Lemma back_and_forth (U : pt R) t q : t <> szero -> rmul (rmul (rmul U t) q) (sinv t) = rmul U q.
Proof. exact (unblind R L U t q). Qed.
Lemma identity_kept (U : pt R) t q : t <> szero -> is_identity (rmul (rmul U t) q) = is_identity (rmul U q).
Proof.
  intros Ht. apply Bool.eq_true_iff_eq. rewrite !(is_identity_eq L). rewrite (rmul_comm L U t q), (rmul_identity L).
  split; [intros [E|E]; [contradiction|exact E]|now right].
Qed.
Lemma failed_altered T s user (U X : pt R) t st : t <> szero ->
  alter_salt (sinv t) (cpace_substep R T s (lookup_failed_strong R D T s user (rmul U t) X st))
  = cpace_substep R T s (lookup_failed_strong R D T s user U X st).
Proof.
  intros Ht. rewrite !lookup_failed_strong_eq. cbv zeta. rewrite (identity_kept _ _ _ Ht).
  destruct (is_identity _); [reflexivity|]. cbn [cpace_substep obind alter_salt]. now rewrite (back_and_forth _ _ _ Ht).
Qed.
Lemma prs_altered DB T s user (U X : pt R) t d x st : t <> szero ->
  alter_salt (sinv t) (cpace_substep R T s (generate_prs_strong R D DB T s user (rmul U t) d st x X))
  = cpace_substep R T s (generate_prs_strong R D DB T s user U d st x X).
Proof.
  intros Ht. unfold generate_prs_strong. destruct (lookup_verifier_strong DB d user) as [[[W q] ps]|]; [|now apply failed_altered].
  cbv zeta. rewrite (identity_kept _ _ _ Ht). destruct (is_identity _); [reflexivity|].
  cbn [cpace_substep obind alter_salt]. now rewrite (back_and_forth _ _ _ Ht).
Qed.

Theorem C85_blinded_points_refuted :
  forall (DB : StrongDatabase R) (PDB : PartialAugDatabase R (sdb DB)) T s user (U : pt R) d (st : rng_state T) t, t <> szero ->
  alter_salt (sinv t) (generate_client_info_strong R D DB T s user (rmul U t) d st) = generate_client_info_strong R D DB T s user U d st /\
  alter_salt (sinv t) (generate_client_info_partial_strong R D DB PDB T s user (rmul U t) d st)
    = generate_client_info_partial_strong R D DB PDB T s user U d st /\
  (U <> rzero R -> t <> sone -> rmul U t <> U).
Proof.
  intros DB PDB T s user U d st t Ht. split; [|split].
  - rewrite !generate_client_info_strong_eq. now apply prs_altered.
  - unfold generate_client_info_partial_strong. destruct (lookup_long_term_keypair PDB d user) as [[x X]|]; [now apply prs_altered|].
    destruct (point_random R T st) as [X st']. now apply failed_altered.
  - intros HU H1 E. rewrite <- (rmul_one U) in E at 2. exact (H1 (rmul_inj L U _ _ HU E)).
Qed.
End Altered.
Print Assumptions C85_aucpace_explicit.
Print Assumptions C85_aucpace_implicit.
Print Assumptions C85_aucpace_accepted.
Print Assumptions C85_aucpace_refuted.
Print Assumptions C85_blinded_points_refuted.

(** A session over the toy group in which the network triples both public keys: both ends accept, with one key, and
    not that of the undisturbed session.  If it triples one of them only, the server refuses. *)
Definition toy_session n := explicit_via ToyGroup toyD n tape_rng tape_rng
  {| ccs_ssid := repeat x01 64; ccs_prs := repeat x02 32 |}
  (Build_AuCPaceServerCPaceSubstep tape_rng (repeat x01 64) (repeat x02 32) (le_bytes 64 5)) (str "ci") (str "ci") (le_bytes 64 7).
Example C85_aucpace_case :
  match toy_session (scaling ToyGroup (sof 3)), toy_session (faithful ToyGroup) with
  | Ok (k, k'), Ok (k0, _) => bytes_eqb k k' && negb (bytes_eqb k k0) | _, _ => false end = true.
Proof. vm_cast_no_check (eq_refl true). Qed.
Definition one_sided : network ToyGroup := {|
  to_client_key Ys Yc := Ys; to_server_key Ys Yc := rmul Yc (sof 3);
  to_server_auth Ys Yc tb := tb; to_client_auth Ys Yc tb ta := ta |}.
Example C85_aucpace_case_refused :
  match toy_session one_sided with Err MutualAuthFail => true | _ => false end = true.
Proof. vm_cast_no_check (eq_refl true). Qed.
