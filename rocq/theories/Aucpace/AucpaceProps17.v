(** * AuCPace: a peer whose public key does not depend on the party's cannot choose the session key (C83). *)
From Coq Require Import ZArith Lia.
From Verif Require Import Base.Bytes Base.Outcome Base.CtEq Base.Rng Base.Kat Base.Count Base.Dictionary.
From Verif Require Import Curve.Primes Curve.Scalar25519 Curve.NearUniform Curve.Strings64.
From Verif Require Import Aucpace.RistrettoGroup Aucpace.PwHash Aucpace.AucpaceModel Aucpace.AucpaceSpec
  Aucpace.AucpaceRun Aucpace.AucpaceDb Aucpace.AucpaceToy Aucpace.AucpaceProofs Aucpace.AucpaceProps
  Aucpace.AucpaceProps9 Aucpace.AucpaceProps10.
Local Open Scope nat_scope.

Section Control.
Context (R : RGroup) (L : rgroup_laws R) (D : bytes -> bytes) (Dlen : forall m, length (D m) = 64).

(** How the peer ends the session. *)
Inductive ending := Implicitly | Explicitly (authenticator : bytes).

(** The session key of a client that draws its private key from [tape] and receives [Ys], if it gets one. *)
Definition client_ends (c : AuCPaceClientCPaceSubstep) ci (Ys : pt R) (e : ending) (tape : bytes) : option bytes :=
  let c1 := fst (fst (client_generate_public_key R D tape_rng c ci tape)) in
  match e with
  | Implicitly => match client_implicit_auth R D c1 Ys with Ok key => Some key | _ => None end
  | Explicitly ta =>
      match receive_server_pubkey R D c1 Ys with
      | Ok (c2, _) => match receive_server_authenticator D c2 ta with Ok key => Some key | _ => None end
      | _ => None
      end
  end.
(** Likewise the server. *)
Definition server_ends ssid prs ci (Yc : pt R) (e : ending) (tape : bytes) : option bytes :=
  let s1 := fst (server_generate_public_key R D tape_rng (Build_AuCPaceServerCPaceSubstep tape_rng ssid prs tape) ci) in
  match e with
  | Implicitly => match server_implicit_auth R D s1 Yc with Ok key => Some key | _ => None end
  | Explicitly tb =>
      match receive_client_pubkey R D s1 Yc with
      | Ok s2 => match receive_client_authenticator R D s2 tb with Ok (key, _) => Some key | _ => None end
      | _ => None
      end
  end.
Definition is_key (o : option bytes) (key : bytes) : bool := match o with Some k => bytes_eqb k key | None => false end.

(** Two private keys with one session key: a collision of the digest. *)
Definition key_collision (ssid : bytes) (Y : pt R) (y y' : scalar) : Prop :=
  let k y := word x02 ++ ssid ++ rcompress R (rmul Y y) in
  y <> y' /\ (collision D (k y) (k y') \/ collision D (word x05 ++ ssid ++ D (k y)) (word x05 ++ ssid ++ D (k y'))).

Local Notation sk ssid Y y := (spec_sk D ssid (D (word x02 ++ ssid ++ rcompress R (rmul Y y)))).

Lemma sk_inj ssid (Y : pt R) y y' : Y <> rzero R -> sk ssid Y y = sk ssid Y y' -> y = y' \/ key_collision ssid Y y y'.
Proof.
  intros HY H. destruct (seqb y y') eqn:Ey; [left; now apply seqb_eq|right]. apply seqb_neq in Ey. split; [exact Ey|].
  set (k := fun y => word x02 ++ ssid ++ rcompress R (rmul Y y)). change (D (word x05 ++ ssid ++ D (k y)) = D (word x05 ++ ssid ++ D (k y'))) in H.
  change (collision D (k y) (k y') \/ collision D (word x05 ++ ssid ++ D (k y)) (word x05 ++ ssid ++ D (k y'))).
  destruct (list_eq_dec byte_eq_dec (word x05 ++ ssid ++ D (k y)) (word x05 ++ ssid ++ D (k y'))) as [E|E];
    [left|right; split; [exact E|exact H]].
  do 2 apply app_inv_head in E. split; [|exact E].
  intros E'. unfold k in E'. do 2 apply app_inv_head in E'. apply (rcompress_inj L) in E'. exact (Ey (rmul_inj L Y _ _ HY E')).
Qed.

Lemma client_ends_key c ci Ys e t key : length t = 64 -> client_ends c ci Ys e t = Some key ->
  Ys <> rzero R /\ key = sk (ccs_ssid c) Ys (random t).
Proof.
  intros Ht. destruct c as [ssid prs]. unfold client_ends. rewrite client_key_eq. cbn [fst].
  change (drawn tape_rng t) with (random t).
  destruct e as [|ta]; unfold client_implicit_auth, receive_server_pubkey; destruct (is_identity Ys) eqn:I; try discriminate;
    apply (is_identity_neq L) in I; cbn [crs_ssid crs_priv_key]; rewrite first_key_eq.
  - rewrite session_key_eq. intros E. injection E as <-. now split.
  - rewrite authenticators_eq. cbv zeta. unfold spec_Tb. rewrite (expect64_D D Dlen). cbn [obind].
    unfold receive_server_authenticator. cbn [cem_server_authenticator cem_ssid cem_sk1].
    destruct (N.eqb _ 1); [|discriminate]. rewrite session_key_eq. intros E. injection E as <-. now split.
Qed.
Lemma server_ends_key ssid prs ci Yc e t key : length t = 64 -> server_ends ssid prs ci Yc e t = Some key ->
  Yc <> rzero R /\ key = sk ssid Yc (random t).
Proof.
  intros Ht. unfold server_ends. rewrite server_key_eq. cbn [fst].
  change (drawn tape_rng t) with (random t).
  destruct e as [|tb]; unfold server_implicit_auth, receive_client_pubkey; destruct (is_identity Yc) eqn:I; try discriminate;
    apply (is_identity_neq L) in I; cbn [src_ssid src_priv_key]; rewrite first_key_eq.
  - rewrite session_key_eq. intros E. injection E as <-. now split.
  - unfold receive_client_authenticator. cbn [sem_ssid sem_sk1]. rewrite authenticators_eq.
    destruct (N.eqb _ 1); [|discriminate]. unfold spec_Ta. rewrite (expect64_D D Dlen). cbn [obind].
    rewrite session_key_eq. intros E. injection E as <-. now split.
Qed.

Local Opaque strings.
Lemma few_tapes (ends : bytes -> option bytes) ssid (Y : pt R) key :
  (forall t k, length t = 64 -> ends t = Some k -> Y <> rzero R /\ k = sk ssid Y (random t)) ->
  (2 ^ 252 * Z.of_nat (length (filter (fun t => is_key (ends t) key) (strings 64))) <= 256 ^ 64)%Z \/
  exists t t', ends t = Some key /\ ends t' = Some key /\ key_collision ssid Y (random t) (random t').
Proof.
  intros H. apply few_with. intros t t' Lt Lt' E E'. unfold is_key in E, E'.
  destruct (ends t) as [k|] eqn:Et; [|discriminate E]. destruct (ends t') as [k'|] eqn:Et'; [|discriminate E'].
  apply bytes_eqb_eq in E, E'. subst k k'. destruct (H t key Lt Et) as [HY K]. destruct (H t' key Lt' Et') as [_ K'].
  destruct (sk_inj ssid Y (random t) (random t') HY) as [Q|Q]; [rewrite <- K, <- K'; reflexivity|now left|right].
  exists t, t'. split; [exact Et|]. split; [exact Et'|exact Q].
Qed.

(** ** C83.  Whatever public key (and authenticator) a client is sent, at most a 2^-252 part of its random bytes
    lead to any given session key, or two of them collide. *)
Theorem C83_aucpace_client :
  forall c ci Ys e key,
  (2 ^ 252 * Z.of_nat (length (filter (fun t => is_key (client_ends c ci Ys e t) key) (strings 64))) <= 256 ^ 64)%Z \/
  exists t t', client_ends c ci Ys e t = Some key /\ client_ends c ci Ys e t' = Some key /\
    key_collision (ccs_ssid c) Ys (random t) (random t').
Proof. intros c ci Ys e key. apply few_tapes. intros t k. apply client_ends_key. Qed.
Theorem C83_aucpace_server :
  forall ssid prs ci Yc e key,
  (2 ^ 252 * Z.of_nat (length (filter (fun t => is_key (server_ends ssid prs ci Yc e t) key) (strings 64))) <= 256 ^ 64)%Z \/
  exists t t', server_ends ssid prs ci Yc e t = Some key /\ server_ends ssid prs ci Yc e t' = Some key /\
    key_collision ssid Yc (random t) (random t').
Proof. intros ssid prs ci Yc e key. apply few_tapes. intros t k. apply server_ends_key. Qed.
End Control.
Print Assumptions C83_aucpace_client.
Print Assumptions C83_aucpace_server.

(** The toy server and client end with keys, which differ when the random bytes do. *)
Definition toy_ends (t : bytes) : option bytes :=
  client_ends ToyGroup toyD {| ccs_ssid := ssid0; ccs_prs := prs_a |} channel toy_Yc Implicitly t.
Example C83_aucpace_case :
  match toy_ends (le_bytes 64 3), toy_ends (le_bytes 64 4) with Some k, Some k' => negb (bytes_eqb k k') | _, _ => false end = true.
Proof. vm_cast_no_check (eq_refl true). Qed.
Definition toy_server_ends (e : ending) (t : bytes) : option bytes := server_ends ToyGroup toyD ssid0 prs_a channel toy_Yc e t.
Example C83_aucpace_explicit_case :
  let t := le_bytes 64 3 in let tb := toy_tb prs_a t toy_Yc in
  match toy_server_ends (Explicitly tb) t, toy_server_ends Implicitly t, toy_server_ends (Explicitly tb) (le_bytes 64 4) with
  | Some k, Some k', None => bytes_eqb k k' | _, _, _ => false end = true.
Proof. vm_cast_no_check (eq_refl true). Qed.
