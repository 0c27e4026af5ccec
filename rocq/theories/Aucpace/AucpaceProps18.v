(** * AuCPace: a recorded session after the password has leaked (C84). *)
From Coq Require Import ZArith Lia.
From Verif Require Import Base.Bytes Base.Outcome Base.Rng Base.Kat.
From Verif Require Import Curve.Scalar25519 Curve.Strings64.
From Verif Require Import Aucpace.RistrettoGroup Aucpace.PwHash Aucpace.AucpaceModel Aucpace.AucpaceSpec
  Aucpace.AucpaceRun Aucpace.AucpaceToy Aucpace.AucpaceProofs Aucpace.AucpaceProps Aucpace.AucpaceProps10
  Aucpace.AucpaceProps11 Aucpace.AucpaceProps17.
Local Open Scope nat_scope.

(** The last 32 bytes. *)
Definition last32 (m : bytes) : bytes := skipn (length m - 32) m.
Lemma last32_app a b : length b = 32 -> last32 (a ++ b) = b.
Proof.
  intros Lb. unfold last32. rewrite app_length, Lb, Nat.add_sub, skipn_app, skipn_all, Nat.sub_diag. reflexivity.
Qed.

Section Recorded.
Context (R : RGroup) (L : rgroup_laws R) (D : bytes -> bytes) (Dlen : forall m, length (D m) = 64).

(** The session key, if [m] is the string the shared point is hashed in. *)
Definition key_of (ssid m : bytes) : bytes := D (word x05 ++ ssid ++ D m).

(** Two parties of one session, with one PRS, hear each other: the session key of either. *)
Definition has_key (ssid prs : bytes) ci (ts tc : bytes) (Ys Yc : pt R) (key : bytes) : Prop :=
  server_sends R D ssid prs ci ts = SPublicKey Ys /\ client_sends R D ssid prs ci tc = CPublicKey Yc /\
  length ts = 64 /\ length tc = 64 /\
  exists e, client_ends R D {| ccs_ssid := ssid; ccs_prs := prs |} ci Ys e tc = Some key \/
    server_ends R D ssid prs ci Yc e ts = Some key.

Lemma has_key_value ssid prs ci ts tc Ys Yc key : has_key ssid prs ci ts tc Ys Yc key ->
  let G := spec_G R D ssid prs ci in
  Ys = rmul G (random ts) /\ Yc = rmul G (random tc) /\
  key = key_of ssid (word x02 ++ ssid ++ rcompress R (rmul G (smult (random ts) (random tc)))).
Proof.
  intros (HS & HC & Lts & Ltc & e & H) G.
  unfold server_sends in HS. rewrite server_key_eq in HS. cbn [snd] in HS. injection HS as HS.
  unfold client_sends in HC. rewrite client_key_eq in HC. cbn [fst snd] in HC. injection HC as HC.
  change (drawn tape_rng ts) with (random ts) in HS. change (drawn tape_rng tc) with (random tc) in HC. fold G in HS, HC.
  split; [exact (eq_sym HS)|]. split; [exact (eq_sym HC)|]. unfold key_of.
  destruct H as [H|H].
  - apply (client_ends_key R L D Dlen) in H; [|exact Ltc]. destruct H as [_ ->]. rewrite <- HS, (rmul_mul L). reflexivity.
  - apply (server_ends_key R L D Dlen) in H; [|exact Lts]. destruct H as [_ ->]. rewrite <- HC.
    rewrite (rmul_mul L), (smult_comm (random tc)). reflexivity.
Qed.

(** ** C84: whoever has recorded the public keys of a session and knows everything but the private keys (the PRS
    included) and finds the string that the shared point is hashed in, solves Diffie-Hellman for the two public
    keys, to the base the PRS gives; or has found a collision. *)
Theorem C84_aucpace :
  forall (F : pt R -> pt R -> bytes) ssid prs ci ts tc Ys Yc key,
  has_key ssid prs ci ts tc Ys Yc key -> key_of ssid (F Ys Yc) = key ->
  let G := spec_G R D ssid prs ci in
  let answer := rcompress R (rmul G (smult (random ts) (random tc))) in
  let hashed := word x02 ++ ssid ++ answer in
  Ys = rmul G (random ts) /\ Yc = rmul G (random tc) /\
  (last32 (F Ys Yc) = answer \/ collision D (F Ys Yc) hashed \/
   collision D (word x05 ++ ssid ++ D (F Ys Yc)) (word x05 ++ ssid ++ D hashed)).
Proof.
  intros F ssid prs ci ts tc Ys Yc key H HF. apply has_key_value in H. cbv zeta in H. destruct H as (HS & HC & HK).
  cbv zeta. split; [exact HS|]. split; [exact HC|].
  rewrite HK in HF. clear HK HS HC. unfold key_of in HF.
  assert (L32 : length (rcompress R (rmul (spec_G R D ssid prs ci) (smult (random ts) (random tc)))) = 32) by apply (rl_length R L).
  revert HF L32. generalize (rcompress R (rmul (spec_G R D ssid prs ci) (smult (random ts) (random tc)))) (F Ys Yc).
  intros K f HF L32.
  destruct (list_eq_dec byte_eq_dec (word x05 ++ ssid ++ D f) (word x05 ++ ssid ++ D (word x02 ++ ssid ++ K))) as [E|N];
    [|right; right; split; [exact N|exact HF]].
  do 2 apply app_inv_head in E.
  destruct (list_eq_dec byte_eq_dec f (word x02 ++ ssid ++ K)) as [-> | N]; [left|right; left; split; [exact N|exact E]].
  rewrite app_assoc. now apply last32_app.
Qed.

(** Nothing more is needed. *)
Theorem C84_aucpace_converse :
  forall ssid prs ci ts tc Ys Yc key, has_key ssid prs ci ts tc Ys Yc key ->
  let G := spec_G R D ssid prs ci in
  Ys = rmul G (random ts) /\ Yc = rmul G (random tc) /\
  forall S : pt R -> pt R -> pt R, S Ys Yc = rmul G (smult (random ts) (random tc)) ->
  key_of ssid (word x02 ++ ssid ++ rcompress R (S Ys Yc)) = key.
Proof.
  intros ssid prs ci ts tc Ys Yc key H G. apply has_key_value in H. cbv zeta in H. destruct H as (HS & HC & ->).
  split; [exact HS|]. split; [exact HC|]. intros S ->. reflexivity.
Qed.

(** A case: any session whose server key is not the identity has a key, and an attacker that knows a private key
    finds the string. *)
Example C84_aucpace_case : forall ssid prs ci ts tc, length ts = 64 -> length tc = 64 ->
  spec_G R D ssid prs ci <> rzero R -> random ts <> szero ->
  exists Ys Yc key, has_key ssid prs ci ts tc Ys Yc key /\
    key_of ssid (word x02 ++ ssid ++ rcompress R (rmul Ys (random tc))) = key.
Proof.
  intros ssid prs ci ts tc Lts Ltc HG Hs. set (G := spec_G R D ssid prs ci) in *.
  assert (I : is_identity (rmul G (random ts)) = false).
  { apply (is_identity_neq L). intros E. apply Hs. apply (rmul_inj L G); [exact HG|]. now rewrite E, rmul_szero. }
  exists (rmul G (random ts)), (rmul G (random tc)), (key_of ssid (word x02 ++ ssid ++ rcompress R (rmul (rmul G (random ts)) (random tc)))).
  split; [|reflexivity]. split; [unfold server_sends; rewrite server_key_eq; reflexivity|].
  split; [unfold client_sends; rewrite client_key_eq; reflexivity|]. split; [exact Lts|]. split; [exact Ltc|].
  exists Implicitly. left. unfold client_ends. rewrite client_key_eq. cbn [fst]. unfold client_implicit_auth.
  change (drawn tape_rng tc) with (random tc). rewrite I. cbn [crs_ssid crs_priv_key]. rewrite first_key_eq, session_key_eq. reflexivity.
Qed.
End Recorded.
Print Assumptions C84_aucpace.
Print Assumptions C84_aucpace_converse.
