(** * SPAKE2: a recorded session after the password has leaked (C84). *)
From Coq Require Import ZArith Lia.
From Verif Require Import Base.Bytes Base.Outcome Base.Rng Hash.Hash.
From Verif.Curve Require Import Scalar25519 Ed25519 Ed25519Points Strings64.
From Verif Require Import Spake2.Spake2Model Spake2.Ed25519Group Spake2.Spake2Spec Spake2.Spake2Proofs
  Spake2.Spake2Generic Spake2.Spake2Proofs2 Spake2.Spake2Props Spake2.Spake2Props3 Spake2.Spake2Props7.
Local Open Scope nat_scope.
Local Notation E := Ed25519Group.

(** The last 32 bytes. *)
Definition last32 (m : bytes) : bytes := skipn (length m - 32) m.

(** The messages that two points make with a password. *)
Definition message (r : role) (pw : bytes) (P : epoint) : bytes := tag r :: compress (eadd P (emul (pw_int pw) (blind r))).

(** [F] makes of the two messages of a session a string, hoped to be the one that is hashed into the key.  From
    it a Diffie-Hellman solver: blind the two points, ask [F], take the last 32 bytes. *)
Definition solver_of (sd : Side) (pw : bytes) (F : bytes -> bytes -> bytes) (P Q : epoint) : bytes :=
  last32 (F (message (role_of sd) pw P) (message (peer (role_of sd)) pw Q)).

(** Back: from a solver the string to be hashed. *)
Definition attack_of (sd : Side) (pw : bytes) (S : epoint -> epoint -> epoint) (mine theirs : bytes) : bytes :=
  match decompress (tl mine), decompress (tl theirs) with
  | Some P, Some Q =>
      let r := role_of sd in
      transcript sd pw (tl mine) (tl theirs)
        (S (eadd P (eopp (emul (pw_int pw) (blind r)))) (eadd Q (eopp (emul (pw_int pw) (blind (peer r))))))
  | _, _ => []
  end.

Lemma last32_app a b : length b = 32 -> last32 (a ++ b) = b.
Proof.
  intros L. unfold last32. rewrite app_length, L. replace (length a + 32 - 32) with (length a) by (revert L; clear; intros; rewrite Nat.add_sub; reflexivity).
  rewrite skipn_app, skipn_all, Nat.sub_diag. reflexivity.
Qed.
Lemma transcript_last sd pw mine theirs K : last32 (transcript sd pw mine theirs K) = compress K.
Proof.
  unfold transcript. destruct sd; rewrite ?app_assoc; apply last32_app; apply compress_length.
Qed.

(** What [has_key] says of two sessions that hear each other. *)
Lemma honest_key sd sd' pw t t' key : role_of sd' = peer (role_of sd) ->
  has_key sd pw t (sent sd' pw t') key = true ->
  key = sha256 (transcript sd pw (tl (sent sd pw t)) (tl (sent sd' pw t'))
    (emul (sval (random t) * sval (random t')) ed_B)).
Proof.
  intros Hr H. apply has_key_spec in H. destruct (finish_inv _ _ _ _ _ H) as (theirs & P & Ei & _ & EP & Hk).
  change (tl (sent sd pw t)) with (body pw sd t). rewrite sent_body in Ei. rewrite <- body_eq in Hk.
  rewrite sent_body. cbn [tl]. assert (Et : theirs = body pw sd' t') by (injection Ei as _ Ei; exact (eq_sym Ei)).
  clear Ei. subst theirs. rewrite body_eq, decompress_enc in EP. apply (f_equal (fun o => match o with Some Q => Q | None => P end)) in EP.
  rewrite Hk, <- EP, Hr, shared_honest. reflexivity.
Qed.

Lemma sent_message sd pw t : sent sd pw t = message (role_of sd) pw (emul (sval (random t)) ed_B).
Proof. rewrite sent_body, body_eq. reflexivity. Qed.
Lemma unblinded sd pw t : exists P, decompress (tl (sent sd pw t)) = Some P /\
  eadd P (eopp (emul (pw_int pw) (blind (role_of sd)))) = emul (sval (random t)) ed_B.
Proof.
  exists (msg_point (role_of sd) pw (sval (random t))). change (tl (sent sd pw t)) with (body pw sd t). rewrite body_eq.
  split; [apply decompress_enc|]. unfold msg_point. apply eadd_cancel.
Qed.

(** ** C84: whoever has recorded both messages of a session and knows the password and finds the string that is
    hashed into its key, solves Diffie-Hellman for the two private values, or has found a collision of SHA-256. *)
Theorem C84_spake2 :
  forall (F : bytes -> bytes -> bytes) sd sd' pw t t' key,
  role_of sd' = peer (role_of sd) -> has_key sd pw t (sent sd' pw t') key = true ->
  sha256 (F (sent sd pw t) (sent sd' pw t')) = key ->
  let x := sval (random t) in let y := sval (random t') in
  solver_of sd pw F (emul x ed_B) (emul y ed_B) = compress (emul (x * y) ed_B) \/
  collision sha256 (F (sent sd pw t) (sent sd' pw t'))
    (transcript sd pw (tl (sent sd pw t)) (tl (sent sd' pw t')) (emul (x * y) ed_B)).
Proof.
  intros F sd sd' pw t t' key Hr Hk HF x y. pose proof (honest_key sd sd' pw t t' key Hr Hk) as E0. fold x y in E0.
  rewrite <- HF in E0. clear HF Hk.
  assert (ES : solver_of sd pw F (emul x ed_B) (emul y ed_B) = last32 (F (sent sd pw t) (sent sd' pw t'))).
  { unfold solver_of. rewrite !sent_message, Hr. reflexivity. }
  rewrite ES. clear ES. revert E0. generalize (F (sent sd pw t) (sent sd' pw t')). intros f.
  rewrite <- (transcript_last sd pw (tl (sent sd pw t)) (tl (sent sd' pw t')) (emul (x * y) ed_B)).
  generalize (transcript sd pw (tl (sent sd pw t)) (tl (sent sd' pw t')) (emul (x * y) ed_B)). intros g E0.
  destruct (list_eq_dec byte_eq_dec f g) as [-> | Ne]; [left; reflexivity|right; split; [exact Ne|exact E0]].
Qed.

(** Nothing more is needed: a solver that is right about the two private values gives the key. *)
Theorem C84_spake2_converse :
  forall (S : epoint -> epoint -> epoint) sd sd' pw t t' key,
  role_of sd' = peer (role_of sd) -> has_key sd pw t (sent sd' pw t') key = true ->
  let x := sval (random t) in let y := sval (random t') in
  S (emul x ed_B) (emul y ed_B) = emul (x * y) ed_B ->
  sha256 (attack_of sd pw S (sent sd pw t) (sent sd' pw t')) = key.
Proof.
  intros S sd sd' pw t t' key Hr Hk x y HS. rewrite (honest_key sd sd' pw t t' key Hr Hk). fold x y.
  unfold attack_of. destruct (unblinded sd pw t) as (P & -> & EP). destruct (unblinded sd' pw t') as (Q & -> & EQ).
  cbv zeta. rewrite EP. rewrite <- Hr, EQ. fold x y. rewrite HS. reflexivity.
Qed.
Print Assumptions C84_spake2.
Print Assumptions C84_spake2_converse.

(** A case: an attacker that knows one private value (here that of the peer), for two sessions that hear each
    other; every such session has a key. *)
Example C84_spake2_case : forall pw a b t t',
  let sd := SideA a b in let sd' := SideB a b in
  let F mine theirs := attack_of sd pw (fun P _ => emul (sval (random t')) P) mine theirs in
  exists key, has_key sd pw t (sent sd' pw t') key = true /\ sha256 (F (sent sd pw t) (sent sd' pw t')) = key.
Proof.
  intros pw a b t t' sd sd' F.
  pose proof (finish_honest sd pw (random t) sd' pw (random t') _ _ _ _ eq_refl (start_ok _ _ _) (start_ok _ _ _)) as H.
  change (tag (role_of sd') :: compress (msg_point (role_of sd') pw (sval (random t')))) with
    (message (role_of sd') pw (emul (sval (random t')) ed_B)) in H.
  rewrite <- sent_message in H. apply has_key_spec in H.
  eexists. split; [exact H|]. refine (C84_spake2_converse _ sd sd' pw t t' _ eq_refl H _).
  cbv beta. rewrite Z.mul_comm. symmetry. apply emul_mul_scalar.
Qed.
