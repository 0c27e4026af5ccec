(** * AuCPace, strong variant with partial augmentation: the questions it takes (C99). *)
From Coq Require Import ZArith Lia List.
From Verif Require Import Base.Bytes Base.Outcome Base.Rng Base.Kat.
From Verif Require Import Curve.Primes Curve.Zmod Curve.Abelian Curve.Scalar25519 Curve.Questions Aucpace.RistrettoGroup Aucpace.PwHash Aucpace.AucpaceModel Aucpace.AucpaceSpec Aucpace.AucpaceDb
  Aucpace.AucpaceRun Aucpace.AucpaceProofs Aucpace.AucpaceToy Aucpace.AucpaceProps31 Aucpace.AucpaceProps34.
Import ListNotations.
Local Open Scope nat_scope.

Section Partial.
Context (R : RGroup) (L : rgroup_laws R) (D : bytes -> bytes) (Dlen : forall m, length (D m) = 64).

(** As [salt_points_from], of a server with long-term key pairs. *)
Definition salt_points_from_partial (user : bytes) (questions : list (expr scalar)) (js : list nat) : Prop :=
  forall j, In j js -> exists e,
  forall (DB : StrongDatabase R) (PDB : PartialAugDatabase R (sdb DB)) (d : sdb DB) W q ps x X Ts sess sts (z : nat -> pt R),
    lookup_verifier_strong DB d user = Some (W, q, ps) -> lookup_long_term_keypair PDB d user = Some (x, X) -> q <> szero ->
    let ask k U := salt_point_of R (generate_client_info_partial_strong R D DB PDB Ts (sess k) user U d (sts k)) in
    computed R z (asked R ask z [] questions) e = rmul (z j) q.

Lemma ask_partial_strong (DB : StrongDatabase R) (PDB : PartialAugDatabase R (sdb DB)) (d : sdb DB) user W q ps x X Ts sess sts U :
  lookup_verifier_strong DB d user = Some (W, q, ps) -> lookup_long_term_keypair PDB d user = Some (x, X) ->
  salt_point_of R (generate_client_info_partial_strong R D DB PDB Ts sess user U d sts) = rmul U q.
Proof.
  intros Hl Hk. unfold generate_client_info_partial_strong. rewrite Hk. unfold generate_prs_strong. rewrite Hl, (smult_one_r q).
  destruct (is_identity (rmul U q)) eqn:Ei; [|reflexivity]. symmetry. now apply (is_identity_eq L).
Qed.
Lemma asked_ext f g z qs : (forall k U, f k U = g k U) -> forall ans, asked R f z ans qs = asked R g z ans qs.
Proof. intros H. induction qs as [|e qs IH]; intros ans; cbn [asked]; [reflexivity|]. now rewrite H, IH. Qed.

Lemma partial_as_strong user questions js :
  salt_points_from_partial user questions js <-> salt_points_from R D user questions js.
Proof.
  split; intros H j Hj; destruct (H j Hj) as (e & He); exists e.
  - intros DB d W q ps Ts sess sts z Hl Hq ask.
    pose (PDB := {| lookup_long_term_keypair := fun (_ : sdb DB) (_ : bytes) => Some (szero, rzero R);
                    store_long_term_keypair := fun d _ _ _ => Ok d |}).
    specialize (He DB PDB d W q ps szero (rzero R) Ts sess sts z Hl eq_refl Hq). cbv zeta in He. rewrite <- He. f_equal.
    apply asked_ext. intros k U. unfold ask. rewrite (ask_strong R L D _ _ _ _ _ _ _ _ _ _ Hl).
    now rewrite (ask_partial_strong DB PDB d user W q ps szero (rzero R)).
  - intros DB PDB d W q ps x X Ts sess sts z Hl Hk Hq ask.
    specialize (He DB d W q ps Ts sess sts z Hl Hq). cbv zeta in He. rewrite <- He. f_equal.
    apply asked_ext. intros k U. unfold ask. rewrite (ask_strong R L D _ _ _ _ _ _ _ _ _ _ Hl).
    now rewrite (ask_partial_strong DB PDB d user W q ps x X).
Qed.

(** C99, the strong variant with partial augmentation: it takes as many questions as there are passwords, however many
    logins the attacker has watched before, and no more. *)
Theorem C99_strong_partial_questions :
  (forall user ws questions js, NoDup (ws ++ js) -> (Z.of_nat (length ws + length questions) + 2 < ell)%Z ->
   salt_points_from_partial user (map Unknown ws ++ questions) js -> length js <= length questions) /\
  (forall user js, salt_points_from_partial user (map Unknown js) js).
Proof.
  split.
  - intros user ws questions js ND Hn H. apply partial_as_strong in H.
    exact (C99_strong_watching R L D Dlen user ws questions js ND Hn H).
  - intros user js. apply partial_as_strong. apply (C99_strong_questions_enough R L D user).
Qed.

(** Case: two logins watched, one question. *)
Example C99_strong_partial_questions_case user :
  NoDup ([10; 11] ++ [0]) /\ salt_points_from_partial user (map Unknown [10; 11] ++ [Unknown 0]) [0].
Proof.
  destruct (C99_strong_watching_case R L D user) as (ND & _ & H). split; [exact ND|]. now apply partial_as_strong.
Qed.
End Partial.
