(** * AuCPace, strong variant: watching logins does not replace questions (C99). *)
From Coq Require Import ZArith Lia List.
From Verif Require Import Base.Bytes Base.Outcome Base.Rng Base.Kat.
From Verif Require Import Curve.Primes Curve.Zmod Curve.Abelian Curve.Scalar25519 Curve.Questions Aucpace.RistrettoGroup Aucpace.PwHash Aucpace.AucpaceModel Aucpace.AucpaceSpec Aucpace.AucpaceDb
  Aucpace.AucpaceRun Aucpace.AucpaceProofs Aucpace.AucpaceToy Aucpace.AucpaceProps31.
Import ListNotations.
Local Open Scope nat_scope.

Section Watching.
Context (R : RGroup) (L : rgroup_laws R) (D : bytes -> bytes) (Dlen : forall m, length (D m) = 64).

Lemma asked_app ask z q1 : forall ans q2, asked R ask z ans (q1 ++ q2) = asked R ask z (asked R ask z ans q1) q2.
Proof. induction q1 as [|e q1 IH]; intros ans q2; cbn [asked app]; [reflexivity|]. apply IH. Qed.
Lemma asked_keeps ask z qs : forall ans k, k < length ans -> nth k (asked R ask z ans qs) (rzero R) = nth k ans (rzero R).
Proof.
  induction qs as [|e qs IH]; intros ans k Hk; cbn [asked]; [reflexivity|].
  rewrite IH by (rewrite app_length; cbn; lia). now apply app_nth1.
Qed.

(** C99, the strong variant: an attacker that has watched any number of logins of the user, with requests number ws and
    the server's answers to them, and then asks questions of its own, has the salt points of at most as many passwords as
    it asks questions itself.  The requests are unknowns, as every point is a blinded request for the right password
    (C99_strong_unasked). *)
Theorem C99_strong_watching :
  forall user ws questions js, NoDup (ws ++ js) -> (Z.of_nat (length ws + length questions) + 2 < ell)%Z ->
  salt_points_from R D user (map Unknown ws ++ questions) js -> length js <= length questions.
Proof.
  intros user ws qs js ND Hn H.
  assert (HB : length (ws ++ js) <= length (map (@Unknown scalar) ws ++ qs)).
  { apply (C99_strong_questions R L D Dlen bytes toy_params_of user); [exact ND| |].
    - rewrite app_length, map_length. exact Hn.
    - intros j Hj. apply in_app_or in Hj. destruct Hj as [Hj|Hj]; [|now apply H].
      apply In_nth with (d := 0) in Hj. destruct Hj as (k & Hk & Ej). exists (Answer k).
      intros DB d W q ps Ts sess sts z Hl Hq ask. cbn [computed].
      assert (G : forall l ans, asked R ask z ans (map Unknown l) = ans ++ map (fun i => rmul (z i) q) l).
      { clear - L Hl. induction l as [|i l IH]; intros ans; cbn [map asked computed]; [now rewrite app_nil_r|].
        rewrite IH, <- app_assoc. cbn [app]. unfold ask at 1. now rewrite (ask_strong R L D _ _ _ _ _ _ _ _ _ _ Hl). }
      rewrite asked_app, G. cbn [app]. rewrite asked_keeps by now rewrite map_length.
      rewrite (nth_indep _ _ (rmul (z 0) q)) by now rewrite map_length.
      rewrite (map_nth (fun i => rmul (z i) q)). now rewrite Ej. }
  rewrite !app_length, map_length in HB. lia.
Qed.

(** Case: two logins watched, one question. *)
Example C99_strong_watching_case user :
  NoDup ([10; 11] ++ [0]) /\ (Z.of_nat (length [10; 11] + length [Unknown (F := scalar) 0]) + 2 < ell)%Z /\
  salt_points_from R D user (map Unknown [10; 11] ++ [Unknown 0]) [0].
Proof.
  split; [|split].
  - repeat constructor; cbn; intuition discriminate.
  - vm_compute. reflexivity.
  - intros j [<-|[]]. apply (C99_strong_questions_enough R L D user [10; 11; 0]). cbn. auto.
Qed.
End Watching.

(** ... in the small group: the two requests are alice's point times 5 and times 9. *)
Definition watched0 (i : nat) : pt ToyGroup :=
  match i with
  | 10 => rmul (spec_Z ToyGroup toyD alice secret) (sof 5)
  | 11 => rmul (spec_Z ToyGroup toyD alice secret) (sof 9)
  | _ => points0 i
  end.
Definition watched_answers0 : list (pt ToyGroup) :=
  asked ToyGroup (fun _ U => salt_point_of ToyGroup
    (generate_client_info_strong ToyGroup toyD (AssocStrongDb ToyGroup) tape_rng aug0 alice U toy_sdb (toy_tape 3001 3002)))
    watched0 [] [Unknown 10; Unknown 11; Unknown 0].
Check (test (map sval watched_answers0)
            (map sval [rmul (watched0 10) exponent0; rmul (watched0 11) exponent0; rmul (points0 0) exponent0])).
