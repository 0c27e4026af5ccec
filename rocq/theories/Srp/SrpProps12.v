(** * SRP: all that checking a proof shows (C96). *)
From Coq Require Import NArith Lia List Bool PeanoNat.
From Verif Require Import Base.Bytes Base.Outcome Base.CtEq Base.Hex Base.Kat Base.Leak Base.LeakShown.
From Verif Require Import Srp.SrpModel Srp.SrpProofs Srp.SrpProps10.
Import ListNotations.
Local Open Scope nat_scope.

(** C96: nothing is left out of what the two checks show: the comparison of all the bytes, then the verdict. *)
Theorem C96_srp_shown :
  (forall sv reply, snd (verify_client_l sv reply) =
     compare_shows (length (sv_m1 sv)) (length reply) ++ [OBranch (bytes_eqb (sv_m1 sv) reply)]) /\
  (forall cv reply, snd (verify_server_l cv reply) =
     compare_shows (length (cv_m2 cv)) (length reply) ++ [OBranch (bytes_eqb (cv_m2 cv) reply)]).
Proof.
  assert (E : forall a b, N.eqb (slice_ct_eq a b) 1 = bytes_eqb a b).
  { intros a b. rewrite slice_ct_eq_spec. now destruct (bytes_eqb a b). }
  split; intros v reply; [unfold verify_client_l|unfold verify_server_l];
    rewrite (surjective_pairing (ct_eq_l _ reply)), ct_eq_shows, ct_eq_value, E; reflexivity.
Qed.
Check (test (snd (verify_client_l sv1 (hex "0102"))) [OBranch true; OBranch false]).
