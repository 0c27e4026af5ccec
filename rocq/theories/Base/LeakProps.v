(** * The comparison of secrets shows nothing but its result (C96): the comparison itself. *)
From Coq Require Import NArith Lia List Bool PeanoNat.
From Verif Require Import Base.Bytes Base.CtEq Base.Hex Base.Kat Base.Leak.
Import ListNotations.
Local Open Scope nat_scope.

(** C96: a program that branches and computes addresses from public variables and lengths only shows the same
    for all contents of its arrays, and leaves the same public variables. *)
Theorem C96_oblivious :
  forall P s A B v w, oblivious P s = true -> same_lengths A B -> agree P v w ->
  snd (exec A s v) = snd (exec B s w) /\ agree P (snd (fst (exec A s v))) (snd (fst (exec B s w))).
Proof.
  intros P s A B v w H HL HA. pose proof (oblivious_similar A B HL P s H v w HA) as S.
  destruct (exec A s v) as [[? ?] ?], (exec B s w) as [[? ?] ?]. cbn in *. tauto.
Qed.

(** C96: [ct_eq] of two slices is 1 just when they are equal, and what it shows depends on the two lengths only. *)
Theorem C96_ct_eq :
  forall a b, (fst (ct_eq_l a b) = 1%N <-> a = b) /\ (fst (ct_eq_l a b) = 0%N <-> a <> b) /\
  forall a' b', length a = length a' -> length b = length b' -> snd (ct_eq_l a b) = snd (ct_eq_l a' b').
Proof.
  intros a b. rewrite ct_eq_value. split; [apply slice_ct_eq_1|]. split.
  - rewrite slice_ct_eq_spec. destruct (bytes_eqb a b) eqn:E.
    + apply bytes_eqb_eq in E. split; [discriminate|congruence].
    + split; auto. intros _ ->. assert (bytes_eqb b b = true) by now apply bytes_eqb_eq. congruence.
  - intros a' b'. apply (oblivious_call [vI]), ct_eq_oblivious.
Qed.

(** For contrast, and to show that the leakage of the model is not empty: [==] has the same results, but an
    observer of it finds any string of known length with at most 256 comparisons for each byte. *)
Theorem C96_early_exit :
  (forall a b, fst (eq_l a b) = fst (ct_eq_l a b)) /\
  forall secret, let '(found, comparisons) := recover (eq_l secret) (length secret) [] in
    found = secret /\ comparisons <= 256 * length secret.
Proof.
  split; [intros a b; now rewrite eq_value, ct_eq_value|]. intros secret.
  pose proof (recover_eq secret []) as H. cbn [app] in H.
  pose proof (recover_count (eq_l secret) (length secret) []) as HC.
  destruct (recover _ _ _). cbn [fst snd] in *. tauto.
Qed.

(** Case: two different strings of three bytes that a third one differs from in its first and in its last byte. *)
Example C96_case :
  oblivious [vI] ct_eq_code = true /\ oblivious [vI] eq_code = false /\
  (length (hex "010203") = length (hex "010204")) /\ hex "010203" <> hex "010204".
Proof. repeat split; discriminate. Qed.
Check (test (ct_eq_l (hex "0102") (hex "0103"))
  (0%N, [OBranch false; OBranch true; ORead 0 0; ORead 1 0; OBranch true; ORead 0 1; ORead 1 1; OBranch false])).
Check (test (snd (ct_eq_l (hex "0102") (hex "0102"))) (snd (ct_eq_l (hex "0102") (hex "ff03")))).
Check (test (ct_eq_l (hex "0102") (hex "01")) (0%N, [OBranch true])).
Check (test (snd (eq_l (hex "0102") (hex "0203"))) [OBranch false; OBranch true; ORead 0 0; ORead 1 0; OBranch true]).
Check (test (snd (eq_l (hex "0102") (hex "0103")))
  [OBranch false; OBranch true; ORead 0 0; ORead 1 0; OBranch false; OBranch true; ORead 0 1; ORead 1 1; OBranch true]).
Check (test (recover (eq_l (hex "a70003")) 3 []) (hex "a70003", 168 + 1 + 4)).
Check (test (recover (ct_eq_l (hex "a70003")) 3 []) (hex "0000", 1 + 1 + 256)).
