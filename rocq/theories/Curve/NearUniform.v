(** * Tests of a scalar reduced from 64 uniform bytes, and of two such scalars.

    An injective change of the scalar changes the number of 64-byte strings that pass a test by less than
    the group order.  Nothing here models the crates. *)
From Coq Require Import ZArith NArith List Lia Bool.
From Verif.Base Require Import Bytes Rng Count.
From Verif.Curve Require Import Primes Scalar25519.
Local Open Scope Z_scope.

Definition injective {A B} (f : A -> B) : Prop := forall x y, f x = f y -> x = y.

(** The part of 256^64 that is not a whole number of rounds. *)
Definition remainder : Z := 256 ^ 64 mod ell.
Lemma remainder_bound : 0 <= remainder < ell.
Proof. apply Z.mod_pos_bound. pose proof ell_gt_1. lia. Qed.
Lemma remainder_small : 2 ^ 259 * remainder < 256 ^ 64 /\ 2 ^ 259 * ell < 256 ^ 64.
Proof. vm_compute. split; reflexivity. Qed.
Global Opaque remainder.

Lemma drawn_tape b : length b = 64%nat -> fst (scalar_random tape_rng b) = sof (zval b).
Proof.
  intros Hb. unfold scalar_random. cbn [rng_fill tape_rng]. unfold tape_fill. cbn [fst].
  rewrite Hb, Nat.sub_diag, <- Hb, firstn_all. cbn [repeat]. now rewrite app_nil_r.
Qed.

Lemma sof_mod z : sof (z mod ell) = sof z.
Proof. apply sval_inj. rewrite !sval_sof. apply Z.mod_mod. pose proof ell_gt_1. lia. Qed.

Theorem one_scalar_le (f : scalar -> scalar) (P Q : scalar -> bool) :
  injective f -> (forall s, P s = true -> Q (f s) = true) ->
  count 64 (fun b => P (fst (scalar_random tape_rng b)))
  <= count 64 (fun b => Q (fst (scalar_random tape_rng b))) + remainder.
Proof.
  intros Hf H. change remainder with (256 ^ Z.of_nat 64 mod ell).
  apply (count_transport 64 ell (fun v => sval (f (sof v)))).
  - pose proof ell_gt_1. lia.
  - intros v _. apply sval_range.
  - intros v w Hv Hw E. apply sval_inj in E. apply Hf in E. apply (f_equal sval) in E.
    rewrite !sval_sof, !Z.mod_small in E by assumption. exact E.
  - intros b b' L L' E HP. rewrite (drawn_tape b L) in HP. rewrite (drawn_tape b' L').
    rewrite <- (sof_mod (zval b')), E, sof_sval, sof_mod. exact (H _ HP).
Qed.

(** Two scalars, drawn from 64 bytes each. *)
Definition pair_test (P : scalar -> scalar -> bool) (t : bytes) : bool :=
  P (fst (scalar_random tape_rng (firstn 64 t))) (fst (scalar_random tape_rng (skipn 64 t))).
Lemma pair_test_app P a b :
  length a = 64%nat -> pair_test P (a ++ b) = P (fst (scalar_random tape_rng a)) (fst (scalar_random tape_rng b)).
Proof.
  intros L. unfold pair_test.
  rewrite firstn_app, skipn_app, L, Nat.sub_diag, firstn_O, skipn_O, app_nil_r.
  rewrite (firstn_all2 a), (skipn_all2 a) by lia. reflexivity.
Qed.

Theorem two_scalars_le (f g : scalar -> scalar) (P Q R : scalar -> scalar -> bool) :
  injective f -> injective g ->
  (forall s t, P s t = true -> Q s (g t) = true) -> (forall s t, Q s t = true -> R (f s) t = true) ->
  count 128 (pair_test P) <= count 128 (pair_test R) + 2 * 256 ^ 64 * remainder.
Proof.
  intros Hf Hg H1 H2.
  assert (A : count 128 (pair_test P) <= count 128 (pair_test Q) + remainder * 256 ^ 64).
  { change 128%nat with (64 + 64)%nat. rewrite !count_first. change (256 ^ 64) with (256 ^ Z.of_nat 64).
    rewrite <- length_strings. apply total_le. intros a Ha. apply in_strings in Ha.
    rewrite (count_ext 64 _ (fun b => P (fst (scalar_random tape_rng a)) (fst (scalar_random tape_rng b))))
      by (intros b _; now apply pair_test_app).
    rewrite (count_ext 64 (fun b => pair_test Q (a ++ b))
      (fun b => Q (fst (scalar_random tape_rng a)) (fst (scalar_random tape_rng b))))
      by (intros b _; now apply pair_test_app).
    apply (one_scalar_le g (P (fst (scalar_random tape_rng a))) (Q (fst (scalar_random tape_rng a))) Hg).
    intros s. apply H1. }
  assert (B : count 128 (pair_test Q) <= count 128 (pair_test R) + remainder * 256 ^ 64).
  { change 128%nat with (64 + 64)%nat. rewrite !count_second. change (256 ^ 64) with (256 ^ Z.of_nat 64).
    rewrite <- length_strings. apply total_le. intros b Hb.
    rewrite (count_ext 64 _ (fun a => Q (fst (scalar_random tape_rng a)) (fst (scalar_random tape_rng b))))
      by (intros a La; now apply pair_test_app).
    rewrite (count_ext 64 (fun a => pair_test R (a ++ b))
      (fun a => R (fst (scalar_random tape_rng a)) (fst (scalar_random tape_rng b))))
      by (intros a La; now apply pair_test_app).
    apply (one_scalar_le f (fun s => Q s (fst (scalar_random tape_rng b))) (fun s => R s (fst (scalar_random tape_rng b))) Hf).
    intros s. apply H2. }
  revert A B. generalize (256 ^ 64) remainder. intros M r A B. 
  replace (2 * M * r) with (r * M + r * M) by ring. lia.
Qed.

(** Three scalars. *)
Definition triple_test (P : scalar -> scalar -> scalar -> bool) (t : bytes) : bool :=
  pair_test (P (fst (scalar_random tape_rng (firstn 64 t)))) (skipn 64 t).
Lemma triple_test_app P a b :
  length a = 64%nat -> triple_test P (a ++ b) = pair_test (P (fst (scalar_random tape_rng a))) b.
Proof.
  intros L. unfold triple_test.
  rewrite firstn_app, skipn_app, L, Nat.sub_diag, firstn_O, skipn_O, app_nil_r.
  rewrite (firstn_all2 a), (skipn_all2 a) by lia. reflexivity.
Qed.

Theorem three_scalars_le (e f g : scalar -> scalar) (P Q R S : scalar -> scalar -> scalar -> bool) :
  injective e -> injective f -> injective g ->
  (forall r s t, P r s t = true -> Q r s (g t) = true) -> (forall r s t, Q r s t = true -> R r (f s) t = true) ->
  (forall r s t, R r s t = true -> S (e r) s t = true) ->
  count 192 (triple_test P) <= count 192 (triple_test S) + 3 * 256 ^ 128 * remainder.
Proof.
  intros He Hf Hg H1 H2 H3.
  assert (A : count 192 (triple_test P) <= count 192 (triple_test R) + 2 * 256 ^ 64 * remainder * 256 ^ 64).
  { change 192%nat with (64 + 128)%nat. rewrite !count_first. change (_ * 256 ^ 64) with (2 * 256 ^ 64 * remainder * 256 ^ Z.of_nat 64).
    rewrite <- length_strings. apply total_le. intros a Ha. apply in_strings in Ha.
    rewrite (count_ext 128 _ (pair_test (P (fst (scalar_random tape_rng a))))) by (intros b _; now apply triple_test_app).
    rewrite (count_ext 128 (fun b => triple_test R (a ++ b)) (pair_test (R (fst (scalar_random tape_rng a)))))
      by (intros b _; now apply triple_test_app).
    apply (two_scalars_le f g _ (Q (fst (scalar_random tape_rng a))) _ Hf Hg).
    - intros s t. apply H1.
    - intros s t. apply H2. }
  assert (B : count 192 (triple_test R) <= count 192 (triple_test S) + remainder * 256 ^ 128).
  { change 192%nat with (64 + 128)%nat. rewrite !count_second. change (256 ^ 128) with (256 ^ Z.of_nat 128).
    rewrite <- length_strings. apply total_le. intros b Hb.
    rewrite (count_ext 64 _ (fun a => (fun r => pair_test (R r) b) (fst (scalar_random tape_rng a))))
      by (intros a La; now apply triple_test_app).
    rewrite (count_ext 64 (fun a => triple_test S (a ++ b)) (fun a => (fun r => pair_test (S r) b) (fst (scalar_random tape_rng a))))
      by (intros a La; now apply triple_test_app).
    apply (one_scalar_le e (fun r => pair_test (R r) b) (fun r => pair_test (S r) b) He).
    intros r. unfold pair_test. apply H3. }
  change (256 ^ 128) with (256 ^ 64 * 256 ^ 64) in B |- *.
  revert A B. generalize (256 ^ 64) remainder. intros M r A B.
  replace (3 * (M * M) * r) with (2 * M * r * M + r * (M * M)) by ring. lia.
Qed.
