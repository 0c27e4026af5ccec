(** * The prime-order subgroup of edwards25519: everything killed by the group order is a multiple
    of the base point, by a unique scalar. *)
From Coq Require Import ZArith Znumtheory Lia.
From Verif.Curve Require Import Primes Zmod Abelian Subgroup Ed25519 Ed25519Points.
Local Open Scope Z_scope.

Definition ecode (P : epoint) : Z := fval (ey P) + (if is_negative (ex P) then p25519 else 0).

Lemma ecode_range P : 0 <= ecode P < 2 * p25519.
Proof.
  unfold ecode. pose proof (fval_range (ey P)) as R. set (p := p25519) in *. clearbody p.
  destruct (is_negative (ex P)); lia.
Qed.

Lemma ecode_inj P Q : ecode P = ecode Q -> P = Q.
Proof.
  unfold ecode. intros E.
  pose proof (fval_range (ey P)) as RP. pose proof (fval_range (ey Q)) as RQ.
  assert (H : fval (ey P) = fval (ey Q) /\ is_negative (ex P) = is_negative (ex Q)).
  { revert E RP RQ. generalize (fval (ey P)) (fval (ey Q)). set (p := p25519). clearbody p. intros a b.
    destruct (is_negative (ex P)), (is_negative (ex Q)); intros; split; lia || (exfalso; lia) || reflexivity. }
  destruct H as [Hy Hs]. apply same_y_sign; [|exact Hs]. apply zmod_ext. exact Hy.
Qed.

Lemma two_p_small : 2 * p25519 < ell * ell.
Proof. reflexivity. Qed.

Lemma emul_order_exact P n :
  emul ell P = ezero -> P <> ezero -> (emul n P = ezero <-> (ell | n)).
Proof. apply (order_exact epoint eadd ezero eopp ed_laws ell prime_ell). Qed.

Lemma emul_inj P i j :
  emul ell P = ezero -> P <> ezero -> 0 <= i < ell -> 0 <= j < ell -> emul i P = emul j P -> i = j.
Proof. apply (mul_inj epoint eadd ezero eopp ed_laws ell prime_ell). Qed.

(** Stated for a function equal to [emul], so that the kernel never evaluates multiples. *)
Lemma multiple_of_B_aux (f : Z -> epoint -> epoint) P :
  f = smul eadd ezero eopp -> f ell ed_B = ezero -> f ell P = ezero ->
  exists k, 0 <= k < ell /\ P = f k ed_B.
Proof.
  intros -> HB HP.
  exact (subgroup_cyclic epoint eadd ezero eopp ed_laws ell prime_ell (2 * p25519) ecode
           ecode_range ecode_inj two_p_small ed_B P HB ed_B_nonzero HP).
Qed.

Theorem multiple_of_B P :
  emul ell P = ezero -> exists k, 0 <= k < ell /\ P = emul k ed_B.
Proof. exact (multiple_of_B_aux emul P eq_refl ell_B). Qed.
