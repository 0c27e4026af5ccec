(** * Abelian groups as Z-modules.  Standard mathematics. *)
From Coq Require Import ZArith Lia.
Local Open Scope Z_scope.

Record abelian_laws (G : Type) (op : G -> G -> G) (zero : G) (opp : G -> G) : Prop := {
  ab_comm : forall a b, op a b = op b a;
  ab_assoc : forall a b c, op a (op b c) = op (op a b) c;
  ab_zero : forall a, op zero a = a;
  ab_opp : forall a, op (opp a) a = zero
}.

Section Abelian.
Context (G : Type) (op : G -> G -> G) (zero : G) (opp : G -> G).
Context (L : abelian_laws G op zero opp).

Let comm := ab_comm _ _ _ _ L.
Let assoc := ab_assoc _ _ _ _ L.
Let zero_l := ab_zero _ _ _ _ L.
Let opp_l := ab_opp _ _ _ _ L.

Lemma zero_r a : op a zero = a.
Proof. now rewrite comm, zero_l. Qed.
Lemma opp_r a : op a (opp a) = zero.
Proof. now rewrite comm, opp_l. Qed.

Lemma op_cancel_l a b c : op a b = op a c -> b = c.
Proof.
  intros H. rewrite <- (zero_l b), <- (zero_l c), <- (opp_l a), <- !assoc. now rewrite H.
Qed.
Lemma op_cancel_r a b c : op b a = op c a -> b = c.
Proof. rewrite !(comm _ a). apply op_cancel_l. Qed.

Lemma opp_unique a b : op a b = zero -> b = opp a.
Proof. intros H. apply (op_cancel_l a). now rewrite H, opp_r. Qed.
Lemma opp_zero : opp zero = zero.
Proof. symmetry. apply opp_unique, zero_l. Qed.
Lemma opp_opp a : opp (opp a) = a.
Proof. symmetry. apply opp_unique, opp_l. Qed.
Lemma op_swap a b c : op a (op b c) = op b (op a c).
Proof. now rewrite assoc, (comm a b), <- assoc. Qed.
Lemma opp_op a b : opp (op a b) = op (opp a) (opp b).
Proof.
  symmetry. apply opp_unique. rewrite <- assoc, (op_swap b), assoc, opp_r, zero_l. apply opp_r.
Qed.

(** Double-and-add. *)
Fixpoint pmul (n : positive) (a : G) : G :=
  match n with
  | xH => a
  | xO n' => let t := pmul n' a in op t t
  | xI n' => let t := pmul n' a in op (op t t) a
  end.

Definition smul (n : Z) (a : G) : G :=
  match n with
  | Z0 => zero
  | Zpos p => pmul p a
  | Zneg p => opp (pmul p a)
  end.

Lemma pmul_succ n a : pmul (Pos.succ n) a = op a (pmul n a).
Proof.
  induction n as [n IH|n IH|]; cbn [pmul Pos.succ].
  - rewrite IH. rewrite <- !assoc. f_equal. now rewrite (comm (pmul n a) a), op_swap.
  - apply comm.
  - reflexivity.
Qed.

Lemma pmul_add n m a : pmul (n + m) a = op (pmul n a) (pmul m a).
Proof.
  induction n as [|n IH] using Pos.peano_ind.
  - rewrite Pos.add_1_l. apply pmul_succ.
  - rewrite Pos.add_succ_l, !pmul_succ, IH. apply assoc.
Qed.

Lemma pmul_op n a b : pmul n (op a b) = op (pmul n a) (pmul n b).
Proof.
  induction n as [|n IH] using Pos.peano_ind; [reflexivity|].
  rewrite !pmul_succ, IH, <- !assoc. f_equal. apply op_swap.
Qed.

Lemma pmul_mul n m a : pmul (n * m) a = pmul n (pmul m a).
Proof.
  induction n as [|n IH] using Pos.peano_ind; [reflexivity|].
  rewrite Pos.mul_succ_l, pmul_add, IH, pmul_succ. reflexivity.
Qed.

Lemma pmul_zero n : pmul n zero = zero.
Proof.
  induction n as [|n IH] using Pos.peano_ind; [reflexivity|]. now rewrite pmul_succ, IH, zero_l.
Qed.

Lemma pmul_opp n a : pmul n (opp a) = opp (pmul n a).
Proof. apply opp_unique. now rewrite <- pmul_op, opp_r, pmul_zero. Qed.

Lemma smul_0 a : smul 0 a = zero. Proof. reflexivity. Qed.
Lemma smul_1 a : smul 1 a = a. Proof. reflexivity. Qed.

Lemma smul_neg n a : smul (- n) a = opp (smul n a).
Proof.
  destruct n; cbn [smul Z.opp].
  - symmetry. apply opp_zero.
  - reflexivity.
  - symmetry. apply opp_opp.
Qed.

Lemma smul_sub_pos n m a : smul (Zpos n - Zpos m) a = op (pmul n a) (opp (pmul m a)).
Proof.
  destruct (Z.lt_trichotomy (Zpos n) (Zpos m)) as [H|[H|H]].
  - assert (exists k, m = n + k)%positive as [k ->] by (exists (m - n)%positive; lia).
    replace (Zpos n - Zpos (n + k)) with (Zneg k) by lia. cbn [smul].
    rewrite pmul_add, opp_op, assoc, opp_r. now rewrite zero_l.
  - injection H as ->. rewrite Z.sub_diag. cbn [smul]. now rewrite opp_r.
  - assert (exists k, n = m + k)%positive as [k ->] by (exists (n - m)%positive; lia).
    replace (Zpos (m + k) - Zpos m) with (Zpos k) by lia. cbn [smul].
    rewrite pmul_add, comm, assoc, opp_l. now rewrite zero_l.
Qed.

Lemma smul_add n m a : smul (n + m) a = op (smul n a) (smul m a).
Proof.
  destruct n as [|n|n], m as [|m|m].
  - now rewrite Z.add_0_l, zero_l.
  - now rewrite Z.add_0_l, zero_l.
  - now rewrite Z.add_0_l, zero_l.
  - now rewrite Z.add_0_r, zero_r.
  - apply pmul_add.
  - change (Zpos n + Zneg m) with (Zpos n - Zpos m). apply smul_sub_pos.
  - now rewrite Z.add_0_r, zero_r.
  - rewrite Z.add_comm. change (Zpos m + Zneg n) with (Zpos m - Zpos n).
    rewrite smul_sub_pos. apply comm.
  - change (Zneg n + Zneg m) with (- (Zpos (n + m))). rewrite smul_neg. cbn [smul].
    now rewrite pmul_add, opp_op.
Qed.

Lemma smul_op n a b : smul n (op a b) = op (smul n a) (smul n b).
Proof.
  destruct n; cbn [smul].
  - now rewrite zero_l.
  - apply pmul_op.
  - now rewrite pmul_op, opp_op.
Qed.

Lemma smul_zero n : smul n zero = zero.
Proof. destruct n; cbn [smul]; rewrite ?pmul_zero; [reflexivity|reflexivity|apply opp_zero]. Qed.

Lemma smul_opp n a : smul n (opp a) = opp (smul n a).
Proof. apply opp_unique. now rewrite <- smul_op, opp_r, smul_zero. Qed.

Lemma smul_mul n m a : smul (n * m) a = smul n (smul m a).
Proof.
  destruct n as [|n|n], m as [|m|m]; cbn [smul Z.mul];
    rewrite ?pmul_zero, ?opp_zero, ?pmul_mul, ?pmul_opp, ?opp_opp; reflexivity.
Qed.

Lemma smul_comm n m a : smul n (smul m a) = smul m (smul n a).
Proof. now rewrite <- !smul_mul, Z.mul_comm. Qed.

Lemma smul_mod l n a : smul l a = zero -> smul (n mod l) a = smul n a.
Proof.
  intros H.
  destruct (Z.eq_dec l 0) as [->|Hl]; [now rewrite Zmod_0_r|].
  rewrite (Z.div_mod n l Hl) at 2. rewrite smul_add, (Z.mul_comm l), smul_mul, H, smul_zero.
  symmetry. apply zero_l.
Qed.

Lemma torsion_op l a b : smul l a = zero -> smul l b = zero -> smul l (op a b) = zero.
Proof. intros Ha Hb. now rewrite smul_op, Ha, Hb, zero_l. Qed.
Lemma torsion_smul l n a : smul l a = zero -> smul l (smul n a) = zero.
Proof. intros Ha. now rewrite smul_comm, Ha, smul_zero. Qed.
End Abelian.

Arguments smul {G}.
Arguments pmul {G}.
