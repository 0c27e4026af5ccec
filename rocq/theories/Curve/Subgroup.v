(** * Subgroups of prime order, when the group is not too large.

    If l is prime, B has order l, and the group has fewer than l^2 elements, every element killed by
    l is a multiple of B: among the l^2 combinations i*B + j*P two must coincide. *)
From Coq Require Import ZArith Znumtheory Lia List Arith.
From Verif.Curve Require Import Abelian NumTheory.
Import ListNotations.
Local Open Scope Z_scope.

(** A function from [0..n) into [0..m) with m < n is not injective. *)
Lemma pigeonhole (n m : nat) (f : nat -> nat) :
  (m < n)%nat -> (forall i, (i < n)%nat -> (f i < m)%nat) ->
  exists i j, (i < j < n)%nat /\ f i = f j.
Proof.
  intros Hmn Hf.
  assert (D : forall k, (exists i j, (i < j < k)%nat /\ f i = f j) \/ NoDup (map f (seq 0 k))).
  { induction k as [|k IH].
    - right. constructor.
    - destruct IH as [(i & j & Hij & E)|IH]; [left; exists i, j; split; [lia|exact E]|].
      destruct (in_dec Nat.eq_dec (f k) (map f (seq 0 k))) as [H|H].
      + left. apply in_map_iff in H. destruct H as (i & E & Hi). apply in_seq in Hi.
        exists i, k. split; [lia|exact E].
      + right. rewrite seq_S, map_app. cbn [map Nat.add].
        apply NoDup_Add with (a := f k) (l := map f (seq 0 k)).
        * rewrite <- (app_nil_r (map f (seq 0 k))) at 1. apply Add_app.
        * split; assumption. }
  destruct (D n) as [H|H]; [exact H|exfalso].
  assert (I : incl (map f (seq 0 n)) (seq 0 m)).
  { intros y Hy. apply in_map_iff in Hy. destruct Hy as (i & <- & Hi). apply in_seq in Hi.
    apply in_seq. specialize (Hf i). lia. }
  pose proof (NoDup_incl_length H I) as L. rewrite map_length, !seq_length in L. lia.
Qed.

Section Subgroup.
Context (G : Type) (op : G -> G -> G) (zero : G) (opp : G -> G).
Context (laws : abelian_laws G op zero opp).
Context (l : Z) (l_prime : prime l).
Notation mul := (smul op zero opp).

Lemma l_pos : 1 < l.
Proof. now destruct l_prime. Qed.

(** A non-zero element killed by l has order exactly l. *)
Lemma order_exact B n : mul l B = zero -> B <> zero -> (mul n B = zero <-> (l | n)).
Proof.
  intros HB NB. split.
  - intros Hn. destruct (Zdivide_dec l n) as [H|H]; [exact H|exfalso; apply NB].
    assert (R : rel_prime l n) by now apply prime_rel_prime.
    destruct (rel_prime_bezout _ _ R) as [u v Huv].
    rewrite <- (smul_1 G op zero opp B), <- Huv.
    rewrite (smul_add _ _ _ _ laws), !(smul_mul _ _ _ _ laws), HB, Hn.
    rewrite !(smul_zero _ _ _ _ laws). apply (ab_zero _ _ _ _ laws).
  - intros [q ->]. rewrite (smul_mul _ _ _ _ laws), HB. apply (smul_zero _ _ _ _ laws).
Qed.

Lemma mul_inj B i j :
  mul l B = zero -> B <> zero -> 0 <= i < l -> 0 <= j < l -> mul i B = mul j B -> i = j.
Proof.
  intros HB NB Hi Hj E.
  assert (H : mul (i - j) B = zero).
  { unfold Z.sub. rewrite (smul_add _ _ _ _ laws), (smul_neg _ _ _ _ laws), E.
    apply (opp_r _ _ _ _ laws). }
  apply (order_exact B _ HB NB) in H. destruct H as [q Hq].
  assert (q = 0) by nia. lia.
Qed.

(** An injective numbering of the elements by numbers below [m]. *)
Context (m : Z) (code : G -> Z).
Context (code_range : forall P, 0 <= code P < m).
Context (code_inj : forall P Q, code P = code Q -> P = Q).
Context (m_small : m < l * l).

Theorem subgroup_cyclic B P :
  mul l B = zero -> B <> zero -> mul l P = zero -> exists k, 0 <= k < l /\ P = mul k B.
Proof.
  intros HB NB HP. pose proof l_pos as Hl.
  pose (pt := fun a : nat => op (mul (Z.of_nat a / l) B) (mul (Z.of_nat a mod l) P)).
  destruct (pigeonhole (Z.to_nat (l * l)) (Z.to_nat m) (fun a => Z.to_nat (code (pt a))))
    as (a & b & Hab & E).
  - pose proof (code_range zero). lia.
  - intros i _. pose proof (code_range (pt i)). lia.
  - assert (E' : pt a = pt b).
    { apply code_inj. pose proof (code_range (pt a)). pose proof (code_range (pt b)). lia. }
    clear E. unfold pt in E'.
    set (za := Z.of_nat a) in *. set (zb := Z.of_nat b) in *.
    assert (Hza : 0 <= za < l * l) by lia. assert (Hzb : 0 <= zb < l * l) by lia.
    assert (Hne : za <> zb) by lia. clearbody za zb. clear Hab.
    pose proof (Z.div_mod za l) as Da. pose proof (Z.div_mod zb l) as Db.
    pose proof (Z.mod_pos_bound za l) as Ba. pose proof (Z.mod_pos_bound zb l) as Bb.
    set (ia := za / l) in *. set (ja := za mod l) in *. set (ib := zb / l) in *. set (jb := zb mod l) in *.
    clearbody ia ja ib jb.
    (* (ia - ib) B = (jb - ja) P *)
    assert (E : mul (ia - ib) B = mul (jb - ja) P).
    { apply (op_cancel_r _ _ _ _ laws (op (mul ib B) (mul ja P))).
      rewrite (ab_assoc _ _ _ _ laws), <- (smul_add _ _ _ _ laws).
      replace (ia - ib + ib) with ia by ring. rewrite E'.
      rewrite (op_swap _ _ _ _ laws), <- (smul_add _ _ _ _ laws).
      f_equal. f_equal. ring. }
    assert (Hj : ~ (l | jb - ja)).
    { intros [q Hq]. assert (q = 0) by nia. assert (Hjj : jb = ja) by lia. subst jb.
      replace (ja - ja) with 0 in E by ring. rewrite (smul_0 G op zero opp P) in E.
      apply (order_exact B _ HB NB) in E. destruct E as [q' Hq'].
      assert (0 <= ia < l) by nia. assert (0 <= ib < l) by nia.
      assert (q' = 0) by nia. apply Hne. nia. }
    assert (R : rel_prime l (jb - ja)) by now apply prime_rel_prime.
    destruct (rel_prime_bezout _ _ R) as [u v Huv].
    exists ((v * (ia - ib)) mod l). split; [apply Z.mod_pos_bound; lia|].
    rewrite (smul_mod _ _ _ _ laws) by exact HB.
    rewrite (smul_mul _ _ _ _ laws), E, <- (smul_mul _ _ _ _ laws).
    rewrite <- (smul_1 G op zero opp P) at 1. rewrite <- Huv.
    rewrite (smul_add _ _ _ _ laws), (smul_mul _ _ _ _ laws u), HP, (smul_zero _ _ _ _ laws).
    apply (ab_zero _ _ _ _ laws).
Qed.
End Subgroup.
