(** * The structure of edwards25519: every point is k*B + j*T with B the base point and T a point of
    order 8.

    The group has at most 2p points (y and the sign of x determine a point) and 2p < 16 l.  If Q is
    not in the subgroup H generated by B and T, which has 8 l elements, then H and Q + H are disjoint
    and together have 16 l elements. *)
From Coq Require Import ZArith Znumtheory Lia List Arith Bool.
From Verif.Curve Require Import Primes Zmod Abelian Subgroup Edwards Ed25519 Ed25519Fast Ed25519Points
  Ed25519Subgroup.
Local Open Scope Z_scope.

Section Structure.
Context (G : Type) (op : G -> G -> G) (zero : G) (opp : G -> G).
Context (laws : abelian_laws G op zero opp).
Context (l : Z) (l_prime : prime l) (l_odd : rel_prime l 8).
Notation mul := (smul op zero opp).

(** An element of order 8. *)
Lemma order_8_exact T n : mul 8 T = zero -> mul 4 T <> zero -> mul n T = zero -> (8 | n).
Proof.
  intros H8 H4 Hn. apply Z.mod_divide; [discriminate|].
  assert (Hr : mul (n mod 8) T = zero) by now rewrite (smul_mod _ _ _ _ laws) by exact H8.
  pose proof (Z.mod_pos_bound n 8 eq_refl) as B. set (r := n mod 8) in *. clearbody r.
  assert (K : forall k, (k * r) mod 8 = 4 -> False).
  { intros k Hk. apply H4. rewrite <- Hk, (smul_mod _ _ _ _ laws) by exact H8.
    rewrite (smul_mul _ _ _ _ laws), Hr. apply (smul_zero _ _ _ _ laws). }
  assert (r = 0 \/ r = 1 \/ r = 2 \/ r = 3 \/ r = 4 \/ r = 5 \/ r = 6 \/ r = 7) as
    [->|[->|[->|[->|[->|[->|[->| ->]]]]]]] by lia; try reflexivity; exfalso.
  - now apply (K 4). - now apply (K 2). - now apply (K 4). - now apply (K 1).
  - now apply (K 4). - now apply (K 2). - now apply (K 4).
Qed.

Context (m : Z) (code : G -> Z).
Context (code_range : forall P, 0 <= code P < m).
Context (code_inj : forall P Q, code P = code Q -> P = Q).
Context (m_small : m < 16 * l).
Context (B T : G).
Context (HB : mul l B = zero) (NB : B <> zero) (HT : mul 8 T = zero) (NT : mul 4 T <> zero).

Lemma opp_sub a b n : op (mul a n) (opp (mul b n)) = mul (a - b) n.
Proof. unfold Z.sub. now rewrite (smul_add _ _ _ _ laws), (smul_neg _ _ _ _ laws). Qed.

(** s Q + j T + i B for the index ((s * 8) + j) * l + i *)
Theorem structure Q : exists k j, 0 <= k < l /\ 0 <= j < 8 /\ Q = op (mul k B) (mul j T).
Proof.
  pose proof (l_pos l l_prime) as Hl.
  pose (pt := fun a : nat => op (mul (Z.of_nat a / l / 8) Q)
                (op (mul (Z.of_nat a mod l) B) (mul ((Z.of_nat a / l) mod 8) T))).
  destruct (pigeonhole (Z.to_nat (16 * l)) (Z.to_nat m) (fun a => Z.to_nat (code (pt a))))
    as (a & b & Hab & E).
  - pose proof (code_range zero). lia.
  - intros i _. pose proof (code_range (pt i)). lia.
  - assert (E' : pt a = pt b).
    { apply code_inj. pose proof (code_range (pt a)). pose proof (code_range (pt b)). lia. }
    clear E. unfold pt in E'.
    set (za := Z.of_nat a) in *. set (zb := Z.of_nat b) in *.
    assert (Hza : 0 <= za < 16 * l) by lia. assert (Hzb : 0 <= zb < 16 * l) by lia.
    assert (Hne : za <> zb) by lia. clearbody za zb. clear Hab.
    pose proof (Z.div_mod za l ltac:(lia)) as Da. pose proof (Z.div_mod zb l ltac:(lia)) as Db.
    pose proof (Z.mod_pos_bound za l ltac:(lia)) as Ba. pose proof (Z.mod_pos_bound zb l ltac:(lia)) as Bb.
    set (qa := za / l) in *. set (ia := za mod l) in *. set (qb := zb / l) in *. set (ib := zb mod l) in *.
    clearbody qa ia qb ib.
    assert (Hqa : 0 <= qa < 16) by nia. assert (Hqb : 0 <= qb < 16) by nia.
    pose proof (Z.div_mod qa 8 ltac:(lia)) as Ea. pose proof (Z.div_mod qb 8 ltac:(lia)) as Eb.
    pose proof (Z.mod_pos_bound qa 8 ltac:(lia)) as Ca. pose proof (Z.mod_pos_bound qb 8 ltac:(lia)) as Cb.
    set (sa := qa / 8) in *. set (ja := qa mod 8) in *. set (sb := qb / 8) in *. set (jb := qb mod 8) in *.
    clearbody sa ja sb jb.
    assert (Hsa : sa = 0 \/ sa = 1) by lia. assert (Hsb : sb = 0 \/ sb = 1) by lia.
    assert (F : mul (sa - sb) Q = op (mul (ib - ia) B) (mul (jb - ja) T)).
    { apply (op_cancel_r _ _ _ _ laws (op (mul sb Q) (op (mul ia B) (mul ja T)))).
      rewrite (ab_assoc _ _ _ _ laws), <- (smul_add _ _ _ _ laws).
      replace (sa - sb + sb) with sa by ring. rewrite E'.
      rewrite (op_swap _ _ _ _ laws (op (mul (ib - ia) B) (mul (jb - ja) T))). f_equal.
      transitivity (op (op (mul (ib - ia) B) (mul ia B)) (op (mul (jb - ja) T) (mul ja T))).
      - rewrite <- !(smul_add _ _ _ _ laws). replace (ib - ia + ia) with ib by ring.
        now replace (jb - ja + ja) with jb by ring.
      - rewrite <- !(ab_assoc _ _ _ _ laws). f_equal. apply (op_swap _ _ _ _ laws). }
    assert (done : forall k j, Q = op (mul k B) (mul j T) ->
              exists k j, 0 <= k < l /\ 0 <= j < 8 /\ Q = op (mul k B) (mul j T)).
    { intros k j HQ. exists (k mod l), (j mod 8).
      split; [apply Z.mod_pos_bound; lia|]. split; [apply Z.mod_pos_bound; lia|].
      rewrite (smul_mod _ _ _ _ laws l) by exact HB. now rewrite (smul_mod _ _ _ _ laws 8) by exact HT. }
    destruct Hsa as [->| ->], Hsb as [->| ->].
    + exfalso. change (0 - 0) with 0 in F. rewrite (smul_0 G op zero opp Q) in F.
      apply (f_equal (mul 8)) in F.
      rewrite (smul_zero _ _ _ _ laws), (smul_op _ _ _ _ laws), (smul_comm _ _ _ _ laws 8 (jb - ja)), HT,
        (smul_zero _ _ _ _ laws), (zero_r _ _ _ _ laws), <- (smul_mul _ _ _ _ laws) in F. symmetry in F.
      apply (order_exact G op zero opp laws l l_prime B _ HB NB) in F.
      assert (D : (l | ib - ia)).
      { apply (Gauss l 8 (ib - ia)); assumption. }
      destruct D as [q Hq]. assert (q = 0) by nia. assert (ib = ia) by lia. subst ib.
      assert (FT : mul (jb - ja) T = zero).
      { transitivity (mul (0 - 0) Q); [|reflexivity].
        assert (F' := E'). change (mul 0 Q) with zero in F'.
        rewrite !(ab_zero _ _ _ _ laws) in F'. apply (op_cancel_l _ _ _ _ laws) in F'.
        rewrite <- opp_sub, F'. apply (opp_r _ _ _ _ laws). }
      apply (order_8_exact T _ HT NT) in FT. destruct FT as [q' Hq'].
      assert (jb = ja) by lia. assert (Hqq : qa = qb) by lia. apply Hne. now rewrite Da, Db, Hqq.
    + apply (done (- (ib - ia)) (- (jb - ja))).
      change (0 - 1) with (-1) in F.
      rewrite !(smul_neg _ _ _ _ laws), <- (opp_op _ _ _ _ laws), <- F.
      change (mul (-1) Q) with (opp Q). symmetry. apply (opp_opp _ _ _ _ laws).
    + apply (done (ib - ia) (jb - ja)). rewrite <- F. symmetry. apply (smul_1 G op zero opp).
    + exfalso. change (1 - 1) with 0 in F. rewrite (smul_0 G op zero opp Q) in F.
      apply (f_equal (mul 8)) in F.
      rewrite (smul_zero _ _ _ _ laws), (smul_op _ _ _ _ laws), (smul_comm _ _ _ _ laws 8 (jb - ja)), HT,
        (smul_zero _ _ _ _ laws), (zero_r _ _ _ _ laws), <- (smul_mul _ _ _ _ laws) in F. symmetry in F.
      apply (order_exact G op zero opp laws l l_prime B _ HB NB) in F.
      assert (D : (l | ib - ia)).
      { apply (Gauss l 8 (ib - ia)); assumption. }
      destruct D as [q Hq]. assert (q = 0) by nia. assert (ib = ia) by lia. subst ib.
      assert (FT : mul (jb - ja) T = zero).
      { assert (F' := E'). apply (op_cancel_l _ _ _ _ laws) in F'. apply (op_cancel_l _ _ _ _ laws) in F'.
        rewrite <- opp_sub, F'. apply (opp_r _ _ _ _ laws). }
      apply (order_8_exact T _ HT NT) in FT. destruct FT as [q' Hq'].
      assert (jb = ja) by lia. assert (Hqq : qa = qb) by lia. apply Hne. now rewrite Da, Db, Hqq.
Qed.
End Structure.

(** ** A point of order 8 *)
Definition T8x : Z := 14399317868200118260347934320527232580618823971194345261214217575416788799818.
Definition T8y : Z := 2707385501144840649318225287225658788936804267575313519463743609750303402022.
Lemma T8_on : eonb (fof T8x) (fof T8y) = true.
Proof. vm_compute. reflexivity. Qed.
Definition ed_T : epoint := ept (fof T8x) (fof T8y) T8_on.

Lemma eight_T : emul 8 ed_T = ezero.
Proof.
  apply (torsion_check 8 T8x T8y ed_T); [discriminate|reflexivity|reflexivity|].
  vm_cast_no_check (eq_refl true).
Qed.

(** 4T is not the identity: it would be represented by coordinates with Y = Z. *)
Lemma four_T_b : (fst (to_affine (ext_smul 4 (ext_of T8x T8y))) =? 0) &&
                 (snd (to_affine (ext_smul 4 (ext_of T8x T8y))) =? p25519 - 1) = true.
Proof. vm_cast_no_check (eq_refl true). Qed.
Lemma two_T_b : (fst (to_affine (ext_smul 2 (ext_of T8x T8y))) =? sqrtm1_Z) &&
                (snd (to_affine (ext_smul 2 (ext_of T8x T8y))) =? 0) ||
                (fst (to_affine (ext_smul 2 (ext_of T8x T8y))) =? p25519 - sqrtm1_Z) &&
                (snd (to_affine (ext_smul 2 (ext_of T8x T8y))) =? 0) = true.
Proof. vm_cast_no_check (eq_refl true). Qed.

Lemma T8_rep : erep (ext_of T8x T8y) ed_T.
Proof. exact (ext_of_ok ed_T). Qed.

Lemma four_T_aux x y P :
  erep (ext_smul 4 (ext_of x y)) P ->
  (fst (to_affine (ext_smul 4 (ext_of x y))) =? 0) &&
  (snd (to_affine (ext_smul 4 (ext_of x y))) =? p25519 - 1) = true ->
  fval (ex P) = 0 /\ fval (ey P) = p25519 - 1.
Proof.
  intros R H. apply andb_true_iff in H. destruct H as [H1 H2]. apply Z.eqb_eq in H1, H2.
  rewrite (to_affine_ok _ _ R) in H1, H2. exact (conj H1 H2).
Qed.
Lemma four_T : fval (ex (emul 4 ed_T)) = 0 /\ fval (ey (emul 4 ed_T)) = p25519 - 1.
Proof.
  refine (four_T_aux T8x T8y (emul 4 ed_T) (ext_smul_ok 4 (ext_of T8x T8y) ed_T _ T8_rep) four_T_b).
  discriminate.
Qed.
Lemma two_T_aux x y P :
  erep (ext_smul 2 (ext_of x y)) P ->
  (fst (to_affine (ext_smul 2 (ext_of x y))) =? sqrtm1_Z) &&
  (snd (to_affine (ext_smul 2 (ext_of x y))) =? 0) ||
  (fst (to_affine (ext_smul 2 (ext_of x y))) =? p25519 - sqrtm1_Z) &&
  (snd (to_affine (ext_smul 2 (ext_of x y))) =? 0) = true ->
  (fval (ex P) = sqrtm1_Z \/ fval (ex P) = p25519 - sqrtm1_Z) /\ fval (ey P) = 0.
Proof.
  intros R H. rewrite (to_affine_ok _ _ R) in H. unfold fst, snd in H.
  rewrite orb_true_iff, !andb_true_iff, !Z.eqb_eq in H.
  destruct H as [[H1 H2]|[H1 H2]]; (split; [|exact H2]); [left|right]; exact H1.
Qed.
Lemma two_T : (fval (ex (emul 2 ed_T)) = sqrtm1_Z \/ fval (ex (emul 2 ed_T)) = p25519 - sqrtm1_Z) /\
              fval (ey (emul 2 ed_T)) = 0.
Proof.
  refine (two_T_aux T8x T8y (emul 2 ed_T) (ext_smul_ok 2 (ext_of T8x T8y) ed_T _ T8_rep) two_T_b).
  discriminate.
Qed.
Lemma four_T_nonzero : emul 4 ed_T <> ezero.
Proof.
  pose proof four_T as H. revert H. generalize (emul 4 ed_T). intros P [_ H] E.
  rewrite E in H. vm_compute in H. discriminate.
Qed.

Lemma two_p_16 : 2 * p25519 < 16 * ell.
Proof. reflexivity. Qed.
Lemma ell_odd : rel_prime ell 8.
Proof. apply Zgcd_1_rel_prime. reflexivity. Qed.

Lemma structure_aux (f : Z -> epoint -> epoint) Q :
  f = smul eadd ezero eopp -> f ell ed_B = ezero -> f 8 ed_T = ezero -> f 4 ed_T <> ezero ->
  exists k j, 0 <= k < ell /\ 0 <= j < 8 /\ Q = eadd (f k ed_B) (f j ed_T).
Proof.
  intros -> HB HT NT.
  exact (structure epoint eadd ezero eopp ed_laws ell prime_ell ell_odd (2 * p25519) ecode ecode_range
           ecode_inj two_p_16 ed_B ed_T HB ed_B_nonzero HT NT Q).
Qed.

(** Every point of edwards25519 is k*B + j*T. *)
Theorem ed_structure Q :
  exists k j, 0 <= k < ell /\ 0 <= j < 8 /\ Q = eadd (emul k ed_B) (emul j ed_T).
Proof. exact (structure_aux emul Q eq_refl ell_B eight_T four_T_nonzero). Qed.

(** So the group has exponent 8 l. *)
Lemma exponent_aux (f : Z -> epoint -> epoint) l k j B T :
  f = smul eadd ezero eopp -> f l B = ezero -> f 8 T = ezero ->
  f (8 * l) (eadd (f k B) (f j T)) = ezero.
Proof.
  intros -> HB HT.
  rewrite (smul_op _ _ _ _ ed_laws).
  rewrite (smul_mul _ _ _ _ ed_laws 8 l), (smul_comm _ _ _ _ ed_laws l k), HB.
  rewrite !(smul_zero _ _ _ _ ed_laws).
  rewrite (Z.mul_comm 8 l), (smul_mul _ _ _ _ ed_laws l 8), (smul_comm _ _ _ _ ed_laws 8 j), HT.
  rewrite !(smul_zero _ _ _ _ ed_laws). apply (ab_zero _ _ _ _ ed_laws).
Qed.
Theorem ed_exponent Q : emul (8 * ell) Q = ezero.
Proof.
  destruct (ed_structure Q) as (k & j & _ & _ & ->).
  exact (exponent_aux emul ell k j ed_B ed_T eq_refl ell_B eight_T).
Qed.
