(** * The complete twisted Edwards group law with a = -1, over any field in which -1 is a square
    and d is not.  Standard mathematics (Bernstein, Birkner, Joye, Lange, Peters 2008; RFC 8032
    section 5.1); no code.  The cofactors in the polynomial identities were computed offline and
    are checked by [ring]. *)
From Coq Require Import Field Ring Eqdep_dec Bool Setoid.

Section Edwards.
Context (F : Type) (F0 F1 : F) (Fadd Fmul Fsub : F -> F -> F) (Fopp : F -> F)
        (Fdiv : F -> F -> F) (Finv : F -> F).
Context (Hfield : field_theory F0 F1 Fadd Fmul Fsub Fopp Fdiv Finv (@eq F)).
Context (F_eq_dec : forall x y : F, {x = y} + {x <> y}).
Add Field FF : Hfield.

Declare Scope edw_scope.
Local Open Scope edw_scope.
Notation "0" := F0 : edw_scope.
Notation "1" := F1 : edw_scope.
Notation "2" := (Fadd F1 F1) : edw_scope.
Notation "4" := (Fmul (Fadd F1 F1) (Fadd F1 F1)) : edw_scope.
Infix "+" := Fadd : edw_scope.
Infix "*" := Fmul : edw_scope.
Infix "-" := Fsub : edw_scope.
Infix "/" := Fdiv : edw_scope.
Notation "- x" := (Fopp x) : edw_scope.

Context (d i : F).
Context (i_square : i * i = - (1)).
Context (d_nonsquare : forall z, z * z <> d).
Context (two_nonzero : 2 <> 0).

(** The curve equation -x^2 + y^2 = 1 + d x^2 y^2. *)
Definition on_curve (x y : F) : Prop := y * y - x * x = 1 + d * (x * x) * (y * y).

Lemma one_neq_zero : 1 <> 0.
Proof. exact (F_1_neq_0 Hfield). Qed.

Lemma mul_zero x y : x * y = 0 -> x = 0 \/ y = 0.
Proof.
  intros H. destruct (F_eq_dec x 0) as [E|E]; [now left|right].
  assert (Hy : y = Finv x * (x * y)) by (field; exact E).
  rewrite Hy, H. ring.
Qed.

Lemma mul_nonzero x y : x <> 0 -> y <> 0 -> x * y <> 0.
Proof. intros Hx Hy H. apply mul_zero in H. tauto. Qed.

Lemma sub_zero x y : x - y = 0 -> x = y.
Proof. intros H. transitivity (x - y + y); [ring|]. rewrite H. ring. Qed.

Lemma zero_sub x y : x = y -> x - y = 0.
Proof. intros ->. ring. Qed.

Lemma square_zero x : x * x = 0 -> x = 0.
Proof. intros H. apply mul_zero in H. tauto. Qed.

Lemma i_nonzero : i <> 0.
Proof.
  intros E. pose proof i_square as H. rewrite E in H.
  apply one_neq_zero. transitivity (- - (1)); [ring|]. rewrite <- H. ring.
Qed.

(** If [d * s^2 = t^2] with [s <> 0] then [d] is a square. *)
Lemma d_times_square s t : t * t = d * (s * s) -> s = 0.
Proof.
  intros H. destruct (F_eq_dec s 0) as [E|E]; [exact E|exfalso].
  apply (d_nonsquare (t / s)). transitivity (t * t / (s * s)); [field; exact E|].
  rewrite H. field. exact E.
Qed.

(** Completeness: the denominators of the addition law never vanish on curve points. *)
Lemma complete_sign x1 y1 x2 y2 e :
  on_curve x1 y1 -> on_curve x2 y2 -> e * e = 1 -> d * (x1 * x2 * y1 * y2) <> e.
Proof.
  intros H1 H2 He Hd. unfold on_curve in *.
  assert (Hne : e <> 0).
  { intros E. rewrite E in He. apply one_neq_zero. rewrite <- He. ring. }
  assert (Hx1 : x1 <> 0) by (intros E; apply Hne; rewrite <- Hd, E; ring).
  assert (Hy1 : y1 <> 0) by (intros E; apply Hne; rewrite <- Hd, E; ring).
  assert (Hx2 : x2 <> 0) by (intros E; apply Hne; rewrite <- Hd, E; ring).
  (* (i x1 + s e y1)^2 = d (x1 y1 (i x2 + s y2))^2 for s = 1, -1 *)
  assert (P : (i * x1 + e * y1) * (i * x1 + e * y1)
              = d * ((x1 * y1 * (i * x2 + y2)) * (x1 * y1 * (i * x2 + y2)))).
  { transitivity (i * i * (x1 * x1) + e * e * (y1 * y1) + 2 * i * x1 * y1 * e); [ring|].
    transitivity (d * (x1 * x1) * (y1 * y1) * (i * i * (x2 * x2) + y2 * y2)
                  + 2 * i * x1 * y1 * (d * (x1 * x2 * y1 * y2))); [|ring].
    rewrite He, i_square, Hd.
    transitivity (y1 * y1 - x1 * x1 + 2 * i * x1 * y1 * e); [ring|]. rewrite H1.
    transitivity (d * (x1 * x1) * (y1 * y1) * (y2 * y2 - x2 * x2) + 2 * i * x1 * y1 * e); [|ring].
    rewrite H2.
    transitivity (d * (x1 * x1) * (y1 * y1) + e * e + 2 * i * x1 * y1 * e); [rewrite He; ring|].
    rewrite <- Hd. ring. }
  assert (M : (i * x1 - e * y1) * (i * x1 - e * y1)
              = d * ((x1 * y1 * (i * x2 - y2)) * (x1 * y1 * (i * x2 - y2)))).
  { transitivity (i * i * (x1 * x1) + e * e * (y1 * y1) - 2 * i * x1 * y1 * e); [ring|].
    transitivity (d * (x1 * x1) * (y1 * y1) * (i * i * (x2 * x2) + y2 * y2)
                  - 2 * i * x1 * y1 * (d * (x1 * x2 * y1 * y2))); [|ring].
    rewrite He, i_square, Hd.
    transitivity (y1 * y1 - x1 * x1 - 2 * i * x1 * y1 * e); [ring|]. rewrite H1.
    transitivity (d * (x1 * x1) * (y1 * y1) * (y2 * y2 - x2 * x2) - 2 * i * x1 * y1 * e); [|ring].
    rewrite H2.
    transitivity (d * (x1 * x1) * (y1 * y1) + e * e - 2 * i * x1 * y1 * e); [rewrite He; ring|].
    rewrite <- Hd. ring. }
  apply d_times_square in P, M.
  apply mul_zero in P. destruct P as [P|P]; [apply mul_zero in P; tauto|].
  apply mul_zero in M. destruct M as [M|M]; [apply mul_zero in M; tauto|].
  assert (E : 2 * i * x2 = 0).
  { transitivity ((i * x2 + y2) + (i * x2 - y2)); [ring|]. rewrite P, M. ring. }
  apply mul_zero in E. destruct E as [E|E]; [|now apply Hx2].
  apply mul_zero in E. destruct E as [E|E]; [now apply two_nonzero|now apply i_nonzero].
Qed.

Lemma complete_plus x1 y1 x2 y2 :
  on_curve x1 y1 -> on_curve x2 y2 -> 1 + d * x1 * x2 * y1 * y2 <> 0.
Proof.
  intros H1 H2 E. apply (complete_sign x1 y1 x2 y2 (- (1)) H1 H2); [ring|].
  transitivity (1 + d * x1 * x2 * y1 * y2 - 1); [ring|]. rewrite E. ring.
Qed.

Lemma complete_minus x1 y1 x2 y2 :
  on_curve x1 y1 -> on_curve x2 y2 -> 1 - d * x1 * x2 * y1 * y2 <> 0.
Proof.
  intros H1 H2 E. apply (complete_sign x1 y1 x2 y2 1 H1 H2); [ring|].
  transitivity (1 - (1 - d * x1 * x2 * y1 * y2)); [ring|]. rewrite E. ring.
Qed.

(** Affine addition. *)
Definition add_x x1 y1 x2 y2 := (x1 * y2 + y1 * x2) / (1 + d * x1 * x2 * y1 * y2).
Definition add_y x1 y1 x2 y2 := (y1 * y2 + x1 * x2) / (1 - d * x1 * x2 * y1 * y2).

Lemma closure_poly x1 y1 x2 y2 :
  on_curve x1 y1 -> on_curve x2 y2 ->
  (y1 * y2 + x1 * x2) * (y1 * y2 + x1 * x2)
    * ((1 + d * x1 * x2 * y1 * y2) * (1 + d * x1 * x2 * y1 * y2))
  - (x1 * y2 + y1 * x2) * (x1 * y2 + y1 * x2)
    * ((1 - d * x1 * x2 * y1 * y2) * (1 - d * x1 * x2 * y1 * y2))
  = ((1 + d * x1 * x2 * y1 * y2) * (1 + d * x1 * x2 * y1 * y2))
    * ((1 - d * x1 * x2 * y1 * y2) * (1 - d * x1 * x2 * y1 * y2))
    + d * ((x1 * y2 + y1 * x2) * (x1 * y2 + y1 * x2))
        * ((y1 * y2 + x1 * x2) * (y1 * y2 + x1 * x2)).
Proof.
  intros H1 H2. unfold on_curve in *. apply zero_sub in H1, H2.
  apply sub_zero.
  transitivity
    ((d*d*d*x1*x1*y1*y1*x2*x2*x2*x2*y2*y2*y2*y2 - d*d*x1*x1*x2*x2*x2*x2*y2*y2*y2*y2 +
     d*d*y1*y1*x2*x2*x2*x2*y2*y2*y2*y2 - d*d*x2*x2*x2*x2*y2*y2*y2*y2 - d*x1*x1*x2*x2*x2*x2*y2*y2 +
     d*x1*x1*x2*x2*y2*y2*y2*y2 + d*y1*y1*x2*x2*x2*x2*y2*y2 - d*y1*y1*x2*x2*y2*y2*y2*y2 -
     2*d*x2*x2*x2*x2*y2*y2*y2*y2 - 2*d*x2*x2*y2*y2 - 2*x2*x2*x2*x2*y2*y2 + x2*x2*x2*x2 +
     2*x2*x2*y2*y2*y2*y2 - 4*x2*x2*y2*y2 + y2*y2*y2*y2)
     * (y1 * y1 - x1 * x1 - (1 + d * (x1 * x1) * (y1 * y1)))
     + (d*x1*x1*x1*x1*x2*x2*y2*y2 + 2*d*x1*x1*x2*x2*y2*y2 + d*y1*y1*y1*y1*x2*x2*y2*y2 -
     2*d*y1*y1*x2*x2*y2*y2 + d*x2*x2*y2*y2 + 2*x1*x1*x2*x2*y2*y2 - x1*x1*x2*x2 + x1*x1*y2*y2 -
     2*y1*y1*x2*x2*y2*y2 + y1*y1*x2*x2 - y1*y1*y2*y2 + 2*x2*x2*y2*y2 - x2*x2 + y2*y2 + 1)
     * (y2 * y2 - x2 * x2 - (1 + d * (x2 * x2) * (y2 * y2)))); [ring|].
  rewrite H1, H2. ring.
Qed.

Lemma add_on_curve x1 y1 x2 y2 :
  on_curve x1 y1 -> on_curve x2 y2 ->
  on_curve (add_x x1 y1 x2 y2) (add_y x1 y1 x2 y2).
Proof.
  intros H1 H2. unfold on_curve, add_x, add_y.
  pose proof (complete_plus _ _ _ _ H1 H2) as Dp.
  pose proof (complete_minus _ _ _ _ H1 H2) as Dm.
  pose proof (closure_poly _ _ _ _ H1 H2) as P.
  set (ep := 1 + d * x1 * x2 * y1 * y2) in *.
  set (em := 1 - d * x1 * x2 * y1 * y2) in *.
  set (a := x1 * y2 + y1 * x2) in *. set (b := y1 * y2 + x1 * x2) in *.
  clearbody ep em a b.
  transitivity ((b * b * (ep * ep) - a * a * (em * em)) / (ep * ep * (em * em))); [field; tauto|].
  rewrite P. field. tauto.
Qed.

(** The common denominators of the two ways of adding three points. *)
Lemma assoc_x_poly x1 y1 x2 y2 x3 y3 :
  on_curve x1 y1 -> on_curve x2 y2 -> on_curve x3 y3 ->
  let e := d * x1 * x2 * y1 * y2 in let a := x1 * y2 + y1 * x2 in let b := y1 * y2 + x1 * x2 in
  let e' := d * x2 * x3 * y2 * y3 in let a' := x2 * y3 + y2 * x3 in let b' := y2 * y3 + x2 * x3 in
  (a * (1 - e) * y3 + b * (1 + e) * x3) * ((1 + e') * (1 - e') + d * x1 * y1 * a' * b')
  = (x1 * b' * (1 + e') + y1 * a' * (1 - e')) * ((1 + e) * (1 - e) + d * a * b * x3 * y3).
Proof.
  intros H1 H2 H3; cbv zeta. unfold on_curve in *. apply zero_sub in H1, H2, H3.
  apply sub_zero.
  transitivity
    ((0 -  d*d*x1*x2*x2*x2*x2*y2*y2*y2*x3*x3*y3 - d*d*x1*x2*x2*x2*y2*y2*y2*y2*x3*y3*y3 +
     d*d*y1*x2*x2*x2*x2*y2*y2*y2*x3*y3*y3 + d*d*y1*x2*x2*x2*y2*y2*y2*y2*x3*x3*y3 -
     d*x1*x2*x2*x2*x2*y2*x3*x3*y3 - d*x1*x2*x2*x2*y2*y2*x3*x3*x3 - d*x1*x2*x2*x2*y2*y2*x3 +
     d*x1*x2*x2*y2*y2*y2*y3*y3*y3 - d*x1*x2*x2*y2*y2*y2*y3 + d*x1*x2*y2*y2*y2*y2*x3*y3*y3 +
     d*y1*x2*x2*x2*x2*y2*x3*y3*y3 + d*y1*x2*x2*x2*y2*y2*y3*y3*y3 - d*y1*x2*x2*x2*y2*y2*y3 -
     d*y1*x2*x2*y2*y2*y2*x3*x3*x3 - d*y1*x2*x2*y2*y2*y2*x3 - d*y1*x2*y2*y2*y2*y2*x3*x3*y3)
     * (y1 * y1 - x1 * x1 - (1 + d * (x1 * x1) * (y1 * y1)))
     + (d*d*x1*x1*y1*x2*x2*y2*x3*x3*x3*y3*y3 - d*d*x1*x1*y1*x2*y2*y2*x3*x3*y3*y3*y3 -
     d*d*x1*y1*y1*x2*x2*y2*x3*x3*y3*y3*y3 + d*d*x1*y1*y1*x2*y2*y2*x3*x3*x3*y3*y3 +
     d*x1*x1*x1*x2*x2*y2*x3*x3*y3 + d*x1*x1*x1*x2*y2*y2*x3*y3*y3 + d*x1*x1*x1*x2*x3*x3*x3*y3*y3 +
     d*x1*x1*x1*y2*x3*x3*y3*y3*y3 - d*x1*x1*y1*x2*x2*y2*x3*y3*y3 - d*x1*x1*y1*x2*y2*y2*x3*x3*y3 +
     d*x1*x1*y1*x2*x3*x3*y3*y3*y3 + d*x1*x1*y1*y2*x3*x3*x3*y3*y3 - d*x1*y1*y1*x2*x2*y2*x3*x3*y3 -
     d*x1*y1*y1*x2*y2*y2*x3*y3*y3 - d*x1*y1*y1*x2*x3*x3*x3*y3*y3 - d*x1*y1*y1*y2*x3*x3*y3*y3*y3 +
     d*x1*x2*x2*y2*x3*x3*y3 + d*x1*x2*y2*y2*x3*y3*y3 + d*x1*x2*x3*x3*x3*y3*y3 +
     d*x1*y2*x3*x3*y3*y3*y3 + d*y1*y1*y1*x2*x2*y2*x3*y3*y3 + d*y1*y1*y1*x2*y2*y2*x3*x3*y3 -
     d*y1*y1*y1*x2*x3*x3*y3*y3*y3 - d*y1*y1*y1*y2*x3*x3*x3*y3*y3 - d*y1*x2*x2*y2*x3*y3*y3 -
     d*y1*x2*y2*y2*x3*x3*y3 + d*y1*x2*x3*x3*y3*y3*y3 + d*y1*y2*x3*x3*x3*y3*y3 + x1*x1*x1*x2*x3*x3*x3
     - x1*x1*x1*x2*x3*y3*y3 + x1*x1*x1*x2*x3 + x1*x1*x1*y2*x3*x3*y3 - x1*x1*x1*y2*y3*y3*y3 +
     x1*x1*x1*y2*y3 + x1*x1*y1*x2*x3*x3*y3 - x1*x1*y1*x2*y3*y3*y3 + x1*x1*y1*x2*y3 +
     x1*x1*y1*y2*x3*x3*x3 - x1*x1*y1*y2*x3*y3*y3 + x1*x1*y1*y2*x3 - x1*y1*y1*x2*x3*x3*x3 +
     x1*y1*y1*x2*x3*y3*y3 - x1*y1*y1*x2*x3 - x1*y1*y1*y2*x3*x3*y3 + x1*y1*y1*y2*y3*y3*y3 -
     x1*y1*y1*y2*y3 + x1*x2*x3*x3*x3 - x1*x2*x3*y3*y3 + x1*x2*x3 + x1*y2*x3*x3*y3 - x1*y2*y3*y3*y3 +
     x1*y2*y3 - y1*y1*y1*x2*x3*x3*y3 + y1*y1*y1*x2*y3*y3*y3 - y1*y1*y1*x2*y3 - y1*y1*y1*y2*x3*x3*x3
     + y1*y1*y1*y2*x3*y3*y3 - y1*y1*y1*y2*x3 + y1*x2*x3*x3*y3 - y1*x2*y3*y3*y3 + y1*x2*y3 +
     y1*y2*x3*x3*x3 - y1*y2*x3*y3*y3 + y1*y2*x3)
     * (y2 * y2 - x2 * x2 - (1 + d * (x2 * x2) * (y2 * y2)))
     + (0 -  d*x1*x1*y1*x2*x2*y2*x3 + d*x1*x1*y1*x2*y2*y2*y3 + d*x1*y1*y1*x2*x2*y2*y3 -
     d*x1*y1*y1*x2*y2*y2*x3 - x1*x1*x1*x2*x2*x2*x3 - x1*x1*x1*x2*x2*y2*y3 + x1*x1*x1*x2*y2*y2*x3 -
     x1*x1*x1*x2*x3 + x1*x1*x1*y2*y2*y2*y3 - x1*x1*x1*y2*y3 - x1*x1*y1*x2*x2*x2*y3 -
     x1*x1*y1*x2*x2*y2*x3 + x1*x1*y1*x2*y2*y2*y3 - x1*x1*y1*x2*y3 + x1*x1*y1*y2*y2*y2*x3 -
     x1*x1*y1*y2*x3 + x1*y1*y1*x2*x2*x2*x3 + x1*y1*y1*x2*x2*y2*y3 - x1*y1*y1*x2*y2*y2*x3 +
     x1*y1*y1*x2*x3 - x1*y1*y1*y2*y2*y2*y3 + x1*y1*y1*y2*y3 - x1*x2*x2*x2*x3 - x1*x2*x2*y2*y3 +
     x1*x2*y2*y2*x3 - x1*x2*x3 + x1*y2*y2*y2*y3 - x1*y2*y3 + y1*y1*y1*x2*x2*x2*y3 +
     y1*y1*y1*x2*x2*y2*x3 - y1*y1*y1*x2*y2*y2*y3 + y1*y1*y1*x2*y3 - y1*y1*y1*y2*y2*y2*x3 +
     y1*y1*y1*y2*x3 - y1*x2*x2*x2*y3 - y1*x2*x2*y2*x3 + y1*x2*y2*y2*y3 - y1*x2*y3 + y1*y2*y2*y2*x3 -
     y1*y2*x3)
     * (y3 * y3 - x3 * x3 - (1 + d * (x3 * x3) * (y3 * y3)))); [ring|].
  rewrite H1, H2, H3. ring.
Qed.

Lemma assoc_y_poly x1 y1 x2 y2 x3 y3 :
  on_curve x1 y1 -> on_curve x2 y2 -> on_curve x3 y3 ->
  let e := d * x1 * x2 * y1 * y2 in let a := x1 * y2 + y1 * x2 in let b := y1 * y2 + x1 * x2 in
  let e' := d * x2 * x3 * y2 * y3 in let a' := x2 * y3 + y2 * x3 in let b' := y2 * y3 + x2 * x3 in
  (b * (1 + e) * y3 + a * (1 - e) * x3) * ((1 + e') * (1 - e') - d * x1 * y1 * a' * b')
  = (y1 * b' * (1 + e') + x1 * a' * (1 - e')) * ((1 + e) * (1 - e) - d * a * b * x3 * y3).
Proof.
  intros H1 H2 H3; cbv zeta. unfold on_curve in *. apply zero_sub in H1, H2, H3.
  apply sub_zero.
  transitivity
    ((d*d*x1*x2*x2*x2*x2*y2*y2*y2*x3*y3*y3 + d*d*x1*x2*x2*x2*y2*y2*y2*y2*x3*x3*y3 -
     d*d*y1*x2*x2*x2*x2*y2*y2*y2*x3*x3*y3 - d*d*y1*x2*x2*x2*y2*y2*y2*y2*x3*y3*y3 +
     d*x1*x2*x2*x2*x2*y2*x3*y3*y3 + d*x1*x2*x2*x2*y2*y2*y3*y3*y3 - d*x1*x2*x2*x2*y2*y2*y3 -
     d*x1*x2*x2*y2*y2*y2*x3*x3*x3 - d*x1*x2*x2*y2*y2*y2*x3 - d*x1*x2*y2*y2*y2*y2*x3*x3*y3 -
     d*y1*x2*x2*x2*x2*y2*x3*x3*y3 - d*y1*x2*x2*x2*y2*y2*x3*x3*x3 - d*y1*x2*x2*x2*y2*y2*x3 +
     d*y1*x2*x2*y2*y2*y2*y3*y3*y3 - d*y1*x2*x2*y2*y2*y2*y3 + d*y1*x2*y2*y2*y2*y2*x3*y3*y3)
     * (y1 * y1 - x1 * x1 - (1 + d * (x1 * x1) * (y1 * y1)))
     + (d*d*x1*x1*y1*x2*x2*y2*x3*x3*y3*y3*y3 - d*d*x1*x1*y1*x2*y2*y2*x3*x3*x3*y3*y3 -
     d*d*x1*y1*y1*x2*x2*y2*x3*x3*x3*y3*y3 + d*d*x1*y1*y1*x2*y2*y2*x3*x3*y3*y3*y3 -
     d*x1*x1*x1*x2*x2*y2*x3*y3*y3 - d*x1*x1*x1*x2*y2*y2*x3*x3*y3 + d*x1*x1*x1*x2*x3*x3*y3*y3*y3 +
     d*x1*x1*x1*y2*x3*x3*x3*y3*y3 + d*x1*x1*y1*x2*x2*y2*x3*x3*y3 + d*x1*x1*y1*x2*y2*y2*x3*y3*y3 +
     d*x1*x1*y1*x2*x3*x3*x3*y3*y3 + d*x1*x1*y1*y2*x3*x3*y3*y3*y3 + d*x1*y1*y1*x2*x2*y2*x3*y3*y3 +
     d*x1*y1*y1*x2*y2*y2*x3*x3*y3 - d*x1*y1*y1*x2*x3*x3*y3*y3*y3 - d*x1*y1*y1*y2*x3*x3*x3*y3*y3 -
     d*x1*x2*x2*y2*x3*y3*y3 - d*x1*x2*y2*y2*x3*x3*y3 + d*x1*x2*x3*x3*y3*y3*y3 +
     d*x1*y2*x3*x3*x3*y3*y3 - d*y1*y1*y1*x2*x2*y2*x3*x3*y3 - d*y1*y1*y1*x2*y2*y2*x3*y3*y3 -
     d*y1*y1*y1*x2*x3*x3*x3*y3*y3 - d*y1*y1*y1*y2*x3*x3*y3*y3*y3 + d*y1*x2*x2*y2*x3*x3*y3 +
     d*y1*x2*y2*y2*x3*y3*y3 + d*y1*x2*x3*x3*x3*y3*y3 + d*y1*y2*x3*x3*y3*y3*y3 + x1*x1*x1*x2*x3*x3*y3
     - x1*x1*x1*x2*y3*y3*y3 + x1*x1*x1*x2*y3 + x1*x1*x1*y2*x3*x3*x3 - x1*x1*x1*y2*x3*y3*y3 +
     x1*x1*x1*y2*x3 + x1*x1*y1*x2*x3*x3*x3 - x1*x1*y1*x2*x3*y3*y3 + x1*x1*y1*x2*x3 +
     x1*x1*y1*y2*x3*x3*y3 - x1*x1*y1*y2*y3*y3*y3 + x1*x1*y1*y2*y3 - x1*y1*y1*x2*x3*x3*y3 +
     x1*y1*y1*x2*y3*y3*y3 - x1*y1*y1*x2*y3 - x1*y1*y1*y2*x3*x3*x3 + x1*y1*y1*y2*x3*y3*y3 -
     x1*y1*y1*y2*x3 + x1*x2*x3*x3*y3 - x1*x2*y3*y3*y3 + x1*x2*y3 + x1*y2*x3*x3*x3 - x1*y2*x3*y3*y3 +
     x1*y2*x3 - y1*y1*y1*x2*x3*x3*x3 + y1*y1*y1*x2*x3*y3*y3 - y1*y1*y1*x2*x3 - y1*y1*y1*y2*x3*x3*y3
     + y1*y1*y1*y2*y3*y3*y3 - y1*y1*y1*y2*y3 + y1*x2*x3*x3*x3 - y1*x2*x3*y3*y3 + y1*x2*x3 +
     y1*y2*x3*x3*y3 - y1*y2*y3*y3*y3 + y1*y2*y3)
     * (y2 * y2 - x2 * x2 - (1 + d * (x2 * x2) * (y2 * y2)))
     + (0 -  d*x1*x1*y1*x2*x2*y2*y3 + d*x1*x1*y1*x2*y2*y2*x3 + d*x1*y1*y1*x2*x2*y2*x3 -
     d*x1*y1*y1*x2*y2*y2*y3 - x1*x1*x1*x2*x2*x2*y3 - x1*x1*x1*x2*x2*y2*x3 + x1*x1*x1*x2*y2*y2*y3 -
     x1*x1*x1*x2*y3 + x1*x1*x1*y2*y2*y2*x3 - x1*x1*x1*y2*x3 - x1*x1*y1*x2*x2*x2*x3 -
     x1*x1*y1*x2*x2*y2*y3 + x1*x1*y1*x2*y2*y2*x3 - x1*x1*y1*x2*x3 + x1*x1*y1*y2*y2*y2*y3 -
     x1*x1*y1*y2*y3 + x1*y1*y1*x2*x2*x2*y3 + x1*y1*y1*x2*x2*y2*x3 - x1*y1*y1*x2*y2*y2*y3 +
     x1*y1*y1*x2*y3 - x1*y1*y1*y2*y2*y2*x3 + x1*y1*y1*y2*x3 - x1*x2*x2*x2*y3 - x1*x2*x2*y2*x3 +
     x1*x2*y2*y2*y3 - x1*x2*y3 + x1*y2*y2*y2*x3 - x1*y2*x3 + y1*y1*y1*x2*x2*x2*x3 +
     y1*y1*y1*x2*x2*y2*y3 - y1*y1*y1*x2*y2*y2*x3 + y1*y1*y1*x2*x3 - y1*y1*y1*y2*y2*y2*y3 +
     y1*y1*y1*y2*y3 - y1*x2*x2*x2*x3 - y1*x2*x2*y2*y3 + y1*x2*y2*y2*x3 - y1*x2*x3 + y1*y2*y2*y2*y3 -
     y1*y2*y3)
     * (y3 * y3 - x3 * x3 - (1 + d * (x3 * x3) * (y3 * y3)))); [ring|].
  rewrite H1, H2, H3. ring.
Qed.

(** ** Points as a type with Leibniz equality *)

Definition feqb (x y : F) : bool := if F_eq_dec x y then true else false.
Lemma feqb_eq x y : feqb x y = true <-> x = y.
Proof. unfold feqb. destruct (F_eq_dec x y); split; congruence. Qed.

Definition on_curveb (x y : F) : bool := feqb (y * y - x * x) (1 + d * (x * x) * (y * y)).
Lemma on_curveb_spec x y : on_curveb x y = true <-> on_curve x y.
Proof. apply feqb_eq. Qed.

Record point := Pt { px : F; py : F; p_ok : on_curveb px py = true }.

Lemma p_on P : on_curve (px P) (py P).
Proof. apply on_curveb_spec, p_ok. Qed.

Lemma point_ext P Q : px P = px Q -> py P = py Q -> P = Q.
Proof.
  destruct P as [x y H], Q as [x' y' H']; cbn [px py]. intros -> ->. f_equal.
  apply UIP_dec, bool_dec.
Qed.

Definition mkpoint x y (H : on_curve x y) : point := Pt x y (proj2 (on_curveb_spec x y) H).

Lemma zero_on : on_curve 0 1.
Proof. unfold on_curve. ring. Qed.
Definition pzero : point := mkpoint 0 1 zero_on.

Lemma opp_on P : on_curve (- px P) (py P).
Proof. unfold on_curve. pose proof (p_on P) as H. unfold on_curve in H.
  transitivity (py P * py P - px P * px P); [ring|]. rewrite H. ring. Qed.
Definition popp (P : point) : point := mkpoint (- px P) (py P) (opp_on P).

Definition padd (P Q : point) : point :=
  mkpoint _ _ (add_on_curve (px P) (py P) (px Q) (py Q) (p_on P) (p_on Q)).

Lemma padd_comm P Q : padd P Q = padd Q P.
Proof.
  apply point_ext; cbn [px py padd mkpoint]; unfold add_x, add_y; f_equal; ring.
Qed.

Lemma padd_zero_l P : padd pzero P = P.
Proof.
  apply point_ext; cbn [px py padd pzero mkpoint]; unfold add_x, add_y.
  - transitivity (px P / 1); [f_equal; ring|]. field. apply one_neq_zero.
  - transitivity (py P / 1); [f_equal; ring|]. field. apply one_neq_zero.
Qed.

Lemma padd_opp_l P : padd (popp P) P = pzero.
Proof.
  pose proof (complete_plus _ _ _ _ (opp_on P) (p_on P)) as Dp.
  pose proof (complete_minus _ _ _ _ (opp_on P) (p_on P)) as Dm.
  pose proof (p_on P) as H. unfold on_curve in H.
  apply point_ext; cbn [px py padd popp pzero mkpoint]; unfold add_x, add_y.
  - transitivity (0 / (1 + d * - px P * px P * py P * py P)); [f_equal; ring|]. field. exact Dp.
  - transitivity ((1 - d * - px P * px P * py P * py P) / (1 - d * - px P * px P * py P * py P));
      [f_equal|field; exact Dm].
    transitivity (py P * py P - px P * px P); [ring|]. rewrite H. ring.
Qed.

Lemma div_eq a b c e : b <> 0 -> e <> 0 -> a * e = c * b -> a / b = c / e.
Proof.
  intros Hb He H. transitivity (a * e / (b * e)); [field; tauto|]. rewrite H. field. tauto.
Qed.

Lemma padd_assoc P Q R : padd P (padd Q R) = padd (padd P Q) R.
Proof.
  pose proof (p_on P) as H1. pose proof (p_on Q) as H2. pose proof (p_on R) as H3.
  pose proof (complete_plus _ _ _ _ H1 H2) as Dp. pose proof (complete_minus _ _ _ _ H1 H2) as Dm.
  pose proof (complete_plus _ _ _ _ H2 H3) as Dp'. pose proof (complete_minus _ _ _ _ H2 H3) as Dm'.
  pose proof (p_on (padd P Q)) as H12. pose proof (p_on (padd Q R)) as H23.
  pose proof (complete_plus _ _ _ _ H12 H3) as Lp. pose proof (complete_minus _ _ _ _ H12 H3) as Lm.
  pose proof (complete_plus _ _ _ _ H1 H23) as Rp. pose proof (complete_minus _ _ _ _ H1 H23) as Rm.
  pose proof (assoc_x_poly _ _ _ _ _ _ H1 H2 H3) as Ax.
  pose proof (assoc_y_poly _ _ _ _ _ _ H1 H2 H3) as Ay. cbv zeta in Ax, Ay.
  cbn [px py padd mkpoint] in Lp, Lm, Rp, Rm.
  unfold add_x, add_y in Lp, Lm, Rp, Rm.
  destruct P as [x1 y1 o1], Q as [x2 y2 o2], R as [x3 y3 o3].
  cbn [px py] in *. clear o1 o2 o3 H12 H23 || idtac.
  apply point_ext; cbn [px py padd mkpoint]; unfold add_x, add_y;
    set (ep := 1 + d * x1 * x2 * y1 * y2) in *; set (em := 1 - d * x1 * x2 * y1 * y2) in *;
    set (ep' := 1 + d * x2 * x3 * y2 * y3) in *; set (em' := 1 - d * x2 * x3 * y2 * y3) in *;
    set (a := x1 * y2 + y1 * x2) in *; set (b := y1 * y2 + x1 * x2) in *;
    set (a' := x2 * y3 + y2 * x3) in *; set (b' := y2 * y3 + x2 * x3) in *.
  - clearbody ep em ep' em' a b a' b'.
    assert (El : 1 + d * (a / ep) * x3 * (b / em) * y3 = (ep * em + d * a * b * x3 * y3) / (ep * em))
      by (field; tauto).
    assert (Er : 1 + d * x1 * (a' / ep') * y1 * (b' / em')
                 = (ep' * em' + d * x1 * y1 * a' * b') / (ep' * em')) by (field; tauto).
    assert (Zl : ep * em + d * a * b * x3 * y3 <> 0).
    { intros E. apply Lp. rewrite El, E. field. tauto. }
    assert (Zr : ep' * em' + d * x1 * y1 * a' * b' <> 0).
    { intros E. apply Rp. rewrite Er, E. field. tauto. }
    rewrite El, Er.
    transitivity ((x1 * b' * ep' + y1 * a' * em') / (ep' * em' + d * x1 * y1 * a' * b')); [field; tauto|].
    transitivity ((a * em * y3 + b * ep * x3) / (ep * em + d * a * b * x3 * y3)); [|field; tauto].
    apply div_eq; [exact Zr|exact Zl|symmetry; exact Ax].
  - clearbody ep em ep' em' a b a' b'.
    assert (El : 1 - d * (a / ep) * x3 * (b / em) * y3 = (ep * em - d * a * b * x3 * y3) / (ep * em))
      by (field; tauto).
    assert (Er : 1 - d * x1 * (a' / ep') * y1 * (b' / em')
                 = (ep' * em' - d * x1 * y1 * a' * b') / (ep' * em')) by (field; tauto).
    assert (Zl : ep * em - d * a * b * x3 * y3 <> 0).
    { intros E. apply Lm. rewrite El, E. field. tauto. }
    assert (Zr : ep' * em' - d * x1 * y1 * a' * b' <> 0).
    { intros E. apply Rm. rewrite Er, E. field. tauto. }
    rewrite El, Er.
    transitivity ((y1 * b' * ep' + x1 * a' * em') / (ep' * em' - d * x1 * y1 * a' * b')); [field; tauto|].
    transitivity ((b * ep * y3 + a * em * x3) / (ep * em - d * a * b * x3 * y3)); [|field; tauto].
    apply div_eq; [exact Zr|exact Zl|symmetry; exact Ay].
Qed.

Definition point_eq_dec (P Q : point) : {P = Q} + {P <> Q}.
Proof.
  destruct (F_eq_dec (px P) (px Q)) as [E1|E1]; [|right; intros ->; now apply E1].
  destruct (F_eq_dec (py P) (py Q)) as [E2|E2]; [|right; intros ->; now apply E2].
  left. now apply point_ext.
Defined.

(** ** Facts used by point compression *)

(** For a curve point, d*y^2 + 1 (the denominator in the formula for x^2) is nonzero. *)
Lemma compress_denominator y : d * (y * y) + 1 <> 0.
Proof.
  intros E. destruct (F_eq_dec y 0) as [->|Hy].
  - apply one_neq_zero. rewrite <- E. ring.
  - apply Hy. apply (d_times_square y i). rewrite i_square.
    transitivity (d * (y * y) + 1 - 1 - (d * (y * y) + 1 - 1) - (1)); [ring|].
    transitivity (d * (y * y) + 1 - 1); [rewrite E; ring|ring].
Qed.

Lemma on_curve_x2 x y : on_curve x y <-> (d * (y * y) + 1) * (x * x) = y * y - 1.
Proof.
  unfold on_curve. split; intros H.
  - transitivity ((y * y - 1) - (y * y - x * x) + (1 + d * (x * x) * (y * y))); [ring|].
    transitivity ((y * y - 1) - (y * y - x * x) + (y * y - x * x)); [now rewrite H|ring].
  - transitivity ((y * y - 1) + 1 - x * x); [ring|]. rewrite <- H. ring.
Qed.

(** Two points with the same y have the same or opposite x. *)
Lemma same_y P Q : py P = py Q -> px P = px Q \/ px P = - px Q.
Proof.
  intros E. pose proof (proj1 (on_curve_x2 _ _) (p_on P)) as H1.
  pose proof (proj1 (on_curve_x2 _ _) (p_on Q)) as H2. rewrite E in H1.
  assert (Hz : (d * (py Q * py Q) + 1) * ((px P - px Q) * (px P + px Q)) = 0).
  { transitivity ((d * (py Q * py Q) + 1) * (px P * px P) - (d * (py Q * py Q) + 1) * (px Q * px Q));
      [ring|]. rewrite H1, H2. ring. }
  apply mul_zero in Hz. destruct Hz as [Hz|Hz]; [now apply compress_denominator in Hz|].
  apply mul_zero in Hz. destruct Hz as [Hz|Hz].
  - left. now apply sub_zero.
  - right. apply sub_zero. rewrite <- Hz. ring.
Qed.

(** ** Extended homogeneous coordinates (Hisil, Wong, Carter, Dawson 2008) *)

Definition represents (X Y Z T : F) (P : point) : Prop :=
  Z <> 0 /\ X = px P * Z /\ Y = py P * Z /\ T = px P * py P * Z.

Lemma represents_affine P : represents (px P) (py P) 1 (px P * py P) P.
Proof. repeat split; try ring. apply one_neq_zero. Qed.

Lemma represents_zero X Y Z T P : represents X Y Z T P -> X = 0 -> Y = Z -> P = pzero.
Proof.
  intros (HZ & HX & HY & _) EX EY. apply point_ext; cbn [px py pzero mkpoint].
  - rewrite EX in HX. symmetry in HX. apply mul_zero in HX. tauto.
  - apply sub_zero. rewrite EY in HY.
    assert (E : (py P - 1) * Z = 0) by (transitivity (py P * Z - Z); [ring|rewrite <- HY; ring]).
    apply mul_zero in E. tauto.
Qed.

Lemma ext_add X1 Y1 Z1 T1 X2 Y2 Z2 T2 P Q :
  represents X1 Y1 Z1 T1 P -> represents X2 Y2 Z2 T2 Q ->
  let A := (Y1 - X1) * (Y2 - X2) in let B := (Y1 + X1) * (Y2 + X2) in
  let C := 2 * d * T1 * T2 in let D := 2 * Z1 * Z2 in
  let E := B - A in let Ff := D - C in let G := D + C in let H := B + A in
  represents (E * Ff) (G * H) (Ff * G) (E * H) (padd P Q).
Proof.
  intros (HZ1 & -> & -> & ->) (HZ2 & -> & -> & ->). cbv zeta.
  pose proof (complete_plus _ _ _ _ (p_on P) (p_on Q)) as Dp.
  pose proof (complete_minus _ _ _ _ (p_on P) (p_on Q)) as Dm.
  unfold represents. cbn [px py padd mkpoint]. unfold add_x, add_y.
  destruct P as [x1 y1 o1], Q as [x2 y2 o2]. cbn [px py] in *. clear o1 o2.
  repeat split.
  - replace ((2 * Z1 * Z2 - 2 * d * (x1 * y1 * Z1) * (x2 * y2 * Z2))
             * (2 * Z1 * Z2 + 2 * d * (x1 * y1 * Z1) * (x2 * y2 * Z2)))
      with ((2 * 2 * ((Z1 * Z2) * (Z1 * Z2)))
            * ((1 - d * x1 * x2 * y1 * y2) * (1 + d * x1 * x2 * y1 * y2))) by ring.
    repeat apply mul_nonzero; assumption.
  - field. assumption.
  - field. assumption.
  - field. tauto.
Qed.

Lemma ext_double X Y Z T P :
  represents X Y Z T P ->
  let A := X * X in let B := Y * Y in let C := 2 * (Z * Z) in
  let E := (X + Y) * (X + Y) - A - B in let G := B - A in let Ff := G - C in let H := - A - B in
  represents (E * Ff) (G * H) (Ff * G) (E * H) (padd P P).
Proof.
  intros (HZ & -> & -> & ->). cbv zeta.
  pose proof (complete_plus _ _ _ _ (p_on P) (p_on P)) as Dp.
  pose proof (complete_minus _ _ _ _ (p_on P) (p_on P)) as Dm.
  pose proof (p_on P) as H. unfold on_curve in H.
  unfold represents. cbn [px py padd mkpoint]. unfold add_x, add_y.
  destruct P as [x y o]. cbn [px py] in *. clear o.
  assert (EG : y * Z * (y * Z) - x * Z * (x * Z) = (1 + d * x * x * y * y) * (Z * Z)).
  { transitivity ((y * y - x * x) * (Z * Z)); [ring|]. rewrite H. ring. }
  rewrite EG.
  replace ((x * Z + y * Z) * (x * Z + y * Z) - x * Z * (x * Z) - y * Z * (y * Z))
    with (2 * x * y * (Z * Z)) by ring.
  replace ((1 + d * x * x * y * y) * (Z * Z) - 2 * (Z * Z))
    with (- (1 - d * x * x * y * y) * (Z * Z)) by ring.
  replace (- (x * Z * (x * Z)) - y * Z * (y * Z)) with (- (x * x + y * y) * (Z * Z)) by ring.
  set (ep := 1 + d * x * x * y * y) in *. set (em := 1 - d * x * x * y * y) in *.
  clearbody ep em. repeat split.
  - replace (- em * (Z * Z) * (ep * (Z * Z))) with (- (em * ep * ((Z * Z) * (Z * Z)))) by ring.
    intros E. assert (E' : em * ep * ((Z * Z) * (Z * Z)) = 0)
      by (transitivity (- - (em * ep * ((Z * Z) * (Z * Z)))); [ring|rewrite E; ring]).
    revert E'. repeat apply mul_nonzero; assumption.
  - field. assumption.
  - field. assumption.
  - field. tauto.
Qed.

End Edwards.
