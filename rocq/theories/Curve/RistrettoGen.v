(** * ristretto255: encoding, decoding and the map from field elements, over any field with the
    functions the code uses.

    The aucpace crate uses curve25519-dalek's [RistrettoPoint], a dependency that is not part of
    /repo.  The definitions below follow RFC 9496 section 4 and curve25519-dalek 4.1
    ([RistrettoPoint::compress], [CompressedRistretto::decompress],
    [RistrettoPoint::elligator_ristretto_flavor]).  The field is abstract here, which keeps the
    checker from ever computing with curve constants; Ristretto.v instantiates it with the field of
    Ed25519.v.  [encode_fe] takes extended coordinates as the code does. *)
From Coq Require Import Field Ring Bool.
From Verif.Curve Require Import Edwards.

Section Ristretto.
Context (F : Type) (F0 F1 : F) (Fadd Fmul Fsub : F -> F -> F) (Fopp : F -> F)
        (Fdiv : F -> F -> F) (Finv : F -> F).
Context (Hfield : field_theory F0 F1 Fadd Fmul Fsub Fopp Fdiv Finv (@eq F)).
Context (F_eq_dec : forall x y : F, {x = y} + {x <> y}).
Add Field FR : Hfield.

Declare Scope ris_scope.
Local Open Scope ris_scope.
Notation "0" := F0 : ris_scope.
Notation "1" := F1 : ris_scope.
Infix "+" := Fadd : ris_scope.
Infix "*" := Fmul : ris_scope.
Infix "-" := Fsub : ris_scope.
Infix "/" := Fdiv : ris_scope.
Notation "- x" := (Fopp x) : ris_scope.

(** d and sqrt(-1) of the curve; [is_negative]; [FieldElement::sqrt_ratio_i]; the constants
    1/sqrt(a-d) and sqrt(a d - 1) of RFC 9496 section 4.1, with a = -1. *)
Context (d i : F) (neg : F -> bool) (sqrt_ratio : F -> F -> bool * F) (mg sad : F).
Context (i_square : i * i = - (1)).
Context (d_nonsquare : forall z, z * z <> d).
Context (two_nonzero : 1 + 1 <> 0).
Context (neg_0 : neg 0 = false).
Context (neg_opp : forall x, x <> 0 -> neg (- x) = negb (neg x)).
Context (sr_sound : forall u v r, sqrt_ratio u v = (true, r) -> v * (r * r) = u /\ neg r = false).
Context (sr_complete : forall u v x, v <> 0 -> v * (x * x) = u -> fst (sqrt_ratio u v) = true).
Context (sr_den_0 : forall u v, v = 0 -> snd (sqrt_ratio u v) = 0).
Context (sr_nonsquare : forall u v r, v <> 0 -> sqrt_ratio u v = (false, r) -> v * (r * r) = i * u).
Context (mg_square : mg * mg * (- (1) - d) = 1).
Context (sad_square : sad * sad = - d - 1).

Notation on := (on_curve F 1 Fadd Fmul Fsub d).
Definition feqb (x y : F) : bool := if F_eq_dec x y then true else false.
Lemma feqb_eq x y : feqb x y = true <-> x = y.
Proof. unfold feqb. destruct (F_eq_dec x y); split; congruence. Qed.
Lemma one_neq_0 : 1 <> 0.
Proof. exact (F_1_neq_0 Hfield). Qed.
Lemma neg_abs r : neg (if neg r then - r else r) = false.
Proof.
  destruct (neg r) eqn:E; [|exact E]. rewrite neg_opp, E; [reflexivity|].
  intros ->. congruence.
Qed.

Definition one_minus_d_sq : F := (1 - d * d).
Definition d_minus_one_sq : F := ((d - 1) * (d - 1)).

(** curve25519-dalek [FieldElement::invsqrt] *)
Definition invsqrt (v : F) : bool * F := sqrt_ratio 1 v.

(** [conditional_negate] with the sign of the element itself: RFC 9496 [CT_ABS]. *)
Definition fabs (x : F) : F := if neg x then Fopp x else x.

(** [RistrettoPoint::compress], before the field element is written as bytes. *)
Definition encode_fe (X Y Z T : F) : F :=
  (let u1 := (Z + Y) * (Z - Y) in
   let u2 := X * Y in
   let isq := snd (invsqrt (u1 * (u2 * u2))) in
   let i1 := isq * u1 in
   let i2 := isq * u2 in
   let z_inv := i1 * (i2 * T) in
   let den_inv := i2 in
   let iX := X * i in
   let iY := Y * i in
   let enchanted_denominator := i1 * mg in
   let rotate := neg (T * z_inv) in
   let X := if rotate then iY else X in
   let Y := if rotate then iX else Y in
   let den_inv := if rotate then enchanted_denominator else den_inv in
   let Y := if neg (X * z_inv) then - Y else Y in
   fabs (den_inv * (Z - Y))).

(** [CompressedRistretto::decompress], after the bytes have been read as a field element [s]. *)
Definition decode_fe (s : F) : option (F * F) :=
  (let ss := s * s in
   let u1 := 1 - ss in
   let u2 := 1 + ss in
   let u2_sqr := u2 * u2 in
   let v := (- d) * (u1 * u1) - u2_sqr in
   let '(ok, isq) := invsqrt (v * u2_sqr) in
   let Dx := isq * u2 in
   let Dy := isq * (Dx * v) in
   let x := fabs ((s + s) * Dx) in
   let y := u1 * Dy in
   let t := x * y in
   if negb ok || neg t || feqb y 0 then None else Some (x, y)).

(** [RistrettoPoint::elligator_ristretto_flavor] (RFC 9496 MAP). *)
Definition elligator (r_0 : F) : F * F :=
  (let r := i * (r_0 * r_0) in
   let N_s := (r + 1) * one_minus_d_sq in
   let c := - (1) in
   let D := (c - d * r) * (r + d) in
   let '(was_square, s) := sqrt_ratio N_s D in
   let s_prime := s * r_0 in
   let s_prime := if neg s_prime then s_prime else - s_prime in
   let s := if was_square then s else s_prime in
   let c := if was_square then c else r in
   let N_t := c * (r - 1) * d_minus_one_sq - D in
   let s_sq := s * s in
   ((s + s) * D / (N_t * sad), (1 - s_sq) / (1 + s_sq))).

(** ** Field facts *)

Lemma fmul_zero x y : x * y = 0 -> x = 0 \/ y = 0.
Proof. apply (mul_zero F F0 F1 Fadd Fmul Fsub Fopp Fdiv Finv Hfield F_eq_dec). Qed.
Lemma fmul_nonzero x y : x <> 0 -> y <> 0 -> x * y <> 0.
Proof. intros Hx Hy H. apply fmul_zero in H. tauto. Qed.
Lemma fsub_zero x y : x - y = 0 -> x = y.
Proof. intros H. transitivity (x - y + y); [ring|]. rewrite H. ring. Qed.
Lemma fsq_zero x : x * x = 0 -> x = 0.
Proof. intros H. apply fmul_zero in H. tauto. Qed.
Lemma fsquares a b : a * a = b * b -> a = b \/ a = - b.
Proof.
  intros H. assert (E : (a - b) * (a + b) = 0) by (transitivity (a * a - b * b); [ring|rewrite H; ring]).
  apply fmul_zero in E. destruct E as [E|E]; [left|right].
  - now apply fsub_zero.
  - apply fsub_zero. rewrite <- E. ring.
Qed.
Lemma fopp_zero a : - a = 0 -> a = 0.
Proof. intros H. transitivity (- - a); [ring|]. rewrite H. ring. Qed.
Lemma fopp_nonzero a : a <> 0 -> - a <> 0.
Proof. intros H E. apply H. now apply fopp_zero. Qed.

(** Non-negative square roots are unique. *)
Lemma nonneg_unique a b :
  a * a = b * b -> neg a = false -> neg b = false -> a = b.
Proof.
  intros H Ha Hb. apply fsquares in H. destruct H as [H|H]; [exact H|].
  destruct (F_eq_dec b 0) as [E|E]; [rewrite H, E; ring|].
  apply neg_opp in E. rewrite <- H, Ha, Hb in E. discriminate.
Qed.
Lemma fabs_nonneg x : neg (fabs x) = false.
Proof. apply neg_abs. Qed.
Lemma fabs_sq x : fabs x * fabs x = x * x.
Proof. unfold fabs. destruct (neg x); ring. Qed.
Lemma fabs_id x : neg x = false -> fabs x = x.
Proof. unfold fabs. now intros ->. Qed.
Lemma fabs_zero : fabs 0 = 0.
Proof. apply fabs_id, neg_0. Qed.

Lemma invsqrt_sound v isq : invsqrt v = (true, isq) -> v * (isq * isq) = 1.
Proof. intros H. now apply sr_sound in H. Qed.
Lemma invsqrt_complete v r : v * (r * r) = 1 -> fst (invsqrt v) = true.
Proof.
  intros H. apply (sr_complete 1 v r); [|exact H].
  intros ->. apply one_neq_0. rewrite <- H. ring.
Qed.
Lemma invsqrt_0 v : v = 0 -> snd (invsqrt v) = 0.
Proof. apply sr_den_0. Qed.

Lemma amd_nonzero : - (1) - d <> 0.
Proof. intros E. pose proof mg_square as M. rewrite E in M. apply one_neq_0. rewrite <- M. ring. Qed.
Lemma dp1_nonzero : d + 1 <> 0.
Proof. intros E. apply amd_nonzero. transitivity (- (d + 1)); [ring|]. rewrite E. ring. Qed.
Lemma d_nonzero : d <> 0.
Proof. intros E. apply (d_nonsquare 0). rewrite E. ring. Qed.
Lemma i_nonzero : i <> 0.
Proof.
  intros E. pose proof i_square as H. rewrite E in H. apply one_neq_0.
  transitivity (- - (1)); [ring|]. rewrite <- H. ring.
Qed.
Lemma d_sq_zero s t : t * t = d * (s * s) -> s = 0.
Proof.
  apply (d_times_square F F0 F1 Fadd Fmul Fsub Fopp Fdiv Finv Hfield F_eq_dec d d_nonsquare).
Qed.

(** ** Points of the curve and their cosets by the 4-torsion *)

Definition g (x : F) : F := 1 + x * x.
Definition is_square (a : F) : Prop := exists r, r * r = a.

Lemma eon_to x y : on x y -> y * y - x * x = 1 + d * (x * x) * (y * y).
Proof. exact (fun H => H). Qed.
Lemma eon_of x y : y * y - x * x = 1 + d * (x * x) * (y * y) -> on x y.
Proof. exact (fun H => H). Qed.

Lemma curve_xy x y : on x y -> (1 - y * y) * g x = (- (1) - d) * (x * x) * (y * y).
Proof.
  intros H. apply eon_to in H. unfold g.
  apply fsub_zero. transitivity (1 + d * (x * x) * (y * y) - (y * y - x * x)); [ring|].
  rewrite H. ring.
Qed.

Lemma g_zero x y : on x y -> g x = 0 -> y = 0.
Proof.
  intros H E. apply eon_to in H. unfold g in E.
  assert (Ex : x * x = - (1)) by (transitivity (1 + x * x - 1); [ring|rewrite E; ring]).
  rewrite Ex in H.
  assert (E2 : (d + 1) * (y * y) = 0).
  { transitivity (y * y - - (1) - (1 + d * (- (1)) * (y * y))); [ring|]. rewrite H. ring. }
  apply fmul_zero in E2. destruct E2 as [E2|E2]; [now apply dp1_nonzero in E2|now apply fsq_zero].
Qed.

(** [on_coset x y x' y']: (x', y') is (x, y) plus a point of E[4]. *)
Definition on_coset (x y x' y' : F) : Prop :=
  (x' = x /\ y' = y) \/ (x' = - x /\ y' = - y) \/
  (x' = i * y /\ y' = i * x) \/ (x' = - (i * y) /\ y' = - (i * x)).

Lemma i_i a : i * (i * a) = - a.
Proof. transitivity (i * i * a); [ring|]. rewrite i_square. ring. Qed.
Lemma i_ni a : i * (- (i * a)) = a.
Proof. transitivity (- (i * (i * a))); [ring|]. rewrite i_i. ring. Qed.

Lemma opp_opp_fe a : - - a = a.
Proof. ring. Qed.

Lemma on_coset_trans x y x' y' x'' y'' :
  on_coset x y x' y' -> on_coset x' y' x'' y'' -> on_coset x y x'' y''.
Proof.
  unfold on_coset.
  intros [[-> ->]|[[-> ->]|[[-> ->]|[-> ->]]]] [[-> ->]|[[-> ->]|[[-> ->]|[-> ->]]]];
    rewrite ?i_i, ?i_ni, ?opp_opp_fe;
    try (replace (i * - y) with (- (i * y)) by ring);
    try (replace (i * - x) with (- (i * x)) by ring);
    rewrite ?opp_opp_fe; tauto.
Qed.
Lemma on_coset_refl x y : on_coset x y x y.
Proof. left. tauto. Qed.
Lemma on_coset_sym x y x' y' : on_coset x y x' y' -> on_coset x' y' x y.
Proof.
  unfold on_coset.
  intros [[-> ->]|[[-> ->]|[[-> ->]|[-> ->]]]]; rewrite ?i_i, ?i_ni, ?opp_opp_fe.
  - left. tauto.
  - right. left. tauto.
  - right. right. right. tauto.
  - right. right. left. tauto.
Qed.

(** The canonical representative of a coset with xy <> 0: x and xy are non-negative. *)
Definition canonical (x y : F) : Prop :=
  x <> 0 /\ y <> 0 /\ neg x = false /\ neg (x * y) = false.

Lemma nonneg_opp a : a <> 0 -> neg a = false -> neg (- a) = true.
Proof. intros H Ha. rewrite (neg_opp a H), Ha. reflexivity. Qed.

Lemma canonical_unique x y x' y' :
  canonical x y -> canonical x' y' -> on_coset x y x' y' -> x' = x /\ y' = y.
Proof.
  intros (Hx & Hy & Nx & Nxy) (Hx' & Hy' & Nx' & Nxy') [H|[[-> ->]|[[-> ->]|[-> ->]]]];
    [exact H|exfalso|exfalso|exfalso].
  - rewrite (nonneg_opp x Hx Nx) in Nx'. discriminate.
  - assert (E : i * y * (i * x) = - (x * y)).
    { transitivity (i * i * (x * y)); [ring|]. rewrite i_square. ring. }
    rewrite E, (nonneg_opp (x * y) (fmul_nonzero _ _ Hx Hy) Nxy) in Nxy'. discriminate.
  - assert (E : - (i * y) * - (i * x) = - (x * y)).
    { transitivity (i * i * (x * y)); [ring|]. rewrite i_square. ring. }
    rewrite E, (nonneg_opp (x * y) (fmul_nonzero _ _ Hx Hy) Nxy) in Nxy'. discriminate.
Qed.

(** [s] encodes the coset of (x, y): either the coset is that of the identity and s = 0, or s is
    the non-negative square root of (1 - y')/(1 + y') for the canonical representative. *)
Definition encodes (x y s : F) : Prop :=
  (x * y = 0 /\ s = 0) \/
  exists x' y', on_coset x y x' y' /\ canonical x' y' /\
    s * s * (1 + y') = 1 - y' /\ neg s = false.

Lemma on_coset_xy x y x' y' : on_coset x y x' y' -> x' * y' = x * y \/ x' * y' = - (x * y).
Proof.
  intros [[-> ->]|[[-> ->]|[[-> ->]|[-> ->]]]].
  - now left.
  - left. ring.
  - right. transitivity (i * i * (x * y)); [ring|]. rewrite i_square. ring.
  - right. transitivity (i * i * (x * y)); [ring|]. rewrite i_square. ring.
Qed.
Lemma on_coset_xy_zero x y x' y' : on_coset x y x' y' -> (x * y = 0 <-> x' * y' = 0).
Proof.
  intros H. apply on_coset_xy in H. destruct H as [-> | ->]; [tauto|]. split.
  - intros ->. ring.
  - apply fopp_zero.
Qed.

Lemma on_coset_eon x y x' y' : on_coset x y x' y' -> on x y -> on x' y'.
Proof.
  intros H C. apply eon_to in C. apply eon_of.
  assert (K : forall a, i * a * (i * a) = - (a * a)).
  { intros a. transitivity (i * i * (a * a)); [ring|]. rewrite i_square. ring. }
  assert (K' : forall a, - (i * a) * - (i * a) = - (a * a)).
  { intros a. transitivity (i * i * (a * a)); [ring|]. rewrite i_square. ring. }
  destruct H as [[-> ->]|[[-> ->]|[[-> ->]|[-> ->]]]]; rewrite ?K, ?K'.
  - exact C.
  - transitivity (y * y - x * x); [ring|]. rewrite C. ring.
  - transitivity (y * y - x * x); [ring|]. rewrite C. ring.
  - transitivity (y * y - x * x); [ring|]. rewrite C. ring.
Qed.

Lemma opy_nonzero x y : on x y -> x <> 0 -> 1 + y <> 0.
Proof.
  intros C Hx E. apply Hx. apply eon_to in C.
  assert (Ey : y = - (1)) by (transitivity (1 + y - 1); [ring|rewrite E; ring]). rewrite Ey in C.
  assert (E2 : (d + 1) * (x * x) = 0).
  { transitivity (1 + d * (x * x) * (- (1) * - (1)) - (- (1) * - (1) - x * x)); [ring|]. rewrite C. ring. }
  apply fmul_zero in E2. destruct E2 as [E2|E2]; [now apply dp1_nonzero in E2|now apply fsq_zero].
Qed.
Lemma omy_nonzero x y : on x y -> x <> 0 -> 1 - y <> 0.
Proof.
  intros C Hx E. apply (opy_nonzero x (- y)); [|exact Hx|rewrite <- E; ring].
  apply eon_to in C. apply eon_of. transitivity (y * y - x * x); [ring|]. rewrite C. ring.
Qed.

Lemma fcancel_r a b c : c <> 0 -> a * c = b * c -> a = b.
Proof.
  intros Hc H. assert (E : (a - b) * c = 0) by (transitivity (a * c - b * c); [ring|rewrite H; ring]).
  apply fmul_zero in E. destruct E as [E|E]; [now apply fsub_zero|contradiction].
Qed.

(** A coset has one encoding, and cosets with the same encoding are the same. *)
Lemma encodes_unique x y s s' :
  on x y -> encodes x y s -> encodes x y s' -> s = s'.
Proof.
  intros C [[E ->]|(x1 & y1 & O1 & C1 & S1 & N1)] [[E' ->]|(x2 & y2 & O2 & C2 & S2 & N2)].
  - reflexivity.
  - exfalso. apply (on_coset_xy_zero _ _ _ _ O2) in E. destruct C2 as (Hx & Hy & _).
    now apply fmul_nonzero in E.
  - exfalso. apply (on_coset_xy_zero _ _ _ _ O1) in E'. destruct C1 as (Hx & Hy & _).
    now apply fmul_nonzero in E'.
  - assert (O : on_coset x1 y1 x2 y2)
      by (apply (on_coset_trans _ _ x y); [now apply on_coset_sym|exact O2]).
    destruct (canonical_unique _ _ _ _ C1 C2 O) as [-> ->].
    apply nonneg_unique; [|exact N1|exact N2].
    apply (fcancel_r _ _ (1 + y1)); [|now rewrite S1, S2].
    apply (opy_nonzero x1); [|now destruct C1].
    now apply (on_coset_eon x y).
Qed.
Lemma encodes_coset x y x' y' s : on_coset x y x' y' -> encodes x y s -> encodes x' y' s.
Proof.
  intros O [[E ->]|(x1 & y1 & O1 & H)].
  - left. split; [|reflexivity]. now apply (on_coset_xy_zero _ _ _ _ O).
  - right. exists x1, y1. split; [|exact H].
    apply (on_coset_trans _ _ x y); [now apply on_coset_sym|exact O1].
Qed.

(** ** [decode_fe] *)

Lemma decode_sound s x y :
  neg s = false -> decode_fe s = Some (x, y) ->
  on x y /\ encodes x y s /\ (x * y = 0 -> x = 0 /\ y = 1) /\ (x * y <> 0 -> canonical x y).
Proof.
  intros Ns H. unfold decode_fe in H. cbv zeta in H.
  set (u1 := 1 - s * s) in *. set (u2 := 1 + s * s) in *.
  set (v := - d * (u1 * u1) - u2 * u2) in *.
  destruct (invsqrt (v * (u2 * u2))) as [ok isq] eqn:EI.
  destruct ok; cbn [negb orb] in H; [|discriminate].
  apply invsqrt_sound in EI.
  set (x0 := (s + s) * (isq * u2)) in *. set (y0 := u1 * (isq * (isq * u2 * v))) in *.
  destruct (neg (fabs x0 * y0)) eqn:Nt; [discriminate|]. cbn [orb] in H.
  destruct (feqb y0 0) eqn:Ey; [discriminate|]. injection H as <- <-.
  assert (Hy0 : y0 <> 0) by (intros E; apply feqb_eq in E; congruence).
  assert (Hu2 : u2 <> 0) by (intros E; rewrite E in EI; apply one_neq_0; rewrite <- EI; ring).
  assert (Hv : v <> 0) by (intros E; rewrite E in EI; apply one_neq_0; rewrite <- EI; ring).
  assert (HI : isq <> 0) by (intros E; rewrite E in EI; apply one_neq_0; rewrite <- EI; ring).
  (* y0 u2 = u1 *)
  assert (Y : y0 * u2 = u1).
  { unfold y0. transitivity (u1 * (v * (u2 * u2) * (isq * isq))); [ring|]. rewrite EI. ring. }
  (* x0^2 v = 4 s^2 *)
  assert (X : x0 * x0 * v = (s + s) * (s + s)).
  { unfold x0. transitivity ((s + s) * (s + s) * (v * (u2 * u2) * (isq * isq))); [ring|]. rewrite EI. ring. }
  set (xx := fabs x0) in *.
  assert (X' : xx * xx * v = (s + s) * (s + s)) by (unfold xx; rewrite fabs_sq; exact X).
  assert (Hoy : 1 + y0 <> 0).
  { intros E. apply two_nonzero.
    transitivity (u1 + u2); [unfold u1, u2; ring|]. rewrite <- Y.
    transitivity ((1 + y0) * u2); [ring|]. rewrite E. ring. }
  assert (S : s * s * (1 + y0) = 1 - y0).
  { apply (fcancel_r _ _ u2 Hu2).
    transitivity (s * s * (u2 + y0 * u2)); [ring|]. transitivity (u2 - y0 * u2); [|ring].
    rewrite Y. unfold u1, u2. ring. }
  assert (C : on xx y0).
  { apply eon_of. apply (fcancel_r _ _ (v * (u2 * u2))); [now repeat apply fmul_nonzero|].
    transitivity ((y0 * u2) * (y0 * u2) * v - xx * xx * v * (u2 * u2)); [ring|].
    transitivity (v * (u2 * u2) + d * (xx * xx * v) * ((y0 * u2) * (y0 * u2))); [|ring].
    rewrite Y, X'. unfold v, u1, u2. ring. }
  split; [exact C|].
  assert (Z : xx * y0 = 0 -> s = 0 /\ xx = 0 /\ y0 = 1).
  { intros E. apply fmul_zero in E. destruct E as [E|E]; [|contradiction].
    assert (Es : s = 0).
    { rewrite E in X'. assert (E2 : (s + s) * (s + s) = 0) by (rewrite <- X'; ring).
      apply fsq_zero in E2. assert (E3 : (1 + 1) * s = 0) by (rewrite <- E2; ring).
      apply fmul_zero in E3. destruct E3 as [E3|E3]; [now apply two_nonzero in E3|exact E3]. }
    split; [exact Es|]. split; [exact E|]. rewrite Es in S. symmetry. apply fsub_zero. rewrite <- S. ring. }
  assert (K : xx * y0 <> 0 -> canonical xx y0).
  { intros H. split; [|split; [exact Hy0|split; [apply fabs_nonneg|exact Nt]]].
    intros E. apply H. rewrite E. ring. }
  split; [|split; [intros E; now apply Z in E|exact K]].
  destruct (F_eq_dec (xx * y0) 0) as [E|E].
  - left. split; [exact E|]. now apply Z in E.
  - right. exists xx, y0. split; [apply on_coset_refl|]. split; [now apply K|]. split; [exact S|exact Ns].
Qed.

Lemma decode_complete x y s :
  on x y -> canonical x y -> s * s * (1 + y) = 1 - y -> decode_fe s = Some (x, y).
Proof.
  intros C (Hx & Hy & Nx & Nxy) S.
  pose proof (opy_nonzero x y C Hx) as Ho. pose proof (omy_nonzero x y C Hx) as Hm.
  apply eon_to in C.
  assert (Hs : s <> 0) by (intros E; rewrite E in S; apply Hm; rewrite <- S; ring).
  unfold decode_fe. cbv zeta.
  set (u1 := 1 - s * s). set (u2 := 1 + s * s).
  set (v := - d * (u1 * u1) - u2 * u2).
  assert (U1 : u1 * (1 + y) = y + y).
  { unfold u1. transitivity (1 + y - s * s * (1 + y)); [ring|]. rewrite S. ring. }
  assert (U2 : u2 * (1 + y) = 1 + 1).
  { unfold u2. transitivity (1 + y + s * s * (1 + y)); [ring|]. rewrite S. ring. }
  assert (Hu2 : u2 <> 0) by (intros E; rewrite E in U2; apply two_nonzero; rewrite <- U2; ring).
  assert (Y : y * u2 = u1).
  { apply (fcancel_r _ _ (1 + y) Ho). rewrite U1. transitivity (y * (u2 * (1 + y))); [ring|].
    rewrite U2. ring. }
  (* v x^2 = 4 s^2 *)
  assert (V : v * (x * x) = (s + s) * (s + s)).
  { apply (fcancel_r _ _ ((1 + y) * (1 + y))); [now apply fmul_nonzero|].
    transitivity (- (d * (x * x) * ((u1 * (1 + y)) * (u1 * (1 + y)))
                     + x * x * ((u2 * (1 + y)) * (u2 * (1 + y))))); [unfold v; ring|].
    transitivity ((1 + 1) * (1 + 1) * (s * s * (1 + y)) * (1 + y)); [|ring].
    rewrite U1, U2, S.
    transitivity ((1 + 1) * (1 + 1) * (1 - y * y)); [|ring].
    transitivity (- ((1 + 1) * (1 + 1) * (1 + d * (x * x) * (y * y) - 1 + x * x))); [ring|].
    rewrite <- C. ring. }
  assert (Hss : s + s <> 0).
  { intros E. assert (E2 : (1 + 1) * s = 0) by (rewrite <- E; ring).
    apply fmul_zero in E2. destruct E2 as [E2|E2]; [now apply two_nonzero in E2|contradiction]. }
  assert (R : v * (u2 * u2) * ((x / ((s + s) * u2)) * (x / ((s + s) * u2))) = 1).
  { transitivity (v * (x * x) / ((s + s) * (s + s))); [field; split; assumption|].
    rewrite V. field. exact Hss. }
  pose proof (invsqrt_complete _ _ R) as OK.
  destruct (invsqrt (v * (u2 * u2))) as [ok isq] eqn:EI. cbn [fst] in OK. subst ok.
  apply invsqrt_sound in EI.
  assert (Ey : u1 * (isq * (isq * u2 * v)) = y).
  { apply (fcancel_r _ _ u2 Hu2). transitivity (u1 * (v * (u2 * u2) * (isq * isq))); [ring|].
    rewrite EI, Y. ring. }
  rewrite Ey.
  assert (Hv : v <> 0) by (intros E; rewrite E in EI; apply one_neq_0; rewrite <- EI; ring).
  assert (Ex : fabs ((s + s) * (isq * u2)) = x).
  { apply nonneg_unique; [|apply fabs_nonneg|exact Nx]. rewrite fabs_sq.
    apply (fcancel_r _ _ v Hv).
    transitivity ((s + s) * (s + s) * (v * (u2 * u2) * (isq * isq))); [ring|]. rewrite EI, <- V. ring. }
  rewrite Ex, Nxy.
  destruct (feqb y 0) eqn:E; [apply feqb_eq in E; contradiction|]. reflexivity.
Qed.

Lemma decode_zero : decode_fe 0 = Some (0, 1).
Proof.
  unfold decode_fe. cbv zeta.
  assert (E1 : 1 - 0 * 0 = 1) by ring. assert (E2 : 1 + 0 * 0 = 1) by ring. rewrite E1, E2.
  set (v := - d * (1 * 1) - 1 * 1).
  assert (Ev : v = - (1) - d) by (unfold v; ring).
  assert (R : v * (1 * 1) * (mg * mg) = 1).
  { rewrite Ev. transitivity (mg * mg * (- (1) - d)); [ring|exact mg_square]. }
  pose proof (invsqrt_complete _ _ R) as OK.
  destruct (invsqrt (v * (1 * 1))) as [ok isq] eqn:EI. cbn [fst] in OK. subst ok.
  apply invsqrt_sound in EI.
  assert (Ey : 1 * (isq * (isq * 1 * v)) = 1).
  { transitivity (v * (1 * 1) * (isq * isq)); [ring|exact EI]. }
  rewrite Ey.
  assert (Ex : (0 + 0) * (isq * 1) = 0) by ring. rewrite Ex, fabs_zero.
  assert (Et : 0 * 1 = 0) by ring. rewrite Et. cbn [negb orb]. rewrite neg_0.
  destruct (feqb 1 0) eqn:E; [apply feqb_eq in E; now apply one_neq_0 in E|]. reflexivity.
Qed.

(** ** [encode_fe] *)

Definition represents (X Y Z T x y : F) : Prop :=
  Z <> 0 /\ X = x * Z /\ Y = y * Z /\ T = x * y * Z.

Lemma encode_correct X Y Z T x y :
  represents X Y Z T x y -> on x y -> is_square (g x) -> encodes x y (encode_fe X Y Z T).
Proof.
  intros (HZ & -> & -> & ->) C [w Hw].
  unfold encode_fe. cbv zeta.
  set (u1 := (Z + y * Z) * (Z - y * Z)). set (u2 := x * Z * (y * Z)).
  destruct (F_eq_dec (x * y) 0) as [Exy|Hxy].
  - left. split; [exact Exy|].
    assert (E2 : u2 = 0) by (unfold u2; transitivity (x * y * (Z * Z)); [ring|rewrite Exy; ring]).
    assert (Ev : u1 * (u2 * u2) = 0) by (rewrite E2; ring). rewrite (invsqrt_0 _ Ev).
    assert (Ea : 0 * u2 = 0) by ring. assert (Eb : 0 * u1 = 0) by ring. rewrite Ea, Eb.
    assert (Ed : forall b : bool, (if b then 0 * mg else 0) = 0).
    { intros [|]; [ring|reflexivity]. }
    rewrite Ed.
    match goal with |- fabs (0 * ?t) = _ => assert (Ez : 0 * t = 0) by ring; rewrite Ez end.
    apply fabs_zero.
  - right.
    assert (Hx : x <> 0) by (intros E; apply Hxy; rewrite E; ring).
    assert (Hy : y <> 0) by (intros E; apply Hxy; rewrite E; ring).
    pose proof (curve_xy x y C) as CX.
    assert (Hg : g x <> 0) by (intros E; apply Hy; now apply (g_zero x)).
    pose proof (opy_nonzero x y C Hx) as Ho. pose proof (omy_nonzero x y C Hx) as Hm.
    assert (Hu1 : u1 <> 0).
    { unfold u1. assert (E : (Z + y * Z) * (Z - y * Z) = (Z * Z) * ((1 + y) * (1 - y))) by ring.
      rewrite E. now repeat apply fmul_nonzero. }
    assert (Hu2 : u2 <> 0).
    { unfold u2. assert (E : x * Z * (y * Z) = x * y * (Z * Z)) by ring. rewrite E.
      now repeat apply fmul_nonzero. }
    assert (Hw0 : w <> 0) by (intros E; apply Hg; rewrite <- Hw, E; ring).
    (* u1 = Z^2 (1 - y^2), and (1 - y^2) w^2 = (a - d) (x y)^2 *)
    assert (U1 : u1 = Z * Z * (1 - y * y)) by (unfold u1; ring).
    assert (W : (1 - y * y) * (w * w) * (mg * mg) = x * y * (x * y)).
    { rewrite Hw, CX. transitivity (x * y * (x * y) * (mg * mg * (- (1) - d))); [ring|].
      rewrite mg_square. ring. }
    assert (R : u1 * (u2 * u2) * ((w * mg / (Z * u2 * (x * y))) * (w * mg / (Z * u2 * (x * y)))) = 1).
    { rewrite U1. transitivity ((1 - y * y) * (w * w) * (mg * mg) / (x * y * (x * y))); [field; now repeat split|].
      rewrite W. field. now split. }
    pose proof (invsqrt_complete _ _ R) as OK.
    destruct (invsqrt (u1 * (u2 * u2))) as [ok isq] eqn:EI. cbn [fst] in OK. subst ok. cbn [snd].
    apply invsqrt_sound in EI.
    set (zi := isq * u1 * (isq * u2 * (x * y * Z))).
    assert (Zi : zi * Z = 1).
    { unfold zi. transitivity (u1 * (isq * isq) * u2 * (x * Z * (y * Z))); [ring|].
      fold u2. rewrite <- EI. ring. }
    assert (ET : x * y * Z * zi = x * y) by (transitivity (x * y * (zi * Z)); [ring|rewrite Zi; ring]).
    rewrite ET.
    (* the rotated affine point *)
    set (rot := neg (x * y)).
    set (xr := if rot then i * y else x). set (yr := if rot then i * x else y).
    assert (EX : (if rot then y * Z * i else x * Z) * zi = xr).
    { unfold xr. destruct rot.
      - transitivity (i * y * (zi * Z)); [ring|rewrite Zi; ring].
      - transitivity (x * (zi * Z)); [ring|rewrite Zi; ring]. }
    assert (EY : (if rot then x * Z * i else y * Z) = yr * Z).
    { unfold yr. destruct rot; ring. }
    rewrite EX, EY.
    assert (Or : on_coset x y xr yr).
    { unfold xr, yr. destruct rot; [right; right; left|left]; split; reflexivity. }
    assert (Nr : neg (xr * yr) = false).
    { unfold xr, yr, rot. destruct (neg (x * y)) eqn:N; [|exact N].
      assert (E : i * y * (i * x) = - (x * y)).
      { transitivity (i * i * (x * y)); [ring|]. rewrite i_square. ring. }
      rewrite E, (neg_opp _ Hxy), N. reflexivity. }
    assert (Hxr : xr <> 0).
    { unfold xr. destruct rot; [apply fmul_nonzero; [exact i_nonzero|exact Hy]|exact Hx]. }
    assert (Hyr : yr <> 0).
    { unfold yr. destruct rot; [apply fmul_nonzero; [exact i_nonzero|exact Hx]|exact Hy]. }
    (* the denominator *)
    set (den := if rot then isq * u1 * mg else isq * u2).
    assert (D : den * den * (Z * Z) * (1 - yr * yr) = 1).
    { unfold den, yr. destruct rot.
      - assert (E : 1 - i * x * (i * x) = g x).
        { unfold g. transitivity (1 - i * i * (x * x)); [ring|]. rewrite i_square. ring. }
        rewrite E, <- Hw.
        transitivity (isq * isq * u1 * (Z * Z * Z * Z) * ((1 - y * y) * (w * w) * (mg * mg))); [rewrite U1; ring|].
        rewrite W. transitivity (u1 * (u2 * u2) * (isq * isq)); [unfold u2; ring|exact EI].
      - transitivity (u1 * (u2 * u2) * (isq * isq)); [rewrite U1; ring|exact EI]. }
    set (yf := if neg xr then - yr else yr).
    assert (EYf : (if neg xr then - (yr * Z) else yr * Z) = yf * Z).
    { unfold yf. destruct (neg xr); ring. }
    rewrite EYf.
    set (xf := if neg xr then - xr else xr).
    exists xf, yf.
    assert (Of : on_coset xr yr xf yf).
    { unfold xf, yf. destruct (neg xr); [right; left|left]; split; reflexivity. }
    assert (O : on_coset x y xf yf) by now apply (on_coset_trans _ _ xr yr).
    assert (Hxf : xf <> 0).
    { unfold xf. destruct (neg xr); [now apply fopp_nonzero|exact Hxr]. }
    split; [exact O|]. split.
    + split; [exact Hxf|]. split.
      { unfold yf. destruct (neg xr); [now apply fopp_nonzero|exact Hyr]. }
      split; [apply neg_abs|].
      assert (E : xf * yf = xr * yr) by (unfold xf, yf; destruct (neg xr); ring).
      rewrite E. exact Nr.
    + split; [|apply fabs_nonneg].
      rewrite fabs_sq.
      assert (Df : den * den * (Z * Z) * (1 - yf * yf) = 1).
      { transitivity (den * den * (Z * Z) * (1 - yr * yr)); [unfold yf; destruct (neg xr); ring|exact D]. }
      transitivity ((1 - yf) * (den * den * (Z * Z) * (1 - yf * yf))); [ring|]. rewrite Df. ring.
Qed.

(** ** The map from field elements to the curve *)

Lemma nonsquare_disc a b : a <> 0 -> b * b = d * (a * a) -> False.
Proof. intros Ha H. apply Ha. now apply (d_sq_zero a b). Qed.

Lemma dm1_nonzero : d - 1 <> 0.
Proof. intros E. apply fsub_zero in E. apply (d_nonsquare 1). rewrite E. ring. Qed.

(** sqrt(d + 1): -1 and a - d = -(d + 1) are squares. *)
Definition sqrt_dp1 : F := i * sad.
Lemma sqrt_dp1_square : sqrt_dp1 * sqrt_dp1 = d + 1.
Proof.
  unfold sqrt_dp1.
  transitivity (i * i * (sad * sad)); [ring|].
  rewrite i_square, sad_square. ring.
Qed.
Lemma sqrt_dp1_nonzero : sqrt_dp1 <> 0.
Proof. intros E. apply dp1_nonzero. rewrite <- sqrt_dp1_square, E. ring. Qed.

(** Quadratics d a r^2 + 2 b r + c without a root: b^2 - a c is not a square. *)
Lemma no_root a b c e r :
  e <> 0 -> a <> 0 -> b * b - a * c = d * (e * e) -> a * (r * r) + (b + b) * r + c <> 0.
Proof.
  intros He Ha Hd E. apply (nonsquare_disc e (a * r + b) He).
  rewrite <- Hd. apply fsub_zero.
  transitivity (a * (a * (r * r) + (b + b) * r + c)); [ring|]. rewrite E. ring.
Qed.

(** What [elligator] computes: s^2 D = N with N = N_s or r N_s. *)
Section Map.
Context (r_0 : F).
Let r := i * (r_0 * r_0).
Let N_s := (r + 1) * one_minus_d_sq.
Let D := (- (1) - d * r) * (r + d).

Lemma N_t_nonzero (sq : bool) :
  (if sq then - (1) else r) * (r - 1) * d_minus_one_sq - D <> 0.
Proof.
  intros E. unfold D, d_minus_one_sq in E.
  pose proof dm1_nonzero as H1. pose proof d_nonzero as H2. pose proof i_nonzero as H3.
  assert (Hie : i * (d - 1) <> 0) by now apply fmul_nonzero.
  destruct sq.
  - (* d r^2 + 2 d r + d^2 - d + 1 *)
    apply (no_root d d (d * d - d + 1) (i * (d - 1)) r Hie H2).
    + transitivity (d * ((i * i) * ((d - 1) * (d - 1)))); [rewrite i_square; ring|ring].
    + rewrite <- E. ring.
  - (* (d^2 - d + 1) r^2 + 2 d r + d; swap the roles of the coefficients *)
    destruct (F_eq_dec r 0) as [Er|Hr].
    + apply H2. rewrite Er in E. rewrite <- E. ring.
    + apply (no_root d d (d * d - d + 1) (i * (d - 1)) (1 / r) Hie H2).
      * transitivity (d * ((i * i) * ((d - 1) * (d - 1)))); [rewrite i_square; ring|ring].
      * transitivity ((r * (r - 1) * ((d - 1) * (d - 1)) - (- (1) - d * r) * (r + d)) / (r * r)); [field; exact Hr|].
        rewrite E. field. exact Hr.
Qed.

Lemma sum_nonzero (sq : bool) : D + (if sq then N_s else r * N_s) <> 0.
Proof.
  intros E. unfold D, N_s, one_minus_d_sq in E.
  pose proof dm1_nonzero as H1. pose proof d_nonzero as H2. pose proof i_nonzero as H3.
  assert (Hie : (d - 1) * sqrt_dp1 <> 0) by (apply fmul_nonzero; [exact H1|exact sqrt_dp1_nonzero]).
  assert (Hd : d * d * (d * d) - d * (d * d + d - 1) = d * ((d - 1) * sqrt_dp1 * ((d - 1) * sqrt_dp1))).
  { transitivity (d * ((d - 1) * (d - 1) * (sqrt_dp1 * sqrt_dp1))); [rewrite sqrt_dp1_square; ring|ring]. }
  destruct sq.
  - (* - (d r^2 + 2 d^2 r + d^2 + d - 1) *)
    apply (no_root d (d * d) (d * d + d - 1) ((d - 1) * sqrt_dp1) r Hie H2).
    + rewrite <- Hd. ring.
    + apply fopp_zero. rewrite <- E. ring.
  - destruct (F_eq_dec r 0) as [Er|Hr].
    + apply H2. apply fopp_zero. rewrite Er in E. rewrite <- E. ring.
    + apply (no_root d (d * d) (d * d + d - 1) ((d - 1) * sqrt_dp1) (1 / r) Hie H2).
      * rewrite <- Hd. ring.
      * apply fopp_zero.
        transitivity (((- (1) - d * r) * (r + d) + r * ((r + 1) * (1 - d * d))) / (r * r)); [field; exact Hr|].
        rewrite E. field. exact Hr.
Qed.

Lemma map_identity (sq : bool) :
  let n := if sq then N_s else r * N_s in
  let N_t := (if sq then - (1) else r) * (r - 1) * d_minus_one_sq - D in
  (D + n) * (D + n) + d * ((D - n) * (D - n)) = (d + 1) * (N_t * N_t).
Proof. cbv zeta. unfold D, N_s, one_minus_d_sq, d_minus_one_sq. destruct sq; ring. Qed.

(** Both coordinates are well defined, the point is on the curve, and (1 - y)/(1 + y) is a square. *)
Theorem elligator_on :
  let '(x, y) := elligator r_0 in
  on x y /\ (exists s, s * s * (1 + y) = 1 - y) /\ 1 + y <> 0.
Proof.
  unfold elligator. cbv zeta. fold r. fold N_s. fold D.
  destruct (sqrt_ratio N_s D) as [sq s0] eqn:ES.
  set (s := if sq then s0 else if neg (s0 * r_0) then s0 * r_0 else - (s0 * r_0)).
  set (n := if sq then N_s else r * N_s).
  set (N_t := (if sq then - (1) else r) * (r - 1) * d_minus_one_sq - D).
  pose proof (N_t_nonzero sq) as HNt. fold N_t in HNt.
  pose proof (sum_nonzero sq) as Hsum. fold n in Hsum.
  pose proof (map_identity sq) as Hid. cbv zeta in Hid. fold n N_t in Hid.
  assert (Hsad : sad <> 0).
  { intros E. apply dp1_nonzero. apply fopp_zero.
    transitivity (- d - 1); [ring|]. rewrite <- sad_square, E. ring. }
  (* s^2 D = n when D <> 0, and s = 0 when D = 0 *)
  assert (HS : s * s * D = n \/ s = 0).
  { destruct (F_eq_dec D 0) as [ED|HD].
    - right. pose proof (sr_den_0 N_s D ED) as E0. rewrite ES in E0. cbn [snd] in E0.
      unfold s. rewrite E0. assert (Ez : 0 * r_0 = 0) by ring. rewrite Ez, neg_0.
      destruct sq; [reflexivity|ring].
    - left. unfold s, n. destruct sq.
      + apply sr_sound in ES. destruct ES as [<- _]. ring.
      + apply (sr_nonsquare _ _ _ HD) in ES.
        assert (Ea : forall t, (if neg t then t else - t) * (if neg t then t else - t) = t * t)
          by (intros t; destruct (neg t); ring).
        rewrite Ea. transitivity (D * (s0 * s0) * (r_0 * r_0)); [ring|]. rewrite ES. unfold r. ring. }
  assert (H1 : 1 + s * s <> 0).
  { destruct HS as [HS|HS].
    - intros E. apply Hsum. rewrite <- HS. transitivity ((1 + s * s) * D); [ring|]. rewrite E. ring.
    - rewrite HS. intros E. apply one_neq_0. rewrite <- E. ring. }
  assert (Y : 1 + (1 - s * s) / (1 + s * s) = (1 + 1) / (1 + s * s)) by (field; exact H1).
  split; [|split].
  - unfold on_curve.
    apply (fcancel_r _ _ ((N_t * sad) * (N_t * sad) * ((1 + s * s) * (1 + s * s)))).
    { repeat apply fmul_nonzero; assumption. }
    transitivity ((N_t * N_t) * (sad * sad) * ((1 - s * s) * (1 - s * s))
                  - (s + s) * (s + s) * (D * D) * ((1 + s * s) * (1 + s * s))).
    { field. repeat split; assumption. }
    transitivity ((N_t * N_t) * (sad * sad) * ((1 + s * s) * (1 + s * s))
                  + d * ((s + s) * (s + s) * (D * D)) * ((1 - s * s) * (1 - s * s))).
    2:{ field. repeat split; assumption. }
    rewrite sad_square.
    assert (Hid' : s * s * ((D + s * s * D) * (D + s * s * D) + d * ((D - s * s * D) * (D - s * s * D)))
                   = s * s * ((d + 1) * (N_t * N_t))).
    { destruct HS as [-> | ->]; [now rewrite Hid|ring]. }
    apply fsub_zero.
    transitivity ((1 + 1) * (1 + 1) * (s * s * ((d + 1) * (N_t * N_t))
      - s * s * ((D + s * s * D) * (D + s * s * D) + d * ((D - s * s * D) * (D - s * s * D))))); [ring|].
    rewrite Hid'. ring.
  - exists s. rewrite Y. field. exact H1.
  - rewrite Y. intros E. apply two_nonzero.
    transitivity ((1 + 1) / (1 + s * s) * (1 + s * s)); [field; exact H1|]. rewrite E. ring.
Qed.

(** The same map said without an algorithm (RFC 9496 section 4.3.4; the Jacobi quartic behind it is
    s^2 = N_s/D).  With r = i r_0^2: s is the nonnegative root of N_s/D when that has one, and otherwise
    the root of r N_s/D that is minus a nonnegative one; s = 0 when D = 0.  The point is
    x = 2 s D / (sqrt(-d-1) N_t), y = (1 - s^2)/(1 + s^2). *)
Definition elligator_image (x y : F) : Prop :=
  exists s c,
  ((D <> 0 /\ D * (s * s) = N_s /\ neg s = false /\ c = - (1)) \/
   (D <> 0 /\ (forall z, D * (z * z) <> N_s) /\ D * (s * s) = r * N_s /\ neg (- s) = false /\ c = r) \/
   (D = 0 /\ s = 0 /\ (c = - (1) \/ c = r))) /\
  x * (sad * (c * (r - 1) * ((d - 1) * (d - 1)) - D)) = (1 + 1) * s * D /\
  y * (1 + s * s) = 1 - s * s.

Lemma nonneg_root a b : a * a = b * b -> neg a = false -> neg b = false -> a = b.
Proof.
  intros E Ha Hb. destruct (fsquares a b E) as [H|H]; [exact H|].
  destruct (F_eq_dec b 0) as [-> |Hb0]; [rewrite H; ring|].
  rewrite H, (neg_opp b Hb0), Hb in Ha. discriminate Ha.
Qed.
Lemma sad_nonzero : sad <> 0.
Proof.
  intros E. apply dp1_nonzero. apply fopp_zero.
  transitivity (- d - 1); [ring|]. rewrite <- sad_square, E. ring.
Qed.
Lemma one_plus_sq_nonzero s (sq : bool) :
  D * (s * s) = (if sq then N_s else r * N_s) -> 1 + s * s <> 0.
Proof.
  intros HS E. apply (sum_nonzero sq). rewrite <- HS.
  transitivity ((1 + s * s) * D); [ring|]. rewrite E. ring.
Qed.

Theorem elligator_image_iff x y : elligator r_0 = (x, y) <-> elligator_image x y.
Proof.
  assert (U : forall x y x' y', elligator_image x y -> elligator_image x' y' -> x = x' /\ y = y').
  { clear x y. intros x y x' y' (s & c & H & Hx & Hy) (s' & c' & H' & Hx' & Hy').
    assert (E : s = s' /\ (D <> 0 -> c = c')).
    { destruct H as [(HD & A & B & C)|[(HD & N & A & B & C)|(HD & A & C)]];
      destruct H' as [(HD' & A' & B' & C')|[(HD' & N' & A' & B' & C')|(HD' & A' & C')]];
      try (exfalso; congruence); try (exfalso; apply (N s'); exact A'); try (exfalso; apply (N' s); exact A).
      - split; [|congruence]. apply nonneg_root; try assumption.
        apply (fcancel_r _ _ D HD). transitivity (D * (s * s)); [ring|]. rewrite A, <- A'. ring.
      - split; [|congruence]. assert (- s = - s').
        { apply nonneg_root; try assumption.
          apply (fcancel_r _ _ D HD). transitivity (D * (s * s)); [ring|]. rewrite A, <- A'. ring. }
        transitivity (- - s); [ring|]. rewrite H. ring.
      - split; [congruence|]. intros HD2. exfalso. exact (HD2 HD). }
    destruct E as [<- EC].
    assert (H1 : 1 + s * s <> 0).
    { destruct H as [(_ & A & _)|[(_ & _ & A & _)|(_ & A & _)]].
      - exact (one_plus_sq_nonzero s true A).
      - exact (one_plus_sq_nonzero s false A).
      - rewrite A. intros E. apply one_neq_0. rewrite <- E. ring. }
    assert (Hc : forall c, c = - (1) \/ c = r -> sad * (c * (r - 1) * ((d - 1) * (d - 1)) - D) <> 0).
    { intros c0 [-> | ->]; apply fmul_nonzero; try exact sad_nonzero; [exact (N_t_nonzero true)|exact (N_t_nonzero false)]. }
    assert (HC : c = - (1) \/ c = r) by (destruct H as [(_ & _ & _ & C)|[(_ & _ & _ & _ & C)|(_ & _ & C)]]; [left; exact C|right; exact C|exact C]).
    assert (HC' : c' = - (1) \/ c' = r) by (destruct H' as [(_ & _ & _ & C)|[(_ & _ & _ & _ & C)|(_ & _ & C)]]; [left; exact C|right; exact C|exact C]).
    split; [|apply (fcancel_r _ _ _ H1); congruence].
    destruct (F_eq_dec D 0) as [HD|HD].
    - assert (Z : forall x c, c = - (1) \/ c = r ->
        x * (sad * (c * (r - 1) * ((d - 1) * (d - 1)) - D)) = (1 + 1) * s * D -> x = 0).
      { intros x0 c0 H0 E0. apply (fcancel_r _ _ _ (Hc c0 H0)). rewrite E0, HD. ring. }
      rewrite (Z x c HC Hx), (Z x' c' HC' Hx'). reflexivity.
    - rewrite <- (EC HD) in Hx'. apply (fcancel_r _ _ _ (Hc c HC)). congruence. }
  assert (S : elligator_image (fst (elligator r_0)) (snd (elligator r_0))).
  { unfold elligator. cbv zeta. fold r. fold N_s. fold D.
    destruct (sqrt_ratio N_s D) as [sq s0] eqn:ES.
    set (s := if sq then s0 else if neg (s0 * r_0) then s0 * r_0 else - (s0 * r_0)).
    set (c := if sq then - (1) else r). cbn [fst snd].
    exists s, c.
    assert (HN : c * (r - 1) * ((d - 1) * (d - 1)) - D <> 0) by exact (N_t_nonzero sq).
    assert (A : (D <> 0 /\ D * (s * s) = N_s /\ neg s = false /\ c = - (1)) \/
      (D <> 0 /\ (forall z, D * (z * z) <> N_s) /\ D * (s * s) = r * N_s /\ neg (- s) = false /\ c = r) \/
      (D = 0 /\ s = 0 /\ (c = - (1) \/ c = r))).
    { destruct (F_eq_dec D 0) as [HD|HD].
      - right. right. split; [exact HD|]. split; [|unfold c; destruct sq; [left|right]; reflexivity].
        pose proof (sr_den_0 N_s D HD) as E0. rewrite ES in E0. cbn [snd] in E0.
        unfold s. rewrite E0. assert (Ez : 0 * r_0 = 0) by ring. rewrite Ez, neg_0.
        destruct sq; [reflexivity|ring].
      - unfold s, c. destruct sq; [left|right; left].
        + apply sr_sound in ES. destruct ES as [E1 E2]. repeat split; assumption.
        + split; [exact HD|]. split.
          { intros z Hz. pose proof (sr_complete N_s D z HD Hz) as E. rewrite ES in E. discriminate E. }
          apply (sr_nonsquare _ _ _ HD) in ES. split; [|split; [|reflexivity]].
          * assert (Ea : forall t, (if neg t then t else - t) * (if neg t then t else - t) = t * t)
              by (intros t; destruct (neg t); ring).
            rewrite Ea. transitivity (D * (s0 * s0) * (r_0 * r_0)); [ring|]. rewrite ES. unfold r. ring.
          * generalize (s0 * r_0). intros t. destruct (neg t) eqn:Et.
            -- rewrite neg_opp, Et; [reflexivity|]. intros ->. rewrite neg_0 in Et. discriminate Et.
            -- assert (Eo : - - t = t) by ring. rewrite Eo. exact Et. }
    split; [exact A|].
    assert (H1 : 1 + s * s <> 0).
    { destruct A as [(_ & A & _)|[(_ & _ & A & _)|(_ & A & _)]].
      - exact (one_plus_sq_nonzero s true A).
      - exact (one_plus_sq_nonzero s false A).
      - rewrite A. intros E. apply one_neq_0. rewrite <- E. ring. }
    unfold d_minus_one_sq. pose proof sad_nonzero as Hsad.
    split; [|field; exact H1].
    revert HN. generalize (c * (r - 1) * ((d - 1) * (d - 1)) - D). intros Nt HN.
    field. split; assumption. }
  split.
  - intros E. rewrite E in S. exact S.
  - intros H. destruct (U _ _ _ _ S H) as [Ex Ey]. destruct (elligator r_0) as [a b]. cbn in Ex, Ey. congruence.
Qed.
End Map.

(** ** The parity of the 8-torsion component: g x = 1 + x^2 is multiplicative up to squares. *)

Lemma g_sum x1 y1 x2 y2 :
  on x1 y1 -> on x2 y2 ->
  let m := x1 * x2 * y1 * y2 in
  g x1 * g x2 * ((1 + d * m) * (1 + d * m) + (x1 * y2 + y1 * x2) * (x1 * y2 + y1 * x2))
  = (g x1 * g x2 + (d + 1) * m) * (g x1 * g x2 + (d + 1) * m).
Proof.
  intros C1 C2. cbv zeta. set (m := x1 * x2 * y1 * y2).
  pose proof (curve_xy _ _ C1) as P1. pose proof (curve_xy _ _ C2) as P2.
  apply eon_to in C1. apply eon_to in C2.
  assert (B : (1 + d * m) * (1 + d * m) + (x1 * y2 + y1 * x2) * (x1 * y2 + y1 * x2)
              = (1 - y1 * y1) * (1 - y2 * y2) + g x1 * g x2 + (1 + 1) * ((d + 1) * m)).
  { apply fsub_zero.
    transitivity (((1 + d * (x1 * x1) * (y1 * y1)) - 1) * ((1 + d * (x2 * x2) * (y2 * y2)) - 1)
                  - (y1 * y1 - x1 * x1 - 1) * (y2 * y2 - x2 * x2 - 1)); [unfold m, g; ring|].
    rewrite C1, C2. ring. }
  rewrite B.
  transitivity (((1 - y1 * y1) * g x1) * ((1 - y2 * y2) * g x2) + g x1 * g x2 * (g x1 * g x2)
                + (1 + 1) * ((d + 1) * m) * (g x1 * g x2)); [ring|].
  rewrite P1, P2. unfold m. ring.
Qed.

Lemma g_add x1 y1 x2 y2 :
  on x1 y1 -> on x2 y2 -> g x1 <> 0 -> g x2 <> 0 ->
  exists t, g x1 * g x2 * g (add_x F 1 Fadd Fmul Fdiv d x1 y1 x2 y2) = t * t.
Proof.
  intros C1 C2 H1 H2. pose proof (g_sum _ _ _ _ C1 C2) as S. cbv zeta in S.
  pose proof (complete_plus F 0 1 Fadd Fmul Fsub Fopp Fdiv Finv Hfield F_eq_dec d i i_square d_nonsquare
    two_nonzero x1 y1 x2 y2 C1 C2) as Hc.
  set (m := x1 * x2 * y1 * y2) in *.
  assert (Em : 1 + d * x1 * x2 * y1 * y2 = 1 + d * m) by (unfold m; ring). rewrite Em in Hc.
  exists ((g x1 * g x2 + (d + 1) * m) / (1 + d * m)).
  unfold add_x. rewrite Em. unfold g at 3.
  transitivity (g x1 * g x2 * ((1 + d * m) * (1 + d * m) + (x1 * y2 + y1 * x2) * (x1 * y2 + y1 * x2))
                / ((1 + d * m) * (1 + d * m))); [field; exact Hc|].
  rewrite S. field. exact Hc.
Qed.

(** A point with (1 - y)/(1 + y) = s^2 has 1 + x^2 a square. *)
Lemma g_square_of_s x y s : on x y -> s * s * (1 + y) = 1 - y -> y <> 0 -> is_square (g x).
Proof.
  intros C S Hy. pose proof (curve_xy x y C) as P.
  destruct (F_eq_dec x 0) as [Ex|Hx].
  - exists 1. unfold g. rewrite Ex. ring.
  - pose proof (opy_nonzero x y C Hx) as Ho. pose proof (omy_nonzero x y C Hx) as Hm.
    assert (Hs : s <> 0) by (intros E; apply Hm; rewrite <- S, E; ring).
    pose proof mg_square as M.
    assert (Hmg : mg <> 0) by (intros E; apply one_neq_0; rewrite <- M, E; ring).
    exists (x * y / (mg * s * (1 + y))).
    apply (fcancel_r _ _ (s * s * (1 + y) * (1 + y) * (mg * mg))).
    { repeat apply fmul_nonzero; assumption. }
    transitivity (x * y * (x * y)); [field; repeat split; assumption|].
    transitivity (((1 - y * y) * g x) * (mg * mg)).
    2:{ transitivity (g x * (s * s * (1 + y)) * (1 + y) * (mg * mg)); [rewrite S; ring|ring]. }
    rewrite P. transitivity (x * y * (x * y) * (mg * mg * (- (1) - d))); [rewrite M; ring|ring].
Qed.

Notation addx := (add_x F 1 Fadd Fmul Fdiv d).
Notation addy := (add_y F 1 Fadd Fmul Fsub Fdiv d).

Lemma on_opp x y : on x y -> on (- x) y.
Proof. intros C. apply eon_to in C. apply eon_of. transitivity (y * y - x * x); [ring|]. rewrite C. ring. Qed.

Lemma denom_plus x1 y1 x2 y2 : on x1 y1 -> on x2 y2 -> 1 + d * x1 * x2 * y1 * y2 <> 0.
Proof.
  apply (complete_plus F 0 1 Fadd Fmul Fsub Fopp Fdiv Finv Hfield F_eq_dec d i i_square d_nonsquare two_nonzero).
Qed.
Lemma denom_minus x1 y1 x2 y2 : on x1 y1 -> on x2 y2 -> 1 - d * x1 * x2 * y1 * y2 <> 0.
Proof.
  apply (complete_minus F 0 1 Fadd Fmul Fsub Fopp Fdiv Finv Hfield F_eq_dec d i i_square d_nonsquare two_nonzero).
Qed.
Lemma on_add x1 y1 x2 y2 : on x1 y1 -> on x2 y2 -> on (addx x1 y1 x2 y2) (addy x1 y1 x2 y2).
Proof.
  apply (add_on_curve F 0 1 Fadd Fmul Fsub Fopp Fdiv Finv Hfield F_eq_dec d i i_square d_nonsquare two_nonzero).
Qed.

Lemma fdiv_1 a : a / 1 = a.
Proof. field. exact one_neq_0. Qed.

(** Sums with points one of whose coordinates is zero. *)
Lemma addx_y0 x1 y1 x2 : addx x1 y1 x2 0 = y1 * x2.
Proof.
  unfold add_x. transitivity (y1 * x2 / 1); [f_equal; ring|]. apply fdiv_1.
Qed.
Lemma addy_y0 x1 y1 x2 : addy x1 y1 x2 0 = x1 * x2.
Proof. unfold add_y. transitivity (x1 * x2 / 1); [f_equal; ring|]. apply fdiv_1. Qed.
Lemma addx_x0 x1 y1 y2 : addx x1 y1 0 y2 = x1 * y2.
Proof. unfold add_x. transitivity (x1 * y2 / 1); [f_equal; ring|]. apply fdiv_1. Qed.
Lemma addy_x0 x1 y1 y2 : addy x1 y1 0 y2 = y1 * y2.
Proof. unfold add_y. transitivity (y1 * y2 / 1); [f_equal; ring|]. apply fdiv_1. Qed.
Lemma addx_comm x1 y1 x2 y2 : addx x1 y1 x2 y2 = addx x2 y2 x1 y1.
Proof. unfold add_x. f_equal; ring. Qed.
Lemma addy_comm x1 y1 x2 y2 : addy x1 y1 x2 y2 = addy x2 y2 x1 y1.
Proof. unfold add_y. f_equal; ring. Qed.

(** The points of E[4]. *)
Definition four_torsion (u v : F) : Prop :=
  (u = 0 /\ v = 1) \/ (u = 0 /\ v = - (1)) \/ (u = i /\ v = 0) \/ (u = - i /\ v = 0).

Lemma add_four_torsion x y u v :
  four_torsion u v -> on_coset x y (addx x y u v) (addy x y u v).
Proof.
  unfold on_coset.
  intros [[-> ->]|[[-> ->]|[[-> ->]|[-> ->]]]]; rewrite ?addx_x0, ?addy_x0, ?addx_y0, ?addy_y0.
  - left. split; ring.
  - right. left. split; ring.
  - right. right. left. split; ring.
  - right. right. right. split; ring.
Qed.

(** A point with a zero coordinate is in E[4]. *)
Lemma zero_coord x y : on x y -> x * y = 0 -> four_torsion x y.
Proof.
  intros C E. apply eon_to in C. apply fmul_zero in E. unfold four_torsion. destruct E as [-> | ->].
  - assert (E : y * y = 1 * 1) by (transitivity (y * y - 0 * 0); [ring|rewrite C; ring]).
    apply fsquares in E. tauto.
  - assert (E : x * x = i * i).
    { rewrite i_square. transitivity (- (0 * 0 - x * x)); [ring|]. rewrite C. ring. }
    apply fsquares in E. tauto.
Qed.
Lemma four_torsion_double u v : four_torsion u v -> addx u v u v = 0 /\ (addy u v u v = 1 \/ addy u v u v = - (1)).
Proof.
  intros [[-> ->]|[[-> ->]|[[-> ->]|[-> ->]]]]; rewrite ?addx_x0, ?addy_x0, ?addx_y0, ?addy_y0.
  - split; [ring|left; ring].
  - split; [ring|left; ring].
  - split; [ring|right]. exact i_square.
  - split; [ring|right]. transitivity (i * i); [ring|exact i_square].
Qed.

Lemma four_torsion_spec u v : four_torsion u v <-> on u v /\ u * v = 0.
Proof.
  split.
  - intros H. split.
    + apply eon_of. destruct H as [[-> ->]|[[-> ->]|[[-> ->]|[-> ->]]]]; try ring.
      * rewrite i_square. ring.
      * transitivity (- (i * i)); [ring|]. rewrite i_square. ring.
    + destruct H as [[-> ->]|[[-> ->]|[[-> ->]|[-> ->]]]]; ring.
  - intros [C E]. now apply zero_coord.
Qed.
Lemma four_torsion_add x y u v :
  four_torsion x y -> four_torsion u v -> four_torsion (addx x y u v) (addy x y u v).
Proof.
  intros H1 H2. apply four_torsion_spec in H1. apply four_torsion_spec in H2.
  destruct H1 as [C1 E1], H2 as [C2 E2]. apply four_torsion_spec.
  split; [now apply on_add|].
  apply fmul_zero in E1. apply fmul_zero in E2.
  destruct E2 as [-> | ->]; rewrite ?addx_x0, ?addy_x0, ?addx_y0, ?addy_y0; destruct E1 as [-> | ->]; ring.
Qed.
Lemma coset_four_torsion x y x' y' :
  on_coset x y x' y' -> exists u v, four_torsion u v /\ x' = addx x y u v /\ y' = addy x y u v.
Proof.
  intros [[-> ->]|[[-> ->]|[[-> ->]|[-> ->]]]].
  - exists 0, 1. split; [left; tauto|]. rewrite addx_x0, addy_x0. split; ring.
  - exists 0, (- (1)). split; [right; left; tauto|]. rewrite addx_x0, addy_x0. split; ring.
  - exists i, 0. split; [right; right; left; tauto|]. rewrite addx_y0, addy_y0. split; ring.
  - exists (- i), 0. split; [right; right; right; tauto|]. rewrite addx_y0, addy_y0. split; ring.
Qed.
Lemma four_torsion_four u v : four_torsion u v ->
  let x2 := addx u v u v in let y2 := addy u v u v in addx x2 y2 x2 y2 = 0 /\ addy x2 y2 x2 y2 = 1.
Proof.
  intros H. cbv zeta. destruct (four_torsion_double u v H) as [-> E]. rewrite addx_x0, addy_x0.
  destruct E as [-> | ->]; split; ring.
Qed.

(** Doubles have 1 + x^2 square. *)
Lemma g_double x y : on x y -> is_square (g (addx x y x y)).
Proof.
  intros C. destruct (F_eq_dec (g x) 0) as [E|E].
  - pose proof (g_zero x y C E) as ->. rewrite addx_y0. exists 1. unfold g. ring.
  - destruct (g_add x y x y C C E E) as [t Ht]. exists (t / g x).
    transitivity (t * t / (g x * g x)); [field; exact E|]. rewrite <- Ht. field. exact E.
Qed.

Lemma g_square_y0 x y : on x y -> y = 0 -> is_square (g x).
Proof.
  intros C Ey. apply eon_to in C. rewrite Ey in C. exists 0. unfold g.
  transitivity (1 + d * (x * x) * (0 * 0) - (0 * 0 - x * x)); [rewrite C; ring|ring].
Qed.
Lemma g_square_x0 x : x = 0 -> is_square (g x).
Proof. intros ->. exists 1. unfold g. ring. Qed.

(** Adding a point T of order 8 with 1 + x_T^2 not a square flips the quadratic character. *)
Lemma g_shift x y u v :
  on x y -> on u v -> u * u = - (v * v) -> ~ is_square (g u) -> is_square (g x) ->
  ~ is_square (g (addx x y u v)).
Proof.
  intros C Ct Eu Nt [w Hw] [r Hr].
  assert (Hgt : g u <> 0) by (intros E; apply Nt; exists 0; rewrite E; ring).
  destruct (F_eq_dec (g x) 0) as [E|E].
  - pose proof (g_zero x y C E) as Ey. rewrite Ey in *. apply Nt. exists r. rewrite Hr.
    rewrite addx_comm, addx_y0. unfold g.
    assert (Ex : x * x = - (1)) by (transitivity (g x - 1); [unfold g; ring|rewrite E; ring]).
    transitivity (1 + x * x * (v * v)); [ring|]. rewrite Ex, Eu. ring.
  - destruct (F_eq_dec r 0) as [Er|Hr0].
    + (* x + t is (+-i, 0), so x = (+-i, 0) - t *)
      assert (Eg : g (addx x y u v) = 0) by (rewrite <- Hr, Er; ring).
      pose proof (g_zero _ _ (on_add x y u v C Ct) Eg) as Ey.
      set (p := addx x y u v) in *.
      assert (Ep : p * p = - (1)) by (transitivity (g p - 1); [unfold g; ring|rewrite Eg; ring]).
      assert (Exx : x = addx p (addy x y u v) (- u) v).
      { unfold p. set (P := mkpoint F 1 Fadd Fmul Fsub F_eq_dec d x y C).
        set (T := mkpoint F 1 Fadd Fmul Fsub F_eq_dec d u v Ct).
        pose proof (padd_assoc F 0 1 Fadd Fmul Fsub Fopp Fdiv Finv Hfield F_eq_dec d i i_square d_nonsquare two_nonzero
          P T (popp F 0 1 Fadd Fmul Fsub Fopp Fdiv Finv Hfield F_eq_dec d T)) as A.
        rewrite (padd_comm F 0 1 Fadd Fmul Fsub Fopp Fdiv Finv Hfield F_eq_dec d i i_square d_nonsquare two_nonzero T
          (popp F 0 1 Fadd Fmul Fsub Fopp Fdiv Finv Hfield F_eq_dec d T)) in A.
        rewrite padd_opp_l in A.
        rewrite (padd_comm F 0 1 Fadd Fmul Fsub Fopp Fdiv Finv Hfield F_eq_dec d i i_square d_nonsquare two_nonzero P) in A.
        rewrite padd_zero_l in A.
        apply (f_equal (px F 1 Fadd Fmul Fsub F_eq_dec d)) in A. exact A. }
      rewrite Ey, addx_comm, addx_y0 in Exx.
      apply Nt. exists w. rewrite Hw. unfold g. rewrite Exx.
      transitivity (1 + p * p * (v * v)); [ring|]. rewrite Ep, Eu. ring.
    + destruct (g_add x y u v C Ct E Hgt) as [t Ht].
      assert (Hw0 : w <> 0) by (intros E0; apply E; rewrite <- Hw, E0; ring).
      apply Nt. exists (t / (w * r)).
      transitivity (t * t / (w * w * (r * r))); [field; tauto|]. rewrite <- Ht, Hw, <- Hr.
      field. rewrite <- Hw. split; [exact Hr0|]. now apply fmul_nonzero.
Qed.

Lemma four_torsion_opp u v : four_torsion u v -> four_torsion (- u) v.
Proof.
  assert (E0 : - 0 = 0) by ring. assert (Ei : - - i = i) by ring.
  intros [[-> ->]|[[-> ->]|[[-> ->]|[-> ->]]]]; unfold four_torsion; rewrite ?E0, ?Ei; tauto.
Qed.

(** [RistrettoPoint::ct_eq] on affine representatives (the code compares the projective
    coordinates, which multiplies both sides by the same non-zero factor). *)
Definition ct_eq_fe (x1 y1 x2 y2 : F) : bool := feqb (x1 * y2) (y1 * x2) || feqb (x1 * x2) (y1 * y2).

Lemma ct_eq_spec x1 y1 x2 y2 :
  on x1 y1 -> on x2 y2 ->
  (ct_eq_fe x1 y1 x2 y2 = true <-> four_torsion (addx x1 y1 (- x2) y2) (addy x1 y1 (- x2) y2)).
Proof.
  intros C1 C2. pose proof (on_opp _ _ C2) as C2'.
  pose proof (denom_plus _ _ _ _ C1 C2') as Hp. pose proof (denom_minus _ _ _ _ C1 C2') as Hm.
  assert (EX : addx x1 y1 (- x2) y2 = 0 <-> x1 * y2 = y1 * x2).
  { unfold add_x. split; intros E.
    - apply fsub_zero. transitivity ((x1 * y2 + y1 * - x2) / (1 + d * x1 * - x2 * y1 * y2)
        * (1 + d * x1 * - x2 * y1 * y2)); [field; exact Hp|]. rewrite E. ring.
    - transitivity ((x1 * y2 - y1 * x2) / (1 + d * x1 * - x2 * y1 * y2)); [f_equal; ring|].
      rewrite E. field. exact Hp. }
  assert (EY : addy x1 y1 (- x2) y2 = 0 <-> x1 * x2 = y1 * y2).
  { unfold add_y. split; intros E.
    - symmetry. apply fsub_zero. transitivity ((y1 * y2 + x1 * - x2) / (1 - d * x1 * - x2 * y1 * y2)
        * (1 - d * x1 * - x2 * y1 * y2)); [field; exact Hm|]. rewrite E. ring.
    - transitivity ((y1 * y2 - x1 * x2) / (1 - d * x1 * - x2 * y1 * y2)); [f_equal; ring|].
      rewrite E. field. exact Hm. }
  unfold ct_eq_fe. rewrite orb_true_iff, !feqb_eq, <- EX, <- EY. split.
  - intros H. apply zero_coord; [now apply on_add|]. destruct H as [-> | ->]; ring.
  - intros [[-> _]|[[-> _]|[[_ ->]|[_ ->]]]]; tauto.
Qed.

(** On projective coordinates. *)
Lemma ct_eq_projective X1 Y1 Z1 T1 x1 y1 X2 Y2 Z2 T2 x2 y2 :
  represents X1 Y1 Z1 T1 x1 y1 -> represents X2 Y2 Z2 T2 x2 y2 ->
  ct_eq_fe X1 Y1 X2 Y2 = ct_eq_fe x1 y1 x2 y2.
Proof.
  intros (H1 & -> & -> & _) (H2 & -> & -> & _).
  assert (K : forall a b, feqb (a * (Z1 * Z2)) (b * (Z1 * Z2)) = feqb a b).
  { intros a b. apply eq_true_iff_eq. rewrite !feqb_eq. split; [|now intros ->].
    intros E. transitivity (a * (Z1 * Z2) / (Z1 * Z2)); [field; tauto|]. rewrite E. field. tauto. }
  unfold ct_eq_fe. rewrite <- (K (x1 * y2)), <- (K (x1 * x2)).
  f_equal; f_equal; ring.
Qed.
End Ristretto.
