(** * ristretto255.

    [RistrettoPoint] is a class of edwards25519 points modulo the 4-torsion, represented in the code
    by any point of 2E in the class.  Each class has exactly one representative in the subgroup of
    order l, and that is what [rpoint] holds: [proj] computes it (it is multiplication by a number
    that is 1 modulo l and 0 modulo 8) and [ris_encode_class] shows that encoding does not depend on
    the representative.  Encoding, decoding and the map are those of RistrettoGen.v, which follow
    curve25519-dalek and RFC 9496, on the field of Ed25519.v. *)
From Coq Require Import ZArith Znumtheory NArith Lia Field Ring Bool List Eqdep_dec.
From Verif.Base Require Import Bytes.
From Verif.Curve Require Import NumTheory Primes Zmod Edwards Abelian Ed25519 Ed25519Points
  Ed25519Subgroup Ed25519Structure RistrettoGen.
Import ListNotations.
Local Open Scope Z_scope.

(** ** Facts about the square root function *)

Lemma sqrt_ratio_den_0 u v : v = f0 -> snd (sqrt_ratio_i u v) = f0.
Proof.
  intros E. unfold sqrt_ratio_i. cbv zeta. cbn [snd].
  assert (E1 : forall t, (u * (v * v * v) * t = f0)%fe) by (intros t; rewrite E; ring). rewrite E1.
  assert (E2 : (sqrtm1 * f0 = f0)%fe) by ring. rewrite E2.
  match goal with |- context [if ?c then f0 else f0] => destruct c end; rewrite is_negative_0; reflexivity.
Qed.

Lemma quarter_exponent : Pos.mul 4 (1 + e_p58 * 2) = Pos.mul half_p1 2.
Proof. reflexivity. Qed.

(** On a non-square ratio the result is a root of i u/v. *)
Lemma nonsquare_aux (u v c r0 : fe) :
  u <> f0 -> (v * (r0 * r0) = u * c)%fe -> (c * c * (c * c) = f1)%fe ->
  (feq (v * (r0 * r0)) u || feq (v * (r0 * r0)) (- u))%fe%bool = false ->
  (v * ((if feq (v * (r0 * r0)) (- u) || feq (v * (r0 * r0)) (- u * sqrtm1) then sqrtm1 * r0 else r0)
        * (if feq (v * (r0 * r0)) (- u) || feq (v * (r0 * r0)) (- u * sqrtm1) then sqrtm1 * r0 else r0))
   = sqrtm1 * u)%fe%bool.
Proof.
  intros Hu Hck Hc Hno. apply orb_false_iff in Hno. destruct Hno as [N1 N2]. rewrite N2. cbn [orb].
  destruct (feq (v * (r0 * r0))%fe (- u * sqrtm1)%fe) eqn:Ei.
  - apply feq_eq in Ei. transitivity ((sqrtm1 * sqrtm1) * (v * (r0 * r0)))%fe; [ring|].
    rewrite Ei, sqrtm1_square. ring.
  - (* c^4 = 1 and c is none of 1, -1, -i *)
    apply square_is_one in Hc. rewrite Hck in *. destruct Hc as [Hc|Hc].
    + apply square_is_one in Hc. exfalso. destruct Hc as [-> | ->].
      * assert (E : (u * f1 = u)%fe) by ring. apply feq_eq in E. congruence.
      * assert (E : (u * - f1 = - u)%fe) by ring. apply feq_eq in E. congruence.
    + rewrite <- sqrtm1_square in Hc.
      assert (E : ((c - sqrtm1) * (c + sqrtm1))%fe = f0)
        by (transitivity (c * c - sqrtm1 * sqrtm1)%fe; [ring|rewrite Hc; ring]).
      apply (mul_zero fe f0 f1 fadd fmul fsub fopp fdiv finv fe_field fe_eq_dec) in E.
      destruct E as [E|E].
      * assert (Ec : c = sqrtm1) by (transitivity (c - sqrtm1 + sqrtm1)%fe; [ring|rewrite E; ring]).
        rewrite Ec. ring.
      * exfalso. assert (Ec : c = (- sqrtm1)%fe) by (transitivity (c + sqrtm1 - sqrtm1)%fe; [ring|rewrite E; ring]).
        assert (E' : (u * c = - u * sqrtm1)%fe) by (rewrite Ec; ring). apply feq_eq in E'. congruence.
Qed.

Lemma sqrt_ratio_nonsquare u v r :
  v <> f0 -> sqrt_ratio_i u v = (false, r) -> (v * (r * r) = sqrtm1 * u)%fe.
Proof.
  intros Hv. unfold sqrt_ratio_i. cbv zeta.
  set (w := (u * (v * v * v * (v * v * v) * v))%fe).
  set (r0 := (u * (v * v * v) * fpow w e_p58)%fe).
  intros H. injection H as Hno Hr.
  set (c := (w * fpow w (e_p58 * 2))%fe).
  assert (Hck : (v * (r0 * r0) = u * c)%fe).
  { unfold r0, c. rewrite fpow_mul, fpow_2. generalize (fpow w e_p58). intros t. unfold w. ring. }
  assert (Hu : u <> f0).
  { intros E. rewrite E in Hck. assert (E0 : (v * (r0 * r0) = u)%fe) by (rewrite Hck, E; ring).
    apply feq_eq in E0. rewrite E0 in Hno. discriminate Hno. }
  assert (Hw : w <> f0).
  { unfold w.
    repeat apply (mul_nonzero fe f0 f1 fadd fmul fsub fopp fdiv finv fe_field fe_eq_dec); assumption. }
  assert (Hc : (c * c * (c * c) = f1)%fe).
  { assert (Ep : c = fpow w (1 + e_p58 * 2)) by (unfold c; now rewrite fpow_add).
    rewrite <- fpow_2, <- fpow_2, <- fpow_mul, Ep, <- fpow_mul.
    change (2 * 2)%positive with 4%positive. rewrite Pos.mul_comm, quarter_exponent.
    exact (fermat_fe w Hw). }
  clearbody c r0. rewrite <- Hr.
  assert (Habs : forall t : fe, (v * ((if is_negative t then - t else t) * (if is_negative t then - t else t))
                           = v * (t * t))%fe) by (intros t; destruct (is_negative t); ring).
  rewrite Habs. now apply (nonsquare_aux u v c r0).
Qed.

(** ** Constants: RFC 9496 section 4.1 *)
Definition invsqrt_a_minus_d : fe :=
  fof 54469307008909316920995813868745141605393597292927456921205312896311721017578.
Definition sqrt_ad_minus_one : fe :=
  fof 25063068953384623474111414158702152701244531502492656460079210482610430750235.
Lemma magic_square : (invsqrt_a_minus_d * invsqrt_a_minus_d * (- f1 - ed_d) = f1)%fe.
Proof. apply fe_ext. vm_compute. reflexivity. Qed.
Lemma sqrt_ad_square : (sqrt_ad_minus_one * sqrt_ad_minus_one = - ed_d - f1)%fe.
Proof. apply fe_ext. vm_compute. reflexivity. Qed.

(** ** The functions, on this field *)
Definition ris_encode_fe : fe -> fe -> fe -> fe -> fe :=
  encode_fe fe f1 fadd fmul fsub fopp sqrtm1 is_negative sqrt_ratio_i invsqrt_a_minus_d.
Definition ris_decode_fe : fe -> option (fe * fe) :=
  decode_fe fe f0 f1 fadd fmul fsub fopp fe_eq_dec ed_d is_negative sqrt_ratio_i.
Definition ris_elligator : fe -> fe * fe :=
  elligator fe f1 fadd fmul fsub fopp fdiv ed_d sqrtm1 is_negative sqrt_ratio_i sqrt_ad_minus_one.
Definition ris_ct_eq : fe -> fe -> fe -> fe -> bool := ct_eq_fe fe fmul fe_eq_dec.

(** [FieldElement::as_bytes] and [FieldElement::from_bytes] *)
Definition fe_bytes (x : fe) : bytes := le_bytes 32 (Z.to_N (fval x)).
Definition fe_of_bytes (b : bytes) : fe := fof (Z.of_N (le_val b) mod 2 ^ 255).

Notation enc := (encodes fe f0 f1 fadd fmul fsub fopp sqrtm1 is_negative).
Notation coset := (on_coset fe fmul fopp sqrtm1).
Notation sq := (is_square fe fmul).
Notation gg := (RistrettoGen.g fe f1 fadd fmul).
Notation rep := (RistrettoGen.represents fe f0 fmul).
Notation tors4 := (four_torsion fe f0 f1 fopp sqrtm1).

Lemma enc_correct X Y Z T x y : rep X Y Z T x y -> eon x y -> sq (gg x) -> enc x y (ris_encode_fe X Y Z T).
Proof.
  exact (encode_correct fe f0 f1 fadd fmul fsub fopp fdiv finv fe_field fe_eq_dec ed_d sqrtm1 is_negative
    sqrt_ratio_i invsqrt_a_minus_d sqrtm1_square is_negative_0 is_negative_opp sqrt_ratio_sound
    sqrt_ratio_complete sqrt_ratio_den_0 magic_square X Y Z T x y).
Qed.
Lemma enc_unique x y s s' : eon x y -> enc x y s -> enc x y s' -> s = s'.
Proof.
  exact (encodes_unique fe f0 f1 fadd fmul fsub fopp fdiv finv fe_field fe_eq_dec ed_d sqrtm1 is_negative
    invsqrt_a_minus_d sqrtm1_square is_negative_opp magic_square x y s s').
Qed.
Lemma enc_coset x y x' y' s : coset x y x' y' -> enc x y s -> enc x' y' s.
Proof.
  exact (encodes_coset fe f0 f1 fadd fmul fsub fopp fdiv finv fe_field sqrtm1 is_negative sqrtm1_square
    x y x' y' s).
Qed.
Lemma dec_sound s x y :
  is_negative s = false -> ris_decode_fe s = Some (x, y) ->
  eon x y /\ enc x y s /\ (fmul x y = f0 -> x = f0 /\ y = f1) /\
  (fmul x y <> f0 -> canonical fe f0 fmul is_negative x y).
Proof.
  exact (decode_sound fe f0 f1 fadd fmul fsub fopp fdiv finv fe_field fe_eq_dec ed_d sqrtm1 is_negative
    sqrt_ratio_i f2_nonzero is_negative_0 is_negative_opp sqrt_ratio_sound s x y).
Qed.
Lemma dec_complete x y s :
  eon x y -> canonical fe f0 fmul is_negative x y -> (s * s * (f1 + y) = f1 - y)%fe ->
  ris_decode_fe s = Some (x, y).
Proof.
  exact (decode_complete fe f0 f1 fadd fmul fsub fopp fdiv finv fe_field fe_eq_dec ed_d is_negative
    sqrt_ratio_i invsqrt_a_minus_d f2_nonzero is_negative_0 is_negative_opp sqrt_ratio_sound
    sqrt_ratio_complete magic_square x y s).
Qed.
Lemma dec_zero : ris_decode_fe f0 = Some (f0, f1).
Proof.
  exact (decode_zero fe f0 f1 fadd fmul fsub fopp fdiv finv fe_field fe_eq_dec ed_d is_negative
    sqrt_ratio_i invsqrt_a_minus_d is_negative_0 sqrt_ratio_sound sqrt_ratio_complete magic_square).
Qed.
Lemma elligator_point r_0 :
  let '(x, y) := ris_elligator r_0 in
  eon x y /\ (exists s, (s * s * (f1 + y) = f1 - y)%fe) /\ (f1 + y)%fe <> f0.
Proof.
  exact (elligator_on fe f0 f1 fadd fmul fsub fopp fdiv finv fe_field fe_eq_dec ed_d sqrtm1 is_negative
    sqrt_ratio_i invsqrt_a_minus_d sqrt_ad_minus_one sqrtm1_square ed_d_nonsquare f2_nonzero is_negative_0
    sqrt_ratio_sound sqrt_ratio_den_0 sqrt_ratio_nonsquare magic_square sqrt_ad_square r_0).
Qed.
Lemma elligator_spec r_0 x y :
  ris_elligator r_0 = (x, y)
  <-> elligator_image fe f0 f1 fadd fmul fsub fopp ed_d sqrtm1 is_negative sqrt_ad_minus_one r_0 x y.
Proof.
  exact (elligator_image_iff fe f0 f1 fadd fmul fsub fopp fdiv finv fe_field fe_eq_dec ed_d sqrtm1 is_negative
    sqrt_ratio_i invsqrt_a_minus_d sqrt_ad_minus_one sqrtm1_square ed_d_nonsquare is_negative_0
    is_negative_opp sqrt_ratio_sound sqrt_ratio_complete sqrt_ratio_den_0 sqrt_ratio_nonsquare magic_square
    sqrt_ad_square r_0 x y).
Qed.
Lemma gg_square x y s : eon x y -> (s * s * (f1 + y) = f1 - y)%fe -> y <> f0 -> sq (gg x).
Proof.
  exact (g_square_of_s fe f0 f1 fadd fmul fsub fopp fdiv finv fe_field fe_eq_dec ed_d invsqrt_a_minus_d
    magic_square x y s).
Qed.

Lemma ex_eadd P Q : ex (eadd P Q) = add_x fe f1 fadd fmul fdiv ed_d (ex P) (ey P) (ex Q) (ey Q).
Proof. reflexivity. Qed.
Lemma ey_eadd P Q : ey (eadd P Q) = add_y fe f1 fadd fmul fsub fdiv ed_d (ex P) (ey P) (ex Q) (ey Q).
Proof. reflexivity. Qed.
Lemma ex_eopp P : ex (eopp P) = fopp (ex P).
Proof. reflexivity. Qed.
Lemma ey_eopp P : ey (eopp P) = ey P.
Proof. reflexivity. Qed.
Lemma ex_ezero : ex ezero = f0.
Proof. reflexivity. Qed.
Lemma ey_ezero : ey ezero = f1.
Proof. reflexivity. Qed.

Lemma gg_double P : sq (gg (ex (eadd P P))).
Proof.
  rewrite ex_eadd.
  exact (g_double fe f0 f1 fadd fmul fsub fopp fdiv finv fe_field fe_eq_dec ed_d sqrtm1 invsqrt_a_minus_d
    sqrtm1_square ed_d_nonsquare f2_nonzero magic_square (ex P) (ey P) (epoint_on P)).
Qed.

(** ** 1 + x^2 for the point of order 8 is not a square (Euler's criterion). *)
Definition gT : Z := 4196135079332955596441868296480342555537925119160685767609494648585856920925.
Definition gT_hints : list Z := Eval vm_compute in snd (hints gT p25519 half_p1).
Lemma gT_euler_b : (hpow gT p25519 half_p1 gT_hints =? p25519 - 1) = true.
Proof. vm_cast_no_check (eq_refl true). Qed.
Lemma gT_eq : gg (fof T8x) = fof gT.
Proof. apply fe_ext. vm_compute. reflexivity. Qed.
Lemma T_xy : (fof T8x * fof T8x = - (fof T8y * fof T8y))%fe.
Proof. apply fe_ext. vm_compute. reflexivity. Qed.

(** Euler's criterion, with the constant abstracted. *)
Lemma euler_nonsquare n z :
  fof n <> f0 -> hpow n p25519 half_p1 gT_hints = p25519 - 1 -> (z * z)%fe <> fof n.
Proof.
  intros Hn He E.
  assert (Hz : z <> f0).
  { intros Ez. apply Hn. rewrite <- E, Ez. ring. }
  pose proof (fermat_fe z Hz) as H.
  rewrite Pos.mul_comm, fpow_mul, fpow_2, E in H.
  apply (f_equal fval) in H. rewrite fpow_val, fval_fof in H.
  rewrite <- Zpow_facts.Zpower_mod in H by reflexivity.
  rewrite <- (hpow_spec n p25519 half_p1 gT_hints), He in H.
  vm_compute in H. discriminate H.
Qed.
Lemma gT_nonzero : fof gT <> f0.
Proof. intros E. apply (f_equal fval) in E. vm_compute in E. discriminate E. Qed.
Lemma gT_nonsquare : ~ sq (gg (ex ed_T)).
Proof.
  change (ex ed_T) with (fof T8x). rewrite gT_eq. intros [z Hz].
  apply (euler_nonsquare gT z gT_nonzero (proj1 (Z.eqb_eq _ _) gT_euler_b) Hz).
Qed.

Lemma gg_shift P : sq (gg (ex P)) -> ~ sq (gg (ex (eadd P ed_T))).
Proof.
  rewrite ex_eadd. intros H.
  refine (g_shift fe f0 f1 fadd fmul fsub fopp fdiv finv fe_field fe_eq_dec ed_d sqrtm1 invsqrt_a_minus_d
    sqrtm1_square ed_d_nonsquare f2_nonzero magic_square (ex P) (ey P) (ex ed_T) (ey ed_T)
    (epoint_on P) (epoint_on ed_T) _ gT_nonsquare H).
  change (ex ed_T) with (fof T8x). change (ey ed_T) with (fof T8y). exact T_xy.
Qed.

(** ** The subgroup of order l, in the abstract *)
Section Quotient.
Context (G : Type) (op : G -> G -> G) (zero : G) (opp : G -> G).
Context (laws : abelian_laws G op zero opp).
Notation mul := (smul op zero opp).
Context (l kp a b : Z) (Hkp1 : kp = 1 + a * l) (Hkp8 : kp = 8 * b).
Context (B T : G) (HB : mul l B = zero) (HT : mul 8 T = zero).

Lemma proj_fixed P : mul l P = zero -> mul kp P = P.
Proof.
  intros H. rewrite Hkp1, (smul_add _ _ _ _ laws), (smul_mul _ _ _ _ laws), H, (smul_zero _ _ _ _ laws).
  rewrite (smul_1 G op zero opp P). apply (zero_r _ _ _ _ laws).
Qed.
Lemma proj_split k j : mul kp (op (mul k B) (mul j T)) = mul k B.
Proof.
  rewrite (smul_op _ _ _ _ laws), (proj_fixed (mul k B)) by now apply (torsion_smul _ _ _ _ laws).
  rewrite Hkp8 at 1. rewrite (Z.mul_comm 8 b), (smul_mul _ _ _ _ laws b 8), (smul_comm _ _ _ _ laws 8 j), HT.
  rewrite !(smul_zero _ _ _ _ laws). apply (zero_r _ _ _ _ laws).
Qed.
Lemma killed_multiple k : mul l (mul k B) = zero.
Proof. now apply (torsion_smul _ _ _ _ laws). Qed.
Lemma killed_proj k j : mul l (mul kp (op (mul k B) (mul j T))) = zero.
Proof. rewrite proj_split. apply killed_multiple. Qed.
(** Odd l: an element of the subgroup is a double. *)
Context (h : Z) (Hh : l = 2 * h + 1).
Lemma killed_double P : mul l P = zero -> P = op (mul (h + 1) P) (mul (h + 1) P).
Proof.
  intros H. rewrite <- (smul_add _ _ _ _ laws). replace (h + 1 + (h + 1)) with (l + 1) by lia.
  rewrite (smul_add _ _ _ _ laws), H, (ab_zero _ _ _ _ laws). reflexivity.
Qed.
Lemma even_double k j : op (mul k B) (mul (j + j) T) =
  op (op (mul ((h + 1) * k) B) (mul j T)) (op (mul ((h + 1) * k) B) (mul j T)).
Proof.
  rewrite (smul_add _ _ _ _ laws j j).
  rewrite (killed_double (mul k B)) at 1 by apply killed_multiple.
  rewrite (smul_mul _ _ _ _ laws (h + 1) k).
  rewrite <- !(ab_assoc _ _ _ _ laws). f_equal. apply (op_swap _ _ _ _ laws).
Qed.
Lemma odd_split k j : op (mul k B) (mul (j + j + 1) T) = op (op (mul k B) (mul (j + j) T)) T.
Proof.
  rewrite (smul_add _ _ _ _ laws (j + j) 1), (smul_1 G op zero opp T). apply (ab_assoc _ _ _ _ laws).
Qed.
Lemma killed_4_l P : mul 4 P = zero -> mul l P = zero -> P = zero.
Proof.
  intros H4 Hl. rewrite <- (proj_fixed P Hl), Hkp8. replace (8 * b) with (2 * b * 4) by ring.
  rewrite (smul_mul _ _ _ _ laws (2 * b) 4), H4. apply (smul_zero _ _ _ _ laws).
Qed.
End Quotient.

Definition kproj : Z := 8 * 2713877091499598330239944961141122840321418634767465352250731601857045344121.
Definition proj (P : epoint) : epoint := emul kproj P.
Definition ell_half : Z := Z.div2 ell.
Lemma kproj_1 : kproj = 1 + 3 * ell. Proof. reflexivity. Qed.
Lemma ell_half_eq : ell = 2 * ell_half + 1. Proof. reflexivity. Qed.

(** [f] stands for [emul], so that the kernel never evaluates multiples. *)
Section WithMul.
Context (f : Z -> epoint -> epoint) (Hf : f = smul eadd ezero eopp).

Lemma f_proj_fixed P : f ell P = ezero -> f kproj P = P.
Proof. subst f. exact (proj_fixed epoint eadd ezero eopp ed_laws ell kproj 3 kproj_1 P). Qed.
Lemma f_killed_4 P : f 4 P = ezero -> f ell P = ezero -> P = ezero.
Proof.
  subst f. exact (killed_4_l epoint eadd ezero eopp ed_laws ell kproj 3 _ kproj_1 eq_refl P).
Qed.
Lemma f_killed_square P : f ell P = ezero -> sq (gg (ex P)).
Proof.
  intros H. subst f.
  rewrite (killed_double epoint eadd ezero eopp ed_laws ell ell_half ell_half_eq P H). apply gg_double.
Qed.

Context (HB : f ell ed_B = ezero).
Lemma f_even_square k j : sq (gg (ex (eadd (f k ed_B) (f (j + j) ed_T)))).
Proof.
  subst f. rewrite (even_double epoint eadd ezero eopp ed_laws ell ed_B ed_T HB ell_half ell_half_eq k j).
  apply gg_double.
Qed.
Context (HT : f 8 ed_T = ezero).
Lemma f_even_proj k j : f kproj (eadd (f k ed_B) (f j ed_T)) = f k ed_B.
Proof.
  subst f. exact (proj_split epoint eadd ezero eopp ed_laws ell kproj 3 _ kproj_1 eq_refl ed_B ed_T HB HT k j).
Qed.
Context (Hst : forall Q, exists k j, 0 <= k < ell /\ 0 <= j < 8 /\ Q = eadd (f k ed_B) (f j ed_T)).
Lemma f_proj_killed Q : f ell (f kproj Q) = ezero.
Proof.
  destruct (Hst Q) as (k & j & _ & _ & ->). subst f.
  exact (killed_proj epoint eadd ezero eopp ed_laws ell kproj 3 _ kproj_1 eq_refl ed_B ed_T HB HT k j).
Qed.
(** A point with 1 + x^2 square has an even component on T. *)
Lemma f_square_even Q :
  sq (gg (ex Q)) -> exists k j, 0 <= j < 4 /\ Q = eadd (f k ed_B) (f (j + j) ed_T).
Proof.
  intros H. destruct (Hst Q) as (k & j & _ & Hj & E).
  destruct (Z.Even_or_Odd j) as [[j' Ej]|[j' Ej]].
  - exists k, j'. split; [lia|]. replace (j' + j') with j by lia. exact E.
  - exfalso. revert H. rewrite E. replace j with (j' + j' + 1) by lia. subst f.
    rewrite (odd_split epoint eadd ezero eopp ed_laws ed_B ed_T k j').
    apply gg_shift.
    rewrite (even_double epoint eadd ezero eopp ed_laws ell ed_B ed_T HB ell_half ell_half_eq k j').
    apply gg_double.
Qed.
End WithMul.

Lemma proj_killed Q : emul ell (proj Q) = ezero.
Proof. exact (f_proj_killed emul eq_refl ell_B eight_T ed_structure Q). Qed.
Lemma proj_fix P : emul ell P = ezero -> proj P = P.
Proof. exact (f_proj_fixed emul eq_refl P). Qed.
Lemma killed_4 P : emul 4 P = ezero -> emul ell P = ezero -> P = ezero.
Proof. exact (f_killed_4 emul eq_refl P). Qed.
Lemma killed_square P : emul ell P = ezero -> sq (gg (ex P)).
Proof. exact (f_killed_square emul eq_refl P). Qed.
Lemma square_even Q : sq (gg (ex Q)) -> exists k j, 0 <= j < 4 /\ Q = eadd (emul k ed_B) (emul (j + j) ed_T).
Proof. exact (f_square_even emul eq_refl ell_B eight_T ed_structure Q). Qed.
Lemma even_proj k j : proj (eadd (emul k ed_B) (emul j ed_T)) = emul k ed_B.
Proof. exact (f_even_proj emul eq_refl ell_B eight_T k j). Qed.
Lemma even_square k j : sq (gg (ex (eadd (emul k ed_B) (emul (j + j) ed_T)))).
Proof. exact (f_even_square emul eq_refl ell_B k j). Qed.
