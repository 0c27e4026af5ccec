(** * edwards25519: field, group, point compression.

    The code uses curve25519-dalek for this ([EdwardsPoint], [CompressedEdwardsY], [Scalar]),
    which is a dependency and not part of /repo.  The definitions below follow RFC 8032 section 5.1
    and, for decompression, the published behaviour of curve25519-dalek 4
    ([CompressedEdwardsY::decompress] with [FieldElement::sqrt_ratio_i]): bit 255 is the sign bit,
    the remaining 255 bits are reduced modulo p (so values in [p, 2^255) are accepted), and
    x = 0 with the sign bit set is accepted. *)
From Coq Require Import ZArith Znumtheory NArith Lia Field Ring Bool List.
From Verif.Base Require Import Bytes.
From Verif.Curve Require Import NumTheory Primes Zmod Edwards Abelian.
Import ListNotations.
Local Open Scope Z_scope.

Lemma p_gt_1 : 1 < p25519.
Proof. reflexivity. Qed.

Lemma p_odd : Z.odd p25519 = true.
Proof. reflexivity. Qed.

Lemma p_lt_255 : p25519 < 2 ^ 255.
Proof. reflexivity. Qed.

(** ** The base field *)

Definition fe := zmod p25519.
Definition fof (z : Z) : fe := of_Z p25519 p_gt_1 z.
Definition fval (x : fe) : Z := val p25519 x.
Definition f0 : fe := zzero p25519 p_gt_1.
Definition f1 : fe := zone p25519 p_gt_1.
Definition fadd : fe -> fe -> fe := zadd p25519 p_gt_1.
Definition fmul : fe -> fe -> fe := zmul p25519 p_gt_1.
Definition fsub : fe -> fe -> fe := zsub p25519 p_gt_1.
Definition fopp : fe -> fe := zopp p25519 p_gt_1.
Definition fdiv : fe -> fe -> fe := zdiv p25519 p_gt_1.
Definition finv : fe -> fe := zinv p25519 p_gt_1.
Definition fpow : fe -> positive -> fe := zpow p25519 p_gt_1.
Definition fe_eq_dec : forall x y : fe, {x = y} + {x <> y} := zmod_eq_dec p25519.

Lemma fe_field : field_theory f0 f1 fadd fmul fsub fopp fdiv finv (@eq fe).
Proof. exact (zmod_field p25519 p_gt_1 prime_p25519). Qed.
Add Field fe_field_inst : fe_field.

Lemma fe_ext x y : fval x = fval y -> x = y.
Proof. apply zmod_ext. Qed.
Lemma fval_range x : 0 <= fval x < p25519.
Proof. apply (val_range p25519 p_gt_1). Qed.
Lemma fof_fval x : fof (fval x) = x.
Proof. apply (of_Z_val p25519 p_gt_1). Qed.
Lemma fval_fof z : fval (fof z) = z mod p25519.
Proof. reflexivity. Qed.
Lemma fval_fof_small z : 0 <= z < p25519 -> fval (fof z) = z.
Proof. apply (val_of_Z_small p25519 p_gt_1). Qed.
Lemma fof_add a b : fof (a + b) = fadd (fof a) (fof b).
Proof. apply (of_Z_add p25519 p_gt_1). Qed.
Lemma fof_mul a b : fof (a * b) = fmul (fof a) (fof b).
Proof. apply (of_Z_mul p25519 p_gt_1). Qed.
Lemma fof_sub a b : fof (a - b) = fsub (fof a) (fof b).
Proof. apply (of_Z_sub p25519 p_gt_1). Qed.
Lemma fof_opp a : fof (- a) = fopp (fof a).
Proof. apply (of_Z_opp p25519 p_gt_1). Qed.
Lemma fof_eq a b : fof a = fof b <-> a mod p25519 = b mod p25519.
Proof. apply (of_Z_eq p25519 p_gt_1). Qed.

Declare Scope fe_scope.
Delimit Scope fe_scope with fe.
Infix "+" := fadd : fe_scope.
Infix "*" := fmul : fe_scope.
Infix "-" := fsub : fe_scope.
Infix "/" := fdiv : fe_scope.
Notation "- x" := (fopp x) : fe_scope.

(** The curve constant d = -121665/121666 and a square root of -1 (RFC 8032 section 5.1). *)
Definition d_Z : Z := 37095705934669439343138083508754565189542113879843219016388785533085940283555.
Definition ed_d : fe := fof d_Z.
Definition sqrtm1_Z : Z := 19681161376707505956807079304988542015446066515923890162744021073123829784752.
Definition sqrtm1 : fe := fof sqrtm1_Z.

Lemma ed_d_eq : (ed_d * fof 121666 = fopp (fof 121665))%fe.
Proof. apply fe_ext. vm_compute. reflexivity. Qed.

Lemma sqrtm1_square : (sqrtm1 * sqrtm1 = - f1)%fe.
Proof. apply fe_ext. vm_compute. reflexivity. Qed.

Lemma f2_nonzero : (f1 + f1)%fe <> f0.
Proof. intros E. apply (f_equal fval) in E. vm_compute in E. discriminate. Qed.

Definition half_p1 : positive :=
  28948022309329048855892746252171976963317496166410141009864396001978282409974.

Lemma half_p1_eq : 2 * Z.pos half_p1 = p25519 - 1.
Proof. reflexivity. Qed.

(** 121665 * 121666 is a quadratic non-residue (Euler's criterion, evaluated by the kernel). *)
Definition nonres : Z := 121665 * 121666.
Definition nonres_hints : list Z := Eval vm_compute in snd (hints nonres p25519 half_p1).
Lemma nonres_euler_b : (hpow nonres p25519 half_p1 nonres_hints =? p25519 - 1) = true.
Proof. vm_cast_no_check (eq_refl true). Qed.
Lemma nonres_euler : hpow nonres p25519 half_p1 nonres_hints = p25519 - 1.
Proof. apply Z.eqb_eq. exact nonres_euler_b. Qed.

Lemma fpow_val x e : fval (fpow x e) = fval x ^ Z.pos e mod p25519.
Proof. apply (zpow_val p25519 p_gt_1). Qed.
Lemma fpow_add x a b : fpow x (a + b) = (fpow x a * fpow x b)%fe.
Proof. apply (zpow_add p25519 p_gt_1). Qed.
Lemma fpow_mul x a b : fpow x (a * b) = fpow (fpow x a) b.
Proof. apply (zpow_mul p25519 p_gt_1). Qed.
Lemma fpow_fmul x y e : fpow (x * y)%fe e = (fpow x e * fpow y e)%fe.
Proof. apply (zpow_zmul p25519 p_gt_1). Qed.
Lemma fpow_2 x : fpow x 2 = (x * x)%fe.
Proof. reflexivity. Qed.
Lemma fermat_fe x : x <> f0 -> fpow x (half_p1 * 2) = f1.
Proof. apply (zpow_fermat p25519 p_gt_1 prime_p25519). reflexivity. Qed.

Lemma f1_neq_0 : f1 <> f0.
Proof. exact (zone_neq_zzero p25519 p_gt_1). Qed.

Lemma nonres_nonsquare z : (z * z)%fe <> fof nonres.
Proof.
  intros E.
  assert (Hz : z <> f0).
  { intros ->. apply (f_equal fval) in E. vm_compute in E. discriminate. }
  pose proof (fermat_fe z Hz) as H.
  rewrite Pos.mul_comm, fpow_mul, fpow_2, E in H.
  apply (f_equal fval) in H. rewrite fpow_val, fval_fof in H.
  rewrite <- Zpow_facts.Zpower_mod in H by reflexivity.
  rewrite <- (hpow_spec nonres p25519 half_p1 nonres_hints), nonres_euler in H.
  vm_compute in H. discriminate.
Qed.

Lemma ed_d_nonsquare z : (z * z)%fe <> ed_d.
Proof.
  intros E. apply (nonres_nonsquare (z * fof 121666 * sqrtm1)%fe).
  transitivity ((z * z) * fof 121666 * fof 121666 * (sqrtm1 * sqrtm1))%fe; [ring|].
  rewrite E, ed_d_eq, sqrtm1_square. unfold nonres. rewrite fof_mul. ring.
Qed.

(** ** The group *)

Definition epoint := point fe f1 fadd fmul fsub fe_eq_dec ed_d.
Definition ex : epoint -> fe := px fe f1 fadd fmul fsub fe_eq_dec ed_d.
Definition ey : epoint -> fe := py fe f1 fadd fmul fsub fe_eq_dec ed_d.
Definition eon (x y : fe) : Prop := on_curve fe f1 fadd fmul fsub ed_d x y.
Definition eonb (x y : fe) : bool := on_curveb fe f1 fadd fmul fsub fe_eq_dec ed_d x y.
Definition ept (x y : fe) (H : eonb x y = true) : epoint :=
  Pt fe f1 fadd fmul fsub fe_eq_dec ed_d x y H.
Definition eadd : epoint -> epoint -> epoint :=
  padd fe f0 f1 fadd fmul fsub fopp fdiv finv fe_field fe_eq_dec ed_d sqrtm1
    sqrtm1_square ed_d_nonsquare f2_nonzero.
Definition ezero : epoint := pzero fe f0 f1 fadd fmul fsub fopp fdiv finv fe_field fe_eq_dec ed_d.
Definition eopp : epoint -> epoint :=
  popp fe f0 f1 fadd fmul fsub fopp fdiv finv fe_field fe_eq_dec ed_d.
Definition epoint_eq_dec : forall P Q : epoint, {P = Q} + {P <> Q} :=
  point_eq_dec fe f1 fadd fmul fsub fe_eq_dec ed_d.

Lemma eonb_spec x y : eonb x y = true <-> eon x y.
Proof. apply on_curveb_spec. Qed.
Lemma eon_eq x y : eon x y <-> (y * y - x * x = f1 + ed_d * (x * x) * (y * y))%fe.
Proof. reflexivity. Qed.
Lemma epoint_ext P Q : ex P = ex Q -> ey P = ey Q -> P = Q.
Proof. apply point_ext. Qed.
Lemma epoint_on P : eon (ex P) (ey P).
Proof. apply p_on. Qed.

Lemma ed_laws : abelian_laws epoint eadd ezero eopp.
Proof.
  split.
  - apply padd_comm.
  - apply padd_assoc.
  - apply padd_zero_l.
  - apply padd_opp_l.
Qed.

(** Scalar multiplication by an integer. *)
Definition emul (n : Z) (P : epoint) : epoint := smul eadd ezero eopp n P.

(** ** Square roots and decompression *)

(** curve25519-dalek [FieldElement::is_negative]: the low bit of the canonical encoding. *)
Definition is_negative (x : fe) : bool := Z.odd (fval x).

Definition feq (x y : fe) : bool := if fe_eq_dec x y then true else false.
Lemma feq_eq x y : feq x y = true <-> x = y.
Proof. unfold feq. destruct (fe_eq_dec x y); split; congruence. Qed.

(** (p - 5) / 8 *)
Definition e_p58 : positive :=
  7237005577332262213973186563042994240829374041602535252466099000494570602493.
Lemma e_p58_eq : 8 * Z.pos e_p58 = p25519 - 5.
Proof. reflexivity. Qed.

(** curve25519-dalek [FieldElement::sqrt_ratio_i]. *)
Definition sqrt_ratio_i (u v : fe) : bool * fe :=
  (let v3 := v * v * v in
   let v7 := v3 * v3 * v in
   let r := (u * v3) * fpow (u * v7) e_p58 in
   let check := v * (r * r) in
   let correct := feq check u in
   let flipped := feq check (- u) in
   let flipped_i := feq check (- u * sqrtm1) in
   let r := if flipped || flipped_i then sqrtm1 * r else r in
   let r := if is_negative r then - r else r in
   (correct || flipped, r))%fe%bool.

Definition sign_bit (v : Z) : bool := 2 ^ 255 <=? v.

(** curve25519-dalek [CompressedEdwardsY::decompress] on a 32-byte string.  The last test only
    produces the proof that the point is on the curve; [decompress_on_curve] below shows it never
    fails when [ok] holds. *)
Definition decompress (b : bytes) : option epoint :=
  let v := Z.of_N (le_val b) in
  let y := fof (v mod 2 ^ 255) in
  let yy := fmul y y in
  let '(ok, x) := sqrt_ratio_i (yy - f1)%fe (ed_d * yy + f1)%fe in
  let x := if sign_bit v then fopp x else x in
  if ok then
    match bool_dec (eonb x y) true with
    | left H => Some (ept x y H)
    | right _ => None
    end
  else None.

(** curve25519-dalek [EdwardsPoint::compress]. *)
Definition compress (P : epoint) : bytes :=
  le_bytes 32 (Z.to_N (fval (ey P) + (if is_negative (ex P) then 2 ^ 255 else 0))).

Lemma compress_length P : length (compress P) = 32%nat.
Proof. apply le_bytes_length. Qed.

Lemma is_negative_opp x : x <> f0 -> is_negative (- x)%fe = negb (is_negative x).
Proof.
  intros Hx. unfold is_negative.
  assert (H0 : fval x <> 0).
  { intros E. apply Hx. apply (zzero_val p25519 p_gt_1). exact E. }
  pose proof (fval_range x) as R.
  assert (E : fval (- x)%fe = p25519 - fval x).
  { change (fval (- x)%fe) with ((- fval x) mod p25519).
    rewrite Z.mod_opp_l_nz; [|discriminate|rewrite Z.mod_small by exact R; exact H0].
    now rewrite Z.mod_small. }
  rewrite E, Z.odd_sub, p_odd. now destruct (Z.odd (fval x)).
Qed.

Lemma is_negative_0 : is_negative f0 = false.
Proof. reflexivity. Qed.

Lemma fopp_0 : (- f0)%fe = f0.
Proof. ring. Qed.

Lemma is_negative_nonzero x : is_negative x = true -> x <> f0.
Proof. intros H ->. discriminate. Qed.

Lemma abs_nonneg r : is_negative (if is_negative r then - r else r)%fe = false.
Proof.
  destruct (is_negative r) eqn:E; [|exact E].
  rewrite is_negative_opp by now apply is_negative_nonzero. now rewrite E.
Qed.

Lemma sqrt_ratio_sound u v r :
  sqrt_ratio_i u v = (true, r) -> (v * (r * r) = u)%fe /\ is_negative r = false.
Proof.
  unfold sqrt_ratio_i. cbv zeta.
  set (r0 := (u * (v * v * v) * fpow (u * (v * v * v * (v * v * v) * v)) e_p58)%fe).
  intros H. injection H as Hok Hr. split.
  - assert (Habs : forall t : fe, (v * ((if is_negative t then - t else t) * (if is_negative t then - t else t))
                             = v * (t * t))%fe) by (intros t; destruct (is_negative t); ring).
    rewrite <- Hr, Habs.
    destruct (feq (v * (r0 * r0))%fe (- u)%fe) eqn:Ef; cbn [orb].
    + apply feq_eq in Ef.
      transitivity ((sqrtm1 * sqrtm1) * (v * (r0 * r0)))%fe; [ring|].
      rewrite Ef, sqrtm1_square. ring.
    + rewrite orb_false_r in Hok. apply feq_eq in Hok.
      destruct (feq (v * (r0 * r0))%fe (- u * sqrtm1)%fe) eqn:Ei; [|exact Hok].
      (* then u = - u i, so u = 0 *)
      apply feq_eq in Ei. rewrite Hok in Ei.
      assert (Hu : u = f0).
      { assert (E2 : (u * (f1 + sqrtm1))%fe = f0)
          by (transitivity (u + u * sqrtm1)%fe; [ring|rewrite Ei at 1; ring]).
        apply (mul_zero fe f0 f1 fadd fmul fsub fopp fdiv finv fe_field fe_eq_dec) in E2.
        destruct E2 as [E2|E2]; [exact E2|exfalso].
        apply (f_equal fval) in E2. vm_compute in E2. discriminate. }
      assert (Hz : (v * (r0 * r0))%fe = f0) by now rewrite Hok.
      transitivity ((sqrtm1 * sqrtm1) * (v * (r0 * r0)))%fe; [ring|].
      rewrite Hz, Hu. ring.
  - rewrite <- Hr. apply abs_nonneg.
Qed.

Lemma square_is_one c : (c * c = f1)%fe -> c = f1 \/ c = (- f1)%fe.
Proof.
  intros H. assert (E : ((c - f1) * (c + f1))%fe = f0)
    by (transitivity (c * c - f1)%fe; [ring|rewrite H; ring]).
  apply (mul_zero fe f0 f1 fadd fmul fsub fopp fdiv finv fe_field fe_eq_dec) in E.
  destruct E as [E|E]; [left|right].
  - transitivity (c - f1 + f1)%fe; [ring|]. rewrite E. ring.
  - transitivity (c + f1 - f1)%fe; [ring|]. rewrite E. ring.
Qed.

Lemma sqrt_ratio_complete u v x :
  v <> f0 -> (v * (x * x) = u)%fe -> fst (sqrt_ratio_i u v) = true.
Proof.
  intros Hv Hx. unfold sqrt_ratio_i. cbv zeta. cbn [fst].
  set (w := (u * (v * v * v * (v * v * v) * v))%fe).
  (* check = u * w^((p-1)/4) *)
  assert (Hcheck : (v * (u * (v * v * v) * fpow w e_p58 * (u * (v * v * v) * fpow w e_p58))
                    = u * (w * fpow w (e_p58 * 2)))%fe).
  { rewrite fpow_mul, fpow_2. generalize (fpow w e_p58). intros t. unfold w. ring. }
  rewrite Hcheck.
  destruct (fe_eq_dec x f0) as [->|Hx0].
  { assert (u = f0) as -> by (rewrite <- Hx; ring).
    apply orb_true_iff. left. apply feq_eq. ring. }
  set (s := (x * (v * v * (v * v)))%fe).
  assert (Hw : w = (s * s)%fe) by (unfold w, s; rewrite <- Hx; ring).
  assert (Hs : s <> f0).
  { unfold s.
    repeat apply (mul_nonzero fe f0 f1 fadd fmul fsub fopp fdiv finv fe_field fe_eq_dec); assumption. }
  assert (Hc : ((w * fpow w (e_p58 * 2)) * (w * fpow w (e_p58 * 2)) = f1)%fe).
  { assert (Ep : (w * fpow w (e_p58 * 2))%fe = fpow w (1 + e_p58 * 2)) by now rewrite fpow_add.
    rewrite Ep, <- fpow_2, <- fpow_mul, Hw, <- fpow_2, <- fpow_mul.
    rewrite Pos.mul_comm. exact (fermat_fe s Hs). }
  apply square_is_one in Hc. apply orb_true_iff. destruct Hc as [->| ->]; [left|right]; apply feq_eq; ring.
Qed.

(** When the square root exists, the decompressed coordinates are on the curve. *)
Lemma decompress_on_curve (y x : fe) (s : bool) :
  sqrt_ratio_i (y * y - f1)%fe (ed_d * (y * y) + f1)%fe = (true, x) ->
  eonb (if s then fopp x else x) y = true.
Proof.
  intros H. apply sqrt_ratio_sound in H. destruct H as [H _].
  apply eonb_spec. unfold eon.
  apply (on_curve_x2 fe f0 f1 fadd fmul fsub fopp fdiv finv fe_field).
  rewrite <- H. destruct s; ring.
Qed.

(** What a successful decompression returns. *)
Theorem decompress_some b P :
  decompress b = Some P ->
  ey P = fof (Z.of_N (le_val b) mod 2 ^ 255) /\
  (ex P = f0 \/ is_negative (ex P) = sign_bit (Z.of_N (le_val b))).
Proof.
  unfold decompress. cbv zeta. set (v := Z.of_N (le_val b)). set (y := fof (v mod 2 ^ 255)).
  destruct (sqrt_ratio_i (y * y - f1)%fe (ed_d * (y * y) + f1)%fe) as [ok x] eqn:E.
  destruct ok; [|discriminate].
  destruct (bool_dec _ true) as [H|H]; [|discriminate].
  intros HP. injection HP as <-. split; [reflexivity|].
  apply sqrt_ratio_sound in E. destruct E as [_ Hn].
  change (ex (ept (if sign_bit v then fopp x else x) y H)) with (if sign_bit v then fopp x else x).
  destruct (fe_eq_dec x f0) as [->|Hx].
  - left. destruct (sign_bit v); ring.
  - right. destruct (sign_bit v); [|exact Hn]. rewrite is_negative_opp by exact Hx. now rewrite Hn.
Qed.

(** Decompression succeeds on every string whose low 255 bits encode the y of a curve point. *)
Theorem decompress_defined b P :
  ey P = fof (Z.of_N (le_val b) mod 2 ^ 255) -> exists Q, decompress b = Some Q.
Proof.
  intros HP. unfold decompress. cbv zeta. set (v := Z.of_N (le_val b)) in *.
  rewrite <- HP.
  pose proof (epoint_on P) as Hon.
  apply (on_curve_x2 fe f0 f1 fadd fmul fsub fopp fdiv finv fe_field) in Hon.
  pose proof (sqrt_ratio_complete _ _ _
    (compress_denominator fe f0 f1 fadd fmul fsub fopp fdiv finv fe_field fe_eq_dec ed_d sqrtm1
       sqrtm1_square ed_d_nonsquare (ey P)) Hon) as Hok.
  destruct (sqrt_ratio_i _ _) as [ok x] eqn:E. cbn [fst] in Hok. subst ok.
  pose proof (decompress_on_curve _ _ (sign_bit v) E) as Hc.
  destruct (bool_dec _ true) as [H|H]; [eexists; reflexivity|contradiction].
Qed.

Theorem decompress_none b :
  decompress b = None -> forall P, ey P <> fof (Z.of_N (le_val b) mod 2 ^ 255).
Proof. intros H P E. apply decompress_defined in E. destruct E as [Q E]. congruence. Qed.

Lemma pow255_pos : 0 < 2 ^ 255.
Proof. reflexivity. Qed.

Lemma le_val_compress P :
  Z.of_N (le_val (compress P)) = fval (ey P) + (if is_negative (ex P) then 2 ^ 255 else 0).
Proof.
  unfold compress. rewrite le_val_le_bytes.
  pose proof (fval_range (ey P)). pose proof p_lt_255.
  assert (E : (256 ^ N.of_nat 32)%N = Z.to_N (2 * 2 ^ 255)) by reflexivity.
  rewrite E. pose proof pow255_pos.
  set (q := 2 ^ 255) in *. clearbody q.
  rewrite N.mod_small; destruct (is_negative (ex P)); lia.
Qed.

Lemma same_y_ed P Q : ey P = ey Q -> ex P = ex Q \/ ex P = (- ex Q)%fe.
Proof.
  apply (same_y fe f0 f1 fadd fmul fsub fopp fdiv finv fe_field fe_eq_dec ed_d sqrtm1
           sqrtm1_square ed_d_nonsquare).
Qed.

(** Points with the same y and the same sign are equal. *)
Lemma same_y_sign P Q :
  ey P = ey Q -> is_negative (ex P) = is_negative (ex Q) -> P = Q.
Proof.
  intros Hy Hs. apply epoint_ext; [|exact Hy].
  destruct (same_y_ed P Q Hy) as [E|E]; [exact E|].
  destruct (fe_eq_dec (ex Q) f0) as [Z|NZ].
  - rewrite E, Z. apply fopp_0.
  - rewrite E, is_negative_opp in Hs by exact NZ. now destruct (is_negative (ex Q)).
Qed.

(** Round trip. *)
Theorem decompress_compress P : decompress (compress P) = Some P.
Proof.
  pose proof (le_val_compress P) as Hv.
  pose proof (fval_range (ey P)) as R. pose proof p_lt_255 as Hp. pose proof pow255_pos as Hq.
  assert (Hmod : Z.of_N (le_val (compress P)) mod 2 ^ 255 = fval (ey P)).
  { rewrite Hv. set (q := 2 ^ 255) in *. clearbody q.
    destruct (is_negative (ex P)).
    - replace (fval (ey P) + q) with (fval (ey P) + 1 * q) by ring.
      rewrite Z_mod_plus_full. apply Z.mod_small. lia.
    - rewrite Z.add_0_r. apply Z.mod_small. lia. }
  assert (Hs : sign_bit (Z.of_N (le_val (compress P))) = is_negative (ex P)).
  { rewrite Hv. unfold sign_bit. set (q := 2 ^ 255) in *. clearbody q.
    destruct (is_negative (ex P)).
    - apply Z.leb_le. lia.
    - apply Z.leb_gt. lia. }
  destruct (decompress_defined (compress P) P) as [Q HQ].
  { rewrite Hmod. symmetry. apply fof_fval. }
  rewrite HQ. f_equal. apply decompress_some in HQ. destruct HQ as [Hy Hx].
  rewrite Hmod, fof_fval in Hy. rewrite Hs in Hx.
  destruct Hx as [Hx|Hx]; [|now apply same_y_sign].
  apply epoint_ext; [|exact Hy]. destruct (same_y_ed P Q (eq_sym Hy)) as [E|E]; [now symmetry|].
  rewrite E, Hx. symmetry. apply fopp_0.
Qed.

Theorem compress_inj P Q : compress P = compress Q -> P = Q.
Proof.
  intros E. pose proof (decompress_compress P) as HP. rewrite E, decompress_compress in HP.
  now injection HP.
Qed.

(** A 32-byte string that decompresses and is canonical (y < p, and not "minus zero")
    is the encoding of the resulting point. *)
Theorem compress_decompress b P :
  length b = 32%nat -> decompress b = Some P ->
  Z.of_N (le_val b) mod 2 ^ 255 < p25519 ->
  (ex P = f0 -> sign_bit (Z.of_N (le_val b)) = false) ->
  compress P = b.
Proof.
  intros Hl HP Hc Hz. apply decompress_some in HP. destruct HP as [Hy Hx].
  apply le_val_inj; [now rewrite compress_length|].
  apply N2Z.inj. rewrite le_val_compress, Hy, fval_fof_small.
  2:{ split; [|exact Hc]. apply Z.mod_pos_bound. apply pow255_pos. }
  assert (Hs : is_negative (ex P) = sign_bit (Z.of_N (le_val b))).
  { destruct Hx as [Hx|Hx]; [|exact Hx]. rewrite Hx, (Hz Hx). reflexivity. }
  rewrite Hs. unfold sign_bit.
  pose proof (le_val_bound b) as Hb. rewrite Hl in Hb.
  assert (E : (256 ^ N.of_nat 32)%N = Z.to_N (2 * 2 ^ 255)) by reflexivity.
  rewrite E in Hb. pose proof pow255_pos as Hq. set (q := 2 ^ 255) in *. clearbody q.
  set (v := Z.of_N (le_val b)). assert (Hv : 0 <= v < 2 * q) by lia. clearbody v.
  destruct (Z.leb_spec q v).
  - replace v with ((v - q) + 1 * q) at 1 by ring. rewrite Z_mod_plus_full, Z.mod_small by lia. ring.
  - rewrite Z.mod_small by lia. ring.
Qed.
