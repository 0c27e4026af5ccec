(** * The operations of the model compute what RFC 8032 and RFC 9496 (Rfc.v) say *)
From Coq Require Import ZArith Znumtheory NArith Lia Field Ring Bool List.
From Verif.Base Require Import Bytes.
From Verif.Curve Require Import NumTheory Primes Zmod Edwards Abelian Ed25519 Ed25519Points Ed25519Subgroup
  Ed25519Structure RistrettoGen Ristretto Ristretto255.
From Verif.Curve Require Rfc.
Import ListNotations.
Local Open Scope Z_scope.

(** ** Field arithmetic: an integer of the RFC is the value of a field element *)
Lemma p_is : Rfc.p = p25519.
Proof. reflexivity. Qed.
Lemma ADD_v a b : Rfc.ADD (fval a) (fval b) = fval (fadd a b).
Proof. unfold Rfc.ADD. rewrite p_is, <- fval_fof, fof_add, !fof_fval. reflexivity. Qed.
Lemma SUB_v a b : Rfc.SUB (fval a) (fval b) = fval (fsub a b).
Proof. unfold Rfc.SUB. rewrite p_is, <- fval_fof, fof_sub, !fof_fval. reflexivity. Qed.
Lemma MUL_v a b : Rfc.MUL (fval a) (fval b) = fval (fmul a b).
Proof. unfold Rfc.MUL. rewrite p_is, <- fval_fof, fof_mul, !fof_fval. reflexivity. Qed.
Lemma NEG_v a : Rfc.NEG (fval a) = fval (fopp a).
Proof. unfold Rfc.NEG. rewrite p_is, <- fval_fof, fof_opp, fof_fval. reflexivity. Qed.
Lemma fpow_I x e : fpow x (xI e) = (fpow x e * fpow x e * x)%fe.
Proof.
  assert (E : xI e = (e * 2 + 1)%positive) by lia. rewrite E, fpow_add, fpow_mul, fpow_2. f_equal.
Qed.
Lemma fpow_O x e : fpow x (xO e) = (fpow x e * fpow x e)%fe.
Proof. assert (E : xO e = (e * 2)%positive) by lia. now rewrite E, fpow_mul, fpow_2. Qed.
Lemma fpow_H x : fpow x xH = x.
Proof. apply fe_ext. rewrite fpow_val. change (Z.pos 1) with 1. rewrite Z.pow_1_r. apply Z.mod_small, fval_range. Qed.
Lemma POW_v a e : Rfc.POW (fval a) e = fval (fpow a e).
Proof.
  induction e as [e IH|e IH|]; cbn [Rfc.POW]; cbv zeta.
  - now rewrite IH, !MUL_v, fpow_I.
  - now rewrite IH, !MUL_v, fpow_O.
  - now rewrite fpow_H.
Qed.
Lemma EQUAL_v a b : Rfc.EQUAL (fval a) (fval b) = feq a b.
Proof.
  apply Bool.eq_true_iff_eq. unfold Rfc.EQUAL. rewrite Z.eqb_eq, feq_eq. split; [apply fe_ext|now intros ->].
Qed.
Lemma odd_mod z : (z mod 2 =? 1) = Z.odd z.
Proof. rewrite Zmod_odd. now destruct (Z.odd z). Qed.
Lemma IS_NEGATIVE_v a : Rfc.IS_NEGATIVE (fval a) = is_negative a.
Proof. apply odd_mod. Qed.
Lemma if_v (c : bool) a b : (if c then fval a else fval b) = fval (if c then a else b).
Proof. now destruct c. Qed.
Definition fabs (x : fe) : fe := if is_negative x then fopp x else x.
Lemma CT_ABS_v a : Rfc.CT_ABS (fval a) = fval (fabs a).
Proof. unfold Rfc.CT_ABS, fabs. now rewrite IS_NEGATIVE_v, NEG_v, if_v. Qed.

Lemma zero_v : 0 = fval f0. Proof. reflexivity. Qed.
Lemma one_v : 1 = fval f1. Proof. reflexivity. Qed.
Lemma two_v : 2 = fval (f1 + f1)%fe. Proof. reflexivity. Qed.
Lemma D_v : Rfc.D = fval ed_d. Proof. reflexivity. Qed.
Lemma SQRT_M1_v : Rfc.SQRT_M1 = fval sqrtm1. Proof. reflexivity. Qed.
Lemma SQRT_AD_MINUS_ONE_v : Rfc.SQRT_AD_MINUS_ONE = fval sqrt_ad_minus_one. Proof. reflexivity. Qed.
Lemma INVSQRT_A_MINUS_D_v : Rfc.INVSQRT_A_MINUS_D = fval invsqrt_a_minus_d. Proof. reflexivity. Qed.
Lemma ONE_MINUS_D_SQ_v : Rfc.ONE_MINUS_D_SQ = fval (f1 - ed_d * ed_d)%fe. Proof. vm_compute. reflexivity. Qed.
Lemma D_MINUS_ONE_SQ_v : Rfc.D_MINUS_ONE_SQ = fval ((ed_d - f1) * (ed_d - f1))%fe. Proof. vm_compute. reflexivity. Qed.
Lemma p58_is : Z.to_pos ((Rfc.p - 5) / 8) = e_p58. Proof. reflexivity. Qed.
Lemma L_is : Rfc.L = ell. Proof. reflexivity. Qed.

Local Opaque Rfc.ADD Rfc.SUB Rfc.MUL Rfc.NEG Rfc.POW Rfc.EQUAL Rfc.IS_NEGATIVE Rfc.CT_ABS Rfc.p Rfc.D Rfc.SQRT_M1
  Rfc.SQRT_AD_MINUS_ONE Rfc.INVSQRT_A_MINUS_D Rfc.ONE_MINUS_D_SQ Rfc.D_MINUS_ONE_SQ
  fval fof fadd fsub fmul fopp fdiv finv fpow feq is_negative f0 f1 ed_d sqrtm1 invsqrt_a_minus_d sqrt_ad_minus_one.
Ltac push := repeat (rewrite MUL_v || rewrite ADD_v || rewrite SUB_v || rewrite NEG_v || rewrite POW_v || rewrite EQUAL_v
  || rewrite IS_NEGATIVE_v || rewrite CT_ABS_v || rewrite if_v).

Lemma SQRT_RATIO_v u v : Rfc.SQRT_RATIO_M1 (fval u) (fval v) = (fst (sqrt_ratio_i u v), fval (snd (sqrt_ratio_i u v))).
Proof.
  unfold Rfc.SQRT_RATIO_M1, sqrt_ratio_i. cbv zeta. rewrite p58_is, SQRT_M1_v. push. reflexivity.
Qed.

(** ** Octet strings *)
Lemma integer_v s : Rfc.integer s = Z.of_N (le_val s).
Proof.
  induction s as [|b s IH]; [reflexivity|]. cbn [Rfc.integer le_val]. rewrite IH, N2Z.inj_add, N2Z.inj_mul. reflexivity.
Qed.
Lemma octet_v n : Rfc.octet (Z.of_N n) = n2b n.
Proof.
  unfold Rfc.octet. change 256 with (Z.of_N 256). rewrite <- N2Z.inj_mod, N2Z.id. unfold n2b. reflexivity.
Qed.
Lemma octets_v k n : Rfc.octets k (Z.of_N n) = le_bytes k n.
Proof.
  revert n. induction k as [|k IH]; intros n; [reflexivity|]. cbn [Rfc.octets le_bytes].
  rewrite octet_v. f_equal. change 256 with (Z.of_N 256). rewrite <- N2Z.inj_div. apply IH.
Qed.
Lemma octets_fe x : Rfc.octets 32 (fval x) = fe_bytes x.
Proof.
  unfold fe_bytes. rewrite <- octets_v, Z2N.id; [reflexivity|]. apply fval_range.
Qed.

(** ** Points *)

(** the quadruple [t] represents the point [P] *)
Definition repr (t : Rfc.ext) (P : epoint) : Prop :=
  exists X Y Z T, t = (fval X, fval Y, fval Z, fval T) /\ rep X Y Z T (ex P) (ey P).

Lemma repr_affine P : repr (Rfc.from_affine (fval (ex P)) (fval (ey P))) P.
Proof.
  exists (ex P), (ey P), f1, (fmul (ex P) (ey P)). split; [|apply rep_affine].
  unfold Rfc.from_affine. now rewrite MUL_v, <- one_v.
Qed.
Lemma repr_identity : repr Rfc.IDENTITY ezero.
Proof.
  exists f0, f1, f1, f0. split; [unfold Rfc.IDENTITY; now rewrite <- one_v, <- zero_v|].
  rewrite ex_ezero, ey_ezero. split; [exact f1_neq_0|]. repeat split; ring.
Qed.
Lemma repr_base : repr Rfc.BASE ed_B.
Proof.
  exists (ex ed_B), (ey ed_B), f1, (fmul (ex ed_B) (ey ed_B)). split; [|apply rep_affine].
  rewrite <- one_v, <- MUL_v. unfold Rfc.BASE, Rfc.from_affine.
  assert (Ex : fval (ex ed_B) = 15112221349535400772501151409588531511454012693041857206046113283949847762202)
    by (vm_compute; reflexivity).
  assert (Ey : fval (ey ed_B) = 46316835694926478169428394003475163141307993866256225615783033603165251855960)
    by (vm_compute; reflexivity).
  rewrite Ex, Ey. reflexivity.
Qed.

Lemma C_form (T1 T2 : fe) : (T1 * (f1 + f1) * ed_d * T2 = (f1 + f1) * ed_d * T1 * T2)%fe.
Proof. ring. Qed.
Lemma D_form (Z1 Z2 : fe) : (Z1 * (f1 + f1) * Z2 = (f1 + f1) * Z1 * Z2)%fe.
Proof. ring. Qed.
Lemma repr_add t u P Q : repr t P -> repr u Q -> repr (Rfc.point_add t u) (eadd P Q).
Proof.
  intros (X1 & Y1 & Z1 & T1 & -> & H1) (X2 & Y2 & Z2 & T2 & -> & H2).
  pose proof (ext_add fe f0 f1 fadd fmul fsub fopp fdiv finv fe_field fe_eq_dec ed_d sqrtm1
    sqrtm1_square ed_d_nonsquare f2_nonzero X1 Y1 Z1 T1 X2 Y2 Z2 T2 P Q H1 H2) as H. cbv zeta in H.
  unfold Rfc.point_add. cbv zeta. rewrite D_v, two_v. push. rewrite C_form, D_form.
  eexists _, _, _, _. split; [reflexivity|exact H].
Qed.

Lemma repr_mul_from s : forall t u P Q, repr t P -> repr u Q ->
  repr (Rfc.point_mul_from s t u) (eadd Q (pmul eadd s P)).
Proof.
  induction s as [s IH|s IH|]; intros t u P Q HP HQ; cbn [Rfc.point_mul_from pmul]; cbv zeta.
  - rewrite <- (pmul_op _ _ _ _ ed_laws s P P), (ab_comm _ _ _ _ ed_laws _ P), (ab_assoc _ _ _ _ ed_laws Q P).
    apply IH; now apply repr_add.
  - rewrite <- (pmul_op _ _ _ _ ed_laws s P P). apply IH; [now apply repr_add|exact HQ].
  - now apply repr_add.
Qed.
Lemma repr_mul n t P : 0 <= n -> repr t P -> repr (Rfc.point_mul n t) (emul n P).
Proof.
  intros Hn H. destruct n as [|s|s]; [exact repr_identity| |exfalso; clear - Hn; lia].
  unfold Rfc.point_mul, emul. cbn [smul].
  rewrite <- (ab_zero _ _ _ _ ed_laws (pmul eadd s P)). apply repr_mul_from; [exact H|exact repr_identity].
Qed.

(** ** RFC 8032: encoding and decoding *)
Lemma INV_v a : Rfc.INV (fval a) = fval (fpow a (Z.to_pos (p25519 - 2))).
Proof. unfold Rfc.INV. rewrite p_is. apply POW_v. Qed.
Lemma inv_exp : (half_p1 * 2)%positive = (Z.to_pos (p25519 - 2) + 1)%positive.
Proof. reflexivity. Qed.
Lemma inv_mul a : a <> f0 -> (a * fpow a (Z.to_pos (p25519 - 2)) = f1)%fe.
Proof.
  intros Ha. rewrite <- (fermat_fe a Ha), inv_exp. generalize (Z.to_pos (p25519 - 2)). intros e.
  rewrite fpow_add, fpow_H. ring.
Qed.
Lemma repr_compress t P : repr t P -> Rfc.point_compress t = compress P.
Proof.
  intros (X & Y & Z & T & -> & HZ & EX & EY & _). unfold Rfc.point_compress. cbv zeta.
  rewrite INV_v. pose proof (inv_mul Z HZ) as HI. generalize dependent (fpow Z (Z.to_pos (p25519 - 2))). intros I HI.
  push.
  assert (Ex : (X * I = ex P)%fe) by (rewrite EX; transitivity (ex P * (Z * I))%fe; [ring|rewrite HI; ring]).
  assert (Ey : (Y * I = ey P)%fe) by (rewrite EY; transitivity (ey P * (Z * I))%fe; [ring|rewrite HI; ring]).
  rewrite Ex, Ey. unfold compress. rewrite <- octets_v.
  pose proof (fval_range (ey P)) as R. pose proof pow255_pos as Q. rewrite Zmod_odd.
  change (Z.odd (fval (ex P))) with (is_negative (ex P)).
  generalize dependent (2 ^ 255). intros q Hq.
  rewrite Z2N.id by (destruct (is_negative (ex P)); clear - R Hq; lia).
  f_equal. destruct (is_negative (ex P)); clear; ring.
Qed.

(** 2^((p-1)/4) is the square root of -1 *)
Definition quarter_p1 : positive := 14474011154664524427946373126085988481658748083205070504932198000989141204987.
Definition quarter_hints : list Z := Eval vm_compute in snd (hints 2 p25519 quarter_p1).
Lemma quarter_b : (hpow 2 p25519 quarter_p1 quarter_hints =? sqrtm1_Z) = true.
Proof. vm_cast_no_check (eq_refl true). Qed.
Lemma quarter_is : Z.to_pos ((Rfc.p - 1) / 4) = quarter_p1. Proof. reflexivity. Qed.
Lemma quarter_pow : fpow (f1 + f1)%fe quarter_p1 = sqrtm1.
Proof.
  apply fe_ext. rewrite fpow_val, <- two_v. rewrite <- (hpow_spec 2 p25519 quarter_p1 quarter_hints).
  rewrite (proj1 (Z.eqb_eq _ _) quarter_b). reflexivity.
Qed.

Definition candidate (u v : fe) : fe := (u * (v * v * v) * fpow (u * (v * v * v * (v * v * v) * v)) e_p58)%fe.
Definition root (u v : fe) : option fe :=
  let x := candidate u v in
  if feq (v * (x * x))%fe u then Some x
  else if feq (v * (x * x))%fe (- u)%fe then Some (x * sqrtm1)%fe else None.
Lemma root_sound u v r : root u v = Some r -> (v * (r * r) = u)%fe.
Proof.
  unfold root. cbv zeta. generalize (candidate u v). intros x. destruct (feq (v * (x * x))%fe u) eqn:E1.
  - intros H. injection H as <-. now apply feq_eq.
  - destruct (feq (v * (x * x))%fe (- u)%fe) eqn:E2; [|discriminate]. intros H. injection H as <-.
    apply feq_eq in E2. transitivity (sqrtm1 * sqrtm1 * (v * (x * x)))%fe; [ring|]. rewrite E2, sqrtm1_square. ring.
Qed.
Lemma root_complete u v : fst (sqrt_ratio_i u v) = true -> exists r, root u v = Some r.
Proof.
  unfold sqrt_ratio_i, root. cbv zeta. cbn [fst]. fold (candidate u v). generalize (candidate u v). intros x H.
  destruct (feq (v * (x * x))%fe u); [eexists; reflexivity|].
  destruct (feq (v * (x * x))%fe (- u)%fe); [eexists; reflexivity|discriminate H].
Qed.

(** [point_decompress] with the field's operations *)
Definition sqrt_x (y : fe) : option fe := root (y * y - f1)%fe (ed_d * (y * y) + f1)%fe.
Definition choose (x : fe) (x_0 : Z) : Z := if fval x mod 2 =? x_0 then fval x else Rfc.p - fval x.
Lemma decompress_v (b : bytes) y : length b = 32%nat -> Z.of_N (le_val b) mod 2 ^ 255 = fval y ->
  Rfc.point_decompress b =
  match sqrt_x y with
  | None => None
  | Some x => let x_0 := Z.of_N (le_val b) / 2 ^ 255 in
    if feq x f0 && (x_0 =? 1) then None else Some (Rfc.from_affine (choose x x_0) (fval y))
  end.
Proof.
  intros Hl Hy. unfold Rfc.point_decompress. rewrite Hl. cbn [Nat.eqb negb]. rewrite integer_v, Hy. cbv zeta.
  assert (Hp : (Rfc.p <=? fval y) = false) by (rewrite p_is; apply Z.leb_gt; apply fval_range). rewrite Hp.
  set (x_0 := Z.of_N (le_val b) / 2 ^ 255). clearbody x_0. rewrite p58_is, quarter_is, D_v.
  assert (U : Rfc.SUB (Rfc.MUL (fval y) (fval y)) 1 = fval (y * y - f1)%fe) by (rewrite one_v; push; reflexivity).
  assert (V : Rfc.ADD (Rfc.MUL (fval ed_d) (Rfc.MUL (fval y) (fval y))) 1 = fval (ed_d * (y * y) + f1)%fe)
    by (rewrite one_v; push; reflexivity).
  assert (W : Rfc.POW 2 quarter_p1 = fval sqrtm1) by (rewrite two_v, POW_v, quarter_pow; reflexivity).
  rewrite U, V, W. clear U V W. unfold sqrt_x. generalize (y * y - f1)%fe (ed_d * (y * y) + f1)%fe. intros u v.
  push. unfold root, candidate. cbv zeta. set (x := (u * (v * v * v) * fpow _ _)%fe). clearbody x.
  destruct (feq (v * (x * x))%fe u); [|destruct (feq (v * (x * x))%fe (- u)%fe); [|reflexivity]];
  rewrite zero_v at 1; rewrite EQUAL_v; reflexivity.
Qed.

Lemma p_minus x : fval x <> 0 -> Rfc.p - fval x = fval (- x)%fe.
Proof.
  intros H. rewrite <- NEG_v. Local Transparent Rfc.NEG. unfold Rfc.NEG. Local Opaque Rfc.NEG. rewrite p_is.
  pose proof (fval_range x) as R. apply (Z.mod_unique _ _ (-1)); [left|]; clear - R H; lia.
Qed.
Lemma sign_value (v : Z) : 0 <= v < 2 * 2 ^ 255 -> v / 2 ^ 255 = if sign_bit v then 1 else 0.
Proof.
  intros H. unfold sign_bit. generalize dependent (2 ^ 255). intros q H. destruct (q <=? v) eqn:E.
  - apply Z.leb_le in E. symmetry. apply (Z.div_unique_pos _ _ 1 (v - q)); clear - H E; lia.
  - apply Z.leb_gt in E. apply Z.div_small. clear - H E. lia.
Qed.
Lemma negative_value x : fval x mod 2 = if is_negative x then 1 else 0.
Proof. apply Zmod_odd. Qed.
Lemma choose_v x s : feq x f0 && (((if s : bool then 1 else 0) =? 1)%Z) = false ->
  exists x', choose x (if s then 1 else 0) = fval x' /\ is_negative x' = s /\ (x' * x' = x * x)%fe.
Proof.
  intros H. unfold choose. rewrite negative_value. destruct (Bool.bool_dec (is_negative x) s) as [E|E].
  - exists x. rewrite E, Z.eqb_refl. split; [reflexivity|]. split; reflexivity.
  - assert (Hx : x <> f0).
    { intros Ex. rewrite Ex, is_negative_0 in E. destruct s; [|now apply E].
      rewrite (proj2 (feq_eq x f0) Ex) in H. discriminate H. }
    exists (- x)%fe. split; [|split; [|ring]].
    + replace (_ =? _) with false by (symmetry; apply Z.eqb_neq; destruct (is_negative x), s; clear - E; lia || congruence).
      apply p_minus. intros E0. apply Hx. apply fe_ext. rewrite E0. apply zero_v.
    + rewrite is_negative_opp by exact Hx. destruct (is_negative x), s; cbn [negb]; congruence.
Qed.

Lemma le_val_32 (b : bytes) : length b = 32%nat -> 0 <= Z.of_N (le_val b) < 2 * 2 ^ 255.
Proof.
  intros H. pose proof (le_val_bound b) as B. rewrite H in B. split; [apply N2Z.is_nonneg|].
  apply N2Z.inj_lt in B. exact B.
Qed.

(** RFC 8032's decoding accepts the encodings of the points of the curve, and nothing else. *)
Lemma decompress_sound b t : Rfc.point_decompress b = Some t ->
  exists P, b = compress P /\ t = Rfc.from_affine (fval (ex P)) (fval (ey P)).
Proof.
  intros H. assert (Hl : length b = 32%nat).
  { unfold Rfc.point_decompress in H. destruct (Nat.eqb (length b) 32) eqn:E; [now apply Nat.eqb_eq|discriminate H]. }
  assert (Hp : Z.of_N (le_val b) mod 2 ^ 255 < p25519).
  { unfold Rfc.point_decompress in H. rewrite Hl, integer_v in H. cbn [Nat.eqb negb] in H. cbv zeta in H.
    destruct (Rfc.p <=? Z.of_N (le_val b) mod 2 ^ 255) eqn:E; [discriminate H|]. rewrite p_is in E. now apply Z.leb_gt. }
  pose proof (Z.mod_pos_bound (Z.of_N (le_val b)) (2 ^ 255) pow255_pos) as B.
  assert (Hy : Z.of_N (le_val b) mod 2 ^ 255 = fval (fof (Z.of_N (le_val b) mod 2 ^ 255))).
  { symmetry. apply fval_fof_small. split; [exact (proj1 B)|exact Hp]. }
  set (y := fof (Z.of_N (le_val b) mod 2 ^ 255)) in *. clearbody y.
  rewrite (decompress_v b y Hl Hy) in H. cbv zeta in H. rewrite (sign_value _ (le_val_32 b Hl)) in H.
  destruct (sqrt_x y) as [x|] eqn:Er; [|discriminate H].
  destruct (feq x f0 && _) eqn:E0 in H; [discriminate H|]. injection H as <-.
  destruct (choose_v x _ E0) as (x' & E1 & Es & Exx). rewrite E1.
  apply root_sound in Er. rewrite <- Exx in Er.
  apply (on_curve_x2 fe f0 f1 fadd fmul fsub fopp fdiv finv fe_field) in Er.
  exists (ept x' y (proj2 (eonb_spec x' y) Er)). set (P := ept _ _ _).
  assert (Px : ex P = x') by reflexivity. assert (Py : ey P = y) by reflexivity. clearbody P. rewrite Px, Py. split; [|reflexivity].
  apply le_val_inj; [now rewrite compress_length|]. apply N2Z.inj. rewrite le_val_compress, Px, Py, Es, <- Hy.
  rewrite (Z.div_mod (Z.of_N (le_val b)) (2 ^ 255)) at 1 by (intros E; pose proof pow255_pos as Q; rewrite E in Q; clear - Q; lia).
  rewrite (sign_value _ (le_val_32 b Hl)). destruct (sign_bit (Z.of_N (le_val b))); ring.
Qed.
Lemma sign_of_compress P : sign_bit (Z.of_N (le_val (compress P))) = is_negative (ex P) /\
  Z.of_N (le_val (compress P)) mod 2 ^ 255 = fval (ey P).
Proof.
  rewrite le_val_compress. pose proof (fval_range (ey P)) as R. pose proof p_lt_255 as Hp. pose proof pow255_pos as Hq.
  unfold sign_bit. generalize dependent (2 ^ 255). intros q Hp Hq. split; destruct (is_negative (ex P)).
  - apply Z.leb_le. clear - R Hp Hq; lia.
  - apply Z.leb_gt. clear - R Hp Hq; lia.
  - symmetry. apply (Z.mod_unique _ _ 1); [left|]; clear - R Hp Hq; lia.
  - rewrite Z.add_0_r. apply Z.mod_small. clear - R Hp Hq; lia.
Qed.
Lemma decompress_complete P : Rfc.point_decompress (compress P) = Some (Rfc.from_affine (fval (ex P)) (fval (ey P))).
Proof.
  destruct (sign_of_compress P) as [Hs Hy]. rewrite (decompress_v _ (ey P) (compress_length P) Hy). cbv zeta.
  rewrite (sign_value _ (le_val_32 _ (compress_length P))), Hs.
  pose proof (epoint_on P) as Hon. apply (on_curve_x2 fe f0 f1 fadd fmul fsub fopp fdiv finv fe_field) in Hon.
  pose proof (compress_denominator fe f0 f1 fadd fmul fsub fopp fdiv finv fe_field fe_eq_dec ed_d sqrtm1
    sqrtm1_square ed_d_nonsquare (ey P)) as Hd.
  destruct (root_complete _ _ (sqrt_ratio_complete _ _ _ Hd Hon)) as [x Hx].
  change (sqrt_x (ey P)) with (root (ey P * ey P - f1)%fe (ed_d * (ey P * ey P) + f1)%fe). rewrite Hx.
  apply root_sound in Hx.
  assert (Ex : (x * x = ex P * ex P)%fe).
  { rewrite <- Hon in Hx. 
    apply (RistrettoGen.fcancel_r fe f0 f1 fadd fmul fsub fopp fdiv finv fe_field fe_eq_dec _ _ (ed_d * (ey P * ey P) + f1)%fe Hd).
    transitivity ((ed_d * (ey P * ey P) + f1) * (x * x))%fe; [ring|]. rewrite Hx. ring. }
  assert (E0 : feq x f0 && ((if is_negative (ex P) then 1 else 0) =? 1) = false).
  { destruct (feq x f0) eqn:E; [|reflexivity]. apply feq_eq in E. rewrite E in Ex.
    assert (Ez : ex P = f0).
    { assert (Em : (ex P * ex P = f0)%fe) by (rewrite <- Ex; ring).
      apply (mul_zero fe f0 f1 fadd fmul fsub fopp fdiv finv fe_field fe_eq_dec) in Em. tauto. }
    rewrite Ez, is_negative_0. reflexivity. }
  rewrite E0. f_equal. f_equal. destruct (choose_v x _ E0) as (x' & -> & Es & Exx). f_equal.
  rewrite Ex in Exx. apply (RistrettoGen.fsquares fe f0 f1 fadd fmul fsub fopp fdiv finv fe_field fe_eq_dec) in Exx.
  destruct Exx as [E|E]; [exact E|].
  destruct (fe_eq_dec (ex P) f0) as [Z0|N0]; [rewrite E, Z0; apply fopp_0|].
  rewrite E, is_negative_opp in Es by exact N0. destruct (is_negative (ex P)); discriminate Es.
Qed.

(** ** RFC 9496: encoding *)
Lemma assoc3 (a b c : fe) : (a * b * c = a * (b * c))%fe.
Proof. ring. Qed.
Lemma encode_v X Y Z T : Rfc.Encode (fval X, fval Y, fval Z, fval T) = fe_bytes (ris_encode_fe X Y Z T).
Proof.
  unfold Rfc.Encode, ris_encode_fe, encode_fe, invsqrt. cbv zeta. rewrite SQRT_M1_v, INVSQRT_A_MINUS_D_v, one_v. push.
  rewrite SQRT_RATIO_v. cbv iota beta. generalize (snd (sqrt_ratio_i f1 ((Z + Y) * (Z - Y) * (X * Y * (X * Y)))%fe)). intros isq.
  push. rewrite (assoc3 (isq * ((Z + Y) * (Z - Y)))%fe (isq * (X * Y))%fe T). rewrite octets_fe. reflexivity.
Qed.
Lemma repr_encode t Q : repr t Q -> even_point Q -> Rfc.Encode t = ris_compress (ris_class Q).
Proof.
  intros (X & Y & Z & T & -> & HR) HQ. rewrite encode_v. unfold ris_compress. rewrite rp_class. f_equal.
  now apply ris_encode_class.
Qed.

(** ** Decoding *)
Lemma decode_v (b : bytes) s : length b = 32%nat -> Z.of_N (le_val b) = fval s ->
  Rfc.Decode b = if is_negative s then None
                 else option_map (fun '(x, y) => Rfc.from_affine (fval x) (fval y)) (ris_decode_fe s).
Proof.
  intros Hl Hs. unfold Rfc.Decode. rewrite Hl, integer_v, Hs. cbn [Nat.eqb negb]. cbv zeta.
  assert (Hp : (Rfc.p <=? fval s) = false) by (rewrite p_is; apply Z.leb_gt; apply fval_range). rewrite Hp, IS_NEGATIVE_v.
  destruct (is_negative s); [reflexivity|].
  unfold ris_decode_fe, decode_fe, invsqrt. cbv zeta. rewrite D_v, one_v, two_v, zero_v. push.
  assert (Ev : forall a c : fe, (- (ed_d * a) - c = - ed_d * a - c)%fe) by (intros a c; ring). rewrite Ev.
  rewrite SQRT_RATIO_v. cbv iota beta.
  destruct (sqrt_ratio_i f1 _) as [ok isq]. cbn [fst snd]. push. rewrite (assoc3 isq (isq * (f1 + s * s))%fe).
  assert (E2 : forall a : fe, ((f1 + f1) * s * a = (s + s) * a)%fe) by (intros a; ring). rewrite E2.
  change (RistrettoGen.fabs fe fopp is_negative) with fabs.
  change (feqb fe fe_eq_dec) with feq. unfold Rfc.from_affine. rewrite <- one_v.
  destruct (negb ok || _ || _); [reflexivity|]. cbn [option_map]. rewrite MUL_v. reflexivity.
Qed.

Lemma canonical_32 b : bytes_eqb (fe_bytes (fe_of_bytes b)) b = true <-> length b = 32%nat /\ Z.of_N (le_val b) < p25519.
Proof.
  rewrite bytes_eqb_eq. split.
  - intros E. rewrite <- E, fe_bytes_length. split; [reflexivity|]. generalize (fe_of_bytes b). intros s.
    unfold fe_bytes. pose proof (fval_range s) as R. rewrite le_val_le_bytes, N.mod_small; [rewrite Z2N.id; apply R|].
    apply N2Z.inj_lt. rewrite Z2N.id by apply R. change (Z.of_N (256 ^ N.of_nat 32)) with (2 ^ 256). pose proof p_lt_256. clear - R H. lia.
  - intros [Hl Hp]. unfold fe_bytes, fe_of_bytes. pose proof p_lt_255 as Hq. pose proof (N2Z.is_nonneg (le_val b)) as H0.
    rewrite Z.mod_small by (clear - Hp Hq H0; lia). rewrite fval_fof_small by (clear - Hp H0; lia). rewrite N2Z.id.
    apply le_val_inj; [now rewrite le_bytes_length|]. rewrite le_val_le_bytes, <- Hl. apply N.mod_small, le_val_bound.
Qed.
Lemma fe_of_bytes_v b : Z.of_N (le_val b) < p25519 -> Z.of_N (le_val b) = fval (fe_of_bytes b).
Proof.
  intros Hp. unfold fe_of_bytes. pose proof p_lt_255 as Hq. pose proof (N2Z.is_nonneg (le_val b)) as H0.
  rewrite Z.mod_small by (clear - Hp Hq H0; lia). symmetry. apply fval_fof_small. clear - Hp H0; lia.
Qed.

(** the points that decoding returns are even *)
Lemma decode_even s x y H : is_negative s = false -> ris_decode_fe s = Some (x, y) -> even_point (ept x y H).
Proof.
  intros Ns ED. destruct (dec_sound s x y Ns ED) as (C & E & Hz & Hn). set (Q := ept x y H).
  unfold even_point. change (ex Q) with x. destruct (fe_eq_dec (fmul x y) f0) as [Exy|Nxy].
  - destruct (Hz Exy) as [Ex0 _]. exact (g_square_x0 fe f0 f1 fadd fmul fsub fopp fdiv finv fe_field x Ex0).
  - destruct E as [[Exy _]|(x' & y' & O & Cn & S & _)]; [contradiction|].
    destruct (canonical_unique fe f0 f1 fadd fmul fsub fopp fdiv finv fe_field fe_eq_dec sqrtm1
      is_negative sqrtm1_square is_negative_opp x y x' y' (Hn Nxy) Cn O) as [-> ->].
    apply (gg_square x y s C S). now destruct Cn as (_ & Hy & _).
Qed.

(** the quadruple [t] represents the ristretto255 element [P] *)
Definition rrepr (t : Rfc.ext) (P : rpoint) : Prop := exists Q, repr t Q /\ even_point Q /\ ris_class Q = P.

Lemma rrepr_decode b : match Rfc.Decode b with
  | Some t => exists P, ris_decompress b = Some P /\ rrepr t P
  | None => ris_decompress b = None
  end.
Proof.
  destruct (bytes_eqb (fe_bytes (fe_of_bytes b)) b) eqn:E.
  - pose proof E as E'. apply canonical_32 in E. destruct E as [Hl Hp]. rewrite (decode_v b _ Hl (fe_of_bytes_v b Hp)).
    unfold ris_decompress. cbv zeta. rewrite E'. cbn [negb orb]. destruct (is_negative (fe_of_bytes b)) eqn:Ns; [reflexivity|].
    generalize dependent (fe_of_bytes b). intros s _ Ns. destruct (ris_decode_fe s) as [[x y]|] eqn:ED; cbn [option_map]; [|reflexivity].
    destruct (dec_sound s x y Ns ED) as (C & _). destruct (bool_dec (eonb x y) true) as [e|n]; [|exfalso; apply n, eonb_spec, C].
    eexists. split; [reflexivity|]. exists (ept x y e). split; [|split; [|reflexivity]].
    + exact (repr_affine (ept x y e)).
    + exact (decode_even s x y e Ns ED).
  - assert (Hm : ris_decompress b = None) by (unfold ris_decompress; cbv zeta; rewrite E; reflexivity).
    assert (Hn : Rfc.Decode b = None); [|now rewrite Hn].
    unfold Rfc.Decode. destruct (Nat.eqb (length b) 32) eqn:El; [|reflexivity]. cbn [negb]. cbv zeta. rewrite integer_v, p_is.
    destruct (p25519 <=? Z.of_N (le_val b)) eqn:Ep; [reflexivity|]. exfalso. apply Z.leb_gt in Ep. apply Nat.eqb_eq in El.
    rewrite (proj2 (canonical_32 b) (conj El Ep)) in E. discriminate E.
Qed.
Lemma rrepr_encode t P : rrepr t P -> Rfc.Encode t = ris_compress P.
Proof. intros (Q & HR & HE & <-). now apply repr_encode. Qed.
Lemma rrepr_add t u P Q : rrepr t P -> rrepr u Q -> rrepr (Rfc.point_add t u) (ris_add P Q).
Proof.
  intros (P' & HP & EP & <-) (Q' & HQ & EQ & <-). exists (eadd P' Q'). split; [now apply repr_add|].
  split; [now apply even_add|apply ris_class_add].
Qed.
Lemma even_zero : even_point ezero.
Proof. apply killed_square, zero_killed. Qed.
Lemma class_zero : ris_class ezero = ris_zero.
Proof. apply rpoint_ext. rewrite rp_class. unfold ris_zero. rewrite rp_mk. apply proj_fix, zero_killed. Qed.
Lemma class_pmul s Q : even_point Q -> even_point (pmul eadd s Q) /\ ris_class (pmul eadd s Q) = pmul ris_add s (ris_class Q).
Proof.
  intros HQ. induction s as [s [E1 E2]|s [E1 E2]|]; cbn [pmul]; cbv zeta.
  - split; [now repeat apply even_add|]. now rewrite !ris_class_add, E2.
  - split; [now apply even_add|]. now rewrite !ris_class_add, E2.
  - now split.
Qed.
Lemma rrepr_mul n t P : 0 <= n -> rrepr t P -> rrepr (Rfc.point_mul n t) (smul ris_add ris_zero ris_opp n P).
Proof.
  intros Hn (Q & HR & HE & <-). exists (emul n Q). split; [now apply repr_mul|].
  destruct n as [|s|s]; [split; [exact even_zero|exact class_zero]| |exfalso; clear - Hn; lia].
  unfold emul. cbn [smul]. now apply class_pmul.
Qed.
Lemma rrepr_identity : rrepr Rfc.IDENTITY ris_zero.
Proof. exists ezero. split; [exact repr_identity|]. split; [exact even_zero|exact class_zero]. Qed.
Lemma rrepr_base : rrepr Rfc.BASE ris_base.
Proof.
  exists ed_B. split; [exact repr_base|]. split; [apply killed_square, ell_B|].
  rewrite <- (ris_class_rp ris_base). unfold ris_base. rewrite rp_mk. reflexivity.
Qed.
Lemma feq_sym x y : feq x y = feq y x.
Proof. apply Bool.eq_true_iff_eq. rewrite !feq_eq. split; congruence. Qed.
Lemma rrepr_equals t u P Q : rrepr t P -> rrepr u Q -> (Rfc.Equals t u = true <-> P = Q).
Proof.
  intros (P' & (X1 & Y1 & Z1 & T1 & -> & R1) & EP & <-) (Q' & (X2 & Y2 & Z2 & T2 & -> & R2) & EQ & <-).
  rewrite <- (ris_ct_eq_class _ _ _ _ _ _ _ _ P' Q' R1 R2 EP EQ).
  unfold Rfc.Equals. push. rewrite (feq_sym (Y1 * Y2)%fe). reflexivity.
Qed.

(** ** The map *)
Section Map.
Context (r_0 : fe).
Notation r := (sqrtm1 * (r_0 * r_0))%fe.
Notation u := ((r + f1) * (f1 - ed_d * ed_d))%fe.
Notation v := ((- f1 - ed_d * r) * (r + ed_d))%fe.
Lemma map_root sq s0 s : sqrt_ratio_i u v = (sq, s0) -> s = (if sq then s0 else - fabs (s0 * r_0))%fe -> (f1 + s * s)%fe <> f0.
Proof.
  intros ES Hs.
  assert (Ha : forall t : fe, (- fabs t * - fabs t = t * t)%fe) by (intros t; unfold fabs; destruct (is_negative t); ring).
  destruct (fe_eq_dec v f0) as [Ev|Nv].
  - pose proof (sqrt_ratio_den_0 u v Ev) as E0. rewrite ES in E0. cbn [snd] in E0.
    assert (Es : (s * s = f0)%fe) by (rewrite Hs, E0; destruct sq; [|rewrite Ha]; ring).
    rewrite Es. intros E. apply f1_neq_0. rewrite <- E. ring.
  - apply (one_plus_sq_nonzero fe f0 f1 fadd fmul fsub fopp fdiv finv fe_field fe_eq_dec ed_d sqrtm1 invsqrt_a_minus_d
      sqrt_ad_minus_one sqrtm1_square ed_d_nonsquare magic_square sqrt_ad_square r_0 s sq).
    rewrite Hs. destruct sq.
    + apply sqrt_ratio_sound in ES. exact (proj1 ES).
    + rewrite Ha. apply (sqrt_ratio_nonsquare _ _ _ Nv) in ES.
      transitivity (v * (s0 * s0) * (r_0 * r_0))%fe; [ring|]. rewrite ES. unfold one_minus_d_sq. ring.
Qed.
Lemma map_N (sq : bool) : ((if sq then - f1 else r) * (r - f1) * ((ed_d - f1) * (ed_d - f1)) - v <> f0)%fe.
Proof. exact (N_t_nonzero fe f0 f1 fadd fmul fsub fopp fdiv finv fe_field fe_eq_dec ed_d sqrtm1 sqrtm1_square ed_d_nonsquare r_0 sq). Qed.
Lemma sad_0 : sqrt_ad_minus_one <> f0.
Proof. exact (sad_nonzero fe f0 f1 fadd fmul fsub fopp fdiv finv fe_field ed_d invsqrt_a_minus_d sqrt_ad_minus_one magic_square sqrt_ad_square). Qed.

Lemma map_rep : exists X Y Z T, Rfc.MAP (fval r_0) = (fval X, fval Y, fval Z, fval T) /\
  rep X Y Z T (fst (ris_elligator r_0)) (snd (ris_elligator r_0)).
Proof.
  unfold Rfc.MAP, ris_elligator, elligator. cbv zeta.
  rewrite SQRT_M1_v, ONE_MINUS_D_SQ_v, D_MINUS_ONE_SQ_v, SQRT_AD_MINUS_ONE_v, D_v, two_v, one_v. push.
  assert (Ec : (r * ed_d = ed_d * r)%fe) by ring. rewrite Ec. rewrite SQRT_RATIO_v. cbv iota beta.
  change (one_minus_d_sq fe f1 fmul fsub ed_d) with (f1 - ed_d * ed_d)%fe.
  change (d_minus_one_sq fe f1 fmul fsub ed_d) with ((ed_d - f1) * (ed_d - f1))%fe.
  destruct (sqrt_ratio_i u v) as [sq s0] eqn:ES. cbn [fst snd]. push.
  pose proof (map_root sq s0 _ ES eq_refl) as HS. pose proof (map_N sq) as HN. pose proof sad_0 as Ha.
  assert (Eneg : forall t : fe, (if is_negative t then t else - t)%fe = (- fabs t)%fe)
    by (intros t; unfold fabs; destruct (is_negative t); [ring|reflexivity]).
  rewrite Eneg. set (s := if sq then s0 else (- fabs (s0 * r_0))%fe) in *. clearbody s.
  set (N := ((if sq then - f1 else r) * (r - f1) * ((ed_d - f1) * (ed_d - f1)) - v)%fe) in *. clearbody N.
  set (V := v). clearbody V.
  eexists _, _, _, _. split; [reflexivity|].
  split; [repeat apply (mul_nonzero fe f0 f1 fadd fmul fsub fopp fdiv finv fe_field fe_eq_dec); assumption|].
  split; [field; split; assumption|]. split; field; repeat split; assumption.
Qed.
Lemma pair_rep X Y Z T (q : fe * fe) x y : (x, y) = q -> rep X Y Z T (fst q) (snd q) -> rep X Y Z T x y.
Proof. intros <- H. exact H. Qed.
Lemma repr_map : repr (Rfc.MAP (fval r_0)) (ris_map r_0).
Proof.
  destruct map_rep as (X & Y & Z & T & E & H). exists X, Y, Z, T. split; [exact E|].
  exact (pair_rep _ _ _ _ _ _ _ (ris_map_spec r_0) H).
Qed.
End Map.

Lemma derive_half b : (Rfc.integer b mod 2 ^ 255) mod Rfc.p = fval (fe_of_bytes b).
Proof. rewrite integer_v, p_is. unfold fe_of_bytes. now rewrite fval_fof. Qed.
Lemma rrepr_derive b : rrepr (Rfc.Derive b) (ris_from_uniform b).
Proof.
  unfold Rfc.Derive, ris_from_uniform. cbv zeta. rewrite !derive_half. eexists.
  split; [apply repr_add; apply repr_map|]. split; [apply even_add; apply ris_map_even|reflexivity].
Qed.
