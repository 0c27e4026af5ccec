(** * The group ristretto255: points, operations, encodings; its laws. *)
From Coq Require Import ZArith Znumtheory NArith Lia Field Ring Bool List Eqdep_dec.
From Verif.Base Require Import Bytes.
From Verif.Curve Require Import NumTheory Primes Zmod Edwards Abelian Ed25519 Ed25519Points
  Ed25519Subgroup Ed25519Structure RistrettoGen Ristretto.
Import ListNotations.
Local Open Scope Z_scope.

(** ** 4-torsion *)

Definition tors (P : epoint) : Prop := tors4 (ex P) (ey P).

Lemma tors_zero : tors ezero.
Proof. left. split; reflexivity. Qed.
Lemma tors_add P Q : tors P -> tors Q -> tors (eadd P Q).
Proof.
  unfold tors. rewrite ex_eadd, ey_eadd.
  exact (four_torsion_add fe f0 f1 fadd fmul fsub fopp fdiv finv fe_field fe_eq_dec ed_d sqrtm1
    sqrtm1_square ed_d_nonsquare f2_nonzero (ex P) (ey P) (ex Q) (ey Q)).
Qed.
Lemma tors_opp P : tors P -> tors (eopp P).
Proof.
  unfold tors. rewrite ex_eopp, ey_eopp.
  exact (four_torsion_opp fe f0 f1 fadd fmul fsub fopp fdiv finv fe_field sqrtm1 (ex P) (ey P)).
Qed.
Lemma tors_coset P U : tors U -> coset (ex P) (ey P) (ex (eadd P U)) (ey (eadd P U)).
Proof.
  unfold tors. rewrite ex_eadd, ey_eadd.
  exact (add_four_torsion fe f0 f1 fadd fmul fsub fopp fdiv finv fe_field ed_d sqrtm1
    (ex P) (ey P) (ex U) (ey U)).
Qed.
Lemma tors_on u v : tors4 u v -> eonb u v = true.
Proof.
  intros H. apply eonb_spec.
  apply (four_torsion_spec fe f0 f1 fadd fmul fsub fopp fdiv finv fe_field fe_eq_dec ed_d sqrtm1
    sqrtm1_square u v) in H. exact (proj1 H).
Qed.
Lemma coset_tors P Q : coset (ex P) (ey P) (ex Q) (ey Q) -> exists U, tors U /\ Q = eadd P U.
Proof.
  intros H.
  destruct (coset_four_torsion fe f0 f1 fadd fmul fsub fopp fdiv finv fe_field ed_d sqrtm1 _ _ _ _ H)
    as (u & v & Ht & Ex & Ey).
  exists (ept u v (tors_on u v Ht)). split; [exact Ht|].
  apply epoint_ext; [rewrite ex_eadd; exact Ex|rewrite ey_eadd; exact Ey].
Qed.
Lemma tors_xy P : fmul (ex P) (ey P) = f0 -> tors P.
Proof.
  exact (zero_coord fe f0 f1 fadd fmul fsub fopp fdiv finv fe_field fe_eq_dec ed_d sqrtm1 sqrtm1_square
    (ex P) (ey P) (epoint_on P)).
Qed.
Lemma tors_4_aux P : tors P -> eadd (eadd P P) (eadd P P) = ezero.
Proof.
  intros H.
  destruct (four_torsion_four fe f0 f1 fadd fmul fsub fopp fdiv finv fe_field ed_d sqrtm1 sqrtm1_square
    (ex P) (ey P) H) as [Ex Ey].
  apply epoint_ext.
  - rewrite ex_ezero, !ex_eadd, !ey_eadd. exact Ex.
  - rewrite ey_ezero, !ey_eadd, !ex_eadd. exact Ey.
Qed.
Lemma emul_4 P : emul 4 P = eadd (eadd P P) (eadd P P).
Proof. reflexivity. Qed.
Lemma tors_4 P : tors P -> emul 4 P = ezero.
Proof. intros H. rewrite emul_4. now apply tors_4_aux. Qed.

(** 2jT is 4-torsion. *)
Lemma tors_2T : tors (emul 2 ed_T).
Proof.
  pose proof two_T as H. revert H. generalize (emul 2 ed_T). intros P [Hx Hy].
  unfold tors, four_torsion. right. right.
  assert (Ey : ey P = f0) by (apply fe_ext; rewrite Hy; reflexivity).
  destruct Hx as [Hx|Hx]; [left|right]; (split; [|exact Ey]); apply fe_ext; rewrite Hx; reflexivity.
Qed.
Lemma even_T_aux (f : Z -> epoint -> epoint) T j :
  f = smul eadd ezero eopp -> tors (f 2 T) -> 0 <= j < 4 -> tors (f (j + j) T).
Proof.
  intros -> H Hj.
  assert (H4 : tors (smul eadd ezero eopp 4 T)).
  { change 4 with (2 + 2). rewrite (smul_add _ _ _ _ ed_laws). now apply tors_add. }
  assert (j = 0 \/ j = 1 \/ j = 2 \/ j = 3) as [-> |[-> |[-> | ->]]] by lia.
  - exact tors_zero.
  - exact H.
  - exact H4.
  - change (3 + 3) with (4 + 2). rewrite (smul_add _ _ _ _ ed_laws). now apply tors_add.
Qed.
Lemma even_T j : 0 <= j < 4 -> tors (emul (j + j) ed_T).
Proof. exact (even_T_aux emul ed_T j eq_refl tors_2T). Qed.

(** ** Classes *)

(** 2E: the points that represent classes. *)
Definition even_point (P : epoint) : Prop := sq (gg (ex P)).

Lemma even_coset_proj Q : even_point Q -> coset (ex (proj Q)) (ey (proj Q)) (ex Q) (ey Q).
Proof.
  intros H. destruct (square_even Q H) as (k & j & Hj & ->). rewrite even_proj.
  apply tors_coset. now apply even_T.
Qed.

Lemma proj_add P Q : proj (eadd P Q) = eadd (proj P) (proj Q).
Proof. exact (smul_op epoint eadd ezero eopp ed_laws kproj P Q). Qed.

Lemma kproj_4 (f : Z -> epoint -> epoint) P :
  f = smul eadd ezero eopp -> f 4 P = ezero -> f kproj P = ezero.
Proof.
  intros -> H. unfold kproj. set (b := 2713877091499598330239944961141122840321418634767465352250731601857045344121).
  clearbody b. replace (8 * b) with (2 * b * 4) by ring.
  rewrite (smul_mul _ _ _ _ ed_laws (2 * b) 4), H. apply (smul_zero _ _ _ _ ed_laws).
Qed.
Lemma proj_tors U : tors U -> proj U = ezero.
Proof. intros H. exact (kproj_4 emul U eq_refl (tors_4 U H)). Qed.

Lemma proj_coset P Q :
  emul ell P = ezero -> coset (ex P) (ey P) (ex Q) (ey Q) -> proj Q = P.
Proof.
  intros HP H. destruct (coset_tors P Q H) as (U & HU & ->).
  rewrite proj_add, (proj_tors U HU), (proj_fix P HP). apply (zero_r _ _ _ _ ed_laws).
Qed.

(** ** Encoding does not depend on the representative, nor on the projective coordinates. *)

Definition encode_affine (P : epoint) : fe := ris_encode_fe (ex P) (ey P) f1 (fmul (ex P) (ey P)).

Lemma rep_affine P : rep (ex P) (ey P) f1 (fmul (ex P) (ey P)) (ex P) (ey P).
Proof. split; [exact f1_neq_0|]. split; [ring|]. split; ring. Qed.

Lemma encode_affine_enc P : even_point P -> enc (ex P) (ey P) (encode_affine P).
Proof. intros H. apply enc_correct; [apply rep_affine|apply epoint_on|exact H]. Qed.

Theorem ris_encode_class X Y Z T Q :
  rep X Y Z T (ex Q) (ey Q) -> even_point Q -> ris_encode_fe X Y Z T = encode_affine (proj Q).
Proof.
  intros HR HQ. pose proof (enc_correct X Y Z T _ _ HR (epoint_on Q) HQ) as E1.
  assert (E2 : enc (ex (proj Q)) (ey (proj Q)) (encode_affine (proj Q))).
  { apply encode_affine_enc. apply killed_square, proj_killed. }
  apply (enc_coset _ _ (ex Q) (ey Q)) in E2; [|now apply even_coset_proj].
  exact (enc_unique _ _ _ _ (epoint_on Q) E1 E2).
Qed.

(** ** The type of ristretto points *)

Definition killedb (P : epoint) : bool := if epoint_eq_dec (emul ell P) ezero then true else false.
Lemma killedb_spec P : killedb P = true <-> emul ell P = ezero.
Proof. unfold killedb. destruct (epoint_eq_dec (emul ell P) ezero) as [e|n]; split; intros H; congruence. Qed.

Record rpoint := RP { rp : epoint; rp_ok : killedb rp = true }.

Lemma rp_killed P : emul ell (rp P) = ezero.
Proof. apply killedb_spec, rp_ok. Qed.
Lemma rpoint_ext P Q : rp P = rp Q -> P = Q.
Proof.
  destruct P as [P HP], Q as [Q HQ]. cbn [rp]. intros E. revert HP. rewrite E. intros HP. f_equal.
  apply UIP_dec, bool_dec.
Qed.
Definition mk_rpoint (P : epoint) (H : emul ell P = ezero) : rpoint := RP P (proj2 (killedb_spec P) H).

Lemma rp_mk P H : rp (mk_rpoint P H) = P.
Proof. reflexivity. Qed.

Lemma add_killed P Q : emul ell P = ezero -> emul ell Q = ezero -> emul ell (eadd P Q) = ezero.
Proof. exact (torsion_op epoint eadd ezero eopp ed_laws ell P Q). Qed.
Lemma zero_killed : emul ell ezero = ezero.
Proof. exact (smul_zero epoint eadd ezero eopp ed_laws ell). Qed.
Lemma opp_killed_aux (f : Z -> epoint -> epoint) P :
  f = smul eadd ezero eopp -> f ell P = ezero -> f ell (eopp P) = ezero.
Proof. intros -> H. rewrite (smul_opp _ _ _ _ ed_laws), H. apply (opp_zero _ _ _ _ ed_laws). Qed.
Lemma opp_killed P : emul ell P = ezero -> emul ell (eopp P) = ezero.
Proof. exact (opp_killed_aux emul P eq_refl). Qed.

Definition ris_zero : rpoint := mk_rpoint ezero zero_killed.
Definition ris_add (P Q : rpoint) : rpoint :=
  mk_rpoint (eadd (rp P) (rp Q)) (add_killed _ _ (rp_killed P) (rp_killed Q)).
Definition ris_opp (P : rpoint) : rpoint := mk_rpoint (eopp (rp P)) (opp_killed _ (rp_killed P)).
Definition ris_base : rpoint := mk_rpoint ed_B ell_B.
Definition ris_class (P : epoint) : rpoint := mk_rpoint (proj P) (proj_killed P).

Lemma rp_class P : rp (ris_class P) = proj P.
Proof. exact (rp_mk (proj P) (proj_killed P)). Qed.

Lemma ris_laws : abelian_laws rpoint ris_add ris_zero ris_opp.
Proof.
  split; intros; apply rpoint_ext.
  - apply (ab_comm _ _ _ _ ed_laws).
  - apply (ab_assoc _ _ _ _ ed_laws).
  - apply (ab_zero _ _ _ _ ed_laws).
  - apply (ab_opp _ _ _ _ ed_laws).
Qed.

(** [RistrettoPoint::ct_eq]: on any representatives, in any projective coordinates, it decides
    equality of the classes. *)
Lemma ris_ct_eq_tors P Q :
  ris_ct_eq (ex P) (ey P) (ex Q) (ey Q) = true <-> tors (eadd P (eopp Q)).
Proof.
  unfold tors. rewrite ex_eadd, ey_eadd, ex_eopp, ey_eopp.
  exact (ct_eq_spec fe f0 f1 fadd fmul fsub fopp fdiv finv fe_field fe_eq_dec ed_d sqrtm1
    sqrtm1_square ed_d_nonsquare f2_nonzero (ex P) (ey P) (ex Q) (ey Q) (epoint_on P) (epoint_on Q)).
Qed.

Lemma sub_zero P Q : eadd P (eopp Q) = ezero <-> P = Q.
Proof.
  split.
  - intros E. apply (op_cancel_r _ _ _ _ ed_laws (eopp Q)). rewrite E. symmetry. apply (opp_r _ _ _ _ ed_laws).
  - intros ->. apply (opp_r _ _ _ _ ed_laws).
Qed.
Lemma proj_opp P : proj (eopp P) = eopp (proj P).
Proof. exact (smul_opp epoint eadd ezero eopp ed_laws kproj P). Qed.

Lemma ris_ct_eq_projective X1 Y1 Z1 T1 x1 y1 X2 Y2 Z2 T2 x2 y2 :
  rep X1 Y1 Z1 T1 x1 y1 -> rep X2 Y2 Z2 T2 x2 y2 -> ris_ct_eq X1 Y1 X2 Y2 = ris_ct_eq x1 y1 x2 y2.
Proof.
  exact (ct_eq_projective fe f0 f1 fadd fmul fsub fopp fdiv finv fe_field fe_eq_dec
           X1 Y1 Z1 T1 x1 y1 X2 Y2 Z2 T2 x2 y2).
Qed.
Lemma sub_cancel R U V : eadd (eadd R U) (eopp (eadd R V)) = eadd U (eopp V).
Proof.
  rewrite (opp_op _ _ _ _ ed_laws), <- (ab_assoc _ _ _ _ ed_laws),
    (op_swap _ _ _ _ ed_laws U (eopp R)), (ab_assoc _ _ _ _ ed_laws R (eopp R)),
    (opp_r _ _ _ _ ed_laws), (ab_zero _ _ _ _ ed_laws). reflexivity.
Qed.
Lemma tors_sub_proj P Q : tors (eadd P (eopp Q)) -> proj P = proj Q.
Proof.
  intros H. apply (proj1 (sub_zero (proj P) (proj Q))).
  rewrite <- proj_opp, <- proj_add. exact (proj_tors _ H).
Qed.
Lemma proj_tors_sub P Q : even_point P -> even_point Q -> proj P = proj Q -> tors (eadd P (eopp Q)).
Proof.
  intros HP HQ.
  destruct (coset_tors _ _ (even_coset_proj P HP)) as (U & HU & EU).
  destruct (coset_tors _ _ (even_coset_proj Q HQ)) as (V & HV & EV).
  revert EU EV. generalize (proj P) (proj Q). intros A B -> -> ->. rewrite sub_cancel.
  exact (tors_add U (eopp V) HU (tors_opp V HV)).
Qed.
Lemma ris_class_eq P Q : ris_class P = ris_class Q <-> proj P = proj Q.
Proof.
  split.
  - intros H. apply (f_equal rp) in H. rewrite !rp_class in H. exact H.
  - intros H. apply rpoint_ext. rewrite !rp_class. exact H.
Qed.

Theorem ris_ct_eq_class X1 Y1 Z1 T1 X2 Y2 Z2 T2 P Q :
  rep X1 Y1 Z1 T1 (ex P) (ey P) -> rep X2 Y2 Z2 T2 (ex Q) (ey Q) -> even_point P -> even_point Q ->
  (ris_ct_eq X1 Y1 X2 Y2 = true <-> ris_class P = ris_class Q).
Proof.
  intros R1 R2 HP HQ. rewrite (ris_ct_eq_projective _ _ _ _ _ _ _ _ _ _ _ _ R1 R2), ris_ct_eq_tors, ris_class_eq.
  split; [exact (tors_sub_proj P Q)|exact (proj_tors_sub P Q HP HQ)].
Qed.

(** The operations of the code act on representatives; the class of the result is the result. *)
Theorem ris_class_add P Q : ris_class (eadd P Q) = ris_add (ris_class P) (ris_class Q).
Proof.
  apply rpoint_ext. unfold ris_add. rewrite rp_mk, !rp_class. exact (proj_add P Q).
Qed.
Theorem ris_class_opp P : ris_class (eopp P) = ris_opp (ris_class P).
Proof.
  apply rpoint_ext. unfold ris_opp. rewrite rp_mk, !rp_class. exact (proj_opp P).
Qed.
Theorem ris_class_rp P : ris_class (rp P) = P.
Proof. apply rpoint_ext. rewrite rp_class. exact (proj_fix (rp P) (rp_killed P)). Qed.

Definition ris_eqb (P Q : rpoint) : bool := ris_ct_eq (ex (rp P)) (ey (rp P)) (ex (rp Q)) (ey (rp Q)).

Lemma ris_eqb_eq P Q : ris_eqb P Q = true <-> P = Q.
Proof.
  unfold ris_eqb. rewrite (ris_ct_eq_class _ _ _ _ _ _ _ _ _ _ (rep_affine (rp P)) (rep_affine (rp Q))
    (killed_square _ (rp_killed P)) (killed_square _ (rp_killed Q))).
  now rewrite !ris_class_rp.
Qed.

(** [RistrettoPoint::compress] *)
Definition ris_compress (P : rpoint) : bytes := fe_bytes (encode_affine (rp P)).

(** [CompressedRistretto::decompress] *)
Definition ris_decompress (b : bytes) : option rpoint :=
  let s := fe_of_bytes b in
  if negb (bytes_eqb (fe_bytes s) b) || is_negative s then None
  else match ris_decode_fe s with
       | None => None
       | Some (x, y) =>
         match bool_dec (eonb x y) true with
         | left H => Some (ris_class (ept x y H))
         | right _ => None
         end
       end.

(** [RistrettoPoint::elligator_ristretto_flavor] and [from_uniform_bytes] *)
Definition ris_map (r_0 : fe) : epoint :=
  let '(x, y) := ris_elligator r_0 in
  match bool_dec (eonb x y) true with
  | left H => ept x y H
  | right _ => ezero
  end.
Definition ris_from_uniform (b : bytes) : rpoint :=
  ris_class (eadd (ris_map (fe_of_bytes (firstn 32 b))) (ris_map (fe_of_bytes (firstn 32 (skipn 32 b))))).

(** The map is always on the curve, so the second branch of [ris_map] is never taken. *)
Lemma ris_map_spec r_0 : (ex (ris_map r_0), ey (ris_map r_0)) = ris_elligator r_0.
Proof.
  unfold ris_map. pose proof (elligator_point r_0) as H. destruct (ris_elligator r_0) as [x y].
  destruct H as [H _]. destruct (bool_dec (eonb x y) true) as [e|n]; [reflexivity|].
  exfalso. apply n, eonb_spec, H.
Qed.

Lemma even_add P Q : even_point P -> even_point Q -> even_point (eadd P Q).
Proof.
  intros HP HQ. destruct (square_even P HP) as (k & j & _ & ->). destruct (square_even Q HQ) as (k' & j' & _ & ->).
  assert (E : eadd (eadd (emul k ed_B) (emul (j + j) ed_T)) (eadd (emul k' ed_B) (emul (j' + j') ed_T))
              = eadd (emul (k + k') ed_B) (emul ((j + j') + (j + j')) ed_T)).
  { generalize ed_B ed_T. intros B T. unfold emul. rewrite <- !(ab_assoc _ _ _ _ ed_laws).
    rewrite (op_swap _ _ _ _ ed_laws (smul eadd ezero eopp (j + j) T)).
    rewrite (ab_assoc _ _ _ _ ed_laws (smul eadd ezero eopp k B)), <- !(smul_add _ _ _ _ ed_laws).
    f_equal. f_equal. ring. }
  rewrite E. apply even_square.
Qed.

Lemma ris_map_even r_0 : even_point (ris_map r_0).
Proof.
  pose proof (ris_map_spec r_0) as E. pose proof (elligator_point r_0) as H. rewrite <- E in H.
  destruct H as (C & (s & Hs) & _). unfold even_point.
  destruct (fe_eq_dec (ey (ris_map r_0)) f0) as [Ey|Hy]; [|now apply (gg_square _ _ s C Hs)].
  exact (g_square_y0 fe f0 f1 fadd fmul fsub fopp fdiv finv fe_field ed_d _ _ C Ey).
Qed.

(** [proj] only picks the representative: the sum of the two images is in the class. *)
Lemma from_uniform_class b :
  let Q := eadd (ris_map (fe_of_bytes (firstn 32 b))) (ris_map (fe_of_bytes (firstn 32 (skipn 32 b)))) in
  coset (ex (rp (ris_from_uniform b))) (ey (rp (ris_from_uniform b))) (ex Q) (ey Q).
Proof. cbv zeta. apply even_coset_proj, even_add; apply ris_map_even. Qed.

(** ** Laws *)

Lemma fe_bytes_length x : length (fe_bytes x) = 32%nat.
Proof. apply le_bytes_length. Qed.

Lemma p_lt_256 : p25519 < 2 ^ 256. Proof. reflexivity. Qed.
Lemma fe_of_bytes_fe x : fe_of_bytes (fe_bytes x) = x.
Proof.
  unfold fe_of_bytes, fe_bytes. pose proof (fval_range x) as R. pose proof p_lt_255 as R'.
  rewrite le_val_le_bytes, N.mod_small.
  - rewrite Z2N.id by (clear - R; lia). rewrite Z.mod_small by (clear - R R'; lia). apply fof_fval.
  - apply N2Z.inj_lt. rewrite Z2N.id by (clear - R; lia).
    change (Z.of_N (256 ^ N.of_nat 32)) with (2 ^ 256). pose proof p_lt_256. clear - R H. lia.
Qed.

Lemma ris_compress_length P : length (ris_compress P) = 32%nat.
Proof. apply fe_bytes_length. Qed.

Lemma enc_nonneg x y s : enc x y s -> is_negative s = false.
Proof. intros [[_ ->]|(x' & y' & _ & _ & _ & H)]; [exact is_negative_0|exact H]. Qed.

Lemma rp_even P : even_point (rp P).
Proof. apply killed_square, rp_killed. Qed.

Theorem ris_decompress_compress P : ris_decompress (ris_compress P) = Some P.
Proof.
  unfold ris_decompress, ris_compress. cbv zeta. rewrite fe_of_bytes_fe.
  pose proof (encode_affine_enc (rp P) (rp_even P)) as H.
  set (s := encode_affine (rp P)) in *. clearbody s.
  rewrite (proj2 (bytes_eqb_eq (fe_bytes s) (fe_bytes s)) eq_refl), (enc_nonneg _ _ _ H). cbn [negb orb].
  destruct H as [[Exy ->]|(x & y & O & Cn & S & _)].
  - rewrite dec_zero.
    destruct (bool_dec (eonb f0 f1) true) as [e|n]; [|exfalso; apply n; apply (tors_on f0 f1); left; tauto].
    f_equal. apply rpoint_ext. cbn [rp ris_class mk_rpoint].
    assert (Z0 : ept f0 f1 e = ezero) by (apply epoint_ext; reflexivity).
    rewrite Z0, (proj_fix ezero zero_killed). symmetry.
    apply killed_4; [now apply tors_4, tors_xy|apply rp_killed].
  - assert (C : eon x y).
    { exact (on_coset_eon fe f0 f1 fadd fmul fsub fopp fdiv finv fe_field ed_d sqrtm1 sqrtm1_square
        _ _ _ _ O (epoint_on (rp P))). }
    rewrite (dec_complete x y s C Cn S).
    destruct (bool_dec (eonb x y) true) as [e|n]; [|exfalso; apply n; now apply eonb_spec].
    f_equal. apply rpoint_ext. cbn [rp ris_class mk_rpoint].
    apply proj_coset; [apply rp_killed|exact O].
Qed.

Theorem ris_compress_decompress b P : ris_decompress b = Some P -> ris_compress P = b.
Proof.
  unfold ris_decompress. cbv zeta. set (s := fe_of_bytes b). clearbody s.
  destruct (bytes_eqb (fe_bytes s) b) eqn:Eb; [|discriminate]. apply bytes_eqb_eq in Eb.
  destruct (is_negative s) eqn:Ns; [discriminate|]. cbn [negb orb].
  destruct (ris_decode_fe s) as [[x y]|] eqn:ED; [|discriminate].
  destruct (dec_sound s x y Ns ED) as (C & E & Hz & Hn).
  destruct (bool_dec (eonb x y) true) as [e|n]; [|discriminate].
  intros H. injection H as <-. rewrite <- Eb. unfold ris_compress. f_equal.
  cbn [rp ris_class mk_rpoint]. set (Q := ept x y e).
  assert (HQ : even_point Q).
  { unfold even_point. change (ex Q) with x. destruct (fe_eq_dec (fmul x y) f0) as [Exy|Nxy].
    - destruct (Hz Exy) as [Ex0 _].
      exact (g_square_x0 fe f0 f1 fadd fmul fsub fopp fdiv finv fe_field x Ex0).
    - destruct E as [[Exy _]|(x' & y' & O & Cn & S & _)]; [contradiction|].
      destruct (canonical_unique fe f0 f1 fadd fmul fsub fopp fdiv finv fe_field fe_eq_dec sqrtm1
        is_negative sqrtm1_square is_negative_opp x y x' y' (Hn Nxy) Cn O) as [-> ->].
      apply (gg_square x y s C S). now destruct Cn as (_ & Hy & _). }
  apply (enc_unique (ex Q) (ey Q)).
  - exact C.
  - apply (enc_coset (ex (proj Q)) (ey (proj Q))); [now apply even_coset_proj|].
    apply encode_affine_enc, killed_square, proj_killed.
  - exact E.
Qed.

Lemma rp_smul n P : rp (smul ris_add ris_zero ris_opp n P) = smul eadd ezero eopp n (rp P).
Proof.
  assert (K : forall m, rp (pmul ris_add m P) = pmul eadd m (rp P)).
  { induction m as [m IH|m IH|]; cbn [pmul].
    - cbn [rp ris_add mk_rpoint]. now rewrite IH.
    - cbn [rp ris_add mk_rpoint]. now rewrite IH.
    - reflexivity. }
  destruct n as [|m|m]; cbn [smul].
  - reflexivity.
  - apply K.
  - cbn [rp ris_opp mk_rpoint]. now rewrite K.
Qed.

Lemma ris_order_aux (f : Z -> epoint -> epoint) :
  f = smul eadd ezero eopp -> f ell ed_B = ezero -> smul ris_add ris_zero ris_opp ell ris_base = ris_zero.
Proof. intros -> H. apply rpoint_ext. rewrite rp_smul. exact H. Qed.
Theorem ris_order : smul ris_add ris_zero ris_opp ell ris_base = ris_zero.
Proof. exact (ris_order_aux emul eq_refl ell_B). Qed.

Theorem ris_generated P : exists n, P = smul ris_add ris_zero ris_opp n ris_base.
Proof.
  destruct (multiple_of_B (rp P) (rp_killed P)) as (k & _ & E). exists k. apply rpoint_ext.
  rewrite rp_smul. exact E.
Qed.

Theorem ris_base_nonzero : ris_base <> ris_zero.
Proof. intros E. apply (f_equal rp) in E. exact (ed_B_nonzero E). Qed.
