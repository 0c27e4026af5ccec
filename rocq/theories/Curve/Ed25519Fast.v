(** * Fast evaluation of edwards25519 over plain integers, proved equal to [Ed25519].

    Nothing here models repository code; it makes the definitions of [Ed25519] computable at a
    reasonable cost (extended coordinates, folding reduction modulo 2^255 - 19), for the kernel
    check that the protocol constants have order l and for the known-answer tests. *)
From Coq Require Import ZArith Znumtheory NArith Lia Field Ring Bool List.
From Verif.Base Require Import Bytes HexMul.
From Verif.Curve Require Import NumTheory Primes Zmod Edwards Abelian Ed25519.
Import ListNotations.
Local Open Scope Z_scope.

Definition mask255 : Z := Z.ones 255.

(** hi * 2^256 + lo is congruent to lo + 38 hi; on base-16 digits. *)
Definition fold38 (l : list hx) : list hx := mulx [h6; h2] (skipn 64 l) (firstn 64 l).

Lemma hval_split n l :
  hval l = (hval (firstn n l) + 16 ^ N.of_nat n * hval (skipn n l))%N.
Proof.
  revert l. induction n as [|n IH]; intros l.
  - cbn [firstn skipn hval]. change (16 ^ N.of_nat 0)%N with 1%N. lia.
  - destruct l as [|d l]; cbn [firstn skipn hval]; [lia|].
    rewrite (IH l). rewrite Nat2N.inj_succ, N.pow_succ_r'. ring.
Qed.

Lemma fold38_mod l : Z.of_N (hval (fold38 l)) mod p25519 = Z.of_N (hval l) mod p25519.
Proof.
  unfold fold38. rewrite mulx_ok, (hval_split 64 l).
  change (hval [h6; h2]) with 38%N.
  set (lo := hval (firstn 64 l)). set (hi := hval (skipn 64 l)).
  change (16 ^ N.of_nat 64)%N with (Z.to_N (38 + 2 * p25519)).
  rewrite !N2Z.inj_add, !N2Z.inj_mul. rewrite Z2N.id by discriminate.
  change (Z.of_N 38) with 38.
  replace (Z.of_N lo + (38 + 2 * p25519) * Z.of_N hi)
    with (38 * Z.of_N hi + Z.of_N lo + (2 * Z.of_N hi) * p25519) by ring.
  now rewrite Z_mod_plus_full.
Qed.

Definition rmulp (a b : positive) : N := hx_N (fold38 (fold38 (mulx (pos_hx a) (pos_hx b) []))).

Definition rmul (a b : Z) : Z :=
  match a, b with
  | Zpos x, Zpos y => ofN false (rmulp x y)
  | Zpos x, Zneg y => ofN true (rmulp x y)
  | Zneg x, Zpos y => ofN true (rmulp x y)
  | Zneg x, Zneg y => ofN false (rmulp x y)
  | _, _ => Z0
  end.

Lemma rmulp_mod a b : Z.of_N (rmulp a b) mod p25519 = (Zpos a * Zpos b) mod p25519.
Proof.
  unfold rmulp. rewrite hx_N_ok, !fold38_mod, mulx_ok, !pos_hx_ok. cbn [hval].
  now rewrite N.add_0_r.
Qed.

Lemma ofN_val s n : ofN s n = if s then - Z.of_N n else Z.of_N n.
Proof. destruct n, s; reflexivity. Qed.

Lemma mod_opp_eq a b : a mod p25519 = b mod p25519 -> (- a) mod p25519 = (- b) mod p25519.
Proof. intros E. apply fof_eq. rewrite !fof_opp. f_equal. now apply fof_eq. Qed.

Lemma fof_rmul a b : fof (rmul a b) = fmul (fof a) (fof b).
Proof.
  rewrite <- fof_mul. apply fof_eq.
  destruct a as [|a|a], b as [|b|b]; cbn [rmul]; try reflexivity; rewrite ofN_val.
  - apply rmulp_mod.
  - rewrite (mod_opp_eq _ _ (rmulp_mod a b)). f_equal.
  - rewrite (mod_opp_eq _ _ (rmulp_mod a b)). f_equal.
  - apply rmulp_mod.
Qed.

(** ** Extended coordinates *)

Record ext := Ext { eX : Z; eY : Z; eZ : Z; eT : Z }.

Definition erep (e : ext) (P : epoint) : Prop :=
  represents fe f0 f1 fadd fmul fsub fe_eq_dec ed_d (fof (eX e)) (fof (eY e)) (fof (eZ e)) (fof (eT e)) P.

Definition ext_addp (p q : ext) : ext :=
  let '(Ext X1 Y1 Z1 T1) := p in let '(Ext X2 Y2 Z2 T2) := q in
  let A := rmul (Y1 - X1) (Y2 - X2) in let B := rmul (Y1 + X1) (Y2 + X2) in
  let C := rmul (2 * rmul T1 T2) d_Z in let D := 2 * rmul Z1 Z2 in
  let E := B - A in let F := D - C in let G := D + C in let H := B + A in
  Ext (rmul E F) (rmul G H) (rmul F G) (rmul E H).

Definition ext_dblp (p : ext) : ext :=
  let '(Ext X Y Z _) := p in
  let A := rmul X X in let B := rmul Y Y in let C := 2 * rmul Z Z in
  let E := rmul (X + Y) (X + Y) - A - B in let G := B - A in let F := G - C in let H := - A - B in
  Ext (rmul E F) (rmul G H) (rmul F G) (rmul E H).

Lemma fof_2 : fof 2 = fadd f1 f1.
Proof. apply fe_ext. reflexivity. Qed.

Ltac push := repeat (rewrite fof_rmul || rewrite fof_add || rewrite fof_sub || rewrite fof_opp
                     || rewrite fof_mul || rewrite fof_2).

Lemma represents_eq X Y Z T X' Y' Z' T' P :
  represents fe f0 f1 fadd fmul fsub fe_eq_dec ed_d X Y Z T P ->
  X' = X -> Y' = Y -> Z' = Z -> T' = T ->
  represents fe f0 f1 fadd fmul fsub fe_eq_dec ed_d X' Y' Z' T' P.
Proof. intros H -> -> -> ->. exact H. Qed.

Lemma ext_addp_ok p q P Q : erep p P -> erep q Q -> erep (ext_addp p q) (eadd P Q).
Proof.
  destruct p as [X1 Y1 Z1 T1], q as [X2 Y2 Z2 T2]. unfold erep. cbn [eX eY eZ eT]. intros HP HQ.
  pose proof (ext_add fe f0 f1 fadd fmul fsub fopp fdiv finv fe_field fe_eq_dec ed_d sqrtm1
    sqrtm1_square ed_d_nonsquare f2_nonzero _ _ _ _ _ _ _ _ P Q HP HQ) as H. cbv zeta in H.
  change (padd _ _ _ _ _ _ _ _ _ _ _ _ _ _ _ _ P Q) with (eadd P Q) in H.
  unfold ext_addp. cbn [eX eY eZ eT].
  apply (represents_eq _ _ _ _ _ _ _ _ _ H); push; change (fof d_Z) with ed_d; ring.
Qed.

Lemma ext_dblp_ok p P : erep p P -> erep (ext_dblp p) (eadd P P).
Proof.
  destruct p as [X Y Z T]. unfold erep. cbn [eX eY eZ eT]. intros HP.
  pose proof (ext_double fe f0 f1 fadd fmul fsub fopp fdiv finv fe_field fe_eq_dec ed_d sqrtm1
    sqrtm1_square ed_d_nonsquare f2_nonzero _ _ _ _ P HP) as H. cbv zeta in H.
  change (padd _ _ _ _ _ _ _ _ _ _ _ _ _ _ _ _ P P) with (eadd P P) in H.
  unfold ext_dblp. cbn [eX eY eZ eT].
  apply (represents_eq _ _ _ _ _ _ _ _ _ H); push; ring.
Qed.

Fixpoint ext_pmul (n : positive) (p : ext) : ext :=
  match n with
  | xH => p
  | xO n' => ext_dblp (ext_pmul n' p)
  | xI n' => ext_addp (ext_dblp (ext_pmul n' p)) p
  end.

Definition ext_zero : ext := Ext 0 1 1 0.
Definition ext_smul (n : Z) (p : ext) : ext :=
  match n with
  | Zpos k => ext_pmul k p
  | _ => ext_zero
  end.

Lemma ext_pmul_ok n p P : erep p P -> erep (ext_pmul n p) (pmul eadd n P).
Proof.
  intros H. induction n as [n IH|n IH|]; cbn [ext_pmul pmul].
  - apply ext_addp_ok; [|exact H]. now apply ext_dblp_ok.
  - now apply ext_dblp_ok.
  - exact H.
Qed.

Lemma fof_0 : fof 0 = f0. Proof. reflexivity. Qed.
Lemma fof_1 : fof 1 = f1. Proof. reflexivity. Qed.

Lemma ext_zero_ok : erep ext_zero ezero.
Proof.
  unfold erep, ext_zero. cbn [eX eY eZ eT]. unfold represents.
  change (px _ _ _ _ _ _ _ ezero) with f0. change (py _ _ _ _ _ _ _ ezero) with f1.
  rewrite fof_0, fof_1. split; [exact f1_neq_0|split; [ring|split; ring]].
Qed.

Lemma ext_smul_ok n p P : 0 <= n -> erep p P -> erep (ext_smul n p) (emul n P).
Proof.
  intros Hn H. destruct n as [|n|n]; [apply ext_zero_ok|now apply ext_pmul_ok|lia].
Qed.

(** A point given by integer coordinates. *)
Definition ext_of (x y : Z) : ext := Ext x y 1 (rmul x y).

Lemma ext_of_ok P : erep (ext_of (fval (ex P)) (fval (ey P))) P.
Proof.
  unfold erep, ext_of. cbn [eX eY eZ eT]. rewrite fof_rmul, fof_1, !fof_fval.
  apply (represents_affine fe f0 f1 fadd fmul fsub fopp fdiv finv fe_field).
Qed.

(** The identity test. *)
Definition ext_is_zero (p : ext) : bool :=
  (eX p mod p25519 =? 0) && ((eY p - eZ p) mod p25519 =? 0).

Lemma ext_is_zero_ok p P : erep p P -> ext_is_zero p = true -> P = ezero.
Proof.
  intros H E. unfold ext_is_zero in E. apply andb_true_iff in E. destruct E as [E1 E2].
  apply Z.eqb_eq in E1, E2.
  apply (represents_zero fe f0 f1 fadd fmul fsub fopp fdiv finv fe_field fe_eq_dec ed_d _ _ _ _ _ H).
  - apply fe_ext. exact E1.
  - assert (E : fof (eY p - eZ p) = f0) by (apply fe_ext; exact E2).
    rewrite fof_sub in E. transitivity (fof (eY p) - fof (eZ p) + fof (eZ p))%fe; [ring|].
    rewrite E. ring.
Qed.

(** l P = 0 from a computation on the coordinates of P. *)
Lemma torsion_check n x y P :
  0 <= n -> fval (ex P) = x -> fval (ey P) = y ->
  ext_is_zero (ext_smul n (ext_of x y)) = true -> emul n P = ezero.
Proof.
  intros Hn <- <- H. apply (ext_is_zero_ok _ _ (ext_smul_ok n _ P Hn (ext_of_ok P)) H).
Qed.

(** ** Powers, compression and decompression *)

Fixpoint rpow (b : Z) (e : positive) : Z :=
  match e with
  | xH => b
  | xO e' => let t := rpow b e' in rmul t t
  | xI e' => let t := rpow b e' in rmul (rmul t t) b
  end.

Lemma fof_rpow b e : fof (rpow b e) = fpow (fof b) e.
Proof.
  induction e as [e IH|e IH|]; cbn [rpow fpow].
  - rewrite !fof_rmul, IH. reflexivity.
  - rewrite fof_rmul, IH. reflexivity.
  - reflexivity.
Qed.

Definition p_minus_2 : positive :=
  57896044618658097711785492504343953926634992332820282019728792003956564819947.
Lemma p_minus_2_eq : Z.pos p_minus_2 = p25519 - 2. Proof. reflexivity. Qed.

Lemma fof_rpow_inv b : fof (rpow b p_minus_2) = finv (fof b).
Proof.
  rewrite fof_rpow. unfold finv, zinv.
  change (p25519 - 2) with (Z.pos p_minus_2). reflexivity.
Qed.

Definition to_affine (p : ext) : Z * Z :=
  let zi := rpow (eZ p) p_minus_2 in
  (rmul (eX p) zi mod p25519, rmul (eY p) zi mod p25519).

Lemma to_affine_ok p P : erep p P -> to_affine p = (fval (ex P), fval (ey P)).
Proof.
  intros (HZ & HX & HY & _). unfold to_affine.
  rewrite <- !fval_fof, !fof_rmul, fof_rpow_inv, HX, HY.
  change (px _ _ _ _ _ _ _ P) with (ex P). change (py _ _ _ _ _ _ _ P) with (ey P).
  f_equal; f_equal.
  - transitivity (ex P * fof (eZ p) / fof (eZ p))%fe; [reflexivity|]. field. exact HZ.
  - transitivity (ey P * fof (eZ p) / fof (eZ p))%fe; [reflexivity|]. field. exact HZ.
Qed.

Definition compress_xy (xy : Z * Z) : bytes :=
  le_bytes 32 (Z.to_N (snd xy + (if Z.odd (fst xy) then 2 ^ 255 else 0))).

Lemma compress_xy_ok P : compress_xy (fval (ex P), fval (ey P)) = compress P.
Proof. reflexivity. Qed.

Definition ext_compress (p : ext) : bytes := compress_xy (to_affine p).
Lemma ext_compress_ok p P : erep p P -> ext_compress p = compress P.
Proof. intros H. unfold ext_compress. now rewrite (to_affine_ok _ _ H). Qed.

Definition zeqm (a b : Z) : bool := (a - b) mod p25519 =? 0.
Lemma zeqm_ok a b : zeqm a b = feq (fof a) (fof b).
Proof.
  unfold zeqm. apply eq_true_iff_eq. rewrite Z.eqb_eq, feq_eq, fof_eq. split; intros H.
  - apply Zmod_divide in H; [|discriminate]. destruct H as [k Hk].
    replace a with (b + k * p25519) by lia. apply Z_mod_plus_full.
  - rewrite Zminus_mod, H, Z.sub_diag. reflexivity.
Qed.

Definition rsqrt (u v : Z) : bool * Z :=
  let v3 := rmul (rmul v v) v in
  let v7 := rmul (rmul v3 v3) v in
  let r := rmul (rmul u v3) (rpow (rmul u v7) e_p58) in
  let check := rmul v (rmul r r) in
  let correct := zeqm check u in
  let flipped := zeqm check (- u) in
  let flipped_i := zeqm check (rmul (- u) sqrtm1_Z) in
  let r := if flipped || flipped_i then rmul sqrtm1_Z r else r in
  let r := r mod p25519 in
  let r := if Z.odd r then - r else r in
  (correct || flipped, r mod p25519).

Lemma rsqrt_ok u v :
  rsqrt u v = (fst (sqrt_ratio_i (fof u) (fof v)), fval (snd (sqrt_ratio_i (fof u) (fof v)))).
Proof.
  unfold rsqrt, sqrt_ratio_i. cbv zeta. cbn [fst snd].
  rewrite !zeqm_ok. rewrite !fof_rmul, !fof_rpow, !fof_rmul, !fof_opp.
  change (fof sqrtm1_Z) with sqrtm1.
  set (ck := (fof v * _)%fe). clearbody ck.
  set (r := rmul (rmul u _) _).
  assert (Hr : fof r = (fof u * (fof v * fof v * fof v)
     * fpow (fof u * (fof v * fof v * fof v * (fof v * fof v * fof v) * fof v)) e_p58)%fe).
  { unfold r. now rewrite !fof_rmul, fof_rpow, !fof_rmul. }
  rewrite <- Hr. clearbody r. f_equal.
  assert (Hi : (sqrtm1 * fof r)%fe = fof (rmul sqrtm1_Z r)) by now rewrite fof_rmul.
  rewrite Hi.
  destruct (feq ck (- fof u)%fe || feq ck (- fof u * sqrtm1)%fe);
    unfold is_negative; rewrite fval_fof; destruct (Z.odd _); rewrite <- ?fof_opp.
  1,3: rewrite <- fval_fof; f_equal; rewrite !fof_opp; f_equal; rewrite <- fval_fof; apply fof_fval.
  all: rewrite Z.mod_mod by discriminate; reflexivity.
Qed.

Definition rdecompress (b : bytes) : option (Z * Z) :=
  let v := Z.of_N (le_val b) in
  let y := Z.land v mask255 in
  let yy := rmul y y in
  let '(ok, x) := rsqrt (yy - 1) (rmul d_Z yy + 1) in
  if ok then Some ((if sign_bit v then (- x) mod p25519 else x), y mod p25519) else None.

Lemma rdecompress_ok b :
  rdecompress b = option_map (fun P => (fval (ex P), fval (ey P))) (decompress b).
Proof.
  unfold rdecompress, decompress. cbv zeta. set (v := Z.of_N (le_val b)).
  unfold mask255. rewrite Z.land_ones by discriminate. set (y := v mod 2 ^ 255).
  rewrite rsqrt_ok. rewrite fof_sub, fof_add, !fof_rmul, fof_1. change (fof d_Z) with ed_d.
  destruct (sqrt_ratio_i _ _) as [ok x] eqn:E. cbn [fst snd].
  destruct ok; [|reflexivity].
  pose proof (decompress_on_curve _ _ (sign_bit v) E) as Hc.
  destruct (bool_dec _ true) as [H|H]; [|contradiction].
  cbn [option_map]. f_equal. f_equal.
  unfold ex, ept. cbn [px]. destruct (sign_bit v); reflexivity.
Qed.

(** Compression of a scalar multiple of a decompressed string, in one go (for tests). *)
Definition xy_ext (xy : Z * Z) : ext := ext_of (fst xy) (snd xy).
Lemma xy_ext_ok P : erep (xy_ext (fval (ex P), fval (ey P))) P.
Proof. apply ext_of_ok. Qed.
