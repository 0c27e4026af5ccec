(** * curve25519-dalek [Scalar]: integers modulo the group order, kept reduced. *)
From Coq Require Import ZArith Znumtheory.
From Verif Require Import Base.Bytes Base.Rng.
From Verif Require Import Curve.Primes Curve.Zmod.
Local Open Scope Z_scope.

Lemma ell_gt_1 : 1 < ell.
Proof. reflexivity. Qed.

Definition scalar := zmod ell.
Definition sof (z : Z) : scalar := of_Z ell ell_gt_1 z.
Definition sval (s : scalar) : Z := val ell s.

Lemma sval_range s : 0 <= sval s < ell.
Proof. apply val_range, ell_gt_1. Qed.
Lemma sval_sof z : sval (sof z) = z mod ell.
Proof. apply val_of_Z. Qed.
Lemma sof_sval s : sof (sval s) = s.
Proof. apply of_Z_val. Qed.
Lemma sval_inj a b : sval a = sval b -> a = b.
Proof. apply zmod_ext. Qed.

(** [Scalar::ZERO], [Scalar::ONE], [*], [invert] (exponentiation by l - 2, so 0 on 0), [==] *)
Definition szero : scalar := zzero ell ell_gt_1.
Definition sone : scalar := zone ell ell_gt_1.
Definition smult (a b : scalar) : scalar := zmul ell ell_gt_1 a b.
Definition sinv (a : scalar) : scalar := zinv ell ell_gt_1 a.
Definition seqb (a b : scalar) : bool := sval a =? sval b.

Lemma seqb_eq a b : seqb a b = true <-> a = b.
Proof.
  unfold seqb. rewrite Z.eqb_eq. split; [apply sval_inj|now intros ->].
Qed.
Lemma seqb_neq a b : seqb a b = false <-> a <> b.
Proof. rewrite <- seqb_eq. destruct (seqb a b); split; congruence. Qed.
Lemma sval_smult a b : sval (smult a b) = (sval a * sval b) mod ell.
Proof. apply val_of_Z. Qed.
Lemma sval_szero : sval szero = 0.
Proof. unfold szero, zzero, sval. rewrite val_of_Z. apply Z.mod_0_l. discriminate. Qed.
Lemma sval_sone : sval sone = 1.
Proof. unfold sone, zone, sval. rewrite val_of_Z. apply Z.mod_1_l, ell_gt_1. Qed.
Lemma smult_one_r a : smult a sone = a.
Proof.
  apply sval_inj. rewrite sval_smult, sval_sone, Z.mul_1_r. apply val_mod.
Qed.
Lemma smult_one_l a : smult sone a = a.
Proof.
  apply sval_inj. rewrite sval_smult, sval_sone, Z.mul_1_l. apply val_mod.
Qed.
Lemma smult_comm a b : smult a b = smult b a.
Proof. apply sval_inj. now rewrite !sval_smult, Z.mul_comm. Qed.
Lemma smult_assoc a b c : smult a (smult b c) = smult (smult a b) c.
Proof.
  apply sval_inj. rewrite !sval_smult, Z.mul_mod_idemp_r, Z.mul_mod_idemp_l by discriminate.
  now rewrite Z.mul_assoc.
Qed.
Lemma sinv_l a : a <> szero -> smult (sinv a) a = sone.
Proof. apply zinv_l, prime_ell. Qed.
Lemma sinv_nonzero a : a <> szero -> sinv a <> szero.
Proof.
  intros Ha E. pose proof (sinv_l a Ha) as HL. rewrite E in HL.
  apply (f_equal sval) in HL. rewrite sval_smult, sval_szero, sval_sone in HL. discriminate.
Qed.
Lemma smult_nonzero a b : a <> szero -> b <> szero -> smult a b <> szero.
Proof.
  intros Ha Hb E. apply Hb.
  rewrite <- (smult_one_l b), <- (sinv_l a Ha), <- smult_assoc, E.
  apply sval_inj. now rewrite sval_smult, sval_szero, Z.mul_0_r.
Qed.
Lemma smult_cancel_l a b c : a <> szero -> smult a b = smult a c -> b = c.
Proof.
  intros Ha E. rewrite <- (smult_one_l b), <- (smult_one_l c), <- (sinv_l a Ha), <- !smult_assoc.
  now rewrite E.
Qed.

(** [Scalar::from_bytes_mod_order_wide]: 64 bytes, little-endian. *)
Definition scalar_wide (b : bytes) : scalar := sof (Z.of_N (le_val b)).
(** [Scalar::from_bytes_mod_order]: 32 bytes, little-endian. *)
Definition scalar_mod_order (b : bytes) : scalar := sof (Z.of_N (le_val b)).
(** [Scalar::to_bytes] and [Scalar::from_canonical_bytes] on 32 bytes. *)
Definition scalar_bytes (s : scalar) : bytes := le_bytes 32 (Z.to_N (sval s)).
Definition scalar_canonical (b : bytes) : option scalar :=
  if Z.of_N (le_val b) <? ell then Some (sof (Z.of_N (le_val b))) else None.

Lemma scalar_bytes_length s : length (scalar_bytes s) = 32%nat.
Proof. apply le_bytes_length. Qed.
Lemma le_val_scalar_bytes s : Z.of_N (le_val (scalar_bytes s)) = sval s.
Proof.
  unfold scalar_bytes. rewrite le_val_le_bytes. pose proof (sval_range s) as Hs.
  rewrite N.mod_small.
  - now rewrite Z2N.id by lia.
  - apply N2Z.inj_lt. rewrite Z2N.id by lia.
    assert (ell < Z.of_N (256 ^ N.of_nat 32)) by reflexivity. lia.
Qed.
Lemma scalar_canonical_bytes s : scalar_canonical (scalar_bytes s) = Some s.
Proof.
  unfold scalar_canonical. rewrite le_val_scalar_bytes. pose proof (sval_range s) as Hs.
  destruct (Z.ltb_spec (sval s) ell); [|lia]. now rewrite sof_sval.
Qed.
Lemma scalar_canonical_inv b s :
  length b = 32%nat -> scalar_canonical b = Some s -> scalar_bytes s = b.
Proof.
  unfold scalar_canonical. intros HL.
  destruct (Z.ltb_spec (Z.of_N (le_val b)) ell) as [Hb|]; [|discriminate].
  intros E. injection E as <-. apply le_val_inj; [now rewrite scalar_bytes_length|].
  apply N2Z.inj. rewrite le_val_scalar_bytes, sval_sof. apply Z.mod_small. lia.
Qed.

(** [Scalar::random]: 64 bytes from the generator, reduced. *)
Definition scalar_random (T : Rng) (s : rng_state T) : scalar * rng_state T :=
  let '(b, s') := rng_fill T 64 s in (scalar_wide b, s').
