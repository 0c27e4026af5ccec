(** * The interface of [curve25519_dalek::ristretto::RistrettoPoint] used by the aucpace crate.

    The model is written against this record.  [rgroup_laws] are the facts the theorems assume of it:
    an abelian group in which every element is a multiple of the base point, of prime order
    2^252 + 27742317777372353535851937790883648493, with canonical 32-byte encodings.  Nothing is
    assumed of [rfrom_uniform].  [ToyGroup] below satisfies the laws, so no theorem is vacuous. *)
From Coq Require Import ZArith Znumtheory Lia.
From Verif Require Import Base.Bytes.
From Verif Require Import Curve.Primes Curve.Zmod Curve.Abelian Curve.Scalar25519.
Local Open Scope nat_scope.

Record RGroup := {
  pt : Type;
  radd : pt -> pt -> pt;
  rzero : pt;                            (** [RistrettoPoint::identity()] *)
  ropp : pt -> pt;
  rbase : pt;                            (** [RISTRETTO_BASEPOINT_POINT] *)
  reqb : pt -> pt -> bool;               (** [ct_eq] *)
  rcompress : pt -> bytes;               (** [compress().to_bytes()] *)
  rdecompress : bytes -> option pt;      (** [CompressedRistretto(b).decompress()], 32 bytes *)
  rfrom_uniform : bytes -> pt            (** [from_uniform_bytes], 64 bytes *)
}.

Record rgroup_laws (R : RGroup) : Prop := {
  rl_abelian : abelian_laws (pt R) (radd R) (rzero R) (ropp R);
  rl_order : smul (radd R) (rzero R) (ropp R) ell (rbase R) = rzero R;
  rl_generated : forall P, exists n, P = smul (radd R) (rzero R) (ropp R) n (rbase R);
  rl_base : rbase R <> rzero R;
  rl_eqb : forall P Q, reqb R P Q = true <-> P = Q;
  rl_length : forall P, length (rcompress R P) = 32;
  rl_decompress : forall P, rdecompress R (rcompress R P) = Some P;
  rl_canonical : forall b P, length b = 32 -> rdecompress R b = Some P -> rcompress R P = b
}.

(** [&RistrettoPoint * &Scalar] *)
Definition rmul {R : RGroup} (P : pt R) (s : scalar) : pt R :=
  smul (radd R) (rzero R) (ropp R) (sval s) P.

(** [IsIdentity::is_identity] *)
Definition is_identity {R : RGroup} (P : pt R) : bool := reqb R P (rzero R).

Section Laws.
Context {R : RGroup} (L : rgroup_laws R).
Let AL := rl_abelian R L.

Lemma is_identity_eq (P : pt R) : is_identity P = true <-> P = rzero R.
Proof. apply (rl_eqb R L). Qed.
Lemma is_identity_neq (P : pt R) : is_identity P = false <-> P <> rzero R.
Proof. rewrite <- is_identity_eq. destruct (is_identity P); split; congruence. Qed.

Lemma rcompress_inj (P Q : pt R) : rcompress R P = rcompress R Q -> P = Q.
Proof.
  intros E. apply (f_equal (rdecompress R)) in E. rewrite !(rl_decompress R L) in E.
  now injection E.
Qed.

Lemma order_all (P : pt R) : smul (radd R) (rzero R) (ropp R) ell P = rzero R.
Proof.
  destruct (rl_generated R L P) as [n ->].
  rewrite (smul_comm _ _ _ _ AL), (rl_order R L). apply (smul_zero _ _ _ _ AL).
Qed.

Lemma smul_rmul n (P : pt R) : smul (radd R) (rzero R) (ropp R) n P = rmul P (sof n).
Proof. unfold rmul. rewrite sval_sof. symmetry. apply (smul_mod _ _ _ _ AL), order_all. Qed.

Lemma rmul_mul (P : pt R) a b : rmul (rmul P a) b = rmul P (smult a b).
Proof.
  unfold rmul at 1 2. rewrite <- (smul_mul _ _ _ _ AL), smul_rmul. f_equal.
  apply sval_inj. now rewrite sval_sof, sval_smult, Z.mul_comm.
Qed.
Lemma rmul_comm (P : pt R) a b : rmul (rmul P a) b = rmul (rmul P b) a.
Proof. now rewrite !rmul_mul, smult_comm. Qed.
Lemma rmul_one (P : pt R) : rmul P sone = P.
Proof. unfold rmul. rewrite sval_sone. reflexivity. Qed.
Lemma rmul_szero (P : pt R) : rmul P szero = rzero R.
Proof. unfold rmul. rewrite sval_szero. reflexivity. Qed.
Lemma rmul_rzero s : rmul (rzero R) s = rzero R.
Proof. apply (smul_zero _ _ _ _ AL). Qed.

(** Prime order: a product is the identity only if a factor is. *)
Lemma rmul_identity (P : pt R) s : rmul P s = rzero R <-> s = szero \/ P = rzero R.
Proof.
  split.
  - intros E. destruct (seqb s szero) eqn:Es; [left; now apply seqb_eq|right].
    apply seqb_neq in Es.
    rewrite <- (rmul_one P), <- (sinv_l s Es), smult_comm, <- rmul_mul, E. apply rmul_rzero.
  - intros [-> | ->]; [apply rmul_szero|apply rmul_rzero].
Qed.

Lemma rmul_inj (P : pt R) a b : P <> rzero R -> rmul P a = rmul P b -> a = b.
Proof.
  intros HP E.
  assert (rmul P (sof (sval a - sval b)) = rzero R) as Z0.
  { rewrite <- smul_rmul. replace (sval a - sval b)%Z with (sval a + - sval b)%Z by ring.
    rewrite (smul_add _ _ _ _ AL), (smul_neg _ _ _ _ AL).
    unfold rmul in E. rewrite E. apply (opp_r _ _ _ _ AL). }
  apply rmul_identity in Z0. destruct Z0 as [Z0|Z0]; [|contradiction].
  apply (f_equal sval) in Z0. rewrite sval_sof, sval_szero in Z0.
  apply sval_inj. pose proof (sval_range a). pose proof (sval_range b).
  apply Z.mod_divide in Z0; [|discriminate]. destruct Z0 as [k Hk].
  assert (k = 0)%Z as -> by nia. lia.
Qed.

(** Every point is a unique multiple of every point other than the identity. *)
Lemma rmul_onto (P Q : pt R) : P <> rzero R -> exists s, rmul P s = Q.
Proof.
  intros HP. destruct (rl_generated R L P) as [p Ep]. destruct (rl_generated R L Q) as [q Eq].
  rewrite smul_rmul in Ep, Eq.
  assert (Hp : sof p <> szero).
  { intros E. apply HP. rewrite Ep, E. apply rmul_szero. }
  exists (smult (sinv (sof p)) (sof q)).
  rewrite Ep, rmul_mul, smult_assoc, (smult_comm (sof p)), sinv_l, smult_one_l by exact Hp. now symmetry.
Qed.
End Laws.

(** ** The additive group of integers modulo the order, as an instance that can be computed with *)

Definition ToyGroup : RGroup := {|
  pt := scalar;
  radd := zadd ell ell_gt_1;
  rzero := szero;
  ropp := zopp ell ell_gt_1;
  rbase := sone;
  reqb := seqb;
  rcompress := scalar_bytes;
  rdecompress := scalar_canonical;
  rfrom_uniform := scalar_wide
|}.

Lemma toy_abelian : abelian_laws scalar (zadd ell ell_gt_1) szero (zopp ell ell_gt_1).
Proof.
  pose proof (zmod_ring ell ell_gt_1) as [A0 AC AA _ _ _ _ _ AO].
  split; intros.
  - apply AC.
  - apply AA.
  - apply A0.
  - rewrite AC. apply AO.
Qed.

Lemma toy_smul n : smul (G:=scalar) (zadd ell ell_gt_1) szero (zopp ell ell_gt_1) n sone = sof n.
Proof.
  assert (forall k, (0 <= k)%Z ->
    smul (G:=scalar) (zadd ell ell_gt_1) szero (zopp ell ell_gt_1) k sone = sof k) as HP.
  { intros k Hk. pattern k. apply natlike_ind; [reflexivity| |exact Hk].
    intros z _ IH. unfold Z.succ. rewrite (smul_add _ _ _ _ toy_abelian), IH.
    unfold sof. now rewrite of_Z_add. }
  destruct (Z.le_ge_cases 0 n) as [H|H]; [now apply HP|].
  replace n with (- - n)%Z by ring. rewrite (smul_neg _ _ _ _ toy_abelian), HP by lia.
  symmetry. apply of_Z_opp.
Qed.

Lemma toy_laws : rgroup_laws ToyGroup.
Proof.
  split; cbn [pt radd rzero ropp rbase reqb rcompress rdecompress ToyGroup].
  - exact toy_abelian.
  - rewrite toy_smul. apply sval_inj. rewrite sval_sof, sval_szero. reflexivity.
  - intros P. exists (sval P). rewrite toy_smul. symmetry. apply sof_sval.
  - intros E. apply (f_equal sval) in E. rewrite sval_sone, sval_szero in E. discriminate.
  - exact seqb_eq.
  - exact scalar_bytes_length.
  - exact scalar_canonical_bytes.
  - exact scalar_canonical_inv.
Qed.
