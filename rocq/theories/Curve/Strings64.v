(** * The strings of 64 bytes and the scalars they are reduced to.  Nothing here models the crates. *)
From Coq Require Import ZArith NArith List Lia Bool.
From Verif.Base Require Import Bytes Rng Count Dictionary.
From Verif.Curve Require Import Primes Scalar25519 NearUniform.
Import ListNotations.
Local Open Scope nat_scope.

Definition random (t : bytes) : scalar := fst (scalar_random tape_rng t).
(** At most this many strings have one remainder. *)
Definition most : nat := Z.to_nat (256 ^ 64 / ell + 1).
Definition nonzero_scalars : list scalar := map (fun k => sof (Z.of_nat k)) (seq 1 (Z.to_nat (ell - 1))).
Definition all_scalars : list scalar := szero :: nonzero_scalars.

Lemma most_spec y : length (filter (fun t => seqb (random t) y) (strings 64)) <= most.
Proof.
  set (l := filter _ (strings 64)).
  assert (NoDup l) as ND by apply NoDup_filter, nodup_strings.
  assert (forall b, In b l -> length b = 64 /\ (zval b mod ell = sval y)%Z) as HI.
  { intros b Hb. apply filter_In in Hb. destruct Hb as [Hb E]. apply in_strings in Hb. split; [exact Hb|].
    apply seqb_eq in E. unfold random in E. rewrite (drawn_tape b Hb) in E. rewrite <- E. symmetry. apply sval_sof. }
  clearbody l. rewrite <- (map_length (fun b => Z.to_nat (zval b / ell))).
  unfold most. rewrite <- (seq_length (Z.to_nat (256 ^ 64 / ell + 1)) 0).
  apply NoDup_incl_length.
  - apply nodup_map; [exact ND|]. intros a b Ha Hb E. destruct (HI a Ha) as [La Ea]. destruct (HI b Hb) as [Lb Eb].
    apply (zval_inj 64 a b La Lb). pose proof (zval_range 64 a La) as Ra. pose proof (zval_range 64 b Lb) as Rb.
    pose proof ell_gt_1 as He. revert Ea Eb E Ra Rb He. generalize (256 ^ Z.of_nat 64)%Z (zval a) (zval b) (sval y) ell.
    intros T u v y' e Ea Eb E Ra Rb He.
    pose proof (Z.div_mod u e ltac:(lia)) as Hu. pose proof (Z.div_mod v e ltac:(lia)) as Hv.
    assert (0 <= u / e)%Z by (apply Z.div_pos; lia). assert (0 <= v / e)%Z by (apply Z.div_pos; lia).
    assert (u / e = v / e)%Z as Q by (apply Z2Nat.inj; assumption). rewrite Hu, Hv, Ea, Eb, Q. reflexivity.
  - intros k Hk. apply in_map_iff in Hk. destruct Hk as (b & <- & Hb). destruct (HI b Hb) as [Lb _].
    pose proof (zval_range 64 b Lb) as Rb. change (Z.of_nat 64) with 64%Z in Rb.
    pose proof ell_gt_1 as He. revert Rb He. generalize (256 ^ 64)%Z (zval b) ell. intros T u e Rb He. apply in_seq.
    assert (0 <= u / e)%Z by (apply Z.div_pos; lia).
    assert (u / e <= T / e)%Z by (apply Z.div_le_mono; lia). lia.
Qed.

Lemma nonzero_scalars_spec y : y <> szero -> In y nonzero_scalars.
Proof.
  intros Hy. unfold nonzero_scalars. apply in_map_iff. pose proof (sval_range y) as Hr.
  assert (sval y <> 0%Z) as H0 by (intros E; apply Hy, sval_inj; now rewrite sval_szero).
  exists (Z.to_nat (sval y)). rewrite Z2Nat.id by exact (proj1 Hr). split; [apply sof_sval|].
  revert Hr H0. generalize (sval y) ell. intros v e Hr H0. apply in_seq. lia.
Qed.
Lemma all_scalars_spec y : In y all_scalars.
Proof.
  unfold all_scalars. destruct (seqb y szero) eqn:E.
  - apply seqb_eq in E. rewrite E. apply in_eq.
  - apply in_cons, nonzero_scalars_spec. now apply seqb_neq.
Qed.
Lemma strings_64 : Z.of_nat (length (strings 64)) = (256 ^ 64)%Z.
Proof. exact (length_strings 64). Qed.
Lemma nonzero_most : length nonzero_scalars * most <= length (strings 64).
Proof.
  apply Nat2Z.inj_le. rewrite strings_64, Nat2Z.inj_mul. unfold nonzero_scalars, most. rewrite map_length, seq_length.
  assert (0 <= ell - 1 /\ 0 <= 256 ^ 64 / ell + 1 /\ (ell - 1) * (256 ^ 64 / ell + 1) <= 256 ^ 64)%Z as (H1 & H2 & H3).
  { split; [|split]; apply Z.leb_le; vm_compute; reflexivity. }
  rewrite !Z2Nat.id by assumption. exact H3.
Qed.
Lemma most_small : (2 ^ 252 * Z.of_nat most <= 256 ^ 64)%Z.
Proof.
  unfold most. assert (0 <= 256 ^ 64 / ell + 1 /\ 2 ^ 252 * (256 ^ 64 / ell + 1) <= 256 ^ 64)%Z as [H1 H2].
  { split; apply Z.leb_le; vm_compute; reflexivity. }
  rewrite Z2Nat.id by exact H1. exact H2.
Qed.
Local Opaque strings.
Lemma length_cons {A} (x : A) l : length (x :: l) = S (length l).
Proof. reflexivity. Qed.
Lemma all_most : (2 ^ 259 * (Z.of_nat most * Z.of_nat (length all_scalars)) <= (2 ^ 259 + 1) * 256 ^ 64)%Z.
Proof.
  unfold all_scalars, nonzero_scalars, most. rewrite length_cons, map_length, seq_length, Nat2Z.inj_succ.
  assert (0 <= ell - 1 /\ 0 <= 256 ^ 64 / ell + 1 /\
    2 ^ 259 * ((256 ^ 64 / ell + 1) * Z.succ (ell - 1)) <= (2 ^ 259 + 1) * 256 ^ 64)%Z as (H1 & H2 & H3).
  { split; [|split]; apply Z.leb_le; vm_compute; reflexivity. }
  rewrite !Z2Nat.id by assumption. exact H3.
Qed.

(** A property of random strings that fixes the scalar holds of few of them. *)
Lemma few_with (p : bytes -> bool) (C : Prop) :
  (forall t t', length t = 64 -> length t' = 64 -> p t = true -> p t' = true -> random t = random t' \/ C) ->
  (2 ^ 252 * Z.of_nat (length (filter p (strings 64))) <= 256 ^ 64)%Z \/ C.
Proof.
  intros H.
  assert (forall t, In t (filter p (strings 64)) -> length t = 64 /\ p t = true) as HF.
  { intros t Ht. apply filter_In in Ht. destruct Ht as [Ht E]. apply in_strings in Ht. now split. }
  destruct (filter p (strings 64)) as [|t0 l] eqn:F.
  { left. change (Z.of_nat (length (@nil bytes))) with 0%Z. rewrite Z.mul_0_r. apply Z.pow_nonneg. discriminate. }
  destruct (HF t0 (or_introl eq_refl)) as [L0 E0].
  destruct (all_or (fun t => random t = random t0) C (t0 :: l)) as [HA|HC]; [|left|now right].
  - intros t Ht. destruct (HF t Ht) as [Lt Et]. exact (H t t0 Lt L0 Et E0).
  - eapply Z.le_trans; [|exact most_small]. apply Z.mul_le_mono_nonneg_l; [apply Z.pow_nonneg; discriminate|].
    apply inj_le. rewrite <- F. eapply Nat.le_trans; [|exact (most_spec (random t0))].
    apply filter_le. intros t Ht Hp. apply seqb_eq, HA. rewrite <- F. apply filter_In. now split.
Qed.
Global Opaque most random nonzero_scalars all_scalars.
