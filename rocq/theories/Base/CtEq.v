(** * [subtle::ConstantTimeEq] on bytes and slices (external crate subtle 2.6.1). *)
From Verif Require Import Base.Bytes.

(** [u8::ct_eq]: [x = a ^ b; y = (x | x.wrapping_neg()) >> 7; y ^ 1]; result 0 or 1. *)
Definition u8_ct_eq (a b : byte) : N :=
  let x := N.lxor (b2n a) (b2n b) in
  let wneg := ((256 - x) mod 256)%N in
  let y := N.shiftr (N.lor x wneg) 7 in
  N.lxor y 1.

(** [<[T]>::ct_eq]: 0 when the lengths differ, else the conjunction of the elementwise results. *)
Definition slice_ct_eq (a b : bytes) : N :=
  if Nat.eqb (length a) (length b)
  then fold_left (fun acc p => N.land acc (u8_ct_eq (fst p) (snd p))) (combine a b) 1%N
  else 0%N.

Definition all_bytes : bytes := map (fun n => n2b (N.of_nat n)) (seq 0 256).

Lemma all_bytes_complete b : In b all_bytes.
Proof.
  unfold all_bytes. apply in_map_iff. exists (N.to_nat (b2n b)). split.
  - rewrite N2Nat.id. apply n2b_b2n.
  - apply in_seq. pose proof (b2n_lt b). lia.
Qed.

Lemma forall_bytes (P : byte -> bool) : forallb P all_bytes = true -> forall b, P b = true.
Proof. intros H b. rewrite forallb_forall in H. apply H, all_bytes_complete. Qed.

Lemma u8_ct_eq_spec a b : u8_ct_eq a b = if byte_eqb a b then 1%N else 0%N.
Proof.
  assert (H : forall a b, N.eqb (u8_ct_eq a b) (if byte_eqb a b then 1 else 0)%N = true).
  { intros x. apply forall_bytes. revert x.
    apply (forall_bytes (fun x => forallb
      (fun y => N.eqb (u8_ct_eq x y) (if byte_eqb x y then 1 else 0)%N) all_bytes)).
    vm_compute. reflexivity. }
  now apply N.eqb_eq.
Qed.

Lemma slice_ct_eq_spec a b : slice_ct_eq a b = if bytes_eqb a b then 1%N else 0%N.
Proof.
  unfold slice_ct_eq.
  destruct (Nat.eqb_spec (length a) (length b)) as [HL|HL].
  - assert (G : forall acc, (acc = 0 \/ acc = 1)%N ->
      fold_left (fun acc p => N.land acc (u8_ct_eq (fst p) (snd p))) (combine a b) acc
      = if bytes_eqb a b then acc else 0%N).
    { revert b HL. induction a as [|x a IH]; intros [|y b] HL acc Hacc; cbn in *; try lia; auto.
      rewrite u8_ct_eq_spec. destruct (byte_eqb x y); cbn.
      - rewrite IH; [|lia|]; destruct Hacc as [-> | ->]; cbn; auto.
      - rewrite N.land_0_r, IH by (auto; lia). now destruct (bytes_eqb a b). }
    now rewrite G by auto.
  - destruct (bytes_eqb a b) eqn:E; [|reflexivity].
    apply bytes_eqb_eq in E. now subst.
Qed.

Lemma slice_ct_eq_1 a b : slice_ct_eq a b = 1%N <-> a = b.
Proof.
  rewrite slice_ct_eq_spec. destruct (bytes_eqb a b) eqn:E.
  - apply bytes_eqb_eq in E. tauto.
  - split; [discriminate|]. intros ->.
    assert (bytes_eqb b b = true) by now apply bytes_eqb_eq. congruence.
Qed.
