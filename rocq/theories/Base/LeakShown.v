(** * All that [ct_eq] shows, in closed form. *)
From Coq Require Import NArith Lia List Bool PeanoNat.
From Verif Require Import Base.Bytes Base.CtEq Base.Hex Base.Kat Base.Leak.
Import ListNotations.
Local Open Scope nat_scope.

(** The branch on the lengths; if they are equal, every byte of both slices in turn, each after a branch of the loop. *)
Definition compare_shows (n m : nat) : list obs :=
  if Nat.eqb n m
  then OBranch false :: flat_map (fun k => [OBranch true; ORead 0 (N.of_nat k); ORead 1 (N.of_nat k)]) (seq 0 n) ++ [OBranch false]
  else [OBranch true].

Lemma ct_eq_loop_shows a b : forall n k v, exists v',
  loop (exec (two a b) ct_eq_step) vI n (N.of_nat k) v =
  (None, v', flat_map (fun k => [OBranch true; ORead 0 (N.of_nat k); ORead 1 (N.of_nat k)]) (seq k n) ++ [OBranch false]).
Proof.
  induction n as [|n IH]; intros k v; cbn [loop seq flat_map app].
  - now exists v.
  - unfold ct_eq_step at 1. cbn [exec andthen emit eval fst snd].
    replace (N.of_nat k + 1)%N with (N.of_nat (S k)) by lia.
    match goal with |- context [loop _ _ n _ ?w] => destruct (IH (S k) w) as (v' & E); rewrite E end.
    exists v'. reflexivity.
Qed.
Lemma ct_eq_shows a b : snd (ct_eq_l a b) = compare_shows (length a) (length b).
Proof.
  unfold ct_eq_l, call, ct_eq_code, compare_shows. cbn [exec eval fst snd two].
  destruct (Nat.eqb_spec (length a) (length b)) as [HL|HL].
  - rewrite <- HL, N.eqb_refl. cbn [negb N.eqb emit andthen app]. rewrite Nat2N.id.
    destruct (ct_eq_loop_shows a b (length a) 0 (set (fun _ => 0%N) vX 1)) as (v' & E).
    cbn [N.of_nat] in E. rewrite E. cbn [emit andthen snd app]. now rewrite app_nil_r.
  - destruct (N.eqb_spec (N.of_nat (length a)) (N.of_nat (length b))); [lia|]. reflexivity.
Qed.
Check (test (compare_shows 2 2) [OBranch false; OBranch true; ORead 0 0; ORead 1 0; OBranch true; ORead 0 1; ORead 1 1; OBranch false]).
