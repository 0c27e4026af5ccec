(** * All that [==] of two slices shows, and the exact number of comparisons an observer of it needs (C96). *)
From Coq Require Import NArith Lia List Bool PeanoNat.
From Verif Require Import Base.Bytes Base.CtEq Base.Hex Base.Kat Base.Leak.
Import ListNotations.
Local Open Scope nat_scope.

(** The bytes of both slices in turn up to the first that differ, each after a branch of the loop and before the
    branch on their difference. *)
Fixpoint equal_shows (k : nat) (a b : bytes) : list obs :=
  match a, b with
  | x :: a, y :: b =>
      [OBranch true; ORead 0 (N.of_nat k); ORead 1 (N.of_nat k)] ++
      if byte_eqb x y then OBranch false :: equal_shows (S k) a b else [OBranch true]
  | _, _ => [OBranch false]
  end.

Lemma byte_eqb_refl x : byte_eqb x x = true. Proof. now apply byte_eqb_eq. Qed.

Lemma eq_loop_shows a b : forall n k v, k + n = length a -> length a = length b -> exists v',
  loop (exec (two a b) eq_step) vI n (N.of_nat k) v =
  (if bytes_eqb (skipn k a) (skipn k b) then None else Some 0%N, v', equal_shows k (skipn k a) (skipn k b)).
Proof.
  induction n as [|n IH]; intros k v HK HL.
  - cbn [loop]. rewrite !skipn_all2 by lia. now exists v.
  - assert (Sk : forall (l : bytes), k < length l -> skipn k l = nth k l x00 :: skipn (S k) l).
    { clear. intros l. revert k. induction l as [|x l IHl]; intros [|k] Hk; cbn in *; try lia; auto.
      apply IHl. lia. }
    cbn [loop]. unfold eq_step at 1. cbn [exec eval fst snd two].
    assert (EI : set v vI (N.of_nat k) vI = N.of_nat k) by reflexivity. rewrite EI, Nat2N.id.
    rewrite (Sk a), (Sk b) by lia. cbn [equal_shows bytes_eqb].
    destruct (byte_eqb (nth k a x00) (nth k b x00)) eqn:EB.
    + apply byte_eqb_eq in EB. rewrite EB, N.eqb_refl. cbn [negb N.eqb emit andthen app].
      replace (N.of_nat k + 1)%N with (N.of_nat (S k)) by lia.
      match goal with |- context [loop _ _ n _ ?w] => destruct (IH (S k) w ltac:(lia) HL) as (v' & E); rewrite E end.
      cbn [emit andthen app andb]. now exists v'.
    + destruct (N.eqb_spec (b2n (nth k a x00)) (b2n (nth k b x00))) as [E|E].
      { apply b2n_inj in E. rewrite E, byte_eqb_refl in EB. discriminate. }
      cbn [negb N.eqb emit andthen app andb]. eexists. reflexivity.
Qed.

(** C96: all that [==] shows: the branch on the lengths and, if they are equal, the reads up to the first bytes that
    differ. *)
Theorem C96_eq_shows :
  forall a b, snd (eq_l a b) =
  if Nat.eqb (length a) (length b) then OBranch false :: equal_shows 0 a b else [OBranch true].
Proof.
  intros a b. unfold eq_l, call, eq_code. cbn [exec eval fst snd two].
  destruct (Nat.eqb_spec (length a) (length b)) as [HL|HL].
  - rewrite <- HL, N.eqb_refl. cbn [negb N.eqb emit andthen app]. rewrite Nat2N.id.
    destruct (eq_loop_shows a b (length a) 0 (fun _ => 0%N) eq_refl HL) as (v' & E).
    cbn [N.of_nat skipn] in E. rewrite E.
    destruct (bytes_eqb a b); cbn [emit andthen snd app]; [now rewrite app_nil_r|reflexivity].
  - destruct (N.eqb_spec (N.of_nat (length a)) (N.of_nat (length b))); [lia|]. reflexivity.
Qed.

Lemma try_bytes_exact u x w : forall before after, ~ In x before ->
  try_bytes (eq_l (u ++ x :: w)) u (length w) (before ++ x :: after) = (Some x, S (length before)).
Proof.
  induction before as [|y l IH]; intros after H; cbn [try_bytes app length]; rewrite further_eq.
  - now rewrite byte_eqb_refl.
  - destruct (byte_eqb x y) eqn:E.
    + apply byte_eqb_eq in E. subst y. now destruct (H (or_introl eq_refl)).
    + rewrite IH; [reflexivity|]. intros I. apply H. now right.
Qed.

Lemma all_bytes_nodup : NoDup all_bytes.
Proof.
  apply (NoDup_map_inv b2n). unfold all_bytes. rewrite map_map.
  rewrite (map_ext_in _ N.of_nat).
  - apply (proj2 (NoDup_nth_error _)). intros i j Hi E. rewrite map_length, seq_length in Hi.
    rewrite !nth_error_map in E.
    assert (EI : nth_error (seq 0 256) i = Some i).
    { rewrite (nth_error_nth' _ 0) by now rewrite seq_length. now rewrite seq_nth. }
    rewrite EI in E. cbn [option_map] in E.
    destruct (nth_error (seq 0 256) j) as [k|] eqn:EJ; [|discriminate].
    assert (Hj : j < 256) by (rewrite <- (seq_length 256 0); apply nth_error_Some; congruence).
    rewrite (nth_error_nth' _ 0), seq_nth in EJ by (try rewrite seq_length; assumption).
    injection EJ as EJ. injection E as E. apply Nat2N.inj in E. cbn in EJ. congruence.
  - intros k Hk. apply in_seq in Hk. rewrite b2n_n2b, N.mod_small by lia. reflexivity.
Qed.

Lemma all_bytes_at x :
  exists before after, all_bytes = before ++ x :: after /\ length before = N.to_nat (b2n x) /\ ~ In x before.
Proof.
  assert (E : nth_error all_bytes (N.to_nat (b2n x)) = Some x).
  { unfold all_bytes. rewrite nth_error_map. pose proof (b2n_lt x).
    rewrite (nth_error_nth' _ 0) by (rewrite seq_length; lia). rewrite seq_nth by lia. cbn [option_map Nat.add].
    now rewrite N2Nat.id, n2b_b2n. }
  destruct (nth_error_split _ _ E) as (before & after & EL & LB).
  exists before, after. repeat split; auto. pose proof all_bytes_nodup as ND. rewrite EL in ND.
  intros I. apply (NoDup_remove_2 _ _ _ ND). apply in_or_app. now left.
Qed.

(** The comparisons for a byte: one for every smaller value and one for the value itself. *)
Definition comparisons_for (secret : bytes) : nat := list_sum (map (fun x => N.to_nat (b2n x) + 1) secret).

Lemma recover_exact w : forall u,
  recover (eq_l (u ++ w)) (length w) u = (u ++ w, comparisons_for w).
Proof.
  induction w as [|x w IH]; intros u; cbn [recover length]; [now rewrite app_nil_r|].
  destruct (all_bytes_at x) as (before & after & -> & LB & NI).
  rewrite try_bytes_exact by assumption.
  specialize (IH (u ++ [x])). rewrite <- app_assoc in IH. cbn [app] in IH. rewrite IH.
  unfold comparisons_for. cbn [map list_sum fold_right]. rewrite LB. f_equal. unfold list_sum. lia.
Qed.

(** C96: an observer of [==] that tries the values of a byte in their order finds any string with one comparison for
    each of its bytes and one more for every smaller value of the byte, no more and no fewer. *)
Theorem C96_early_exit_count :
  forall secret, recover (eq_l secret) (length secret) [] = (secret, comparisons_for secret).
Proof. intros secret. exact (recover_exact secret []). Qed.

(** Case: strings that differ in their second byte, and a string of three bytes. *)
Check (test (snd (eq_l (hex "010203") (hex "010303"))) (OBranch false :: equal_shows 0 (hex "010203") (hex "010303"))).
Check (test (length (equal_shows 0 (hex "010203") (hex "010303"))) 8).
Check (test (comparisons_for (hex "a70003")) (168 + 1 + 4)).
Check (test (recover (eq_l (hex "a70003")) 3 []) (hex "a70003", comparisons_for (hex "a70003"))).
