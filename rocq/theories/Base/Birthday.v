(** * Repetitions among random values.  Nothing here models the crates. *)
From Coq Require Import ZArith List Lia Bool Arith.
From Verif.Base Require Import Bytes Guess Dictionary.
Import ListNotations.
Local Open Scope nat_scope.

Lemma sum_over_le {A} (f : A -> nat) c l : (forall a, In a l -> f a <= c) -> sum_over f l <= length l * c.
Proof.
  induction l as [|a l IH]; intros H; cbn; [lia|]. pose proof (H a (or_introl eq_refl)).
  assert (sum_over f l <= length l * c) by (apply IH; intros b Hb; apply H; now right). lia.
Qed.
Lemma sum_over_plus {A} (f g : A -> nat) l : sum_over (fun a => f a + g a) l = sum_over f l + sum_over g l.
Proof. induction l as [|a l IH]; cbn; [reflexivity|]. rewrite IH. lia. Qed.
Lemma sum_over_swap {A B} (p : A -> B -> bool) l m :
  sum_over (fun a => length (filter (p a) m)) l = sum_over (fun b => length (filter (fun a => p a b) l)) m.
Proof.
  induction l as [|a l IH]; cbn; [induction m as [|b m IH]; cbn; [reflexivity|exact IH]|].
  rewrite IH. clear IH.
  assert (E : forall b, length (if p a b then a :: filter (fun a0 => p a0 b) l else filter (fun a0 => p a0 b) l)
    = (if p a b then 1 else 0) + length (filter (fun a0 => p a0 b) l)) by (intros b; now destruct (p a b)).
  rewrite (sum_over_ext _ _ m (fun b _ => E b)), sum_over_plus. f_equal.
  induction m as [|b m IH]; cbn; [reflexivity|]. destruct (p a b); cbn; now rewrite IH.
Qed.
Lemma filter_flat {A B} (p : B -> bool) (f : A -> list B) l :
  length (filter p (flat_map f l)) = sum_over (fun a => length (filter p (f a))) l.
Proof. induction l as [|a l IH]; cbn; [reflexivity|]. now rewrite filter_app, app_length, IH. Qed.
Lemma filter_map_length {A B} (p : B -> bool) (f : A -> B) l : length (filter p (map f l)) = length (filter (fun a => p (f a)) l).
Proof. induction l as [|a l IH]; cbn; [reflexivity|]. destruct (p (f a)); cbn; now rewrite IH. Qed.
Lemma filter_orb {A} (p q : A -> bool) l : length (filter (fun a => p a || q a) l) <= length (filter p l) + length (filter q l).
Proof. induction l as [|a l IH]; cbn; [lia|]. destruct (p a), (q a); cbn; lia. Qed.

Section Birthday.
Context {A : Type} (eqv : A -> A -> bool) (space : list A) (M : nat).
Hypothesis few : forall b, length (filter (fun a => eqv a b) space) <= M.

Fixpoint repeats (l : list A) : bool :=
  match l with [] => false | a :: l' => existsb (eqv a) l' || repeats l' end.

Lemma few_matching c : length (filter (fun a => existsb (eqv a) c) space) <= length c * M.
Proof.
  induction c as [|b c IH]; cbn [existsb length].
  - clear few. induction space as [|a l IH]; cbn; [lia|exact IH].
  - eapply Nat.le_trans; [apply filter_orb|]. pose proof (few b). lia.
Qed.

(** Lists of [n] values in which two agree: at most a part [n (n - 1) M / (2 |space|)] of all. *)
Lemma birthday n :
  2 * length space * length (filter repeats (choices (repeat space n))) <= n * (n - 1) * M * length space ^ n.
Proof.
  induction n as [|n IH]; [cbn; lia|]. cbn [repeat choices Nat.pow].
  assert (H : length (filter repeats (flat_map (fun a => map (cons a) (choices (repeat space n))) space))
    <= length space * length (filter repeats (choices (repeat space n))) + length space ^ n * (n * M)).
  { rewrite filter_flat. rewrite (sum_over_ext _ (fun a => length (filter (fun c => existsb (eqv a) c || repeats c) (choices (repeat space n))))).
    2:{ intros a _. rewrite filter_map_length. reflexivity. }
    assert (S : forall l, sum_over (fun a => length (filter (fun c => existsb (eqv a) c || repeats c) (choices (repeat space n)))) l
      <= sum_over (fun a => length (filter (fun c => existsb (eqv a) c) (choices (repeat space n)))) l + length l * length (filter repeats (choices (repeat space n)))).
    { intros l. induction l as [|a l IHl]; cbn; [lia|].
      pose proof (filter_orb (fun c => existsb (eqv a) c) repeats (choices (repeat space n))). lia. }
    specialize (S space). rewrite (sum_over_swap (fun a c => existsb (eqv a) c)) in S.
    assert (T : sum_over (fun c => length (filter (fun a => existsb (eqv a) c) space)) (choices (repeat space n)) <= length space ^ n * (n * M)).
    { rewrite <- (choices_length_eq space n). apply sum_over_le. intros c Hc. eapply Nat.le_trans; [apply few_matching|].
      apply Nat.mul_le_mono_r. apply in_choices in Hc. assert (E : length c = length (repeat space n)) by (revert Hc; generalize (repeat space n); clear; intros ls Hc; induction Hc as [|x y l l' _ _ IH]; cbn; [reflexivity|now rewrite IH]). now rewrite E, repeat_length. }
    lia. }
  revert H IH.
  generalize (length (filter repeats (flat_map (fun a => map (cons a) (choices (repeat space n))) space))) as X.
  generalize (length (filter repeats (choices (repeat space n)))) as x. generalize (length space ^ n) as p. generalize (length space) as s.
  intros s p x X H IH. destruct n as [|n]; [nia|]. replace (S (S n) - 1) with (S n) by lia. replace (S n - 1) with n in IH by lia.
  apply Nat.le_trans with (2 * s * (s * x + p * (S n * M))); [now apply Nat.mul_le_mono_l|].
  apply Nat.le_trans with (s * (S n * n * M * p) + 2 * s * (p * (S n * M))); [|nia].
  rewrite Nat.mul_add_distr_l. apply Nat.add_le_mono_r. replace (2 * s * (s * x)) with (s * (2 * s * x)) by lia. now apply Nat.mul_le_mono_l.
Qed.

(** The same with [M] at most a part [1 / W] of the values. *)
Lemma birthday_part W T n : (0 < T -> Z.of_nat (length space) = T -> W * Z.of_nat M <= T ->
  2 * W * Z.of_nat (length (filter repeats (choices (repeat space n)))) <= Z.of_nat (n * (n - 1)) * T ^ Z.of_nat n)%Z.
Proof.
  intros HT ET HW. pose proof (birthday n) as B. apply Nat2Z.inj_le in B.
  rewrite (Nat2Z.inj_mul (n * (n - 1) * M)), (Nat2Z.inj_mul (n * (n - 1))), (Nat2Z.inj_mul (2 * length space)), (Nat2Z.inj_mul 2), Nat2Z.inj_pow, ET in B.
  revert B. generalize (Zle_0_nat (length (filter repeats (choices (repeat space n))))).
  generalize (Z.of_nat (length (filter repeats (choices (repeat space n))))) as r.
  assert (PN : (0 <= T ^ Z.of_nat n)%Z) by (apply Z.pow_nonneg; lia). revert PN. generalize (T ^ Z.of_nat n)%Z as TN.
  generalize (Zle_0_nat (n * (n - 1))). generalize (Z.of_nat (n * (n - 1))) as c. generalize (Zle_0_nat M). revert HW. generalize (Z.of_nat M) as m.
  intros m HW Hm c Hc TN HN r Hr B. change (Z.of_nat 2) with 2%Z in B.
  destruct (Z.leb_spec W 0) as [HW0|HW0].
  - assert (2 * W * r <= 0)%Z by nia. assert (0 <= c * TN)%Z by nia. lia.
  - apply (Z.mul_le_mono_pos_l _ _ T HT).
    assert (H : (W * (2 * T * r) <= W * (c * m * TN))%Z) by (apply Z.mul_le_mono_nonneg_l; lia).
    assert (H' : (c * TN * (W * m) <= c * TN * T)%Z) by (apply Z.mul_le_mono_nonneg_l; [nia|exact HW]). lia.
Qed.
End Birthday.

Lemma repeats_filter {A} (eqv : A -> A -> bool) p l : repeats eqv (filter p l) = true -> repeats eqv l = true.
Proof.
  induction l as [|a l IH]; cbn [filter repeats]; [intros H; exact H|]. destruct (p a); cbn [repeats].
  - intros H. apply orb_true_iff in H. apply orb_true_iff. destruct H as [H|H]; [left|right; exact (IH H)].
    apply existsb_exists in H. destruct H as (b & Hb & Eb). apply existsb_exists. exists b. split; [|exact Eb].
    apply filter_In in Hb. exact (proj1 Hb).
  - intros H. apply orb_true_iff. right. exact (IH H).
Qed.
Lemma repeats_map {A B} (eqv : B -> B -> bool) (f : A -> B) l : repeats eqv (map f l) = repeats (fun a b => eqv (f a) (f b)) l.
Proof.
  induction l as [|a l IH]; cbn [map repeats]; [reflexivity|]. rewrite IH. f_equal. clear IH.
  induction l as [|b l IH]; cbn [map existsb]; [reflexivity|]. rewrite IH. reflexivity.
Qed.
Lemma bad_or {A} (p q : A -> bool) (l : list A) :
  length (filter p l) <= length (filter q l) \/ exists a, In a l /\ p a = true /\ q a = false.
Proof.
  induction l as [|a l [IH|(b & Hb & E)]]; cbn [filter]; [left; lia| |right; exists b; split; [right; exact Hb|exact E]].
  destruct (p a) eqn:Ep, (q a) eqn:Eq; cbn [length]; try (left; lia). right. exists a. split; [left; reflexivity|split; assumption].
Qed.

(** Some key is the key of three of the sessions in [l]. *)
Section Three.
Context {A : Type} (key_of : A -> option bytes).
Definition same_key (s s' : A) : bool :=
  match key_of s, key_of s' with Some k, Some k' => bytes_eqb k k' | _, _ => false end.
Definition three_share (l : list A) : bool := existsb (fun s => 3 <=? length (filter (same_key s) l)) l.
Lemma same_key_spec s s' key : key_of s = Some key -> key_of s' = Some key -> same_key s s' = true.
Proof. intros H H'. unfold same_key. rewrite H, H'. now apply bytes_eqb_eq. Qed.
Lemma three_share_inv l : three_share l = true -> exists s1 s2 s3 key, In s1 l /\ In s2 l /\ In s3 l /\
  key_of s1 = Some key /\ key_of s2 = Some key /\ key_of s3 = Some key /\
  forall eqv, repeats eqv l = false -> eqv s1 s2 = false /\ eqv s1 s3 = false /\ eqv s2 s3 = false.
Proof.
  intros H. apply existsb_exists in H. destruct H as (s & Hs & H3). apply Nat.leb_le in H3.
  assert (RF : forall eqv, repeats eqv l = false -> repeats eqv (filter (same_key s) l) = false).
  { intros eqv R. destruct (repeats _ (filter (same_key s) l)) eqn:R'; [|reflexivity]. rewrite (repeats_filter _ _ _ R') in R. discriminate R. }
  assert (HI : forall b, In b (filter (same_key s) l) -> In b l /\ exists k, key_of s = Some k /\ key_of b = Some k).
  { intros b Hb. apply filter_In in Hb. destruct Hb as [Hb E]. split; [exact Hb|]. unfold same_key in E.
    destruct (key_of s) as [k|]; [|discriminate E]. destruct (key_of b) as [k'|]; [|discriminate E].
    apply bytes_eqb_eq in E. subst k'. exists k. split; reflexivity. }
  destruct (filter (same_key s) l) as [|s1 [|s2 [|s3 f]]]; cbn [length] in H3; try lia.
  destruct (HI s1 (or_introl eq_refl)) as (L1 & k & K & K1).
  destruct (HI s2 (or_intror (or_introl eq_refl))) as (L2 & k2 & K' & K2). rewrite K in K'. injection K' as <-.
  destruct (HI s3 (or_intror (or_intror (or_introl eq_refl)))) as (L3 & k3 & K' & K3). rewrite K in K'. injection K' as <-.
  exists s1, s2, s3, k. do 6 (split; [assumption|]). intros eqv R. specialize (RF eqv R).
  cbn [repeats existsb] in RF. repeat (apply orb_false_iff in RF; destruct RF as [? RF]).
  repeat match goal with H : (_ || _)%bool = false |- _ => apply orb_false_iff in H; destruct H as [? H] end.
  repeat split; assumption.
Qed.
End Three.

Lemma choices_forall {A} (P : A -> Prop) (space : list A) n l : (forall a, In a space -> P a) ->
  In l (choices (repeat space n)) -> length l = n /\ Forall P l.
Proof.
  intros HP H. apply in_choices in H. revert l H. induction n as [|n IH]; cbn [repeat]; intros l H; inversion H as [|a x l' l'' H1 H2 E1 E2].
  - split; [reflexivity|constructor].
  - destruct (IH l' H2) as [IL IF]. split; [cbn [length]; now rewrite IL|]. constructor; [exact (HP _ H1)|exact IF].
Qed.
