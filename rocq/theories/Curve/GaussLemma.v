(** * Gauss's lemma and generators modulo a safe prime (standard mathematics, no code).

    [gauss_lemma]: modulo an odd prime [p = 2h+1], [g^h] is [(-1)^E] where [E] is a sum of [g - 1]
    quotients of numbers of the size of [p]: whether a small [g] is a quadratic residue is read off
    the digits of [p], without any exponentiation.  [generator_safe_prime]: when [h] is prime too and
    [E] is odd, the powers of [g] are all the residues. *)
From Coq Require Import ZArith Znumtheory Zpow_facts List Lia Permutation.
From Verif.Curve Require Import NumTheory.
Import ListNotations.
Local Open Scope Z_scope.

(** ** Sums over lists *)

Fixpoint sum {A} (f : A -> Z) (l : list A) : Z :=
  match l with [] => 0 | x :: t => f x + sum f t end.

Definition ind (b : bool) : Z := if b then 1 else 0.

Lemma sum_ext {A} (f g : A -> Z) l : (forall x, In x l -> f x = g x) -> sum f l = sum g l.
Proof.
  induction l as [|x l IH]; intros H; [reflexivity|]. cbn [sum].
  rewrite (H x (or_introl eq_refl)), IH; [reflexivity|]. intros y Hy. apply H. now right.
Qed.

Lemma sum_add {A} (f g : A -> Z) l : sum (fun x => f x + g x) l = sum f l + sum g l.
Proof. induction l as [|x l IH]; [reflexivity|]. cbn [sum]. rewrite IH. ring. Qed.

Lemma sum_zero {A} (l : list A) : sum (fun _ => 0) l = 0.
Proof. induction l as [|x l IH]; [reflexivity|]. cbn [sum]. rewrite IH. reflexivity. Qed.

Lemma sum_swap {A B} (f : A -> B -> Z) l m :
  sum (fun x => sum (f x) m) l = sum (fun y => sum (fun x => f x y) l) m.
Proof.
  induction l as [|x l IH]; cbn [sum].
  - symmetry. apply sum_zero.
  - rewrite IH. rewrite <- sum_add. reflexivity.
Qed.

Lemma sum_app {A} (f : A -> Z) l m : sum f (l ++ m) = sum f l + sum f m.
Proof. induction l as [|x l IH]; [reflexivity|]. cbn [app sum]. rewrite IH. ring. Qed.

(** The numbers [1 .. n]. *)
Definition upto (n : nat) : list Z := map Z.of_nat (seq 1 n).

Lemma upto_S n : upto (S n) = upto n ++ [Z.of_nat (S n)].
Proof. unfold upto. rewrite seq_S, map_app. reflexivity. Qed.

Lemma in_upto n x : In x (upto n) <-> 1 <= x <= Z.of_nat n.
Proof.
  unfold upto. rewrite in_map_iff. split.
  - intros (k & <- & Hk). apply in_seq in Hk. lia.
  - intros H. exists (Z.to_nat x). split; [lia|]. apply in_seq. lia.
Qed.

Lemma upto_NoDup n : NoDup (upto n).
Proof.
  unfold upto. apply FinFun.Injective_map_NoDup; [|apply seq_NoDup]. intros a b H. lia.
Qed.

Lemma upto_length n : length (upto n) = n.
Proof. unfold upto. rewrite map_length, seq_length. reflexivity. Qed.

(** A quotient counts multiples. *)
Lemma quotient_counts p x m : 0 < p -> 0 <= x -> x / p <= Z.of_nat m ->
  sum (fun j => ind (j * p <=? x)) (upto m) = x / p.
Proof.
  intros Hp Hx.
  assert (G : forall m, sum (fun j => ind (j * p <=? x)) (upto m) = Z.min (Z.of_nat m) (x / p)).
  { clear m. induction m as [|m IH].
    - cbn. pose proof (Z.div_pos x p Hx Hp). lia.
    - rewrite upto_S, sum_app, IH. cbn [sum]. unfold ind.
      destruct (Z.leb_spec (Z.of_nat (S m) * p) x) as [H|H].
      + assert (Z.of_nat (S m) <= x / p) by (apply Z.div_le_lower_bound; lia). lia.
      + assert (x / p < Z.of_nat (S m)) by (apply Z.div_lt_upper_bound; lia). lia. }
  intros Hm. rewrite G. lia.
Qed.

Lemma count_above d c h : 0 < d -> 1 <= c -> (c - 1) / d <= Z.of_nat h ->
  sum (fun k => ind (c <=? d * k)) (upto h) = Z.of_nat h - (c - 1) / d.
Proof.
  intros Hd Hc.
  assert (G : forall h, sum (fun k => ind (c <=? d * k)) (upto h) =
                        Z.of_nat h - Z.min (Z.of_nat h) ((c - 1) / d)).
  { clear h. induction h as [|h IH].
    - cbn. pose proof (Z.div_pos (c - 1) d ltac:(lia) Hd). lia.
    - rewrite upto_S, sum_app, IH. cbn [sum]. unfold ind.
      destruct (Z.leb_spec c (d * Z.of_nat (S h))) as [H|H].
      + assert ((c - 1) / d < Z.of_nat (S h)) by (apply Z.div_lt_upper_bound; lia). lia.
      + assert (Z.of_nat (S h) <= (c - 1) / d) by (apply Z.div_le_lower_bound; lia). lia. }
  intros Hh. rewrite G. lia.
Qed.

(** ** Gauss's lemma *)

Definition gauss_sum (g p : Z) : Z :=
  sum (fun j => (p - 1) / 2 - (j * p - 1) / (2 * g)) (upto (Z.to_nat (g - 1))).

Definition sgn_pow (n : Z) : Z := if Z.odd n then -1 else 1.

Lemma sgn_pow_add a b : sgn_pow (a + b) = sgn_pow a * sgn_pow b.
Proof.
  unfold sgn_pow. rewrite Z.odd_add. destruct (Z.odd a), (Z.odd b); reflexivity.
Qed.

Section Gauss.
Context (p h g : Z) (Hp : prime p) (Hh : p = 2 * h + 1) (Hg : 0 < g < p).

Let h_pos : 1 <= h.
Proof. destruct Hp as [H _]. lia. Qed.

Let half : list Z := upto (Z.to_nat h).

Let in_half x : In x half <-> 1 <= x <= h.
Proof. unfold half. rewrite in_upto. lia. Qed.

(** The residue of [g * k] of least absolute value, and its sign. *)
Let s (k : Z) : Z := if (g * k) mod p <=? h then (g * k) mod p else p - (g * k) mod p.
Let e (k : Z) : Z := if (g * k) mod p <=? h then 1 else -1.

Let s_range k : 1 <= k <= h -> 1 <= s k <= h.
Proof.
  intros Hk. unfold s.
  assert (Hm : 0 <= (g * k) mod p < p) by (apply Z.mod_pos_bound; lia).
  assert ((g * k) mod p <> 0).
  { intros E. apply Zmod_divide in E; [|lia]. apply prime_mult in E; [|exact Hp].
    destruct E as [E|E]; apply Z.divide_pos_le in E; lia. }
  destruct (Z.leb_spec ((g * k) mod p) h); lia.
Qed.

Let s_inj k k' : 1 <= k <= h -> 1 <= k' <= h -> s k = s k' -> k = k'.
Proof.
  intros Hk Hk' E. unfold s in E.
  pose proof (Z.div_mod (g * k) p ltac:(lia)) as D.
  pose proof (Z.div_mod (g * k') p ltac:(lia)) as D'.
  assert (Hd : (p | g * (k - k')) \/ (p | g * (k + k'))).
  { destruct (Z.leb_spec ((g * k) mod p) h), (Z.leb_spec ((g * k') mod p) h).
    - left. exists ((g * k) / p - (g * k') / p). lia.
    - right. exists ((g * k) / p + (g * k') / p + 1). lia.
    - right. exists ((g * k) / p + (g * k') / p + 1). lia.
    - left. exists ((g * k) / p - (g * k') / p). lia. }
  assert (Hn : ~ (p | g)) by (intros C; apply Z.divide_pos_le in C; lia).
  destruct Hd as [Hd|Hd]; apply prime_mult in Hd; [|exact Hp| |exact Hp];
    (destruct Hd as [Hd|Hd]; [contradiction|]).
  - destruct Hd as [c Hc]. assert (c = 0) by nia. nia.
  - apply Z.divide_pos_le in Hd; lia.
Qed.

Let perm : Permutation (map s half) half.
Proof.
  apply NoDup_Permutation_bis.
  - assert (G : forall l, (forall x, In x l -> 1 <= x <= h) -> NoDup l -> NoDup (map s l)).
    { induction l as [|x l IH]; intros Hl Hnd; cbn [map]; constructor.
      - intros Hin. apply in_map_iff in Hin. destruct Hin as (y & Hy & Hiny).
        apply NoDup_cons_iff in Hnd as [Hnx _]. apply Hnx.
        assert (x = y) as ->; [|exact Hiny].
        apply s_inj; [apply Hl; now left|apply Hl; now right|now symmetry].
      - apply IH; [intros y Hy; apply Hl; now right|]. now inversion Hnd. }
    apply G; [intros x Hx; now apply in_half|apply upto_NoDup].
  - rewrite map_length. apply le_n.
  - intros x Hx. apply in_map_iff in Hx. destruct Hx as (y & <- & Hy).
    apply in_half. apply s_range. now apply in_half.
Qed.

Let prod_signs l : prod (map e l) = sgn_pow (sum (fun k => ind (negb ((g * k) mod p <=? h))) l).
Proof.
  induction l as [|x l IH]; [reflexivity|]. cbn [map sum]. rewrite sgn_pow_add, <- IH.
  unfold prod at 1. cbn [fold_right]. f_equal. unfold e. now destruct ((g * x) mod p <=? h).
Qed.

(** Each term up to sign. *)
Let prod_se l :
  (prod (map s l) * prod (map e l)) mod p = (g ^ Z.of_nat (length l) * prod l) mod p.
Proof.
  rewrite <- (prod_map_mod p Hp).
  induction l as [|x l IH]; [reflexivity|]. cbn [map].
  change (prod (s x :: map s l)) with (s x * prod (map s l)).
  change (prod (e x :: map e l)) with (e x * prod (map e l)).
  change (prod ((g * x) mod p :: map (fun x => (g * x) mod p) l)) with
    ((g * x) mod p * prod (map (fun x => (g * x) mod p) l)).
  replace (s x * prod (map s l) * (e x * prod (map e l))) with
    ((s x * e x) * (prod (map s l) * prod (map e l))) by ring.
  rewrite Zmult_mod, IH, <- Zmult_mod.
  unfold s, e. destruct ((g * x) mod p <=? h).
  - now rewrite Z.mul_1_r.
  - replace ((p - (g * x) mod p) * -1) with ((g * x) mod p + (-1) * p) by ring.
    rewrite Z.mul_add_distr_r.
    replace (-1 * p * prod (map (fun x0 => (g * x0) mod p) l)) with
      ((- prod (map (fun x0 => (g * x0) mod p) l)) * p) by ring.
    apply Z_mod_plus_full.
Qed.

(** The sign of the residue is the parity of [2 g k / p]. *)
Let sign_parity k : 0 <= k ->
  Z.odd (ind (negb ((g * k) mod p <=? h))) = Z.odd ((2 * g * k) / p).
Proof.
  intros Hk. pose proof (Z.mod_pos_bound (g * k) p ltac:(lia)) as Hm.
  pose proof (Z.div_mod (g * k) p ltac:(lia)) as D.
  destruct (Z.leb_spec ((g * k) mod p) h) as [H|H]; cbn [negb ind].
  - replace ((2 * g * k) / p) with (0 + 2 * ((g * k) / p)).
    + rewrite Z.odd_add_mul_2. reflexivity.
    + apply Z.div_unique with (2 * ((g * k) mod p)); lia.
  - replace ((2 * g * k) / p) with (1 + 2 * ((g * k) / p)).
    + rewrite Z.odd_add_mul_2. reflexivity.
    + apply Z.div_unique with (2 * ((g * k) mod p) - p); lia.
Qed.

Let parity_sum (f f' : Z -> Z) l :
  (forall k, In k l -> Z.odd (f k) = Z.odd (f' k)) -> Z.odd (sum f l) = Z.odd (sum f' l).
Proof.
  induction l as [|x l IH]; intros H; [reflexivity|]. cbn [sum].
  rewrite !Z.odd_add, (H x (or_introl eq_refl)), IH; [reflexivity|].
  intros y Hy. apply H. now right.
Qed.

(** Counting lattice points the other way. *)
Let double_count : sum (fun k => (2 * g * k) / p) half = gauss_sum g p.
Proof.
  unfold gauss_sum.
  transitivity (sum (fun k => sum (fun j => ind (j * p <=? 2 * g * k)) (upto (Z.to_nat (g - 1)))) half).
  - apply sum_ext. intros k Hk. apply in_half in Hk. symmetry. apply quotient_counts; [lia|nia|].
    rewrite Z2Nat.id by lia. assert ((2 * g * k) / p < g); [|lia].
    apply Z.div_lt_upper_bound; nia.
  - rewrite sum_swap. apply sum_ext. intros j Hj. apply in_upto in Hj.
    rewrite Z2Nat.id in Hj by lia.
    unfold half. rewrite count_above.
    + rewrite Z2Nat.id by lia. f_equal. rewrite Hh.
      replace (2 * h + 1 - 1) with (h * 2) by ring. rewrite Z.div_mul by lia. reflexivity.
    + lia.
    + nia.
    + rewrite Z2Nat.id by lia.
      apply Z.lt_succ_r. apply Z.div_lt_upper_bound; nia.
Qed.

Theorem gauss_lemma : g ^ h mod p = sgn_pow (gauss_sum g p) mod p.
Proof.
  pose proof (prod_se half) as E. rewrite prod_signs in E.
  rewrite (prod_perm _ _ perm) in E.
  replace (Z.of_nat (length half)) with h in E by (unfold half; rewrite upto_length; lia).
  assert (Hs : sgn_pow (sum (fun k => ind (negb ((g * k) mod p <=? h))) half) =
               sgn_pow (gauss_sum g p)).
  { unfold sgn_pow. rewrite <- double_count.
    rewrite (parity_sum (fun k => ind (negb ((g * k) mod p <=? h)))
               (fun k => (2 * g * k) / p) half); [reflexivity|].
    intros k Hk. apply in_half in Hk. apply sign_parity. lia. }
  rewrite Hs in E. clear Hs. revert E. generalize (sgn_pow (gauss_sum g p)). intros z E.
  assert (Hd : (p | prod half * (g ^ h - z))).
  { apply Zmod_divide; [lia|].
    replace (prod half * (g ^ h - z)) with (g ^ h * prod half - prod half * z) by ring.
    rewrite Zminus_mod, E, Z.sub_diag. apply Zmod_0_l. }
  apply Gauss in Hd.
  - destruct Hd as [c Hc]. replace (g ^ h) with (z + c * p) by lia. apply Z_mod_plus_full.
  - apply prod_rel_prime. intros x Hx. apply in_half in Hx.
    apply prime_rel_prime; [exact Hp|]. intros C. apply Z.divide_pos_le in C; lia.
Qed.
End Gauss.

(** ** Generators modulo a safe prime *)

Section SafePrime.
Context (p q g : Z) (Hp : prime p) (Hq : prime q) (Hpq : p = 2 * q + 1).
Context (Hg : 1 < g < p - 1) (Hodd : Z.odd (gauss_sum g p) = true).

Let q_pos : 2 <= q.
Proof. destruct Hq as [H _]. lia. Qed.

Let g_prime : rel_prime g p.
Proof.
  apply rel_prime_sym, prime_rel_prime; [exact Hp|]. intros C. apply Z.divide_pos_le in C; lia.
Qed.

Lemma not_residue : g ^ q mod p = p - 1.
Proof.
  rewrite (gauss_lemma p q g Hp Hpq ltac:(lia)). unfold sgn_pow. rewrite Hodd.
  symmetry. apply Z.mod_unique_pos with (-1); lia.
Qed.

Let g_2q : g ^ (2 * q) mod p = 1.
Proof.
  replace (2 * q) with (p - 1) by lia. apply fermat; [exact Hp|].
  intros C. apply Z.divide_pos_le in C; lia.
Qed.

(** The order of [g] is [p - 1]. *)
Lemma order_exact d : 0 < d < p - 1 -> g ^ d mod p <> 1.
Proof.
  intros Hd E.
  pose proof (pow_gcd p g d (2 * q) ltac:(lia) ltac:(lia) ltac:(lia) g_prime E g_2q) as Eg.
  pose proof (Z.gcd_divide_l d (2 * q)) as Dl. pose proof (Z.gcd_divide_r d (2 * q)) as Dr.
  pose proof (Z.gcd_nonneg d (2 * q)) as Hn.
  revert Eg Dl Dr Hn. generalize (Z.gcd d (2 * q)). intros c Eg Dl Dr Hn.
  assert (Hc : c <= d) by (apply Z.divide_pos_le; [lia|exact Dl]).
  assert (Hc0 : c <> 0) by (intros ->; destruct Dl as [t Ht]; lia).
  destruct (Zdivide_dec q c) as [[t Ht]|Hn'].
  - assert (t = 1) by nia. subst t. rewrite Z.mul_1_l in Ht. subst c.
    rewrite not_residue in Eg. lia.
  - assert (R : rel_prime c q) by (apply rel_prime_sym, prime_rel_prime; assumption).
    assert (D2 : (c | 2)) by (apply Gauss with q; [rewrite Z.mul_comm; exact Dr|exact R]).
    apply Z.divide_pos_le in D2 as L2; [|lia].
    assert (E2 : (p | (g - 1) * (g + 1))).
    { assert (C12 : c = 1 \/ c = 2) by lia. apply Zmod_divide; [lia|].
      destruct C12 as [-> | ->].
      - rewrite Z.pow_1_r, Z.mod_small in Eg by lia. lia.
      - replace ((g - 1) * (g + 1)) with (g ^ 2 - 1) by ring.
        rewrite Zminus_mod, Eg, (Z.mod_small 1) by lia. apply Zmod_0_l. }
    apply prime_mult in E2; [|exact Hp].
    destruct E2 as [E2|E2]; apply Z.divide_pos_le in E2; lia.
Qed.

Lemma powers_distinct i j : 0 <= i < p - 1 -> 0 <= j < p - 1 ->
  g ^ i mod p = g ^ j mod p -> i = j.
Proof.
  assert (G : forall i j, 0 <= i < j -> j < p - 1 -> g ^ i mod p <> g ^ j mod p).
  { clear i j. intros i j Hij Hj E. apply (order_exact (j - i)); [lia|].
    assert (Hd : (p | g ^ i * (g ^ (j - i) - 1))).
    { apply Zmod_divide; [lia|].
      replace (g ^ i * (g ^ (j - i) - 1)) with (g ^ i * g ^ (j - i) - g ^ i) by ring.
      rewrite <- Z.pow_add_r by lia. replace (i + (j - i)) with j by lia.
      rewrite Zminus_mod, E, Z.sub_diag. apply Zmod_0_l. }
    apply Gauss in Hd.
    - destruct Hd as [c Hc]. replace (g ^ (j - i)) with (1 + c * p) by lia.
      rewrite Z_mod_plus_full. apply Z.mod_1_l. lia.
    - apply rel_prime_Zpower_r; [lia|apply rel_prime_sym; exact g_prime]. }
  intros Hi Hj E. destruct (Z.lt_trichotomy i j) as [H|[H|H]]; [|exact H|].
  - destruct (G i j ltac:(lia) ltac:(lia) E).
  - destruct (G j i ltac:(lia) ltac:(lia) (eq_sym E)).
Qed.

Theorem generator_safe_prime y : 0 < y < p ->
  exists i, 0 <= i < p - 1 /\ g ^ i mod p = y.
Proof.
  intros Hy.
  pose (powers := map (fun i => g ^ Z.of_nat i mod p) (seq 0 (Z.to_nat (p - 1)))).
  assert (Hin : incl (residues p) powers).
  { apply NoDup_length_incl.
    - unfold powers.
      assert (G : forall l, (forall x, In x l -> Z.of_nat x < p - 1) -> NoDup l ->
                  NoDup (map (fun i => g ^ Z.of_nat i mod p) l)).
      { induction l as [|x l IH]; intros Hl Hnd; cbn [map]; constructor.
        - intros Hx. apply in_map_iff in Hx. destruct Hx as (z & Hz & Hinz).
          apply NoDup_cons_iff in Hnd as [Hnx _]. apply Hnx.
          assert (z = x) as <-; [|exact Hinz].
          pose proof (Hl x (or_introl eq_refl)). pose proof (Hl z (or_intror Hinz)).
          apply Nat2Z.inj, powers_distinct; [lia|lia|exact Hz].
        - apply IH; [intros z Hz; apply Hl; now right|]. now inversion Hnd. }
      apply G; [intros x Hx; apply in_seq in Hx; lia|apply seq_NoDup].
    - unfold powers, residues. rewrite !map_length, !seq_length. apply le_n.
    - intros x Hx. apply in_map_iff in Hx. destruct Hx as (i & <- & Hi).
      apply in_residues; [exact Hp|]. cbv beta. pose proof (Z.mod_pos_bound (g ^ Z.of_nat i) p ltac:(lia)) as B.
      assert (g ^ Z.of_nat i mod p <> 0); [|lia].
      intros E. apply Zmod_divide in E; [|lia].
      assert (R : rel_prime p (g ^ Z.of_nat i)).
      { apply rel_prime_Zpower_r; [lia|apply rel_prime_sym; exact g_prime]. }
      destruct R as [_ _ R]. specialize (R p (Z.divide_refl p) E).
      apply Z.divide_pos_le in R; lia. }
  specialize (Hin y). assert (In y powers) as Hy' by (apply Hin, in_residues; [exact Hp|lia]).
  unfold powers in Hy'. apply in_map_iff in Hy'. destruct Hy' as (i & Ei & Hi).
  apply in_seq in Hi. exists (Z.of_nat i). split; [lia|exact Ei].
Qed.
End SafePrime.
