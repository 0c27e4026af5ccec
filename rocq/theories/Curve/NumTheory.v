(** * Fermat's little theorem and Pocklington's criterion over Z (standard mathematics, no code). *)
From Coq Require Import ZArith Znumtheory Zpow_facts List Lia Permutation.
From Verif.Base Require Import HexMul.
Import ListNotations.
Local Open Scope Z_scope.

(** ** Fermat *)

Section Fermat.
Context (p : Z) (Hp : prime p).

Let p_pos : 1 < p.
Proof. destruct Hp; assumption. Qed.

Definition residues : list Z := map Z.of_nat (seq 1 (Z.to_nat (p - 1))).

Lemma in_residues x : In x residues <-> 1 <= x < p.
Proof.
  unfold residues. rewrite in_map_iff. split.
  - intros (n & <- & Hn). apply in_seq in Hn. lia.
  - intros H. exists (Z.to_nat x). split; [lia|]. apply in_seq. lia.
Qed.

Lemma residues_NoDup : NoDup residues.
Proof.
  unfold residues. apply FinFun.Injective_map_NoDup; [|apply seq_NoDup].
  intros a b H. lia.
Qed.

Definition prod (l : list Z) : Z := fold_right Z.mul 1 l.

Lemma prod_perm l l' : Permutation l l' -> prod l = prod l'.
Proof.
  induction 1; cbn [prod fold_right]; unfold prod in *; try congruence; lia.
Qed.

Lemma prod_map_mod a l :
  prod (map (fun x => (a * x) mod p) l) mod p = (a ^ Z.of_nat (length l) * prod l) mod p.
Proof.
  induction l as [|x l IH]; [reflexivity|].
  cbn [map length]. unfold prod in *. cbn [fold_right].
  rewrite Nat2Z.inj_succ, Z.pow_succ_r by lia.
  rewrite Zmult_mod, IH, Z.mod_mod, <- Zmult_mod by lia. f_equal. ring.
Qed.

Lemma prod_rel_prime l : (forall x, In x l -> rel_prime p x) -> rel_prime p (prod l).
Proof.
  induction l as [|x l IH]; intros H; cbn [prod fold_right].
  - apply rel_prime_1 || (apply rel_prime_sym, rel_prime_1).
  - apply rel_prime_mult; [apply H; now left|]. apply IH. intros y Hy. apply H. now right.
Qed.

Theorem fermat a : ~ (p | a) -> a ^ (p - 1) mod p = 1.
Proof.
  intros Ha.
  assert (Hrel : rel_prime p a) by now apply prime_rel_prime.
  assert (Hperm : Permutation residues (map (fun x => (a * x) mod p) residues)).
  { apply Permutation_sym. apply NoDup_Permutation_bis.
    - assert (G : forall l, (forall x, In x l -> 1 <= x < p) -> NoDup l ->
                            NoDup (map (fun x => (a * x) mod p) l)).
      { induction l as [|x l IH]; intros Hl Hnd; cbn [map]; constructor.
        - intros Hin. apply in_map_iff in Hin. destruct Hin as (y & Hy & Hiny).
          inversion Hnd as [|? ? Hx _]; subst. apply Hx.
          assert (x = y) as ->; [|exact Hiny].
          assert (Hd : (p | a * (y - x))).
          { apply Zmod_divide; [lia|]. rewrite Z.mul_sub_distr_l, Zminus_mod, Hy.
            rewrite Z.sub_diag. apply Zmod_0_l. }
          apply Gauss in Hd; [|exact Hrel].
          pose proof (Hl x (or_introl eq_refl)). pose proof (Hl y (or_intror Hiny)).
          destruct Hd as [q Hq]. assert (q = 0) by nia. lia.
        - apply IH; [intros y Hy; apply Hl; now right|]. now inversion Hnd. }
      apply G; [intros x Hx; now apply in_residues|apply residues_NoDup].
    - rewrite map_length. apply le_n.
    - intros x Hx. apply in_map_iff in Hx. destruct Hx as (y & <- & Hy).
      apply in_residues in Hy. apply in_residues.
      pose proof (Z.mod_pos_bound (a * y) p ltac:(lia)).
      assert ((a * y) mod p <> 0); [|lia].
      intros E. apply Zmod_divide in E; [|lia]. apply Gauss in E; [|exact Hrel].
      apply Z.divide_pos_le in E; lia. }
  apply prod_perm in Hperm. apply (f_equal (fun z => z mod p)) in Hperm.
  rewrite prod_map_mod in Hperm.
  assert (Hlen : Z.of_nat (length residues) = p - 1)
    by (unfold residues; rewrite map_length, seq_length; lia).
  rewrite Hlen in Hperm.
  assert (Hd : (p | prod residues * (a ^ (p - 1) - 1))).
  { apply Zmod_divide; [lia|]. rewrite Z.mul_sub_distr_l, Zminus_mod.
    rewrite Z.mul_1_r, Hperm, Z.mul_comm, Z.sub_diag. apply Zmod_0_l. }
  apply Gauss in Hd.
  - destruct Hd as [q Hq]. replace (a ^ (p - 1)) with (1 + q * p) by lia.
    rewrite Z_mod_plus_full. apply Z.mod_1_l. lia.
  - apply prod_rel_prime. intros x Hx. apply in_residues in Hx.
    apply prime_rel_prime; [exact Hp|]. intros D. apply Z.divide_pos_le in D; lia.
Qed.
End Fermat.

(** ** Modular exponentiation with quotient hints

    [hpow b m e qs] is congruent to [b ^ e] modulo [m] whatever the hints [qs] are; hints that are
    the quotients of the intermediate products keep the numbers small. *)

Fixpoint hpow (b m : Z) (e : positive) (qs : list Z) : Z :=
  match e with
  | xH => b
  | xO e' => let t := hpow b m e' (tl qs) in hmul t t - hmul (hd 0 qs) m
  | xI e' => let t := hpow b m e' (tl qs) in hmul (hmul t t) b - hmul (hd 0 qs) m
  end.

Lemma mod_sub_mul z q m : (z - q * m) mod m = z mod m.
Proof. replace (z - q * m) with (z + (- q) * m) by ring. apply Z_mod_plus_full. Qed.

Lemma hpow_spec b m e qs : hpow b m e qs mod m = b ^ Z.pos e mod m.
Proof.
  revert qs. induction e as [e IH|e IH|]; intros qs; cbn [hpow].
  - rewrite !hmul_ok, mod_sub_mul. rewrite <- Zmult_mod_idemp_l.
    rewrite (Zmult_mod (hpow b m e (tl qs))), IH, <- Zmult_mod.
    rewrite Zmult_mod_idemp_l. replace (Z.pos e~1) with (Z.pos e + Z.pos e + 1) by lia.
    now rewrite !Z.pow_add_r, Z.pow_1_r by lia.
  - rewrite !hmul_ok, mod_sub_mul. rewrite Zmult_mod, IH, <- Zmult_mod.
    replace (Z.pos e~0) with (Z.pos e + Z.pos e) by lia.
    now rewrite Z.pow_add_r by lia.
  - now rewrite Z.pow_1_r.
Qed.

(** The hints: innermost last. *)
Fixpoint hints (b m : Z) (e : positive) : Z * list Z :=
  match e with
  | xH => (b, [])
  | xO e' => let '(t, qs) := hints b m e' in ((t * t) mod m, (t * t) / m :: qs)
  | xI e' => let '(t, qs) := hints b m e' in ((t * t * b) mod m, (t * t * b) / m :: qs)
  end.

(** ** Pocklington *)

(** Every number above 1 has a prime divisor. *)
Lemma prime_divisor_exists n : 1 < n -> exists r, prime r /\ (r | n).
Proof.
  intros H. remember (Z.to_nat n) as k eqn:Hk. revert n H Hk.
  induction k as [k IH] using (well_founded_induction lt_wf). intros n H Hk.
  destruct (prime_dec n) as [P|P]; [exists n; split; [exact P|apply Z.divide_refl]|].
  apply not_prime_divide in P; [|exact H]. destruct P as (m & Hm & Hd).
  destruct (IH (Z.to_nat m)) with (n := m) as (r & Hr & Hrd); [lia|lia|reflexivity|].
  exists r. split; [exact Hr|]. now apply Z.divide_trans with m.
Qed.

(** A composite number has a prime divisor whose square does not exceed it. *)
Lemma prime_by_large_divisors n :
  1 < n -> (forall r, prime r -> (r | n) -> n < r * r) -> prime n.
Proof.
  intros Hn H. destruct (prime_dec n) as [P|P]; [exact P|exfalso].
  apply not_prime_divide in P; [|exact Hn]. destruct P as (m & Hm & [q Hq]).
  assert (Hq1 : 1 < q) by nia.
  destruct (prime_divisor_exists m ltac:(lia)) as (r & Hr & Hrm).
  destruct (prime_divisor_exists q ltac:(lia)) as (s & Hs & Hsq).
  assert (Hrn : (r | n)) by (rewrite Hq; now apply Z.divide_mul_r).
  assert (Hsn : (s | n)) by (rewrite Hq; now apply Z.divide_mul_l).
  pose proof (H r Hr Hrn). pose proof (H s Hs Hsn).
  apply Z.divide_pos_le in Hrm; [|lia]. apply Z.divide_pos_le in Hsq; [|lia].
  destruct Hr as [Hr _]. destruct Hs as [Hs _].
  assert (r * r <= m * m) by nia. assert (s * s <= q * q) by nia.
  assert (m * m > m * q) by nia. assert (q * q > m * q) by nia. nia.
Qed.

(** If [a^m = 1] and [a^k = 1] modulo [r] then [a^(gcd m k) = 1]. *)
Lemma pow_gcd r a m k :
  1 < r -> 0 <= m -> 0 <= k -> rel_prime a r ->
  a ^ m mod r = 1 -> a ^ k mod r = 1 -> a ^ Z.gcd m k mod r = 1.
Proof.
  intros Hr Hm Hk Ha Em Ek.
  destruct (Z.gcd_bezout m k (Z.gcd m k) eq_refl) as (u & v & Huv).
  (* shift u, v so that the exponents are non-negative: g + (-v + t m) k = (u + t k) m *)
  set (t := Z.abs u + Z.abs v).
  assert (P1 : forall e j, 0 <= e -> 0 <= j -> a ^ e mod r = 1 -> a ^ (j * e) mod r = 1).
  { intros e j He Hj E. rewrite Z.mul_comm, Z.pow_mul_r by assumption.
    rewrite Zpower_mod, E by lia. rewrite Z.pow_1_l by assumption. now apply Z.mod_1_l. }
  assert (Hg : 0 <= Z.gcd m k) by apply Z.gcd_nonneg.
  destruct (Z.eq_dec m 0) as [->|Hm0].
  { rewrite Z.gcd_0_l, Z.abs_eq by lia. exact Ek. }
  destruct (Z.eq_dec k 0) as [->|Hk0].
  { rewrite Z.gcd_0_r, Z.abs_eq by lia. exact Em. }
  assert (Ht : Z.abs u <= t /\ Z.abs v <= t) by lia. clearbody t.
  assert (Htk : t <= t * k) by nia. assert (Htm : t <= t * m) by nia.
  assert (E1 : a ^ ((u + t * k) * m) mod r = 1) by (apply P1; [lia|lia|exact Em]).
  assert (E2 : a ^ ((- v + t * m) * k) mod r = 1) by (apply P1; [lia|lia|exact Ek]).
  replace ((u + t * k) * m) with (Z.gcd m k + (- v + t * m) * k) in E1 by (rewrite <- Huv; ring).
  rewrite Z.pow_add_r in E1 by nia. rewrite Zmult_mod, E2, Z.mul_1_r, Z.mod_mod in E1 by lia.
  exact E1.
Qed.

Definition wit := (Z * Z)%type.  (* prime factor q of n-1, base a *)

(** [a^(n-1) = 1] modulo [n]; [qs] are hints. *)
Definition check_fermat (n a : Z) (qs : list Z) : bool :=
  match n - 1 with
  | Z.pos e => hpow a n e qs =? 1
  | _ => false
  end.

(** Check of one factor: [q | n-1] and [gcd (a^((n-1)/q) - 1) n = 1]; [qs] are hints. *)
Definition check_factor (n : Z) (w : wit) (qs : list Z) : bool :=
  let '(q, a) := w in
  match ((n - 1) / q)%Z with
  | Z.pos e => (((n - 1) mod q =? 0) && (Z.gcd (hpow a n e qs - 1) n =? 1))%bool
  | _ => false
  end.

Definition fermat_hints (n a : Z) : list Z :=
  match n - 1 with Z.pos e => snd (hints a n e) | _ => [] end.
Definition factor_hints (n : Z) (w : wit) : list Z :=
  let '(q, a) := w in
  match ((n - 1) / q)%Z with Z.pos e => snd (hints a n e) | _ => [] end.

Lemma check_factor_sound n q a qs0 qs r :
  1 < n -> prime q -> check_fermat n a qs0 = true -> check_factor n (q, a) qs = true -> prime r -> (r | n) -> (q | r - 1).
Proof.
  intros Hn Hq Hf Hc Hr Hrn. unfold check_factor in Hc.
  destruct ((n - 1) / q) as [|e|e] eqn:Ee; try discriminate.
  rewrite !Bool.andb_true_iff in Hc. destruct Hc as [H1 H3].
  apply Z.eqb_eq in H1, H3.
  set (t := hpow a n e qs) in *.
  assert (Ht : t mod n = a ^ Z.pos e mod n) by apply hpow_spec.
  assert (H2' : a ^ (n - 1) mod n = 1).
  { unfold check_fermat in Hf. destruct (n - 1) as [|e0|e0] eqn:E0; try discriminate.
    apply Z.eqb_eq in Hf. rewrite <- (hpow_spec a n e0 qs0), Hf. apply Z.mod_1_l. lia. }
  assert (Hr1 : 1 < r) by now destruct Hr.
  assert (Hq1 : 1 < q) by now destruct Hq.
  assert (En : n - 1 = Z.pos e * q).
  { rewrite (Z.div_mod (n - 1) q) by lia. rewrite H1, Ee. ring. }
  assert (Hmod : forall z w, z mod n = w mod n -> z mod r = w mod r).
  { intros z w E. destruct Hrn as [c Hc]. assert (D : (n | z - w)).
    { apply Zmod_divide; [lia|]. rewrite Zminus_mod, E, Z.sub_diag. apply Zmod_0_l. }
    destruct D as [f Hff]. replace z with (w + (f * c) * r) by lia. apply Z_mod_plus_full. }
  assert (P1 : a ^ (n - 1) mod r = 1).
  { transitivity (1 mod r); [|apply Z.mod_1_l; lia]. apply Hmod.
    rewrite H2'. symmetry. apply Z.mod_1_l. lia. }
  assert (P2 : a ^ Z.pos e mod r <> 1).
  { intros E. assert (Hd : (r | t - 1)).
    { apply Zmod_divide; [lia|]. rewrite Zminus_mod.
      rewrite (Hmod t (a ^ Z.pos e)) by exact Ht.
      rewrite E, (Z.mod_1_l r) by lia. apply Zmod_0_l. }
    assert (r | 1); [|apply Z.divide_1_r in H; lia].
    rewrite <- H3. now apply Z.gcd_greatest. }
  assert (Ha : ~ (r | a)).
  { intros [c ->]. rewrite Z.pow_mul_l, Zmult_mod in P1.
    rewrite (Zpower_mod r) , Z_mod_same_full, Z.pow_0_l in P1 by lia.
    rewrite Zmod_0_l, Z.mul_0_r, Zmod_0_l in P1. discriminate. }
  assert (Ha' : rel_prime a r) by (apply rel_prime_sym; now apply prime_rel_prime).
  pose proof (fermat r Hr a Ha) as F.
  (* otherwise gcd (n-1) (r-1) divides (n-1)/q *)
  destruct (Zdivide_dec q (r - 1)) as [|ND]; [assumption|exfalso]. apply P2.
  pose proof (pow_gcd r a (n - 1) (r - 1) Hr1 ltac:(lia) ltac:(lia) Ha' P1 F) as G.
  set (g := Z.gcd (n - 1) (r - 1)) in *.
  assert (Hg0 : 0 <= g) by apply Z.gcd_nonneg.
  assert (Hgr : (g | r - 1)) by apply Z.gcd_divide_r.
  assert (Hgn : (g | n - 1)) by apply Z.gcd_divide_l.
  assert (Hge : (g | Z.pos e)).
  { apply Gauss with q; [rewrite Z.mul_comm, <- En; exact Hgn|].
    apply rel_prime_sym. apply prime_rel_prime; [exact Hq|].
    intros D. apply ND. now apply Z.divide_trans with g. }
  destruct Hge as [c Hc]. rewrite Hc.
  assert (0 <= c) by nia.
  rewrite Z.mul_comm, Z.pow_mul_r by lia. rewrite Zpower_mod, G by lia.
  rewrite Z.pow_1_l by lia. now apply Z.mod_1_l.
Qed.

(** The factors must be distinct primes whose product squared exceeds n. *)
Lemma distinct_primes_divide (l : list Z) m :
  NoDup l -> (forall q, In q l -> prime q /\ (q | m)) -> (fold_right Z.mul 1 l | m).
Proof.
  induction l as [|q l IH]; intros Hnd H; cbn [fold_right].
  - apply Z.divide_1_l.
  - inversion Hnd as [|? ? Hnin Hnd']; subst.
    destruct (H q (or_introl eq_refl)) as [Hq [c Hc]].
    assert (Hl : (fold_right Z.mul 1 l | m)) by (apply IH; [exact Hnd'|]; intros x Hx; apply H; now right).
    assert (Hrel : rel_prime q (fold_right Z.mul 1 l)).
    { assert (G : forall l', (forall x, In x l' -> prime x /\ x <> q) -> rel_prime q (fold_right Z.mul 1 l')).
      { induction l' as [|x l' IH']; intros Hx; cbn [fold_right].
        - apply rel_prime_sym, rel_prime_1.
        - apply rel_prime_mult; [|apply IH'; intros y Hy; apply Hx; now right].
          destruct (Hx x (or_introl eq_refl)) as [Px Nx].
          apply prime_rel_prime; [exact Hq|]. intros D. apply Nx. symmetry.
          now apply prime_div_prime. }
      apply G. intros x Hx. split; [apply H; now right|]. intros ->. contradiction. }
    rewrite Hc in Hl |- *. destruct (Gauss _ _ _ (eq_ind _ (fun z => (_ | z)) Hl _ (Z.mul_comm c q))
      (rel_prime_sym _ _ Hrel)) as [k Hk].
    exists k. rewrite Hk. ring.
Qed.

Theorem pocklington n (ws : list wit) :
  1 < n -> NoDup (map fst ws) -> (forall q, In q (map fst ws) -> prime q) ->
  (forall w, In w ws -> exists qs0 qs, check_fermat n (snd w) qs0 = true /\ check_factor n w qs = true) ->
  n < fold_right Z.mul 1 (map fst ws) * fold_right Z.mul 1 (map fst ws) ->
  prime n.
Proof.
  intros Hn Hnd Hq Hc Hsz. apply prime_by_large_divisors; [exact Hn|].
  intros r Hr Hrn.
  assert (Hr1 : 1 < r) by now destruct Hr.
  assert (Hd : (fold_right Z.mul 1 (map fst ws) | r - 1)).
  { apply distinct_primes_divide; [exact Hnd|]. intros q Hin. split; [now apply Hq|].
    apply in_map_iff in Hin. destruct Hin as ([q0 a] & <- & Hin).
    destruct (Hc _ Hin) as (qs0 & qs & Hf & Hcc).
    apply (check_factor_sound n q0 a qs0 qs r Hn);
      [apply Hq; apply in_map_iff; now exists (q0, a)|exact Hf|exact Hcc|exact Hr|exact Hrn]. }
  apply Z.divide_pos_le in Hd; [|lia].
  set (F := fold_right Z.mul 1 (map fst ws)) in *.
  destruct (Z.le_gt_cases 0 F); [nia|].
  assert (HF : 0 < F); [|lia].
  unfold F. clear - Hq. induction (map fst ws) as [|q l IH]; cbn [fold_right]; [lia|].
  pose proof (Hq q (or_introl eq_refl)) as [Hq1 _].
  assert (0 < fold_right Z.mul 1 l) by (apply IH; intros x Hx; apply Hq; now right). nia.
Qed.

(** ** Small primes by trial division *)

Fixpoint trial (fuel : nat) (d n : Z) : bool :=
  match fuel with
  | O => false
  | S f => if n <? d * d then true else if n mod d =? 0 then false else trial f (d + 1) n
  end.

Lemma trial_sound fuel d n :
  1 < n -> 2 <= d -> (forall k, 2 <= k < d -> ~ (k | n)) -> trial fuel d n = true -> prime n.
Proof.
  revert d. induction fuel as [|f IH]; intros d Hn Hd Hk Ht; [discriminate|].
  cbn [trial] in Ht. destruct (Z.ltb_spec n (d * d)) as [L|L].
  - apply prime_by_large_divisors; [exact Hn|]. intros r Hr Hrn.
    destruct Hr as [Hr1 _]. destruct (Z.le_gt_cases d r); [nia|].
    exfalso. apply (Hk r); [lia|exact Hrn].
  - destruct (Z.eqb_spec (n mod d) 0) as [E|E]; [discriminate|].
    apply (IH (d + 1)); [exact Hn|lia| |exact Ht].
    intros k Hkd Hdiv. destruct (Z.eq_dec k d) as [->|]; [|apply (Hk k); [lia|exact Hdiv]].
    apply E. now apply Zdivide_mod.
Qed.

Lemma small_prime n : 1 < n -> trial 100 2 n = true -> prime n.
Proof. intros Hn. apply trial_sound; [exact Hn|lia|]. intros k Hk. lia. Qed.
