(** * num-bigint's [BigUint] (external crate num-bigint 0.4.6), as [N].

    Every operation that panics in Rust returns [Panic] here. *)
From Verif Require Import Base.Bytes Base.Outcome.
Local Open Scope N_scope.

(** [BigUint::from_bytes_be]: Horner evaluation; the empty slice is 0. *)
Definition from_bytes_be (l : bytes) : N :=
  fold_left (fun acc b => acc * 256 + b2n b) l 0.

Fixpoint le_digits (fuel : nat) (n : N) : bytes :=
  match fuel with
  | O => []
  | S f => if n =? 0 then [] else n2b n :: le_digits f (n / 256)
  end.

(** [BigUint::to_bytes_be]: minimal big-endian digits; zero is the single byte 0. *)
Definition to_bytes_be (n : N) : bytes :=
  if n =? 0 then [x00] else rev (le_digits (N.size_nat n) n).

(** [a % b] on [BigUint]: panics on a zero divisor. *)
Definition big_rem {E} (a b : N) : outcome E N :=
  if b =? 0 then Panic else Ok (a mod b).

(** [a - b] on [BigUint]: panics on underflow. *)
Definition big_sub {E} (a b : N) : outcome E N :=
  if a <? b then Panic else Ok (a - b).

Fixpoint pow_pos_mod (b : N) (e : positive) (m : N) : N :=
  match e with
  | xH => b mod m
  | xO e' => let t := pow_pos_mod b e' m in (t * t) mod m
  | xI e' => let t := pow_pos_mod b e' m in (((t * t) mod m) * b) mod m
  end.

Definition pow_mod (b e m : N) : N :=
  match e with 0 => 1 mod m | N.pos e' => pow_pos_mod b e' m end.

(** [BigUint::modpow]: panics on a zero modulus; the result is reduced. *)
Definition big_modpow {E} (b e m : N) : outcome E N :=
  if m =? 0 then Panic else Ok (pow_mod b e m).

(** ** Facts *)

Lemma from_bytes_be_spec l : from_bytes_be l = be_val l.
Proof.
  unfold from_bytes_be.
  assert (G : forall acc, fold_left (fun acc b => acc * 256 + b2n b) l acc
              = acc * 256 ^ N.of_nat (length l) + be_val l).
  { induction l as [|b t IH]; intros acc; cbn [fold_left be_val length].
    - cbn. lia.
    - rewrite IH, pow256_S. lia. }
  rewrite G. lia.
Qed.

(** Evaluates in time linear in the length. *)
Lemma from_bytes_be_le l : from_bytes_be l = le_val (rev l).
Proof. rewrite from_bytes_be_spec. symmetry. apply le_val_rev. Qed.

Lemma size_nat_bound n : n < 2 ^ N.of_nat (N.size_nat n).
Proof.
  destruct n as [|p]; [cbn; lia|]. cbn [N.size_nat].
  induction p as [p IH|p IH|]; cbn [Pos.size_nat]; rewrite ?Nat2N.inj_succ, ?N.pow_succ_r'; lia.
Qed.

Lemma le_digits_val fuel n : n < 2 ^ N.of_nat fuel -> le_val (le_digits fuel n) = n.
Proof.
  revert n; induction fuel as [|f IH]; intros n Hn; cbn [le_digits].
  - cbn in *. lia.
  - destruct (N.eqb_spec n 0) as [->|Hn0]; [reflexivity|].
    cbn [le_val]. rewrite b2n_n2b, IH.
    + lia.
    + rewrite Nat2N.inj_succ, N.pow_succ_r' in Hn. lia.
Qed.

Lemma le_digits_last fuel n :
  n < 2 ^ N.of_nat fuel -> n <> 0 -> exists l b, le_digits fuel n = l ++ [b] /\ b2n b <> 0.
Proof.
  revert n; induction fuel as [|f IH]; intros n Hn Hn0; [cbn in Hn; lia|].
  cbn [le_digits]. destruct (N.eqb_spec n 0) as [|_]; [contradiction|].
  rewrite Nat2N.inj_succ, N.pow_succ_r' in Hn.
  destruct (N.eq_dec (n / 256) 0) as [E|E].
  - exists [], (n2b n). rewrite E. split.
    + destruct f; reflexivity.
    + rewrite b2n_n2b. lia.
  - destruct (IH (n / 256)) as (l & b & Hl & Hb); [lia|exact E|].
    exists (n2b n :: l), b. now rewrite Hl.
Qed.

Lemma be_val_to_bytes_be n : be_val (to_bytes_be n) = n.
Proof.
  unfold to_bytes_be. destruct (N.eqb_spec n 0) as [->|Hn]; [reflexivity|].
  rewrite be_val_rev. apply le_digits_val, size_nat_bound.
Qed.

Lemma from_to_bytes_be n : from_bytes_be (to_bytes_be n) = n.
Proof. rewrite from_bytes_be_spec. apply be_val_to_bytes_be. Qed.

Lemma to_bytes_be_inj a b : to_bytes_be a = to_bytes_be b -> a = b.
Proof. intros H. rewrite <- (be_val_to_bytes_be a), H. apply be_val_to_bytes_be. Qed.

Lemma to_bytes_be_head n : n <> 0 -> exists b t, to_bytes_be n = b :: t /\ b2n b <> 0.
Proof.
  intros Hn. unfold to_bytes_be. destruct (N.eqb_spec n 0) as [|_]; [contradiction|].
  destruct (le_digits_last (N.size_nat n) n (size_nat_bound n) Hn) as (l & b & -> & Hb).
  rewrite rev_app_distr. cbn. eauto.
Qed.

Lemma to_bytes_be_nonempty n : to_bytes_be n <> [].
Proof.
  destruct (N.eq_dec n 0) as [->|H]; [discriminate|].
  destruct (to_bytes_be_head n H) as (b & t & -> & _). discriminate.
Qed.

(** The length of the encoding is the least [k >= 1] with [n < 256^k]. *)
Lemma to_bytes_be_length_le n k : (0 < k)%nat -> n < 256 ^ N.of_nat k -> (length (to_bytes_be n) <= k)%nat.
Proof.
  intros Hk Hn. destruct (N.eq_dec n 0) as [->|Hn0]; [cbn; lia|].
  destruct (to_bytes_be_head n Hn0) as (b & t & E & Hb).
  pose proof (be_val_to_bytes_be n) as V. rewrite E in V |- *. cbn [be_val length] in *.
  destruct (Nat.le_gt_cases (S (length t)) k) as [|G]; [assumption|exfalso].
  assert (256 ^ N.of_nat k <= 256 ^ N.of_nat (length t)) by (apply N.pow_le_mono_r; lia).
  nia.
Qed.

Lemma to_bytes_be_bound n : n < 256 ^ N.of_nat (length (to_bytes_be n)).
Proof. rewrite <- (be_val_to_bytes_be n) at 1. apply be_val_bound. Qed.

Lemma to_bytes_be_length_mono a b : a <= b -> (length (to_bytes_be a) <= length (to_bytes_be b))%nat.
Proof.
  intros H. apply to_bytes_be_length_le.
  - pose proof (to_bytes_be_nonempty b). destruct (to_bytes_be b); [contradiction|cbn; lia].
  - pose proof (to_bytes_be_bound b). lia.
Qed.

Lemma be_val_zeros k l : be_val (repeat x00 k ++ l) = be_val l.
Proof.
  induction k as [|k IH]; [reflexivity|].
  cbn [repeat app be_val]. rewrite IH. change (b2n x00) with 0. lia.
Qed.

Lemma to_bytes_be_unique n l :
  be_val l = n -> (forall b t, l = b :: t -> t <> [] -> b <> x00) -> l <> [] -> l = to_bytes_be n.
Proof.
  intros HV HH HN.
  destruct l as [|b t]; [contradiction|].
  destruct (N.eq_dec n 0) as [->|Hn0].
  - cbn [be_val] in HV. pose proof (pow256_pos (N.of_nat (length t))).
    assert (b2n b = 0) by nia.
    assert (b = x00) by (apply b2n_inj; assumption). subst b.
    destruct t as [|c t]; [reflexivity|]. exfalso. now apply (HH x00 (c :: t)).
  - destruct (to_bytes_be_head n Hn0) as (b' & t' & E & Hb').
    pose proof (be_val_to_bytes_be n) as V. rewrite E in V |- *. cbn [be_val] in *.
    assert (Hb : b2n b <> 0).
    { destruct t as [|c t].
      - cbn in HV. intros Z. rewrite Z in HV. lia.
      - intros Z. apply (HH b (c :: t)); [reflexivity|discriminate|now apply b2n_inj]. }
    pose proof (be_val_bound t). pose proof (be_val_bound t').
    assert (HL : length t = length t').
    { destruct (Nat.lt_trichotomy (length t) (length t')) as [L|[L|L]]; [exfalso|exact L|exfalso].
      - assert (256 ^ N.of_nat (S (length t)) <= 256 ^ N.of_nat (length t')) by (apply N.pow_le_mono_r; lia).
        rewrite pow256_S in *. pose proof (b2n_lt b). nia.
      - assert (256 ^ N.of_nat (S (length t')) <= 256 ^ N.of_nat (length t)) by (apply N.pow_le_mono_r; lia).
        rewrite pow256_S in *. pose proof (b2n_lt b'). nia. }
    apply be_val_inj; [cbn; congruence|]. cbn [be_val]. lia.
Qed.

(** ** Modular exponentiation *)

Lemma pow_pos_mod_spec b e m : m <> 0 -> pow_pos_mod b e m = b ^ N.pos e mod m.
Proof.
  intros Hm. induction e as [e IH|e IH|]; cbn [pow_pos_mod].
  - rewrite IH. replace (N.pos e~1) with (N.pos e + N.pos e + 1) by lia.
    rewrite !N.pow_add_r, N.pow_1_r. rewrite <- N.mul_mod by exact Hm.
    now rewrite N.mul_mod_idemp_l by exact Hm.
  - rewrite IH. replace (N.pos e~0) with (N.pos e + N.pos e) by lia.
    rewrite N.pow_add_r. now rewrite <- N.mul_mod by exact Hm.
  - now rewrite N.pow_1_r.
Qed.

Lemma pow_mod_spec b e m : m <> 0 -> pow_mod b e m = b ^ e mod m.
Proof.
  intros Hm. destruct e as [|e]; [reflexivity|]. now apply pow_pos_mod_spec.
Qed.

Lemma big_modpow_ok {E} b e m : m <> 0 -> @big_modpow E b e m = Ok (b ^ e mod m).
Proof.
  intros Hm. unfold big_modpow. destruct (N.eqb_spec m 0); [contradiction|].
  now rewrite pow_mod_spec.
Qed.

Lemma big_rem_ok {E} a m : m <> 0 -> @big_rem E a m = Ok (a mod m).
Proof. intros Hm. unfold big_rem. now destruct (N.eqb_spec m 0). Qed.

Lemma big_sub_ok {E} a b : b <= a -> @big_sub E a b = Ok (a - b).
Proof. intros H. unfold big_sub. destruct (N.ltb_spec a b); [lia|reflexivity]. Qed.

Lemma pow_mod_idemp_base b e m : m <> 0 -> (b mod m) ^ e mod m = b ^ e mod m.
Proof.
  intros Hm. induction e as [|e IH] using N.peano_ind; [reflexivity|].
  rewrite !N.pow_succ_r'. rewrite N.mul_mod, IH, N.mod_mod, <- N.mul_mod by exact Hm. reflexivity.
Qed.
