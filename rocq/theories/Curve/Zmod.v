(** * Integers modulo m, with Leibniz equality; a field when m is prime.  Standard mathematics. *)
From Coq Require Import ZArith Znumtheory Lia Field Ring Eqdep_dec Bool.
From Verif.Curve Require Import NumTheory.
Local Open Scope Z_scope.

Section Zmod.
Context (m : Z) (Hm : 1 < m).

Record zmod := Mk { val : Z; val_ok : (val mod m =? val) = true }.

Lemma zmod_ext x y : val x = val y -> x = y.
Proof.
  destruct x as [x Hx], y as [y Hy]; cbn [val]. intros ->. f_equal.
  apply UIP_dec, bool_dec.
Qed.

Lemma of_Z_ok z : ((z mod m) mod m =? z mod m) = true.
Proof. apply Z.eqb_eq, Z.mod_mod. clear - Hm. lia. Qed.

Definition of_Z (z : Z) : zmod := Mk (z mod m) (of_Z_ok z).

Lemma val_mod x : val x mod m = val x.
Proof. apply Z.eqb_eq, val_ok. Qed.

Lemma val_range x : 0 <= val x < m.
Proof. rewrite <- val_mod. apply Z.mod_pos_bound. lia. Qed.

Lemma of_Z_val x : of_Z (val x) = x.
Proof. apply zmod_ext. apply val_mod. Qed.

Lemma val_of_Z z : val (of_Z z) = z mod m.
Proof. reflexivity. Qed.

Lemma val_of_Z_small z : 0 <= z < m -> val (of_Z z) = z.
Proof. intros H. now apply Z.mod_small. Qed.

Lemma of_Z_eq a b : of_Z a = of_Z b <-> a mod m = b mod m.
Proof.
  split.
  - intros E. apply (f_equal val) in E. exact E.
  - intros E. now apply zmod_ext.
Qed.

Definition zadd x y := of_Z (val x + val y).
Definition zmul x y := of_Z (val x * val y).
Definition zsub x y := of_Z (val x - val y).
Definition zopp x := of_Z (- val x).
Definition zzero := of_Z 0.
Definition zone := of_Z 1.

Lemma of_Z_add a b : of_Z (a + b) = zadd (of_Z a) (of_Z b).
Proof. apply of_Z_eq. rewrite !val_of_Z. apply Zplus_mod. Qed.
Lemma of_Z_mul a b : of_Z (a * b) = zmul (of_Z a) (of_Z b).
Proof. apply of_Z_eq. rewrite !val_of_Z. apply Zmult_mod. Qed.
Lemma of_Z_sub a b : of_Z (a - b) = zsub (of_Z a) (of_Z b).
Proof. apply of_Z_eq. rewrite !val_of_Z. apply Zminus_mod. Qed.
Lemma of_Z_opp a : of_Z (- a) = zopp (of_Z a).
Proof.
  apply of_Z_eq. rewrite !val_of_Z. rewrite <- !Z.sub_0_l.
  now rewrite Zminus_mod, (Zminus_mod 0 (a mod m)), Z.mod_mod by lia.
Qed.

Lemma zmod_ring : ring_theory zzero zone zadd zmul zsub zopp (@eq zmod).
Proof.
  split.
  - intros x. rewrite <- (of_Z_val x) at 1. unfold zzero. now rewrite <- of_Z_add, Z.add_0_l, of_Z_val.
  - intros x y. unfold zadd. now rewrite Z.add_comm.
  - intros x y z. rewrite <- (of_Z_val x), <- (of_Z_val y), <- (of_Z_val z).
    rewrite <- !of_Z_add. f_equal. ring.
  - intros x. rewrite <- (of_Z_val x) at 1. unfold zone. now rewrite <- of_Z_mul, Z.mul_1_l, of_Z_val.
  - intros x y. unfold zmul. now rewrite Z.mul_comm.
  - intros x y z. rewrite <- (of_Z_val x), <- (of_Z_val y), <- (of_Z_val z).
    rewrite <- !of_Z_mul. f_equal. ring.
  - intros x y z. rewrite <- (of_Z_val x), <- (of_Z_val y), <- (of_Z_val z).
    rewrite <- ?of_Z_add, <- ?of_Z_mul, <- ?of_Z_add. f_equal. ring.
  - intros x y. rewrite <- (of_Z_val x), <- (of_Z_val y).
    rewrite <- of_Z_opp, <- of_Z_sub, <- of_Z_add. reflexivity.
  - intros x. rewrite <- (of_Z_val x). rewrite <- of_Z_opp, <- of_Z_add. unfold zzero. f_equal. ring.
Qed.

Fixpoint zpow (x : zmod) (e : positive) : zmod :=
  match e with
  | xH => x
  | xO e' => let t := zpow x e' in zmul t t
  | xI e' => let t := zpow x e' in zmul (zmul t t) x
  end.

Lemma zpow_val x e : val (zpow x e) = val x ^ Z.pos e mod m.
Proof.
  induction e as [e IH|e IH|]; cbn [zpow].
  - unfold zmul. rewrite !val_of_Z, IH.
    replace (Z.pos e~1) with (Z.pos e + Z.pos e + 1) by lia.
    rewrite !Z.pow_add_r, Z.pow_1_r by lia.
    now rewrite <- Zmult_mod, Zmult_mod_idemp_l.
  - unfold zmul. rewrite !val_of_Z, IH.
    replace (Z.pos e~0) with (Z.pos e + Z.pos e) by lia.
    now rewrite Z.pow_add_r, <- Zmult_mod by lia.
  - now rewrite Z.pow_1_r, val_mod.
Qed.

Lemma zpow_add x a b : zpow x (a + b) = zmul (zpow x a) (zpow x b).
Proof.
  apply zmod_ext. unfold zmul. rewrite val_of_Z, !zpow_val, <- Zmult_mod.
  now rewrite Pos2Z.inj_add, Z.pow_add_r by lia.
Qed.

Lemma zpow_mul x a b : zpow x (a * b) = zpow (zpow x a) b.
Proof.
  apply zmod_ext. rewrite !zpow_val, <- Zpow_facts.Zpower_mod by lia.
  now rewrite Pos2Z.inj_mul, Z.pow_mul_r by lia.
Qed.

Lemma zpow_zmul x y e : zpow (zmul x y) e = zmul (zpow x e) (zpow y e).
Proof.
  apply zmod_ext. unfold zmul. rewrite val_of_Z, !zpow_val, val_of_Z, <- Zmult_mod.
  rewrite <- Zpow_facts.Zpower_mod by lia. now rewrite Z.pow_mul_l.
Qed.

Definition zmod_eq_dec (x y : zmod) : {x = y} + {x <> y}.
Proof.
  destruct (Z.eq_dec (val x) (val y)) as [E|E]; [left; now apply zmod_ext|].
  right. intros ->. now apply E.
Defined.

Context (Hprime : prime m).

(** Inversion by [x^(m-2)]; the inverse of 0 is 0 (for m > 2), as in curve25519-dalek. *)
Definition zinv (x : zmod) : zmod :=
  match m - 2 with
  | Z.pos e => zpow x e
  | _ => x
  end.

Lemma zzero_val x : val x = 0 <-> x = zzero.
Proof.
  split; [|intros ->; apply Z.mod_0_l; clear - Hm; lia].
  intros E. apply zmod_ext. rewrite E. symmetry. apply Z.mod_0_l. clear - Hm. lia.
Qed.

Lemma not_divide x : x <> zzero -> ~ (m | val x).
Proof.
  intros Hx D. apply Hx, zzero_val. pose proof (val_range x).
  apply Zdivide_mod in D. now rewrite val_mod in D.
Qed.

Lemma zinv_l x : x <> zzero -> zmul (zinv x) x = zone.
Proof.
  intros Hx. apply zmod_ext. unfold zinv.
  pose proof (fermat m Hprime (val x) (not_divide x Hx)) as F.
  destruct (m - 2) as [|e|e] eqn:E; [| |lia].
  - replace (m - 1) with 1 in F by lia. rewrite Z.pow_1_r, val_mod in F.
    unfold zmul, zone. rewrite !val_of_Z, F. reflexivity.
  - unfold zmul, zone. rewrite !val_of_Z, zpow_val, Zmult_mod_idemp_l.
    replace (m - 1) with (Z.pos e + 1) in F by lia.
    rewrite Z.pow_add_r, Z.pow_1_r in F by lia. rewrite F. symmetry. apply Z.mod_1_l. exact Hm.
Qed.

Lemma zpow_fermat x e : Z.pos e = m - 1 -> x <> zzero -> zpow x e = zone.
Proof.
  intros He Hx. apply zmod_ext. rewrite zpow_val, He.
  rewrite (fermat m Hprime (val x) (not_divide x Hx)). symmetry. apply Z.mod_1_l. exact Hm.
Qed.

Definition zdiv x y := zmul x (zinv y).

Lemma zone_neq_zzero : zone <> zzero.
Proof.
  intros E. apply (f_equal val) in E. unfold zone, zzero in E. rewrite !val_of_Z in E.
  rewrite Z.mod_1_l, Z.mod_0_l in E by lia. discriminate.
Qed.

Lemma zmod_field : field_theory zzero zone zadd zmul zsub zopp zdiv zinv (@eq zmod).
Proof.
  split.
  - exact zmod_ring.
  - exact zone_neq_zzero.
  - reflexivity.
  - exact zinv_l.
Qed.

End Zmod.
