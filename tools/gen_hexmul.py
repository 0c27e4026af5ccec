#!/usr/bin/env python3
"""Writes theories/Base/HexMul.v: multiplication of binary integers through base-16 digit tables.

The kernel's (and coqchk's) lazy machine evaluates this several times faster than Z.mul."""
D = ["h%X" % i for i in range(16)]
o = []
w = o.append
w("""(** * Multiplication of integers through base-16 digit tables (generated by tools/gen_hexmul.py).

    [hmul a b = a * b]; only the evaluation cost differs: the kernel and coqchk evaluate it several
    times faster than [Z.mul].  Standard arithmetic, models no code. *)
From Coq Require Import ZArith NArith Lia List Bool Init.Byte.
From Coq Require Strings.Byte.
Import ListNotations.
Local Open Scope N_scope.
""")
w("Definition b2n (b : byte) : N := Strings.Byte.to_N b.\n\nInductive hx : Set := " + " | ".join(D) + ".\n")
w("Definition hv (d : hx) : N := match d with " + " ".join("| %s => %d" % (D[i], i) for i in range(16)) + " end.\n")
for a in range(16):
    w("Definition mulr%X (y : hx) : byte := match y with %s end." % (a, " ".join("| %s => x%02x" % (D[y], a * y) for y in range(16))))
w("(** a * y for digits a and y, as a byte *)")
w("Definition mulr (a : hx) : hx -> byte := match a with %s end.\n" % " ".join("| %s => mulr%X" % (D[a], a) for a in range(16)))
w("(** b + c modulo 256 *)")
w("Definition addb (b : byte) (c : hx) : byte :=\n  match b with")
for b in range(256):
    w("  | x%02x => match c with %s end" % (b, " ".join("| %s => x%02x" % (D[c], (b + c) % 256) for c in range(16))))
w("  end.\n")
w("(** high and low digit of a byte *)")
w("Definition split {T : Type} (b : byte) (k : hx -> hx -> T) : T :=\n  match b with")
for b in range(256):
    w("  | x%02x => k %s %s" % (b, D[b >> 4], D[b & 15]))
w("  end.\n")
w("Definition dig (d : hx) : byte := match d with %s end.\n" % " ".join("| %s => x%02x" % (D[c], c) for c in range(16)))

w("""
(** acc + c *)
Fixpoint addc (acc : list hx) (c : hx) : list hx :=
  match acc with
  | [] => [c]
  | d :: acc' => split (addb (dig d) c) (fun hi lo => lo :: addc acc' hi)
  end.

(** a * ys + acc + c, where m is multiplication by the digit a *)
Fixpoint row (m : hx -> byte) (ys acc : list hx) (c : hx) : list hx :=
  match ys with
  | [] => addc acc c
  | y :: ys' =>
    match acc with
    | [] => split (addb (m y) c) (fun hi lo => lo :: row m ys' [] hi)
    | d :: acc' => split (addb (addb (m y) c) d) (fun hi lo => lo :: row m ys' acc' hi)
    end
  end.

(** xs * ys + acc *)
Fixpoint mulx (xs ys acc : list hx) : list hx :=
  match xs with
  | [] => acc
  | x :: xs' =>
    match row (mulr x) ys acc h0 with
    | [] => h0 :: mulx xs' ys []
    | l :: r => l :: mulx xs' ys r
    end
  end.
""")
w("(** base-16 digits of a positive, least significant first *)")
w("Fixpoint pos_hx (p : positive) : list hx :=\n  match p with")
def pat(v, bits, tail):
    s = tail
    for i in reversed(range(bits)):
        b = (v >> i) & 1
        s = "(%s %s)" % ("xI" if b else "xO", s)
    return s[1:-1] if s.startswith("(") else s
for k in range(1, 5):
    for v in range(1 << (k - 1), 1 << k):
        # leading one is xH
        w("  | %s => [%s]" % (pat(v - (1 << (k - 1)), k - 1, "xH"), D[v]))
for v in range(16):
    w("  | %s => %s :: pos_hx p'" % (pat(v, 4, "p'"), D[v]))
w("  end.\n")
w("Definition push (d : hx) (p : positive) : positive :=\n  match d with")
for v in range(16):
    w("  | %s => %s" % (D[v], pat(v, 4, "p")))
w("  end.\n")
w("""Definition pushN (d : hx) (n : N) : N :=
  match n with
  | N0 => hv d
  | Npos p => Npos (push d p)
  end.

Fixpoint hx_N (l : list hx) : N :=
  match l with
  | [] => 0
  | d :: l' => pushN d (hx_N l')
  end.

Definition pmulx (a b : positive) : N := hx_N (mulx (pos_hx a) (pos_hx b) []).

Definition ofN (s : bool) (n : N) : Z :=
  match n with
  | N0 => Z0
  | Npos p => if s then Zneg p else Zpos p
  end.

Definition hmul (a b : Z) : Z :=
  match a, b with
  | Zpos x, Zpos y => ofN false (pmulx x y)
  | Zpos x, Zneg y => ofN true (pmulx x y)
  | Zneg x, Zpos y => ofN true (pmulx x y)
  | Zneg x, Zneg y => ofN false (pmulx x y)
  | _, _ => Z0
  end.

(** ** Correctness *)

Fixpoint hval (l : list hx) : N :=
  match l with
  | [] => 0
  | d :: l' => hv d + 16 * hval l'
  end.

Lemma hv_lt d : hv d < 16.
Proof. destruct d; reflexivity. Qed.

Lemma mulr_ok a y : b2n (mulr a y) = hv a * hv y.
Proof. destruct a, y; reflexivity. Qed.

Definition all_hx : list hx := [%s].
Lemma all_hx_in d : In d all_hx.
Proof. destruct d; cbn; tauto. Qed.

Definition addb_check (b : byte) : bool :=
  forallb (fun c => N.eqb (b2n (addb b c)) (N.modulo (b2n b + hv c) 256)) all_hx.
Lemma addb_mod b c : b2n (addb b c) = (b2n b + hv c) mod 256.
Proof.
  assert (H : addb_check b = true) by (destruct b; reflexivity).
  unfold addb_check in H. rewrite forallb_forall in H.
  apply N.eqb_eq. apply H. apply all_hx_in.
Qed.

Lemma addb_ok b c : b2n b + hv c < 256 -> b2n (addb b c) = b2n b + hv c.
Proof. intros H. rewrite addb_mod. now apply N.mod_small. Qed.

Lemma dig_ok d : b2n (dig d) = hv d.
Proof. destruct d; reflexivity. Qed.

Definition shi (b : byte) : hx := split b (fun hi _ => hi).
Definition slo (b : byte) : hx := split b (fun _ lo => lo).
Lemma split_ok {T} b (k : hx -> hx -> T) : split b k = k (shi b) (slo b).
Proof. destruct b; reflexivity. Qed.
Lemma split_val b : hv (slo b) + 16 * hv (shi b) = b2n b.
Proof. destruct b; reflexivity. Qed.

Lemma addc_ok acc c : hval (addc acc c) = hval acc + hv c.
Proof.
  revert c. induction acc as [|d acc IH]; intros c; cbn [addc hval].
  - lia.
  - rewrite split_ok. cbn [hval]. rewrite IH.
    pose proof (split_val (addb (dig d) c)) as E.
    rewrite addb_ok, dig_ok in E; [lia|].
    rewrite dig_ok. pose proof (hv_lt d). pose proof (hv_lt c). lia.
Qed.

Lemma row_ok a ys : forall acc c,
  hval (row (mulr a) ys acc c) = hv a * hval ys + hval acc + hv c.
Proof.
  induction ys as [|y ys IH]; intros acc c; cbn [row hval].
  - rewrite addc_ok. lia.
  - pose proof (hv_lt a). pose proof (hv_lt y). pose proof (hv_lt c).
    assert (Hm : b2n (mulr a y) <= 225) by (rewrite mulr_ok; nia).
    destruct acc as [|d acc].
    + rewrite split_ok. cbn [hval]. rewrite IH.
      pose proof (split_val (addb (mulr a y) c)) as E.
      rewrite addb_ok in E by lia. rewrite mulr_ok in E. cbn [hval]. nia.
    + rewrite split_ok. cbn [hval]. rewrite IH. pose proof (hv_lt d).
      pose proof (split_val (addb (addb (mulr a y) c) d)) as E.
      assert (E1 : b2n (addb (mulr a y) c) = b2n (mulr a y) + hv c) by (apply addb_ok; lia).
      rewrite addb_ok in E by lia. rewrite E1, mulr_ok in E. nia.
Qed.

Lemma mulx_ok xs ys : forall acc, hval (mulx xs ys acc) = hval xs * hval ys + hval acc.
Proof.
  induction xs as [|x xs IH]; intros acc; cbn [mulx hval]; [lia|].
  pose proof (row_ok x ys acc h0) as R.
  destruct (row (mulr x) ys acc h0) as [|l r]; cbn [hval] in *; rewrite IH; cbn [hval hv] in *; nia.
Qed.

Lemma pos_hx_ok p : hval (pos_hx p) = Npos p.
Proof.
  revert p. fix IH 1. intros p.
  destruct p as [[[[p|p|]|[p|p|]|]|[[p|p|]|[p|p|]|]|]|[[[p|p|]|[p|p|]|]|[[p|p|]|[p|p|]|]|]|];
    cbn [pos_hx hval hv]; try rewrite IH; lia.
Qed.

Lemma pushN_ok d n : pushN d n = hv d + 16 * n.
Proof. destruct n as [|p]; cbn [pushN]; [lia|]. destruct d; cbn [push hv]; lia. Qed.

Lemma hx_N_ok l : hx_N l = hval l.
Proof. induction l as [|d l IH]; cbn [hx_N hval]; [reflexivity|]. now rewrite pushN_ok, IH. Qed.

Lemma pmulx_ok a b : pmulx a b = Npos (a * b).
Proof. unfold pmulx. rewrite hx_N_ok, mulx_ok, !pos_hx_ok. cbn [hval]. lia. Qed.

Theorem hmul_ok a b : hmul a b = (a * b)%%Z.
Proof. destruct a, b; cbn [hmul]; rewrite ?pmulx_ok; reflexivity. Qed.""" % "; ".join(D))
open("/verif/rocq/theories/Base/HexMul.v", "w").write("\n".join(o) + "\n")
