(** * Primality of the Curve25519 field characteristic and group order (Pocklington certificates).
    Standard mathematics, no code.  The certificates are the factorisations of [n - 1]; every check
    below is run by the kernel. *)
From Coq Require Import ZArith Znumtheory List Lia.
From Verif.Curve Require Import NumTheory.
Import ListNotations.
Local Open Scope Z_scope.

(** The field characteristic of Curve25519, RFC 7748 section 4.1. *)
Definition p25519 : Z :=
  57896044618658097711785492504343953926634992332820282019728792003956564819949.
Lemma p25519_eq : p25519 = 2 ^ 255 - 19.
Proof. reflexivity. Qed.
(** The order of the prime-order subgroup, RFC 7748 section 4.1. *)
Definition ell : Z :=
  7237005577332262213973186563042994240857116359379907606001950938285454250989.
Lemma ell_eq : ell = 2 ^ 252 + 27742317777372353535851937790883648493.
Proof. reflexivity. Qed.

Ltac small := apply small_prime; [reflexivity|vm_compute; reflexivity].

Lemma prime_991 : prime 991. Proof. small. Qed.
Lemma prime_103 : prime 103. Proof. small. Qed.
Lemma prime_127 : prime 127. Proof. small. Qed.
Lemma prime_419 : prime 419. Proof. small. Qed.
Lemma prime_97 : prime 97. Proof. small. Qed.
Lemma prime_1723 : prime 1723. Proof. small. Qed.
Lemma prime_4153 : prime 4153. Proof. small. Qed.
Lemma prime_2551 : prime 2551. Proof. small. Qed.
Lemma prime_3797 : prime 3797. Proof. small. Qed.

Create HintDb primes.
#[global] Hint Resolve prime_991 prime_103 prime_127 prime_419 prime_97 prime_1723 prime_4153
  prime_2551 prime_3797 : primes.

Lemma pocklington1 n qs0 q qs :
  1 < n -> prime q -> n < q * q ->
  check_fermat n 2 qs0 = true -> check_factor n (q, 2) qs = true -> prime n.
Proof.
  intros Hn Hq Hs Hf Hc. apply (pocklington n [(q, 2)]); cbn [map fst fold_right].
  - exact Hn.
  - constructor; [intros []|constructor].
  - intros x [<-|[]]. exact Hq.
  - intros w [<-|[]]. eauto.
  - now rewrite Z.mul_1_r.
Qed.

Lemma pocklington2 n qs0 q qs q' qs' :
  1 < n -> q <> q' -> prime q -> prime q' -> n < (q * q') * (q * q') ->
  check_fermat n 2 qs0 = true ->
  check_factor n (q, 2) qs = true -> check_factor n (q', 2) qs' = true ->
  prime n.
Proof.
  intros Hn Hne Hq Hq' Hs Hf Hc Hc'.
  apply (pocklington n [(q, 2); (q', 2)]); cbn [map fst fold_right].
  - exact Hn.
  - constructor; [intros [E|[]]; now apply Hne|]. constructor; [intros []|constructor].
  - intros x [<-|[<-|[]]]; assumption.
  - intros w [<-|[<-|[]]]; eauto.
  - now rewrite Z.mul_1_r.
Qed.

(** The hints are computed here once and stored; the checks are what the kernel re-runs. *)
Ltac pock1 q :=
  match goal with |- prime ?n =>
    let h0 := eval vm_compute in (fermat_hints n 2) in
    let h := eval vm_compute in (factor_hints n (q, 2)) in
    apply (pocklington1 n h0 q h)
  end; [reflexivity|auto with primes|reflexivity|vm_cast_no_check (eq_refl true)..].
Ltac pock2 q q' :=
  match goal with |- prime ?n =>
    let h0 := eval vm_compute in (fermat_hints n 2) in
    let h := eval vm_compute in (factor_hints n (q, 2)) in
    let h' := eval vm_compute in (factor_hints n (q', 2)) in
    apply (pocklington2 n h0 q h q' h')
  end;
  [reflexivity|discriminate|auto with primes|auto with primes|reflexivity
  |vm_cast_no_check (eq_refl true)..].

Lemma prime_8574133 : prime 8574133. Proof. pock2 991 103. Qed.
#[global] Hint Resolve prime_8574133 : primes.
Lemma prime_a1 : prime 1919519569386763. Proof. pock2 8574133 127. Qed.
#[global] Hint Resolve prime_a1 : primes.
Lemma prime_569003 : prime 569003. Proof. pock2 419 97. Qed.
#[global] Hint Resolve prime_569003 : primes.
Lemma prime_a2 : prime 2773320623. Proof. pock1 569003. Qed.
#[global] Hint Resolve prime_a2 : primes.
Lemma prime_a3 : prime 72106336199. Proof. pock1 2773320623. Qed.
#[global] Hint Resolve prime_a3 : primes.
Lemma prime_a4 : prime 75445702479781427272750846543864801.
Proof. pock2 1919519569386763 72106336199. Qed.
#[global] Hint Resolve prime_a4 : primes.
Lemma prime_430751 : prime 430751. Proof. pock1 1723. Qed.
#[global] Hint Resolve prime_430751 : primes.
Lemma prime_a5 : prime 31757755568855353. Proof. pock2 430751 4153. Qed.
#[global] Hint Resolve prime_a5 : primes.
Lemma prime_a6 : prime 74058212732561358302231226437062788676166966415465897661863160754340907.
Proof. pock2 75445702479781427272750846543864801 31757755568855353. Qed.
#[global] Hint Resolve prime_a6 : primes.

Theorem prime_p25519 : prime p25519.
Proof.
  unfold p25519.
  pock1 74058212732561358302231226437062788676166966415465897661863160754340907. Qed.

Lemma prime_1224481 : prime 1224481. Proof. pock1 2551. Qed.
#[global] Hint Resolve prime_1224481 : primes.
Lemma prime_531581 : prime 531581. Proof. pock1 3797. Qed.
#[global] Hint Resolve prime_531581 : primes.
Lemma prime_b1 : prime 1257559732178653. Proof. pock2 1224481 531581. Qed.
#[global] Hint Resolve prime_b1 : primes.
Lemma prime_b2 : prime 4434155615661930479. Proof. pock1 1257559732178653. Qed.
#[global] Hint Resolve prime_b2 : primes.
Lemma prime_b3 : prime 172054593956031949258510691. Proof. pock1 4434155615661930479. Qed.
#[global] Hint Resolve prime_b3 : primes.
Lemma prime_b4 : prime 19757330305831588566944191468367130476339.
Proof. pock1 172054593956031949258510691. Qed.
#[global] Hint Resolve prime_b4 : primes.
Lemma prime_b5 : prime 276602624281642239937218680557139826668747.
Proof. pock1 19757330305831588566944191468367130476339. Qed.
#[global] Hint Resolve prime_b5 : primes.

Theorem prime_ell : prime ell.
Proof.
  unfold ell.
  pock1 276602624281642239937218680557139826668747. Qed.
