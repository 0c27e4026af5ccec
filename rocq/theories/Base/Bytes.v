(** * Bytes: byte strings, fixed- and variable-length integer encodings.

    [byte] is the 256-constructor type of Coq's standard library, so a byte string is any
    [list byte] and needs no well-formedness side condition. *)
From Coq Require Export List NArith ZArith Lia Bool Arith.
From Coq Require Export Init.Byte.
From Coq Require Strings.Byte.
From Coq Require Import ZifyBool ZifyNat ZifyN.
Export ListNotations.
Ltac Zify.zify_post_hook ::= Z.div_mod_to_equations.

Notation bytes := (list byte).

(** Numeric value of a byte. *)
Definition b2n (b : byte) : N := Strings.Byte.to_N b.

(** The byte with value [n mod 256] (Rust's [as u8]). *)
Definition n2b (n : N) : byte :=
  match Strings.Byte.of_N (n mod 256) with Some b => b | None => x00 end.

Lemma b2n_lt (b : byte) : (b2n b < 256)%N.
Proof. unfold b2n. pose proof (Strings.Byte.to_N_bounded b). lia. Qed.

Lemma n2b_b2n (b : byte) : n2b (b2n b) = b.
Proof.
  unfold n2b. rewrite N.mod_small by apply b2n_lt.
  unfold b2n. now rewrite Strings.Byte.of_to_N.
Qed.

Lemma b2n_n2b (n : N) : b2n (n2b n) = (n mod 256)%N.
Proof.
  unfold n2b, b2n.
  destruct (Strings.Byte.of_N (n mod 256)) as [b|] eqn:E.
  - now apply Strings.Byte.to_of_N.
  - apply Strings.Byte.of_N_None_iff in E.
    assert (n mod 256 < 256)%N by (apply N.mod_lt; discriminate). lia.
Qed.

Lemma b2n_inj (a b : byte) : b2n a = b2n b -> a = b.
Proof. intros H. rewrite <- (n2b_b2n a), <- (n2b_b2n b). now rewrite H. Qed.

Definition byte_eqb (a b : byte) : bool := N.eqb (b2n a) (b2n b).

Lemma byte_eqb_eq (a b : byte) : byte_eqb a b = true <-> a = b.
Proof.
  unfold byte_eqb. rewrite N.eqb_eq. split; [apply b2n_inj|now intros ->].
Qed.

Lemma byte_eqb_refl (a : byte) : byte_eqb a a = true.
Proof. now apply byte_eqb_eq. Qed.

Definition byte_eq_dec (a b : byte) : {a = b} + {a <> b}.
Proof.
  destruct (byte_eqb a b) eqn:E.
  - left. now apply byte_eqb_eq.
  - right. intros ->. now rewrite byte_eqb_refl in E.
Defined.

Definition bytes_eq_dec : forall a b : bytes, {a = b} + {a <> b} := list_eq_dec byte_eq_dec.

Fixpoint bytes_eqb (a b : bytes) : bool :=
  match a, b with
  | [], [] => true
  | x :: a', y :: b' => byte_eqb x y && bytes_eqb a' b'
  | _, _ => false
  end.

Lemma bytes_eqb_eq (a b : bytes) : bytes_eqb a b = true <-> a = b.
Proof.
  revert b; induction a as [|x a IH]; intros [|y b]; cbn; try (split; congruence).
  rewrite andb_true_iff, byte_eqb_eq, IH. split; [intros [-> ->]; auto|].
  intros H; injection H; auto.
Qed.

(** ** Little-endian values *)

Fixpoint le_val (l : bytes) : N :=
  match l with [] => 0 | b :: t => b2n b + 256 * le_val t end%N.

(** [k] little-endian bytes of [n] (Rust's [to_le_bytes] when [n < 256^k]). *)
Fixpoint le_bytes (k : nat) (n : N) : bytes :=
  match k with O => [] | S k' => n2b n :: le_bytes k' (n / 256)%N end.

Definition be_bytes (k : nat) (n : N) : bytes := rev (le_bytes k n).

(** Big-endian value of a byte string: the specification of "the number these bytes denote". *)
Fixpoint be_val (l : bytes) : N :=
  match l with [] => 0 | b :: t => b2n b * 256 ^ N.of_nat (length t) + be_val t end%N.

Lemma le_bytes_length k n : length (le_bytes k n) = k.
Proof. revert n; induction k as [|k IH]; intros n; cbn; auto. Qed.

Lemma be_bytes_length k n : length (be_bytes k n) = k.
Proof. unfold be_bytes. now rewrite rev_length, le_bytes_length. Qed.

Lemma pow256_pos n : (0 < 256 ^ n)%N.
Proof. apply N.neq_0_lt_0. apply N.pow_nonzero. discriminate. Qed.

Lemma pow256_S n : (256 ^ N.of_nat (S n) = 256 * 256 ^ N.of_nat n)%N.
Proof. rewrite Nat2N.inj_succ, N.pow_succ_r'. reflexivity. Qed.

Lemma le_val_bound l : (le_val l < 256 ^ N.of_nat (length l))%N.
Proof.
  induction l as [|b t IH]; [cbn; lia|].
  cbn [le_val length]. rewrite pow256_S. pose proof (b2n_lt b). lia.
Qed.

Lemma le_val_app a b : le_val (a ++ b) = (le_val a + 256 ^ N.of_nat (length a) * le_val b)%N.
Proof.
  induction a as [|x a IH]; cbn [le_val app length].
  - cbn. destruct (le_val b); lia.
  - rewrite IH, pow256_S. lia.
Qed.

Lemma be_val_app a b : be_val (a ++ b) = (be_val a * 256 ^ N.of_nat (length b) + be_val b)%N.
Proof.
  induction a as [|x a IH]; cbn [be_val app]; [lia|].
  rewrite IH, app_length, Nat2N.inj_add, N.pow_add_r. lia.
Qed.

Lemma be_val_bound l : (be_val l < 256 ^ N.of_nat (length l))%N.
Proof.
  induction l as [|b t IH]; [cbn; lia|].
  cbn [be_val length]. rewrite pow256_S. pose proof (b2n_lt b). nia.
Qed.

Lemma be_val_rev l : be_val (rev l) = le_val l.
Proof.
  induction l as [|b t IH]; [reflexivity|].
  cbn [rev le_val]. rewrite be_val_app, IH. cbn [length be_val N.of_nat Pos.of_succ_nat].
  rewrite N.pow_0_r, N.pow_1_r. ring.
Qed.

Lemma le_val_rev l : le_val (rev l) = be_val l.
Proof. rewrite <- be_val_rev, rev_involutive. reflexivity. Qed.

Lemma le_val_le_bytes k n : le_val (le_bytes k n) = (n mod 256 ^ N.of_nat k)%N.
Proof.
  revert n; induction k as [|k IH]; intros n.
  - cbn. now rewrite N.mod_1_r.
  - cbn [le_bytes le_val]. rewrite IH, b2n_n2b, pow256_S.
    rewrite N.mod_mul_r; [reflexivity|discriminate|].
    pose proof (pow256_pos (N.of_nat k)). lia.
Qed.

Lemma le_val_inj a b : length a = length b -> le_val a = le_val b -> a = b.
Proof.
  revert b; induction a as [|x a IH]; intros [|y b] HL HV; cbn [le_val length] in *; try lia; auto.
  pose proof (b2n_lt x). pose proof (b2n_lt y).
  assert (b2n x = b2n y) by lia. assert (le_val a = le_val b) by lia.
  f_equal; [now apply b2n_inj|apply IH; lia].
Qed.

Lemma be_val_inj a b : length a = length b -> be_val a = be_val b -> a = b.
Proof.
  intros HL HV. rewrite <- (rev_involutive a), <- (rev_involutive b). f_equal.
  apply le_val_inj; [now rewrite !rev_length|]. now rewrite !le_val_rev.
Qed.

Lemma le_bytes_le_val l : le_bytes (length l) (le_val l) = l.
Proof.
  apply le_val_inj; [apply le_bytes_length|].
  rewrite le_val_le_bytes, N.mod_small; [reflexivity|apply le_val_bound].
Qed.

Lemma le_bytes_inj k a b :
  (a < 256 ^ N.of_nat k)%N -> (b < 256 ^ N.of_nat k)%N -> le_bytes k a = le_bytes k b -> a = b.
Proof.
  intros Ha Hb H. apply (f_equal le_val) in H. rewrite !le_val_le_bytes in H.
  now rewrite !N.mod_small in H.
Qed.

(** ** List facts used for transcripts *)

Lemma app_inj_length {A} (a a' b b' : list A) :
  length a = length a' -> a ++ b = a' ++ b' -> a = a' /\ b = b'.
Proof.
  revert a'; induction a as [|x a IH]; intros [|x' a'] HL H; cbn in *; try discriminate; auto.
  injection H as -> H. destruct (IH a') as [-> ->]; auto.
Qed.

(** ASCII text as bytes. *)
From Coq Require Strings.String.
Export (notations) Coq.Strings.String.
Definition str (s : String.string) : bytes := Strings.String.list_byte_of_string s.
Arguments str s%string_scope.
