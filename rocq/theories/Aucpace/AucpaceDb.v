(** * Databases: the laws an application's database must satisfy, and a lawful instance.

    The traits of aucpace/src/database.rs carry no laws; these are the ones their documentation asks
    for (database.rs:14-47, 58-94, 104-142). *)
From Coq Require Import ZArith.
From Verif Require Import Base.Bytes Base.Outcome.
From Verif Require Import Curve.Scalar25519 Aucpace.RistrettoGroup Aucpace.AucpaceModel.
Local Open Scope nat_scope.

(** A stored verifier is what a later lookup of that user returns; other users are unaffected. *)
Record db_lawful {R : RGroup} (DB : Database R) : Prop := {
  dl_same : forall d u salt uad W ps,
    lookup_verifier DB (store_verifier DB d u salt uad W ps) u = Some (W, salt, ps);
  dl_other : forall d u salt uad W ps u', u' <> u ->
    lookup_verifier DB (store_verifier DB d u salt uad W ps) u' = lookup_verifier DB d u'
}.
Record sdb_lawful {R : RGroup} (DB : StrongDatabase R) : Prop := {
  sdl_same : forall d u uad W q ps,
    lookup_verifier_strong DB (store_verifier_strong DB d u uad W q ps) u = Some (W, q, ps);
  sdl_other : forall d u uad W q ps u', u' <> u ->
    lookup_verifier_strong DB (store_verifier_strong DB d u uad W q ps) u' = lookup_verifier_strong DB d u'
}.
(** A key pair that was stored successfully is what a later lookup returns; other users' pairs and the
    verifiers are unaffected. *)
Record pdb_lawful {R : RGroup} {db V} (PDB : PartialAugDatabase R db) (lookup : db -> bytes -> option V) : Prop := {
  pdl_same : forall d u x X d', store_long_term_keypair PDB d u x X = Ok d' ->
    lookup_long_term_keypair PDB d' u = Some (x, X);
  pdl_other : forall d u x X d' u', u' <> u -> store_long_term_keypair PDB d u x X = Ok d' ->
    lookup_long_term_keypair PDB d' u' = lookup_long_term_keypair PDB d u';
  pdl_verifier : forall d u x X d' u', store_long_term_keypair PDB d u x X = Ok d' ->
    lookup d' u' = lookup d u'
}.

(** ** Association lists *)
Fixpoint assoc {A} (l : list (bytes * A)) (u : bytes) : option A :=
  match l with
  | [] => None
  | (u', a) :: l' => if bytes_eqb u' u then Some a else assoc l' u
  end.

Record adb (V K : Type) := { a_verifiers : list (bytes * V); a_keys : list (bytes * K) }.
Arguments a_verifiers {V K}. Arguments a_keys {V K}.

Section Assoc.
Context (R : RGroup).

Definition add_verifier {V K} (d : adb V K) (u : bytes) (v : V) : adb V K :=
  {| a_verifiers := (u, v) :: a_verifiers d; a_keys := a_keys d |}.

Definition AssocDb : Database R := {|
  db := adb (pt R * bytes * bytes) (scalar * pt R);
  lookup_verifier := fun d u => assoc (a_verifiers d) u;
  store_verifier := fun d u salt _ W ps => add_verifier d u (W, salt, ps)
|}.
Definition AssocStrongDb : StrongDatabase R := {|
  sdb := adb (pt R * scalar * bytes) (scalar * pt R);
  lookup_verifier_strong := fun d u => assoc (a_verifiers d) u;
  store_verifier_strong := fun d u _ W q ps => add_verifier d u (W, q, ps)
|}.
(** Like the example servers: only a registered user can have a key pair. *)
Definition AssocPartial {V} : PartialAugDatabase R (adb V (scalar * pt R)) := {|
  lookup_long_term_keypair := fun d u => assoc (a_keys d) u;
  store_long_term_keypair := fun d u x X =>
    match assoc (a_verifiers d) u with
    | Some _ => Ok {| a_verifiers := a_verifiers d; a_keys := (u, (x, X)) :: a_keys d |}
    | None => Err UserNotRegistered
    end
|}.

Lemma assoc_same {A} l u (a : A) : assoc ((u, a) :: l) u = Some a.
Proof. cbn. now rewrite (proj2 (bytes_eqb_eq u u) eq_refl). Qed.
Lemma assoc_other {A} l u (a : A) u' : u' <> u -> assoc ((u, a) :: l) u' = assoc l u'.
Proof.
  intros H. cbn. destruct (bytes_eqb u u') eqn:E; [|reflexivity].
  apply bytes_eqb_eq in E. congruence.
Qed.

Lemma assoc_db_lawful : db_lawful AssocDb.
Proof.
  split; intros; cbn [AssocDb lookup_verifier store_verifier add_verifier a_verifiers].
  - apply assoc_same.
  - now apply assoc_other.
Qed.
Lemma assoc_strong_db_lawful : sdb_lawful AssocStrongDb.
Proof.
  split; intros; cbn [AssocStrongDb lookup_verifier_strong store_verifier_strong add_verifier a_verifiers].
  - apply assoc_same.
  - now apply assoc_other.
Qed.
Lemma assoc_partial_lawful {V} :
  pdb_lawful (@AssocPartial V) (fun d u => assoc (a_verifiers d) u).
Proof.
  split; intros d u x X d'; cbn [AssocPartial store_long_term_keypair lookup_long_term_keypair].
  - intros E. destruct (assoc (a_verifiers d) u); [|discriminate]. injection E as <-. apply assoc_same.
  - intros u' Hu E. destruct (assoc (a_verifiers d) u); [|discriminate]. injection E as <-.
    now apply assoc_other.
  - intros u' E. destruct (assoc (a_verifiers d) u); [|discriminate]. now injection E as <-.
Qed.
End Assoc.
