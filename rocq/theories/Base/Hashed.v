(** * Results together with how much was hashed on the way.

    The number of bytes given to each digest is what somebody sees who measures the time of a digest. *)
From Coq Require Import List.
From Verif Require Import Base.Bytes Base.Outcome.
Import ListNotations.

Definition hashed (E A : Type) : Type := outcome E A * list nat.
Definition silent {E A} (m : outcome E A) : hashed E A := (m, []).
Definition hbind {E A B} (m : hashed E A) (k : A -> hashed E B) : hashed E B :=
  match m with
  | (Ok a, t) => let '(r, u) := k a in (r, t ++ u)
  | (Err e, t) => (Err e, t)
  | (Panic, t) => (Panic, t)
  end.
Notation "'let?' x := m 'in' k" := (hbind m (fun x => k)) (at level 200, x name, right associativity).
(** One digest. *)
Definition digesting {E} (D : bytes -> bytes) (m : bytes) : hashed E bytes := (Ok (D m), [length m]).

Lemma hbind_fst {E A B} (m : hashed E A) (k : A -> hashed E B) :
  fst (hbind m k) = obind (fst m) (fun a => fst (k a)).
Proof. destruct m as [[a|e|] t]; cbn; [|reflexivity|reflexivity]. now destruct (k a). Qed.
Lemma hbind_silent {E A B} (a : A) (k : A -> hashed E B) : hbind (silent (Ok a)) k = k a.
Proof. cbn. now destruct (k a). Qed.
Lemma hbind_said {E A B} (a : A) t (k : A -> hashed E B) : snd (hbind (Ok a, t) k) = t ++ snd (k a).
Proof. cbn. now destruct (k a). Qed.
Lemma hbind_said_fst {E A B} (a : A) t (k : A -> hashed E B) : fst (hbind (Ok a, t) k) = fst (k a).
Proof. cbn. now destruct (k a). Qed.
