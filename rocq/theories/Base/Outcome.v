(** * Outcome of a Rust function: a value, an [Err], or a panic. *)
Inductive outcome (E A : Type) : Type :=
| Ok (a : A)
| Err (e : E)
| Panic.
Arguments Ok {E A} a.
Arguments Err {E A} e.
Arguments Panic {E A}.

Definition obind {E A B} (m : outcome E A) (f : A -> outcome E B) : outcome E B :=
  match m with Ok a => f a | Err e => Err e | Panic => Panic end.

Definition omap {E A B} (f : A -> B) (m : outcome E A) : outcome E B :=
  obind m (fun a => Ok (f a)).

(** [Result::map_err]. *)
Definition omap_err {E E' A} (f : E -> E') (m : outcome E A) : outcome E' A :=
  match m with Ok a => Ok a | Err e => Err (f e) | Panic => Panic end.

Notation "'let!' x ':=' m 'in' k" := (obind m (fun x => k))
  (at level 200, x pattern, m at level 100, k at level 200, right associativity).

(** A computation that can panic but has no [Err] is an [outcome] at any error type;
    [Empty_set] is used where the Rust function returns no [Result]. *)
Definition lift {E A} (m : outcome Empty_set A) : outcome E A :=
  match m with Ok a => Ok a | Err e => match e with end | Panic => Panic end.

Lemma obind_ok {E A B} (m : outcome E A) (f : A -> outcome E B) r :
  obind m f = Ok r <-> exists a, m = Ok a /\ f a = Ok r.
Proof.
  destruct m; cbn; split; intros H; try discriminate;
    try (destruct H as (? & ? & ?); try discriminate).
  - eauto.
  - now injection H as ->.
Qed.
