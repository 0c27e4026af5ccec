(** * Test programs: [unwrap], [assert!] and friends. *)
From Verif Require Import Base.Bytes Base.Outcome.

(** A test function; it passes if it returns [Ok].  A function marked [should_panic] passes if it panics. *)
Definition program := outcome Empty_set.
Definition passes {E} (t : outcome E unit) : Prop := t = Ok tt.
Definition passes_should_panic {E} (t : outcome E unit) : Prop := t = Panic.

(** [Result::unwrap] and [Result::unwrap_err]. *)
Definition unwrap_ok {F E A} (r : outcome E A) : outcome F A := match r with Ok a => Ok a | _ => Panic end.
Definition unwrap_err {F E A} (r : outcome E A) : outcome F E := match r with Err e => Ok e | _ => Panic end.

(** [assert!], [assert_eq!] and [assert_ne!] on byte vectors. *)
Definition assert {F} (b : bool) : outcome F unit := if b then Ok tt else Panic.
Definition assert_eq {F} (a b : bytes) : outcome F unit := assert (bytes_eqb a b).
Definition assert_ne {F} (a b : bytes) : outcome F unit := assert (negb (bytes_eqb a b)).
Lemma assert_eq_refl {F} a : @assert_eq F a a = Ok tt.
Proof. unfold assert_eq. now rewrite (proj2 (bytes_eqb_eq a a) eq_refl). Qed.
