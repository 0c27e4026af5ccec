(** * Known-answer tests.

    [test lhs rhs] evaluates [lhs] and [rhs] with the VM when the file is compiled and fails if they
    differ.  Used as [Check (test lhs rhs).], it leaves nothing in the compiled file: the vectors are
    tests of the executable definitions, not theorems, and are not re-run by coqchk. *)
From Verif Require Import Base.Bytes.

Definition passed : unit := tt.

Ltac kat x y :=
  let a := eval vm_compute in x in
  let b := eval vm_compute in y in
  first [ constr_eq a b | fail 1 "known-answer test failed:" a "<>" b ]; exact passed.

Notation test x y := ltac:(kat x y) (only parsing).
