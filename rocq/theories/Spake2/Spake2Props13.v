(** * SPAKE2: comparing passwords shows where they differ (C96). *)
From Coq Require Import NArith Lia List Bool PeanoNat.
From Verif Require Import Base.Bytes Base.CtEq Base.Hex Base.Kat Base.Leak.
Import ListNotations.
Local Open Scope nat_scope.

(** lib.rs:253-254: [#[derive(PartialEq, Eq, Clone)] pub struct Password(Vec<u8>)]; the derived [==] is that of the
    vectors, which stops at the first difference.  (The standard library compares with [memcmp], which may read
    several bytes at a time; here one by one.) *)
Definition password_eq_l (p q : bytes) : N * list obs := eq_l p q.

(** C96, for [Password]: refuted.  What its [==] shows depends on the contents, and an observer of the comparisons of a
    password with others finds it, with at most 256 comparisons for each byte. *)
Theorem C96_password_refuted :
  (exists p q q', length q = length q' /\ p <> q /\ p <> q' /\ fst (password_eq_l p q) = fst (password_eq_l p q') /\
                  snd (password_eq_l p q) <> snd (password_eq_l p q')) /\
  (exists observer : (bytes -> N * list obs) -> nat -> bytes * nat,
   forall password, let '(found, comparisons) := observer (password_eq_l password) (length password) in
     found = password /\ comparisons <= 256 * length password).
Proof.
  split.
  - exists (hex "6162"), (hex "6163"), (hex "6263"). repeat split; discriminate.
  - exists (fun shown n => recover shown n []). intros password. unfold password_eq_l.
    pose proof (recover_eq password []) as H. cbn [app] in H.
    pose proof (recover_count (eq_l password) (length password) []) as HC.
    destruct (recover _ _ _). cbn [fst snd] in *. tauto.
Qed.

(** Case: the password "pass". *)
Check (test (recover (password_eq_l (str "pass")) 4 []) (str "pass", 113 + 98 + 116 + 116)).
