(** * Any number of SPAKE2 sessions of one application

    The application starts sessions with the functions of lib.rs:341-370 on one generator, and hands messages to
    them in any order.  [finish] takes the session by value (lib.rs:373 [pub fn finish(self, msg2: &[u8])]), and
    [Spake2] is neither [Clone] nor [Copy] (lib.rs:300-309): after the call the session is gone, whatever the
    call returned. *)
From Verif Require Import Base.Bytes Base.Outcome Base.Rng.
From Verif Require Import Spake2.Spake2Model.
Local Open Scope nat_scope.

Inductive event :=
| EStart (sd : Side) (pw : bytes)
| EFinish (i : nat) (msg : bytes).

Section World.
Context (G : Group) (T : Rng).

(** The generator, the sessions ([None]: gone) in the order of their start, the message each of them sent, and
    what the calls of [finish] returned. *)
Record world := {
  gen : rng_state T;
  live : list (option (Spake2 G));
  sent : list bytes;
  returned : list (nat * res bytes)
}.

(** lib.rs:341-370 *)
Definition start (sd : Side) (pw : bytes) (st : rng_state T) : outcome Empty_set (Spake2 G * bytes) :=
  match sd with
  | SideA a b => start_a_with_rng G T pw a b st
  | SideB a b => start_b_with_rng G T pw a b st
  | SideSymmetric i => start_symmetric_with_rng G T pw i st
  end.

Fixpoint set_none {A} (l : list (option A)) (i : nat) : list (option A) :=
  match l, i with
  | [], _ => []
  | _ :: l', 0 => None :: l'
  | x :: l', S i' => x :: set_none l' i'
  end.

Definition step (w : world) (e : event) : world :=
  match e with
  | EStart sd pw =>
      let st' := snd (random_scalar G T (gen w)) in
      match start sd pw (gen w) with
      | Ok (s, m) => {| gen := st'; live := live w ++ [Some s]; sent := sent w ++ [m]; returned := returned w |}
      | _ => {| gen := st'; live := live w ++ [None]; sent := sent w ++ [[]]; returned := returned w |}
      end
  | EFinish i msg =>
      match nth_error (live w) i with
      | Some (Some s) =>
          {| gen := gen w; live := set_none (live w) i; sent := sent w; returned := returned w ++ [(i, finish G s msg)] |}
      | _ => w
      end
  end.

Definition run (w : world) (es : list event) : world := fold_left step es w.
Definition begin (st : rng_state T) : world := {| gen := st; live := []; sent := []; returned := [] |}.

(** What the calls on session [i] returned. *)
Definition results (i : nat) (w : world) : list (res bytes) :=
  map snd (filter (fun e => Nat.eqb (fst e) i) (returned w)).
End World.
Arguments gen {G T}. Arguments live {G T}. Arguments sent {G T}. Arguments returned {G T}.
