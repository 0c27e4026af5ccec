(** * Random number generators ([rand_core::RngCore]).

    A generator is a state with a [fill_bytes] step; nothing is assumed about the bytes except
    their number, so every theorem holds for every random tape. *)
From Verif Require Import Base.Bytes.

Record Rng := {
  rng_state : Type;
  (** [RngCore::fill_bytes] on a buffer of the given length *)
  rng_fill : nat -> rng_state -> bytes * rng_state;
  rng_fill_length : forall n s, length (fst (rng_fill n s)) = n;
  (** [RngCore::next_u64] *)
  rng_next_u64 : rng_state -> N * rng_state;
  rng_next_u64_bound : forall s, (fst (rng_next_u64 s) < 2 ^ 64)%N
}.

(** A generator that replays a finite tape and then yields zeros. *)
Definition tape_fill (n : nat) (t : bytes) : bytes * bytes :=
  (firstn n t ++ repeat x00 (n - length t), skipn n t).
Lemma tape_fill_length n t : length (fst (tape_fill n t)) = n.
Proof.
  unfold tape_fill. cbn [fst]. rewrite app_length, firstn_length, repeat_length. lia.
Qed.
Definition tape_next_u64 (t : bytes) : N * bytes :=
  let '(b, t') := tape_fill 8 t in (le_val b, t').
Lemma tape_next_u64_bound t : (fst (tape_next_u64 t) < 2 ^ 64)%N.
Proof.
  unfold tape_next_u64. destruct (tape_fill 8 t) as [b t'] eqn:E. cbn [fst].
  pose proof (tape_fill_length 8 t) as HL. rewrite E in HL. cbn [fst] in HL.
  pose proof (le_val_bound b) as HB. rewrite HL in HB. exact HB.
Qed.
Definition tape_rng : Rng :=
  {| rng_state := bytes; rng_fill := tape_fill; rng_fill_length := tape_fill_length;
     rng_next_u64 := tape_next_u64; rng_next_u64_bound := tape_next_u64_bound |}.
