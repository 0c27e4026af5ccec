(** * C74: how much the messages of SPAKE2 tell about the password.

    The parties draw their scalars from 64 uniform bytes each.  A test of what an eavesdropper sees passes
    for nearly as many of these strings with one password as with any other: the advantage of the best
    distinguisher, however long it computes, is below 2^-259 for one message and 2^-258 for both. *)
From Coq Require Import ZArith Lia Bool.
From Verif Require Import Base.Bytes Base.Outcome Base.Rng Base.Count.
From Verif.Curve Require Import Primes Zmod Abelian Scalar25519 NearUniform Ed25519 Ed25519Points Ed25519Subgroup.
From Verif Require Import Spake2.Spake2Model Spake2.Ed25519Group Spake2.Spake2Spec Spake2.Spake2Proofs
  Spake2.Spake2Proofs2.
Local Open Scope Z_scope.
Local Notation E := Ed25519Group.

(** What the party with identity [sd] and password [pw] sends when its generator yields [tape]; the
    empty string would stand for a panic. *)
Definition sent (sd : Side) (pw tape : bytes) : bytes :=
  match (match sd with
         | SideA a b => start_a_with_rng E tape_rng pw a b tape
         | SideB a b => start_b_with_rng E tape_rng pw a b tape
         | SideSymmetric i => start_symmetric_with_rng E tape_rng pw i tape
         end) with
  | Ok (_, msg) => msg
  | _ => []
  end.

(** The message for the scalar [s]. *)
Definition msg_of (r : role) (pw : bytes) (s : scalar) : bytes := tag r :: compress (msg_point r pw (sval s)).
Lemma sent_eq sd pw tape : sent sd pw tape = msg_of (role_of sd) pw (fst (scalar_random tape_rng tape)).
Proof.
  unfold sent, msg_of. destruct sd as [a b|a b|i];
  unfold start_a_with_rng, start_b_with_rng, start_symmetric_with_rng, start_a_internal, start_b_internal,
    start_symmetric_internal; rewrite start_ok; reflexivity.
Qed.

(** Changing the password is adding a constant to the scalar. *)
Lemma change_password r pw pw' :
  exists c : Z, forall s, msg_of r pw s = msg_of r pw' (sof (sval s + c)).
Proof.
  destruct (blind_multiple r) as (k & _ & Hk). exists ((pw_int pw - pw_int pw') * k). intros s.
  unfold msg_of. f_equal. f_equal. unfold msg_point. rewrite Hk, sval_sof.
  generalize (pw_int pw) (pw_int pw') (sval s). intros w w' x.
  rewrite emul_mod by exact ell_B. rewrite <- !emul_mul_scalar, <- !emul_add_scalar. f_equal. ring.
Qed.
Lemma shift_injective c : injective (fun s => sof (sval s + c)).
Proof.
  intros a b H. apply (f_equal sval) in H. rewrite !sval_sof in H. apply sval_inj.
  rewrite <- (Z.mod_small (sval a) ell), <- (Z.mod_small (sval b) ell) by apply sval_range.
  replace (sval a) with (sval a + c - c) by ring. replace (sval b) with (sval b + c - c) by ring.
  rewrite <- Zminus_mod_idemp_l, H, Zminus_mod_idemp_l. reflexivity.
Qed.

Lemma sent_le sd sd' pw pw' (test : bytes -> bool) :
  role_of sd' = role_of sd ->
  count 64 (fun t => test (sent sd pw t)) <= count 64 (fun t => test (sent sd' pw' t)) + remainder.
Proof.
  intros Hr. destruct (change_password (role_of sd) pw pw') as [c Hc].
  pose proof (one_scalar_le _ (fun s => test (msg_of (role_of sd) pw s)) (fun s => test (msg_of (role_of sd) pw' s))
    (shift_injective c)) as H.
  rewrite (count_ext 64 _ (fun b => test (msg_of (role_of sd) pw (fst (scalar_random tape_rng b)))))
    by (intros b _; now rewrite sent_eq).
  rewrite (count_ext 64 (fun t => test (sent sd' pw' t)) (fun b => test (msg_of (role_of sd) pw' (fst (scalar_random tape_rng b)))))
    by (intros b _; now rewrite sent_eq, Hr).
  apply H. intros s. cbv beta. rewrite (Hc s). intros T. exact T.
Qed.

(** One message: any two passwords, and any two identities of the same role. *)
Theorem C74_message :
  forall (test : bytes -> bool) sd sd' pw pw', role_of sd' = role_of sd ->
  2 ^ 259 * Z.abs (count 64 (fun tape => test (sent sd pw tape)) - count 64 (fun tape => test (sent sd' pw' tape)))
  < 256 ^ 64.
Proof.
  intros test sd sd' pw pw' Hr.
  pose proof (sent_le sd sd' pw pw' test Hr) as H1. pose proof (sent_le sd' sd pw' pw test (eq_sym Hr)) as H2.
  revert H1 H2. generalize (count 64 (fun t => test (sent sd pw t))) (count 64 (fun t => test (sent sd' pw' t))).
  intros a b H1 H2. destruct remainder_small as [H3 _]. revert H1 H2 H3. generalize remainder (256 ^ 64) (2 ^ 259) (Z.pow_pos_nonneg 2 259).
  intros r M q Hq H1 H2 H3. apply (Z.le_lt_trans _ (q * r)); [|exact H3].
  apply Z.mul_le_mono_nonneg_l; [|lia]. specialize (Hq ltac:(lia) ltac:(lia)). lia.
Qed.

(** Both messages of a session, the two parties using one password: the eavesdropper's whole view. *)
Definition view_test (test : bytes -> bytes -> bool) (sd sd2 : Side) (pw : bytes) (tapes : bytes) : bool :=
  test (sent sd pw (firstn 64 tapes)) (sent sd2 pw (skipn 64 tapes)).

Lemma view_le test sd sd' sd2 sd2' pw pw' :
  role_of sd' = role_of sd -> role_of sd2' = role_of sd2 ->
  count 128 (view_test test sd sd2 pw) <= count 128 (view_test test sd' sd2' pw') + 2 * 256 ^ 64 * remainder.
Proof.
  intros Hr Hr2. destruct (change_password (role_of sd) pw pw') as [c Hc].
  destruct (change_password (role_of sd2) pw pw') as [c2 Hc2].
  rewrite (count_ext 128 _ (pair_test (fun s t => test (msg_of (role_of sd) pw s) (msg_of (role_of sd2) pw t))))
    by (intros b _; unfold view_test, pair_test; now rewrite !sent_eq).
  rewrite (count_ext 128 (view_test test sd' sd2' pw')
    (pair_test (fun s t => test (msg_of (role_of sd) pw' s) (msg_of (role_of sd2) pw' t))))
    by (intros b _; unfold view_test, pair_test; now rewrite !sent_eq, Hr, Hr2).
  apply (two_scalars_le _ _ _ (fun s t => test (msg_of (role_of sd) pw s) (msg_of (role_of sd2) pw' t)) _
    (shift_injective c) (shift_injective c2)).
  - intros s t. cbv beta. rewrite (Hc2 t). intros T. exact T.
  - intros s t. cbv beta. rewrite (Hc s). intros T. exact T.
Qed.

Lemma abs_bound q r M a b : 0 < q -> a <= b + 2 * M * r -> b <= a + 2 * M * r -> 2 * q * r < M -> 0 < M ->
  q * Z.abs (a - b) < M * M.
Proof.
  intros Hq H1 H2 H3 HM. apply (Z.le_lt_trans _ (q * (2 * M * r))).
  - apply Z.mul_le_mono_nonneg_l; lia.
  - replace (q * (2 * M * r)) with (M * (2 * q * r)) by ring. apply Z.mul_lt_mono_pos_l; assumption.
Qed.
Theorem C74_eavesdropper :
  forall (test : bytes -> bytes -> bool) sd sd' sd2 sd2' pw pw',
  role_of sd' = role_of sd -> role_of sd2' = role_of sd2 ->
  2 ^ 258 * Z.abs (count 128 (view_test test sd sd2 pw) - count 128 (view_test test sd' sd2' pw')) < 256 ^ 128.
Proof.
  intros test sd sd' sd2 sd2' pw pw' Hr Hr2.
  pose proof (view_le test sd sd' sd2 sd2' pw pw' Hr Hr2) as H1.
  pose proof (view_le test sd' sd sd2' sd2 pw' pw (eq_sym Hr) (eq_sym Hr2)) as H2.
  change (256 ^ 128) with (256 ^ 64 * 256 ^ 64). apply (abs_bound _ remainder (256 ^ 64)); try assumption.
  - reflexivity.
  - change (2 * 2 ^ 258) with (2 ^ 259). exact (proj1 remainder_small).
  - reflexivity.
Qed.

(** The counts are of all strings: the certain test passes for 256^64 tapes.  The roles must be the same:
    one look at the first byte tells a message of A from one of B. *)
Theorem C74_role_visible :
  forall a b a' b' pw pw', exists test : bytes -> bool,
  count 64 (fun tape => test (sent (SideA a b) pw tape)) = 256 ^ 64 /\
  count 64 (fun tape => test (sent (SideB a' b') pw' tape)) = 0.
Proof.
  intros a b a' b' pw pw'. exists (fun m => match m with x :: _ => byte_eqb x (tag RoleA) | [] => false end).
  split.
  - rewrite (count_ext 64 _ (fun _ => true)); [exact (count_all 64)|].
    intros t _. rewrite sent_eq. unfold msg_of. apply byte_eqb_refl.
  - rewrite (count_list 64 _ []); [reflexivity|constructor|].
    intros t. split; [intros []|]. intros [_ H]. rewrite sent_eq in H. unfold msg_of in H.
    cbn [role_of] in H. revert H. generalize (compress (msg_point RoleB pw' (sval (fst (scalar_random tape_rng t))))).
    intros m H. discriminate H.
Qed.

(** A case: the passwords "letmein" and "hunter2", with the test "bit 0 of the message's second byte". *)
Example C74_case :
  let test m := match m with _ :: x :: _ => N.odd (b2n x) | _ => false end in
  2 ^ 259 * Z.abs (count 64 (fun t => test (sent (SideA (str "alice") (str "bob")) (str "letmein") t))
                   - count 64 (fun t => test (sent (SideA (str "carol") (str "bob")) (str "hunter2") t))) < 256 ^ 64.
Proof. intros test. apply C74_message. reflexivity. Qed.
