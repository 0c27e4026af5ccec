(** * SPAKE2: the crate's randomised tests, for every generator (C79). *)
From Coq Require Import ZArith Lia.
From Verif Require Import Base.Bytes Base.Outcome Base.Rng Base.RustTest Hash.Hash.
From Verif.Curve Require Import Scalar25519 Ed25519.
From Verif Require Import Spake2.Spake2Model Spake2.Ed25519Group Spake2.Spake2Spec Spake2.Spake2Generic Spake2.Spake2Proofs
  Spake2.Spake2Proofs2 Spake2.Spake2Debug Spake2.Spake2Props.
Local Open Scope nat_scope.
Local Notation E := Ed25519Group.

(** ** The tests *)
Section Tests.
(** Over any group, to be used with [Ed25519Group]. *)
(** The system generator: each call starts in a state of its own. *)
Context (G : Group) (T : Rng).
Definition start_a := start_a_with_rng G T.
Definition start_b := start_b_with_rng G T.
Definition start_symmetric := start_symmetric_with_rng G T.

(** tests/spake2.rs:3-18 *)
Definition test_basic (r1 r2 : rng_state T) : program unit :=
  let! (s1, msg1) := start_a (str "password") (str "idA") (str "idB") r1 in
  let! (s2, msg2) := start_b (str "password") (str "idA") (str "idB") r2 in
  let! key1 := unwrap_ok (finish G s1 msg2) in
  let! key2 := unwrap_ok (finish G s2 msg1) in
  assert_eq key1 key2.

(** tests/spake2.rs:20-35 *)
Definition test_mismatch (r1 r2 : rng_state T) : program unit :=
  let! (s1, msg1) := start_a (str "password") (str "idA") (str "idB") r1 in
  let! (s2, msg2) := start_b (str "password2") (str "idA") (str "idB") r2 in
  let! key1 := unwrap_ok (finish G s1 msg2) in
  let! key2 := unwrap_ok (finish G s2 msg1) in
  assert_ne key1 key2.

(** tests/spake2.rs:37-46 *)
Definition test_reflected_message (r1 : rng_state T) : program unit :=
  let! (s1, msg1) := start_a (str "password") (str "idA") (str "idB") r1 in
  let! e := unwrap_err (finish G s1 msg1) in
  assert (match e with BadSide => true | _ => false end).

(** tests/spake2.rs:48-60 *)
Definition test_bad_length (r1 : rng_state T) : program unit :=
  let! (s1, msg1) := start_a (str "password") (str "idA") (str "idB") r1 in
  let! e := unwrap_err (finish G s1 (repeat x00 (length msg1 + 1))) in
  assert (match e with WrongLength => true | _ => false end).

(** tests/spake2.rs:62-75 *)
Definition test_basic_symmetric (r1 r2 : rng_state T) : program unit :=
  let! (s1, msg1) := start_symmetric (str "password") (str "idS") r1 in
  let! (s2, msg2) := start_symmetric (str "password") (str "idS") r2 in
  let! key1 := unwrap_ok (finish G s1 msg2) in
  let! key2 := unwrap_ok (finish G s2 msg1) in
  assert_eq key1 key2.

(** src/lib.rs:639-672 *)
Definition test_sizes (r1 r2 r3 r4 : rng_state T) : program unit :=
  let! (s1, msg1) := start_a (str "password") (str "idA") (str "idB") r1 in
  let! _ := assert (Nat.eqb (length msg1) (1 + 32)) in
  let! (s2, msg2) := start_b (str "password") (str "idA") (str "idB") r2 in
  let! _ := assert (Nat.eqb (length msg2) (1 + 32)) in
  let! key1 := unwrap_ok (finish G s1 msg2) in
  let! key2 := unwrap_ok (finish G s2 msg1) in
  let! _ := assert (Nat.eqb (length key1) 32) in
  let! _ := assert (Nat.eqb (length key2) 32) in
  let! (s1, msg1) := start_symmetric (str "password") (str "idS") r3 in
  let! _ := assert (Nat.eqb (length msg1) (1 + 32)) in
  let! (s2, msg2) := start_symmetric (str "password") (str "idS") r4 in
  let! _ := assert (Nat.eqb (length msg2) (1 + 32)) in
  let! key1 := unwrap_ok (finish G s1 msg2) in
  let! key2 := unwrap_ok (finish G s2 msg1) in
  let! _ := assert (Nat.eqb (length key1) 32) in
  assert (Nat.eqb (length key2) 32).

(** src/lib.rs:759-782; printing to the terminal is left out. *)
Definition test_debug (r1 r2 : rng_state T) : program unit :=
  let! (s1, _) := start_a (str "password") (str "idA") (str "idB") r1 in
  let! _ := assert_eq (debug_spake2 G false s1)
    (str "SPAKE2 { group: ""Ed25519"", side: Side::A { idA: (s=idA), idB: (s=idB) } }") in
  let! (s2, _) := start_symmetric (str "password") (str "idS") r2 in
  assert_eq (debug_spake2 G false s2) (str "SPAKE2 { group: ""Ed25519"", side: Side::Symmetric { idS: (s=idS) } }").

(** src/lib.rs:43-55 and 59-71: the documentation's client and server.  The inner function [receive] starts the
    peer. *)
Definition doc_client (r1 r2 : rng_state T) : program bytes :=
  let! (s1, outbound_msg) := start_a (str "password") (str "client id string") (str "server id string") r1 in
  let! (s2, inbound_msg) := start_b (str "password") (str "client id string") (str "server id string") r2 in
  unwrap_ok (finish G s1 inbound_msg).
Definition doc_server (r1 r2 : rng_state T) : program bytes :=
  let! (s1, outbound_msg) := start_b (str "password") (str "client id string") (str "server id string") r1 in
  let! (s2, inbound_msg) := start_a (str "password") (str "client id string") (str "server id string") r2 in
  unwrap_ok (finish G s1 inbound_msg).
(** src/lib.rs:103-114, and again 118-129. *)
Definition doc_symmetric (r1 r2 : rng_state T) : program bytes :=
  let! (s1, outbound_msg) := start_symmetric (str "password") (str "shared id string") r1 in
  let! (s2, inbound_msg) := start_symmetric (str "password") (str "shared id string") r2 in
  unwrap_ok (finish G s1 inbound_msg).
(** benches/spake2.rs:34-48, one iteration; the result of [finish] is not looked at. *)
Definition bench_start_and_finish (r1 r2 : rng_state T) : program (outcome Error bytes) :=
  let! (_, msg2) := start_b (str "password") (str "idA") (str "idB") r2 in
  let! (s1, _) := start_a (str "password") (str "idA") (str "idB") r1 in
  Ok (finish G s1 msg2).

(** What the tests need of the sessions. *)
Definition pair_ok (r1 r2 : outcome Empty_set (Spake2 G * bytes)) : Prop :=
  exists s s' m m' key, r1 = Ok (s, m) /\ r2 = Ok (s', m') /\
    finish G s m' = Ok key /\ finish G s' m = Ok key /\ length m = 33 /\ length m' = 33 /\ length key = 32.

Lemma basic_generic r1 r2 : pair_ok (start_a (str "password") (str "idA") (str "idB") r1)
    (start_b (str "password") (str "idA") (str "idB") r2) -> passes (test_basic r1 r2).
Proof.
  unfold passes, test_basic. intros (s & s' & m & m' & key & H1 & H2 & H3 & H4 & _).
  rewrite H1. cbn [obind]. rewrite H2. cbn [obind]. rewrite H3, H4. apply assert_eq_refl.
Qed.
Lemma symmetric_generic r1 r2 : pair_ok (start_symmetric (str "password") (str "idS") r1)
    (start_symmetric (str "password") (str "idS") r2) -> passes (test_basic_symmetric r1 r2).
Proof.
  unfold passes, test_basic_symmetric. intros (s & s' & m & m' & key & H1 & H2 & H3 & H4 & _).
  rewrite H1. cbn [obind]. rewrite H2. cbn [obind]. rewrite H3, H4. apply assert_eq_refl.
Qed.
Lemma mismatch_generic r1 r2 s s' m m' key key' : start_a (str "password") (str "idA") (str "idB") r1 = Ok (s, m) ->
  start_b (str "password2") (str "idA") (str "idB") r2 = Ok (s', m') ->
  finish G s m' = Ok key -> finish G s' m = Ok key' -> key <> key' -> passes (test_mismatch r1 r2).
Proof.
  unfold passes, test_mismatch. intros H1 H2 H3 H4 N.
  rewrite H1. cbn [obind]. rewrite H2. cbn [obind]. rewrite H3, H4. cbn [obind unwrap_ok]. unfold assert_ne.
  destruct (bytes_eqb key key') eqn:B; [|reflexivity]. apply bytes_eqb_eq in B. now elim N.
Qed.
Lemma reflected_generic r1 s m : start_a (str "password") (str "idA") (str "idB") r1 = Ok (s, m) ->
  finish G s m = Err BadSide -> passes (test_reflected_message r1).
Proof. unfold passes, test_reflected_message. intros H1 H2. rewrite H1. cbn [obind]. now rewrite H2. Qed.
Lemma bad_length_generic r1 s m : start_a (str "password") (str "idA") (str "idB") r1 = Ok (s, m) ->
  finish G s (repeat x00 (length m + 1)) = Err WrongLength -> passes (test_bad_length r1).
Proof. unfold passes, test_bad_length. intros H1 H2. rewrite H1. cbn [obind]. now rewrite H2. Qed.
Lemma sizes_generic r1 r2 r3 r4 :
  pair_ok (start_a (str "password") (str "idA") (str "idB") r1) (start_b (str "password") (str "idA") (str "idB") r2) ->
  pair_ok (start_symmetric (str "password") (str "idS") r3) (start_symmetric (str "password") (str "idS") r4) ->
  passes (test_sizes r1 r2 r3 r4).
Proof.
  unfold passes, test_sizes.
  intros (s & s' & m & m' & key & H1 & H2 & H3 & H4 & L1 & L2 & L3)
    (t & t' & n & n' & key' & K1 & K2 & K3 & K4 & M1 & M2 & M3).
  rewrite H1. cbn [obind]. rewrite L1. change (Nat.eqb 33 (1 + 32)) with true. cbn [assert obind].
  rewrite H2. cbn [obind]. rewrite L2. change (Nat.eqb 33 (1 + 32)) with true. cbn [assert obind].
  rewrite H3, H4. cbn [unwrap_ok obind]. rewrite L3. change (Nat.eqb 32 32) with true. cbn [assert obind].
  rewrite K1. cbn [obind]. rewrite M1. change (Nat.eqb 33 (1 + 32)) with true. cbn [assert obind].
  rewrite K2. cbn [obind]. rewrite M2. change (Nat.eqb 33 (1 + 32)) with true. cbn [assert obind].
  rewrite K3, K4. cbn [unwrap_ok obind]. rewrite M3. reflexivity.
Qed.
Lemma debug_generic r1 r2 s m t n : start_a (str "password") (str "idA") (str "idB") r1 = Ok (s, m) ->
  start_symmetric (str "password") (str "idS") r2 = Ok (t, n) -> debug_name G = str """Ed25519""" ->
  passes (test_debug r1 r2).
Proof.
  unfold passes, test_debug. intros H1 K1 HN. rewrite H1. cbn [obind]. rewrite K1. cbn [obind]. unfold debug_spake2.
  rewrite (start_side _ _ _ _ _ _ H1), (start_side _ _ _ _ _ _ K1), HN. reflexivity.
Qed.
End Tests.

(** ** They pass *)
Section Pass.
Context (T : Rng).
Lemma different_passwords : bytes_eqb (sha256 (str "password")) (sha256 (str "password2")) = false.
Proof. vm_compute. reflexivity. Qed.

Lemma start_session_a pw a b r :
  start_a E T pw a b r = start_internal E (SideA a b) pw (fst (scalar_random T r)).
Proof. reflexivity. Qed.
Lemma start_session_b pw a b r :
  start_b E T pw a b r = start_internal E (SideB a b) pw (fst (scalar_random T r)).
Proof. reflexivity. Qed.
Lemma start_session_s pw i r :
  start_symmetric E T pw i r = start_internal E (SideSymmetric i) pw (fst (scalar_random T r)).
Proof. reflexivity. Qed.

Lemma pair_agrees sd sd' pw x y : (exists a b, sd = SideA a b /\ sd' = SideB a b) \/ (exists i, sd = SideSymmetric i /\ sd' = SideSymmetric i) ->
  pair_ok E (start_internal E sd pw x) (start_internal E sd' pw y).
Proof.
  intros [(a & b & -> & ->)|(i & -> & ->)].
  - destruct (agreement_ab pw a b x y) as (s & s' & m & m' & key & H1 & H2 & H3 & H4 & _).
    rewrite start_a_eq in H1. rewrite start_b_eq in H2.
    exists s, s', m, m', key. pose proof H1 as L1. pose proof H2 as L2. rewrite start_ok in L1, L2.
    split; [exact H1|]. split; [exact H2|]. split; [exact H3|]. split; [exact H4|].
    apply (f_equal (fun r => match r with Ok (_, m) => length m | _ => 0 end)) in L1, L2.
    cbn [length] in L1, L2. rewrite compress_length in L1, L2.
    split; [exact (eq_sym L1)|]. split; [exact (eq_sym L2)|].
    rewrite start_ok in H1. injection H1 as <- _. destruct (finish_inv _ _ _ _ _ H3) as (rest & P & _ & _ & _ & ->).
    apply sha256_length.
  - destruct (agreement_symmetric pw i x y) as (s & s' & m & m' & key & H1 & H2 & H3 & H4 & _).
    rewrite start_symmetric_eq in H1, H2.
    exists s, s', m, m', key. pose proof H1 as L1. pose proof H2 as L2. rewrite start_ok in L1, L2.
    split; [exact H1|]. split; [exact H2|]. split; [exact H3|]. split; [exact H4|].
    apply (f_equal (fun r => match r with Ok (_, m) => length m | _ => 0 end)) in L1, L2.
    cbn [length] in L1, L2. rewrite compress_length in L1, L2.
    split; [exact (eq_sym L1)|]. split; [exact (eq_sym L2)|].
    rewrite start_ok in H1. injection H1 as <- _. destruct (finish_inv _ _ _ _ _ H3) as (rest & P & _ & _ & _ & ->).
    apply sha256_length.
Qed.

Lemma honest_pair pw a b r1 r2 : pair_ok E (start_a E T pw a b r1) (start_b E T pw a b r2).
Proof. apply (pair_agrees (SideA a b) (SideB a b)). left. exists a, b. split; reflexivity. Qed.
Lemma honest_pair_symmetric pw i r1 r2 : pair_ok E (start_symmetric E T pw i r1) (start_symmetric E T pw i r2).
Proof. apply (pair_agrees (SideSymmetric i) (SideSymmetric i)). right. exists i. split; reflexivity. Qed.
Lemma start_a_facts pw a b r s m : start_a E T pw a b r = Ok (s, m) ->
  finish E s m = Err BadSide /\ forall m', length m' <> 33 -> finish E s m' = Err WrongLength.
Proof.
  rewrite start_session_a. intros H. split.
  - apply (C18_wrong_role_refused _ _ _ _ _ _ _ _ _ _ H H). discriminate.
  - intros m'. exact (proj1 (C17_finish_classified _ _ _ _ _ _ H)).
Qed.

(** C79: whatever the generator yields, the tests of the spake2 crate that draw scalars pass; [test_mismatch]
    fails only with a collision of SHA-256. *)
Theorem C79_spake2 :
  forall r1 r2 r3 r4,
  passes (test_basic E T r1 r2) /\ passes (test_basic_symmetric E T r1 r2) /\ passes (test_reflected_message E T r1) /\
  passes (test_bad_length E T r1) /\ passes (test_sizes E T r1 r2 r3 r4) /\ passes (test_debug E T r1 r2).
Proof.
  intros r1 r2 r3 r4.
  pose proof (honest_pair (str "password") (str "idA") (str "idB") r1 r2) as P1.
  pose proof (honest_pair_symmetric (str "password") (str "idS") r1 r2) as P2.
  pose proof (honest_pair_symmetric (str "password") (str "idS") r2 r2) as P3.
  split; [exact (basic_generic E T _ _ P1)|]. split; [exact (symmetric_generic E T _ _ P2)|].
  pose proof P1 as (s & s' & m & m' & key & H1 & _ & _ & _ & Lm & _). destruct (start_a_facts _ _ _ _ _ _ H1) as [F1 F2].
  split; [exact (reflected_generic E T _ _ _ H1 F1)|].
  split; [refine (bad_length_generic E T _ _ _ H1 (F2 _ _)); rewrite repeat_length, Lm; discriminate|].
  split; [exact (sizes_generic E T _ _ _ _ P1 (honest_pair_symmetric (str "password") (str "idS") r3 r4))|].
  destruct P3 as (t & _ & n & _ & _ & K1 & _). exact (debug_generic E T _ _ _ _ _ _ H1 K1 ed_debug_name).
Qed.

Theorem C79_spake2_mismatch :
  forall r1 r2,
  let x := sval (fst (scalar_random T r1)) in let y := sval (fst (scalar_random T r2)) in
  let X := msg_point RoleA (str "password") x in let Y := msg_point RoleB (str "password2") y in
  passes (test_mismatch E T r1 r2) \/
  collision sha256
    (transcript (SideA (str "idA") (str "idB")) (str "password") (compress X) (compress Y) (shared RoleA (str "password") x Y))
    (transcript (SideB (str "idA") (str "idB")) (str "password2") (compress Y) (compress X) (shared RoleB (str "password2") y X)).
Proof.
  intros r1 r2.
  pose proof (start_session_a (str "password") (str "idA") (str "idB") r1) as E1.
  pose proof (start_session_b (str "password2") (str "idA") (str "idB") r2) as E2.
  revert E1 E2. generalize (fst (scalar_random T r1)) (fst (scalar_random T r2)). intros x y E1 E2.
  pose proof (start_ok (SideA (str "idA") (str "idB")) (str "password") x) as H1.
  pose proof (start_ok (SideB (str "idA") (str "idB")) (str "password2") y) as H2.
  pose proof (finish_honest (SideA (str "idA") (str "idB")) (str "password") x (SideB (str "idA") (str "idB")) (str "password2") y
    _ _ _ _ eq_refl H1 H2) as F1.
  pose proof (finish_honest (SideB (str "idA") (str "idB")) (str "password2") y (SideA (str "idA") (str "idB")) (str "password") x
    _ _ _ _ eq_refl H2 H1) as F2.
  rewrite H1 in E1. rewrite H2 in E2.
  pose proof (C20_wrong_password_different_keys (str "password") (str "password2") (str "idA") (str "idB") x y
    _ _ _ _ _ _ (eq_trans (start_a_eq E _ _ _ _) H1) (eq_trans (start_b_eq E _ _ _ _) H2) F1 F2) as C.
  cbv zeta. destruct C as [N|[[_ C]|C]].
  - intros C. apply (f_equal (@length byte)) in C. discriminate C.
  - left. exact (mismatch_generic E T r1 r2 _ _ _ _ _ _ E1 E2 F1 F2 N).
  - exfalso. apply (proj2 (bytes_eqb_eq _ _)) in C. rewrite different_passwords in C. discriminate C.
  - right. destruct C as (mine & theirs & X & Y & Em & Et & DX & DY & C).
    apply (f_equal (@tl byte)) in Em, Et. cbn [tl] in Em, Et. rewrite <- Em in DX, C. rewrite <- Et in DY, C.
    cbn [role_of] in DX, DY, C. rewrite decompress_compress in DX, DY. apply some_inj in DX. apply some_inj in DY.
    rewrite <- DX, <- DY in C. exact C.
Qed.
(** C79: the examples of the documentation run, whatever the generator yields, and as the text below them says
    the two sides get the same key; the benchmark measures a [finish] that succeeds. *)
Theorem C79_spake2_docs :
  forall r1 r2,
  (exists key, doc_client E T r1 r2 = Ok key /\ doc_server E T r2 r1 = Ok key) /\
  (exists key, doc_symmetric E T r1 r2 = Ok key /\ doc_symmetric E T r2 r1 = Ok key) /\
  (exists key, bench_start_and_finish E T r1 r2 = Ok (Ok key) /\ length key = 32).
Proof.
  intros r1 r2.
  pose proof (honest_pair (str "password") (str "client id string") (str "server id string") r1 r2) as P1.
  pose proof (honest_pair_symmetric (str "password") (str "shared id string") r1 r2) as P2.
  pose proof (honest_pair (str "password") (str "idA") (str "idB") r1 r2) as P3.
  unfold doc_client, doc_server, doc_symmetric, bench_start_and_finish. split; [|split].
  - destruct P1 as (s & s' & m & m' & key & H1 & H2 & H3 & H4 & _). exists key.
    rewrite H1, H2. cbn [obind]. rewrite H3, H4. split; reflexivity.
  - destruct P2 as (s & s' & m & m' & key & H1 & H2 & H3 & H4 & _). exists key.
    rewrite H1, H2. cbn [obind]. rewrite H3, H4. split; reflexivity.
  - destruct P3 as (s & s' & m & m' & key & H1 & H2 & H3 & H4 & _ & _ & L). exists key.
    rewrite H1, H2. cbn [obind]. rewrite H3. split; [reflexivity|exact L].
Qed.
End Pass.

(** Cases: the tests with two concrete tapes. *)
Example C79_spake2_case : passes (test_basic E tape_rng (repeat x07 64) (repeat x09 64)).
Proof. exact (proj1 (C79_spake2 tape_rng _ _ (repeat x01 64) (repeat x02 64))). Qed.
