(** * SRP: checking a proof shows nothing but the verdict (C96). *)
From Coq Require Import NArith Lia List Bool PeanoNat.
From Verif Require Import Base.Bytes Base.Outcome Base.CtEq Base.Hex Base.Kat Base.Leak Hash.Hash.
From Verif Require Import Srp.SrpModel Srp.SrpProofs Srp.SrpExamples Srp.SrpProps9.
Import ListNotations.
Local Open Scope nat_scope.

(** server.rs:180-187 [verify_client] with what it shows: the steps of [ct_eq], then the branch on its result *)
Definition verify_client_l (sv : ServerVerifier) (reply : bytes) : res unit * list obs :=
  let '(eq, t) := ct_eq_l (sv_m1 sv) reply in
  let taken := (eq =? 1)%N in
  (if taken then Ok tt else Err (BadRecordMac (str "client")), t ++ [OBranch taken]).
(** client.rs:242-249 [verify_server] *)
Definition verify_server_l (cv : ClientVerifier) (reply : bytes) : res unit * list obs :=
  let '(eq, t) := ct_eq_l (cv_m2 cv) reply in
  let taken := (eq =? 1)%N in
  (if taken then Ok tt else Err (BadRecordMac (str "server")), t ++ [OBranch taken]).

(** C96: the functions with what they show return what the functions of the model return. *)
Theorem C96_srp_results :
  (forall sv reply, fst (verify_client_l sv reply) = verify_client sv reply) /\
  (forall cv reply, fst (verify_server_l cv reply) = verify_server cv reply).
Proof.
  split; intros v reply; [unfold verify_client_l, verify_client|unfold verify_server_l, verify_server];
    rewrite <- ct_eq_value; now destruct (ct_eq_l _ _).
Qed.

(** C96: what a check shows, its result included, depends only on the two lengths and on whether the proof is right:
    not on the expected proof, nor on where a wrong one first differs from it. *)
Theorem C96_srp_server :
  forall sv sv' reply reply',
  length (sv_m1 sv) = length (sv_m1 sv') -> length reply = length reply' ->
  (sv_m1 sv = reply <-> sv_m1 sv' = reply') -> verify_client_l sv reply = verify_client_l sv' reply'.
Proof. intros sv sv' r r' L1 L2 HE. unfold verify_client_l. now rewrite (ct_eq_l_eq _ _ _ _ L1 L2 HE). Qed.
Theorem C96_srp_client :
  forall cv cv' reply reply',
  length (cv_m2 cv) = length (cv_m2 cv') -> length reply = length reply' ->
  (cv_m2 cv = reply <-> cv_m2 cv' = reply') -> verify_server_l cv reply = verify_server_l cv' reply'.
Proof. intros cv cv' r r' L1 L2 HE. unfold verify_server_l. now rewrite (ct_eq_l_eq _ _ _ _ L1 L2 HE). Qed.

(** C96: an attacker who asks a server's session ([verify_client] takes [&self]: any number of times) and watches its
    branches and addresses sees the same for every expected proof it has not asked: n questions exclude at most n
    proofs, as if it saw the verdicts only.  The same for a client's session. *)
Theorem C96_srp_server_attack :
  forall strategy n sv sv',
  length (sv_m1 sv) = length (sv_m1 sv') ->
  ~ In (sv_m1 sv) (questions strategy (verify_client_l sv) n []) ->
  ~ In (sv_m1 sv') (questions strategy (verify_client_l sv) n []) ->
  transcript strategy (verify_client_l sv) n [] = transcript strategy (verify_client_l sv') n [].
Proof.
  intros st n sv sv' L. apply transcript_same. intros q N1 N2. apply C96_srp_server; auto.
  split; intros E; exfalso; [apply N1|apply N2]; now rewrite E.
Qed.
Theorem C96_srp_client_attack :
  forall strategy n cv cv',
  length (cv_m2 cv) = length (cv_m2 cv') ->
  ~ In (cv_m2 cv) (questions strategy (verify_server_l cv) n []) ->
  ~ In (cv_m2 cv') (questions strategy (verify_server_l cv) n []) ->
  transcript strategy (verify_server_l cv) n [] = transcript strategy (verify_server_l cv') n [].
Proof.
  intros st n cv cv' L. apply transcript_same. intros q N1 N2. apply C96_srp_client; auto.
  split; intros E; exfalso; [apply N1|apply N2]; now rewrite E.
Qed.

(** Case: sessions whose expected proofs differ, and an observer that asks three bytes, then extends or shortens its
    question by what it saw. *)
Definition sv1 : ServerVerifier := {| sv_m1 := hex "010203"; sv_m2 := []; sv_key := [] |}.
Definition sv2 : ServerVerifier := {| sv_m1 := hex "010204"; sv_m2 := []; sv_key := [] |}.
Definition observer (seen : list (res unit * list obs)) : bytes :=
  match seen with
  | [] => hex "010200"
  | (_, t) :: _ => if Nat.ltb 6 (reads t) then hex "0102" else hex "010300"
  end.
Example C96_srp_case :
  length (sv_m1 sv1) = length (sv_m1 sv2) /\ sv_m1 sv1 <> sv_m1 sv2 /\
  ~ In (sv_m1 sv1) (questions observer (verify_client_l sv1) 3 []) /\
  ~ In (sv_m1 sv2) (questions observer (verify_client_l sv1) 3 []).
Proof.
  split; [reflexivity|]. split; [discriminate|].
  split; cbn; intros H; repeat (destruct H as [H|H]; [discriminate H|]); exact H.
Qed.
Check (test (fst (verify_client_l sv0 (sv_m1 sv0))) (@Ok SrpAuthError unit tt)).
Check (test (length (snd (verify_client_l sv0 (sv_m1 sv0)))) (1 + 3 * 32 + 1 + 1)).
Check (test (snd (verify_client_l sv1 (hex "010200"))) (snd (verify_client_l sv2 (hex "ff0000")))).
