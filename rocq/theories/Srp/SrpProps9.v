(** * SRP: how many passwords one session tests (C95). *)
From Coq Require Import NArith Lia.
From Verif Require Import Base.Bytes Base.Outcome Base.BigUint Base.Hex Base.Kat Hash.Hash.
From Verif Require Import Srp.SrpModel Srp.SrpSpec Srp.SrpProofs Srp.SrpProofs2 Srp.SrpExamples Srp.SrpProps.

(** An attacker with private key [a] runs the client's functions on a candidate password, for one answer
    [salt], [B] of the server. *)
Definition candidate (D : bytes -> bytes) grp a user salt B (p : bytes) : res ClientVerifier :=
  client_process_reply D grp a user p salt B.
(** [verify_client] takes [&self] (server.rs:180), so the attacker hands one session the proofs of all the candidates:
    those for which it returns [Ok]. *)
Definition accepted_candidates (D : bytes -> bytes) grp a user salt B (sv : ServerVerifier) (dict : list bytes) : list bytes :=
  filter (fun p => match candidate D grp a user salt B p with
                   | Ok cv => match verify_client sv (client_proof cv) with Ok _ => true | _ => false end
                   | _ => false
                   end) dict.
(** [proof] may be called before [verify_client] (server.rs:174-177): the candidates that agree with a server proof. *)
Definition fitting_candidates (D : bytes -> bytes) grp a user salt B (proof : bytes) (dict : list bytes) : list bytes :=
  filter (fun p => match candidate D grp a user salt B p with
                   | Ok cv => match verify_server cv proof with Ok _ => true | _ => false end
                   | _ => false
                   end) dict.

(** C95, for SRP: refuted.  One run of the server's [process_reply] - one public key of the attacker, one of the server -
    tests every password of a dictionary: the right one is accepted wherever it stands, and any other that is
    accepted has the same key or is half of a collision of the digest. *)
Theorem C95_srp_one_guess_refuted :
  forall (D : bytes -> bytes) grp user pw salt a b dict,
  usable_group (sg_n grp) (sg_g grp) -> In pw dict ->
  exists v A B,
    compute_verifier D grp user pw salt = Ok v /\ client_public grp a = Ok A /\ server_public D grp b v = Ok B /\
    (be_val A mod sg_n grp <> 0 -> be_val B mod sg_n grp <> 0 ->
     exists sv, server_process_reply D grp b v A = Ok sv /\
       In pw (accepted_candidates D grp a user salt B sv dict) /\
       forall p, In p (accepted_candidates D grp a user salt B sv dict) ->
       exists cv, client_process_reply D grp a user p salt B = Ok cv /\
         (client_key cv = server_key sv \/ collision D (A ++ B ++ client_key cv) (A ++ B ++ server_key sv)))%N.
Proof.
  intros D grp user pw salt a b dict HU Hin.
  destruct (C01_honest_handshake_agrees D grp user pw salt a b HU) as (v & A & B & Hv & HA & HB & H).
  exists v, A, B. split; [exact Hv|]. split; [exact HA|]. split; [exact HB|]. intros NA NB.
  destruct (H NA NB) as (cv & sv & Hc & Hs & _ & _ & Hok & _). exists sv. split; [exact Hs|]. split.
  - unfold accepted_candidates. apply filter_In. split; [exact Hin|]. unfold candidate. rewrite Hc. now rewrite Hok.
  - intros p Hp. unfold accepted_candidates in Hp. apply filter_In in Hp. destruct Hp as [_ Hp].
    unfold candidate in Hp. destruct (client_process_reply D grp a user p salt B) as [cv'|e|] eqn:Hc'; try discriminate Hp.
    exists cv'. split; [reflexivity|].
    destruct (verify_client sv (client_proof cv')) as [[]|e|] eqn:Hv'; try discriminate Hp.
    exact (C06_accepted_client_proof_same_key D grp a user p salt B b v A cv' sv A B Hc' HA Hs HB eq_refl eq_refl Hv').
Qed.
Print Assumptions C95_srp_one_guess_refuted.

(** ... and if the server hands out its proof before it has verified the client's, no further call is needed: the right
    password is among the candidates that agree with it. *)
Theorem C95_srp_early_proof_refuted :
  forall (D : bytes -> bytes) grp user pw salt a b dict,
  usable_group (sg_n grp) (sg_g grp) -> In pw dict ->
  exists v A B,
    compute_verifier D grp user pw salt = Ok v /\ client_public grp a = Ok A /\ server_public D grp b v = Ok B /\
    (be_val A mod sg_n grp <> 0 -> be_val B mod sg_n grp <> 0 ->
     exists sv, server_process_reply D grp b v A = Ok sv /\
       In pw (fitting_candidates D grp a user salt B (server_proof sv) dict))%N.
Proof.
  intros D grp user pw salt a b dict HU Hin.
  destruct (C01_honest_handshake_agrees D grp user pw salt a b HU) as (v & A & B & Hv & HA & HB & H).
  exists v, A, B. split; [exact Hv|]. split; [exact HA|]. split; [exact HB|]. intros NA NB.
  destruct (H NA NB) as (cv & sv & Hc & Hs & _ & _ & _ & Hok). exists sv. split; [exact Hs|].
  unfold fitting_candidates. apply filter_In. split; [exact Hin|]. unfold candidate. rewrite Hc. now rewrite Hok.
Qed.
Print Assumptions C95_srp_early_proof_refuted.

(** What does hold: of different proofs handed to one session at most one is accepted, so each call excludes one value
    of the proof, and no call changes what the others return. *)
Theorem C95_srp_calls :
  forall (D : bytes -> bytes) grp b v A sv proofs,
  server_process_reply D grp b v A = Ok sv -> NoDup proofs ->
  length (filter (fun p => match verify_client sv p with Ok _ => true | _ => false end) proofs) <= 1.
Proof.
  intros D grp b v A sv proofs _ ND. induction ND as [|p proofs Hp ND IH]; [cbn; lia|]. cbn [filter].
  destruct (verify_client sv p) as [[]|e|] eqn:Ev; [|exact IH|exact IH].
  assert (E : filter (fun p => match verify_client sv p with Ok _ => true | _ => false end) proofs = []).
  { clear IH ND. apply verify_client_iff in Ev. induction proofs as [|q proofs IH]; [reflexivity|]. cbn [filter].
    rewrite verify_client_else by (intros ->; apply Hp; left; now symmetry). apply IH.
    intros Hi. apply Hp. now right. }
  rewrite E. cbn. lia.
Qed.
Print Assumptions C95_srp_calls.

(** Case: the 16-bit group with SHA-256, five candidates. *)
Definition five : list bytes := [str "letmein"; str "hunter2"; password123; str ""; str "qwerty"].
Example C95_srp_case :
  usable_group (sg_n grp16) (sg_g grp16) /\ In password123 five /\ NoDup five /\
  (be_val A0 mod sg_n grp16 <> 0 /\ be_val B0 mod sg_n grp16 <> 0)%N.
Proof.
  split; [exact grp16_usable|]. split; [right; right; left; reflexivity|]. split.
  { repeat constructor; cbn [In]; intros H; repeat (destruct H as [H|H]; [discriminate H|]); exact H. }
  split; vm_compute; discriminate.
Qed.
Definition sv0 : ServerVerifier :=
  match server_process_reply sha256 grp16 b0 v0 A0 with Ok sv => sv | _ => {| sv_m1 := []; sv_m2 := []; sv_key := [] |} end.
Check (test (server_process_reply sha256 grp16 b0 v0 A0) (@Ok SrpAuthError ServerVerifier sv0)).
Check (test (accepted_candidates sha256 grp16 a0 alice salt0 B0 sv0 five) [password123]).
Check (test (fitting_candidates sha256 grp16 a0 alice salt0 B0 (server_proof sv0) five) [password123]).
