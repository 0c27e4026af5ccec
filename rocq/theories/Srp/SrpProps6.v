(** * SRP: how far the deviation from RFC 5054 in [u] reaches (C09). *)
From Coq Require Import ZArith Lia.
From Verif Require Import Base.Bytes Base.Outcome Base.BigUint Base.Hex Hash.Hash.
From Verif Require Import Srp.SrpModel Srp.SrpGroups Srp.SrpSpec Srp.SrpRfcGroups Srp.SrpProofs Srp.SrpProofs2 Srp.SrpExamples
  Srp.SrpProps.
Local Open Scope N_scope.

Lemma pad_length k l : (length l <= k)%nat -> length (pad k l) = k.
Proof. intros H. unfold pad. rewrite app_length, repeat_length. lia. Qed.

Lemma pad_full k l : length l = k -> pad k l = l.
Proof. intros <-. unfold pad. now rewrite Nat.sub_diag. Qed.

(** ** C09: exactly when the crate's [u] is the RFC's. *)
Theorem C09_u_exact :
  forall (D : bytes -> bytes) h ln lA lB,
  (forall m, length (D m) = h) ->
  (length lA <= length ln)%nat -> (length lB <= length ln)%nat ->
  (compute_u D lA lB = rfc_u D ln lA lB <->
   (length lA = length ln /\ length lB = length ln) \/
   collision D (lA ++ lB) (pad (length ln) lA ++ pad (length ln) lB)).
Proof.
  intros D h ln lA lB Dh HA HB. split.
  - intros E. unfold compute_u, rfc_u in E. rewrite from_bytes_be_spec in E.
    apply be_val_inj in E; [|now rewrite !Dh].
    destruct (list_eq_dec Byte.byte_eq_dec (lA ++ lB) (pad (length ln) lA ++ pad (length ln) lB)) as [Q|Q].
    + left. apply (f_equal (@length _)) in Q. rewrite !app_length, !pad_length in Q by assumption. lia.
    + right. now split.
  - intros [[H1 H2]|[_ C]].
    + now apply C09_u_follows_rfc_at_full_length.
    + unfold compute_u, rfc_u. now rewrite from_bytes_be_spec, C.
Qed.
Print Assumptions C09_u_exact.

(** Whole sessions: with both public values at full length, client and server arrive at the S of the RFC,
    computed with the RFC's [u]. *)
Theorem C09_client_key_at_full_length :
  forall (D : bytes -> bytes) grp a user pw salt B cv A ln lg lB,
  client_process_reply D grp a user pw salt B = Ok cv -> client_public grp a = Ok A ->
  minimal_be (sg_n grp) ln -> minimal_be (sg_g grp) lg -> minimal_be (be_val B) lB ->
  length A = length ln -> length lB = length ln ->
  minimal_be (Z.to_N (srp_client_S (sg_n grp) (sg_g grp) (be_val B) (rfc_k D ln lg)
                        (rfc_x D user pw salt) (be_val a) (rfc_u D ln A lB))) (client_key cv).
Proof.
  intros D grp a user pw salt B cv A ln lg lB HC HA Hn Hg HB LA LB.
  unfold rfc_u. rewrite !pad_full by assumption. now apply C02_client_key_value.
Qed.
Print Assumptions C09_client_key_at_full_length.

Theorem C09_server_key_at_full_length :
  forall (D : bytes -> bytes) grp b v A sv B ln lA,
  server_process_reply D grp b v A = Ok sv -> server_public D grp b v = Ok B ->
  minimal_be (sg_n grp) ln -> minimal_be (be_val A) lA ->
  length lA = length ln -> length B = length ln ->
  minimal_be (Z.to_N (srp_server_S (sg_n grp) (be_val A) (be_val v) (rfc_u D ln lA B) (be_val b)))
    (server_key sv).
Proof.
  intros D grp b v A sv B ln lA HC HB Hn HA LA LB.
  unfold rfc_u. rewrite !pad_full by assumption. now apply C02_server_key_value.
Qed.
Print Assumptions C09_server_key_at_full_length.

(** Both sessions of a login in the 16-bit group, with public values of two bytes; and values where the two
    forms of [u] differ. *)
Example C09_session_case :
  (exists cv, client_process_reply sha256 grp16 a0 alice password123 salt0 (hex "28ed") = Ok cv) /\
  (exists sv, server_process_reply sha256 grp16 b0 (hex "8f01") (hex "41c4") = Ok sv) /\
  client_public grp16 a0 = Ok (hex "41c4") /\ server_public sha256 grp16 b0 (hex "8f01") = Ok (hex "28ed") /\
  minimal_be (sg_n grp16) (hex "fef3") /\ minimal_be (sg_g grp16) (hex "02") /\
  minimal_be (be_val (hex "41c4")) (hex "41c4") /\ minimal_be (be_val (hex "28ed")) (hex "28ed") /\
  compute_u sha256 (hex "20") (hex "1234") <> rfc_u sha256 (hex "fef3") (hex "20") (hex "1234").
Proof.
  split; [eexists; vm_compute; reflexivity|]. split; [eexists; vm_compute; reflexivity|].
  split; [vm_compute; reflexivity|]. split; [vm_compute; reflexivity|].
  split; [split; [reflexivity|split; [discriminate|intros t E; discriminate E]]|].
  split; [split; [reflexivity|split; [discriminate|intros t E; discriminate E]]|].
  split; [split; [reflexivity|split; [discriminate|intros t E; discriminate E]]|].
  split; [split; [reflexivity|split; [discriminate|intros t E; discriminate E]]|].
  vm_compute. discriminate.
Qed.
