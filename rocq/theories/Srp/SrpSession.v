(** * Whole sessions: the values a completed session holds, as formulas in its inputs. *)
From Verif Require Import Base.Bytes Base.Outcome Base.BigUint.
From Verif Require Import Srp.SrpModel Srp.SrpSpec Srp.SrpProofs Srp.SrpProofs2.
Local Open Scope N_scope.

Section WithD.
Context (D : bytes -> bytes).

Theorem client_public_value grp a A :
  client_public grp a = Ok A -> minimal_be (sg_g grp ^ be_val a mod sg_n grp) A.
Proof.
  intros H. assert (Hn : sg_n grp <> 0).
  { intros E. assert (client_public grp a = Panic) by now apply client_public_panic. congruence. }
  rewrite client_public_ok in H by exact Hn. injection H as <-. apply minimal_be_to_bytes.
Qed.

Theorem server_public_value grp b v B ln lg :
  minimal_be (sg_n grp) ln -> minimal_be (sg_g grp) lg ->
  server_public D grp b v = Ok B ->
  minimal_be (srp_B (sg_n grp) (sg_g grp) (rfc_k D ln lg) (be_val v) (be_val b)) B.
Proof.
  intros ->%minimal_be_unique ->%minimal_be_unique H.
  destruct (usable_dec (sg_n grp) (sg_g grp)) as [Hu|Hu].
  - rewrite server_public_ok in H by exact Hu. injection H as <-. apply minimal_be_to_bytes.
  - apply (server_public_panic D grp b v) in Hu. congruence.
Qed.

(** The key of each side, whatever the other side sent. *)
Theorem client_key_value grp a user pw salt B cv A ln lg lB :
  client_process_reply D grp a user pw salt B = Ok cv -> client_public grp a = Ok A ->
  minimal_be (sg_n grp) ln -> minimal_be (sg_g grp) lg -> minimal_be (be_val B) lB ->
  minimal_be (Z.to_N (srp_client_S (sg_n grp) (sg_g grp) (be_val B) (rfc_k D ln lg)
                        (rfc_x D user pw salt) (be_val a) (be_val (D (A ++ lB))))) (client_key cv).
Proof.
  intros H HA ->%minimal_be_unique ->%minimal_be_unique ->%minimal_be_unique.
  assert (Hp : client_process_reply D grp a user pw salt B <> Panic) by congruence.
  rewrite client_process_reply_panic in Hp.
  assert (Hn : sg_n grp <> 0) by tauto.
  assert (HB : be_val B mod sg_n grp <> 0).
  { intros E. rewrite client_process_reply_err in H by assumption. discriminate. }
  assert (Hu : usable_group (sg_n grp) (sg_g grp)).
  { rewrite divide_iff in Hp by exact Hn. destruct (usable_dec (sg_n grp) (sg_g grp)); tauto. }
  rewrite client_public_ok in HA by exact Hn. injection HA as <-.
  destruct (client_process_reply_ok D grp a user pw salt B Hu HB) as (S & ES & HR).
  rewrite HR in H. injection H as <-. unfold enc in ES |- *. rewrite <- ES, N2Z.id. apply minimal_be_to_bytes.
Qed.

Theorem server_key_value grp b v A sv B lA :
  server_process_reply D grp b v A = Ok sv -> server_public D grp b v = Ok B ->
  minimal_be (be_val A) lA ->
  minimal_be (Z.to_N (srp_server_S (sg_n grp) (be_val A) (be_val v) (be_val (D (lA ++ B))) (be_val b)))
    (server_key sv).
Proof.
  intros H HB ->%minimal_be_unique.
  assert (Hu : usable_group (sg_n grp) (sg_g grp)).
  { destruct (usable_dec (sg_n grp) (sg_g grp)) as [|Hu]; [assumption|].
    apply (server_process_reply_panic D grp b v A) in Hu. congruence. }
  assert (HA : be_val A mod sg_n grp <> 0).
  { intros E. rewrite server_process_reply_err in H by assumption. discriminate. }
  rewrite server_public_ok in HB by exact Hu. injection HB as <-.
  destruct (server_process_reply_ok D grp b v A Hu HA) as (S & ES & HR).
  rewrite HR in H. injection H as <-. unfold enc in ES |- *. rewrite <- ES, N2Z.id. apply minimal_be_to_bytes.
Qed.

(** The proofs of each side, whatever the other side sent. *)
Theorem client_proofs grp a user pw salt B cv A lB :
  client_process_reply D grp a user pw salt B = Ok cv -> client_public grp a = Ok A ->
  minimal_be (be_val B) lB ->
  client_proof cv = D (A ++ lB ++ client_key cv) /\
  forall m2, verify_server cv m2 = Ok tt <-> m2 = D (A ++ client_proof cv ++ client_key cv).
Proof.
  intros H HA ->%minimal_be_unique. destruct (client_reply_inv D _ _ _ _ _ _ _ H) as (lA & HA' & E1 & E2).
  rewrite HA in HA'. injection HA' as <-. split; [exact E1|].
  intros m2. rewrite verify_server_iff, E2, E1. reflexivity.
Qed.

Theorem server_proofs grp b v A sv B lA :
  server_process_reply D grp b v A = Ok sv -> server_public D grp b v = Ok B ->
  minimal_be (be_val A) lA ->
  (forall m1, verify_client sv m1 = Ok tt <-> m1 = D (lA ++ B ++ server_key sv)) /\
  forall m1, verify_client sv m1 = Ok tt -> server_proof sv = D (lA ++ m1 ++ server_key sv).
Proof.
  intros H HB ->%minimal_be_unique. destruct (server_reply_inv D _ _ _ _ _ H) as (lB & HB' & E1 & E2).
  rewrite HB in HB'. injection HB' as <-. split.
  - intros m1. rewrite verify_client_iff, E2. reflexivity.
  - intros m1 Hm. apply verify_client_iff in Hm. rewrite Hm, E2. exact E1.
Qed.
End WithD.
