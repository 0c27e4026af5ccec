(** * SRP: hashing a dictionary before the verifier is stolen (C99). *)
From Coq Require Import NArith Lia Znumtheory.
From Verif Require Import Base.Bytes Base.Outcome Base.BigUint Base.Hex Base.Kat Hash.Hash.
From Verif Require Import Srp.SrpModel Srp.SrpSpec Srp.SrpProofs Srp.SrpProofs2 Srp.SrpExamples Srp.SrpGenerator
  Srp.SrpWrongPassword Srp.SrpProps Srp.SrpProps3.
Local Open Scope N_scope.

(** The server sends the salt to anybody who names the user (server.rs:3-23, client.rs:16-28).  What the attacker
    prepares from it: the verifiers of a dictionary. *)
Definition srp_table (D : bytes -> bytes) grp user salt (dict : list bytes) : list (bytes * bytes) :=
  flat_map (fun p => match compute_verifier D grp user p salt with Ok v => [(p, v)] | _ => [] end) dict.
(** After the theft of the verifier nothing is hashed any more. *)
Definition srp_look_up (t : list (bytes * bytes)) (v : bytes) : list bytes :=
  map fst (filter (fun e => bytes_eqb (snd e) v) t).

Lemma srp_look_up_in D grp user salt dict v p :
  In p (srp_look_up (srp_table D grp user salt dict) v) <-> In p dict /\ compute_verifier D grp user p salt = Ok v.
Proof.
  unfold srp_look_up, srp_table. rewrite in_map_iff. split.
  - intros ((p' & v') & E & H). apply filter_In in H. destruct H as [H HV]. cbn in E, HV. subst p'.
    apply bytes_eqb_eq in HV. subst v'. apply in_flat_map in H. destruct H as (p' & Hin & H).
    destruct (compute_verifier D grp user p' salt) as [w|e|] eqn:Ev; [|destruct H|destruct H].
    destruct H as [H|[]]. injection H as <- <-. auto.
  - intros [Hin Ev]. exists (p, v). split; [reflexivity|]. apply filter_In. split; [|now apply bytes_eqb_eq].
    apply in_flat_map. exists p. split; [exact Hin|]. rewrite Ev. now left.
Qed.

(** C99, for SRP: refuted.  The table made from the salt alone contains the right password under the verifier, and every
    password found in it logs in: for all private keys, if no public key is a multiple of the modulus, both proofs are
    accepted. *)
Theorem C99_srp_precomputation_refuted :
  forall (D : bytes -> bytes) grp user pw salt dict,
  usable_group (sg_n grp) (sg_g grp) -> In pw dict ->
  exists v, compute_verifier D grp user pw salt = Ok v /\
    In pw (srp_look_up (srp_table D grp user salt dict) v) /\
    forall p, In p (srp_look_up (srp_table D grp user salt dict) v) -> In p dict /\
    forall a b, exists A B, client_public grp a = Ok A /\ server_public D grp b v = Ok B /\
      (be_val A mod sg_n grp <> 0 -> be_val B mod sg_n grp <> 0 ->
       exists cv sv, client_process_reply D grp a user p salt B = Ok cv /\ server_process_reply D grp b v A = Ok sv /\
         client_key cv = server_key sv /\
         verify_client sv (client_proof cv) = Ok tt /\ verify_server cv (server_proof sv) = Ok tt).
Proof.
  intros D grp user pw salt dict HU Hin.
  destruct (C01_honest_handshake_agrees D grp user pw salt [] [] HU) as (v & _ & _ & Hv & _).
  exists v. split; [exact Hv|]. split; [now apply srp_look_up_in|].
  intros p H. apply srp_look_up_in in H. destruct H as [Hp Hvp]. split; [exact Hp|]. intros a b.
  destruct (C01_honest_handshake_agrees D grp user p salt a b HU) as (v' & A & B & Hv' & HA & HB & H).
  rewrite Hvp in Hv'. injection Hv' as <-. exists A, B. split; [exact HA|]. split; [exact HB|]. intros NA NB.
  destruct (H NA NB) as (cv & sv & Hc & Hs & Hk & _ & H1 & H2). exists cv, sv. auto.
Qed.
Print Assumptions C99_srp_precomputation_refuted.

(** C99, for SRP, what does hold: without the salt nothing can be prepared.  A table made with any other salt, for
    whatever users and passwords, contains the verifier only where it exhibits a collision of the digest. *)
Theorem C99_srp_other_salt :
  forall (D : bytes -> bytes) grp h user pw salt v user' salt' dict p,
  prime (Z.of_N (sg_n grp)) -> generates (sg_n grp) (sg_g grp) -> 3 < sg_n grp ->
  (forall m, length (D m) = h) -> 256 ^ N.of_nat h <= sg_n grp - 1 ->
  compute_verifier D grp user pw salt = Ok v -> salt <> salt' ->
  In p (srp_look_up (srp_table D grp user' salt' dict) v) ->
  collision D (salt ++ D (user ++ [x3a] ++ pw)) (salt' ++ D (user' ++ [x3a] ++ p)).
Proof.
  intros D grp h user pw salt v user' salt' dict p Hp Hg H3 Hh Hs Hv NS Hin.
  apply srp_look_up_in in Hin. destruct Hin as [_ Hv'].
  rewrite compute_verifier_ok in Hv, Hv' by lia.
  assert (EE : enc (sg_g grp ^ rfc_x D user pw salt mod sg_n grp) = enc (sg_g grp ^ rfc_x D user' p salt' mod sg_n grp))
    by congruence.
  apply (f_equal be_val) in EE. unfold enc in EE. rewrite !be_val_to_bytes_be in EE.
  assert (XS : forall u q s, rfc_x D u q s < sg_n grp - 1).
  { intros u q s. unfold rfc_x. pose proof (be_val_bound (D (s ++ D (u ++ [x3a] ++ q)))) as B. rewrite Hh in B. lia. }
  apply (powers_equal grp Hp Hg H3) in EE; [|apply XS|apply XS].
  unfold rfc_x in EE. apply be_val_inj in EE; [|now rewrite !Hh]. split; [|exact EE].
  intros E. apply NS. apply (f_equal (@rev _)) in E. rewrite !rev_app_distr in E.
  apply app_inj_length in E; [|now rewrite !rev_length, !Hh]. destruct E as [_ E].
  apply (f_equal (@rev _)) in E. now rewrite !rev_involutive in E.
Qed.
Print Assumptions C99_srp_other_salt.

(** Case: the 16-bit group with SHA-256 and a dictionary of three words; and, with the digest [mod251] of one byte, a table
    for another user and salt that contains alice's verifier. *)
Definition three : list bytes := [str "letmein"; password123; str "qwerty"].
Example C99_srp_case : usable_group (sg_n grp16) (sg_g grp16) /\ In password123 three.
Proof. split; [exact grp16_usable|]. right. now left. Qed.
Check (test (srp_look_up (srp_table sha256 grp16 alice salt0 three) v0) [password123]).
Check (test (length (srp_look_up (srp_table sha256 grp16 alice (str "sals") three) v0)) 0%nat).
Example C99_srp_other_salt_case :
  prime (Z.of_N (sg_n grp16)) /\ generates (sg_n grp16) (sg_g grp16) /\ 3 < sg_n grp16 /\
  (forall m, length (mod251 m) = 1%nat) /\ 256 ^ N.of_nat 1 <= sg_n grp16 - 1 /\
  compute_verifier mod251 grp16 alice password123 salt0 = Ok v70 /\ salt0 <> str "salg" /\
  In (str "letmein") (srp_look_up (srp_table mod251 grp16 (str "bob") (str "salg") three) v70).
Proof.
  split; [exact (proj1 grp16_safe)|]. split; [exact grp16_generates|]. split; [reflexivity|].
  split; [reflexivity|]. split; [vm_compute; discriminate|]. split; [vm_compute; reflexivity|].
  split; [vm_compute; discriminate|]. apply srp_look_up_in. split; [now left|]. vm_compute. reflexivity.
Qed.
