(** * C76: what a program that only shows errors as text shows.

    In each crate different errors have different texts, and the texts of the srp crate's functions are
    the four that name the offending message. *)
From Coq Require Import List Bool NArith.
From Verif Require Import Base.Bytes Base.Outcome Base.CtEq Base.BigUint Base.Kat.
From Verif Require Import Aucpace.PwHash Aucpace.AucpaceModel Aucpace.ErrorText.
From Verif Require Srp.SrpModel Spake2.Spake2Model.

Theorem C76_spake2 :
  forall e e', Spake2Model.display_error e = Spake2Model.display_error e' -> e = e'.
Proof. intros [| |] [| |] H; try reflexivity; discriminate H. Qed.

Theorem C76_srp :
  forall e e', SrpModel.display_error e = SrpModel.display_error e' -> e = e'.
Proof.
  intros [p|p] [q|q] H; unfold SrpModel.display_error in H; try discriminate H;
  apply app_inv_head, app_inv_tail in H; now rewrite H.
Qed.

(** The texts of aucpace are as different as those of the password hasher's errors, which are not in
    /repo. *)
Theorem C76_aucpace :
  forall inner e e', display_error inner e = display_error inner e' ->
  e = e' \/ exists p p', e = PasswordHashing p /\ e' = PasswordHashing p' /\ inner p = inner p'.
Proof.
  intros inner e e' H. destruct e as [|p| | | | | |], e' as [|p'| | | | | |];
    try (left; reflexivity); try discriminate H.
  right. exists p, p'. split; [reflexivity|]. split; [reflexivity|]. exact (app_inv_head _ _ _ H).
Qed.

Corollary aucpace_injective :
  forall inner, (forall p p', inner p = inner p' -> p = p') ->
  forall e e', display_error inner e = display_error inner e' -> e = e'.
Proof.
  intros inner Hi e e' H. destruct (C76_aucpace inner e e' H) as [E|(p & p' & -> & -> & E)]; [exact E|].
  now rewrite (Hi p p' E).
Qed.

Lemma rem_no_err a n e : big_rem a n <> @Err SrpModel.SrpAuthError _ e.
Proof. unfold big_rem. destruct (_ =? 0)%N; intros H; discriminate H. Qed.
Lemma modpow_no_err b x n e : big_modpow b x n <> @Err SrpModel.SrpAuthError _ e.
Proof. unfold big_modpow. destruct (_ =? 0)%N; intros H; discriminate H. Qed.
Lemma sub_no_err a b e : big_sub a b <> @Err SrpModel.SrpAuthError _ e.
Proof. unfold big_sub. destruct (_ <? _)%N; intros H; discriminate H. Qed.
Lemma k_no_err D grp e : SrpModel.compute_k D grp <> Err e.
Proof. unfold SrpModel.compute_k. cbv zeta. destruct (Nat.ltb _ _); intros H; discriminate H. Qed.

(** goes through the steps of a computation that ends in an error *)
Ltac err_steps H :=
  repeat match type of H with
  | obind (big_rem ?a ?n) _ = _ => let E := fresh "E" in
      destruct (big_rem a n) eqn:E; cbn [obind] in H; [|now elim (rem_no_err _ _ _ E)|discriminate H]
  | obind (big_modpow ?a ?b ?n) _ = _ => let E := fresh "E" in
      destruct (big_modpow a b n) eqn:E; cbn [obind] in H; [|now elim (modpow_no_err _ _ _ _ E)|discriminate H]
  | obind (big_sub ?a ?n) _ = _ => let E := fresh "E" in
      destruct (big_sub a n) eqn:E; cbn [obind] in H; [|now elim (sub_no_err _ _ _ E)|discriminate H]
  | obind (SrpModel.compute_k ?a ?n) _ = _ => let E := fresh "E" in
      destruct (SrpModel.compute_k a n) eqn:E; cbn [obind] in H; [|now elim (k_no_err _ _ _ E)|discriminate H]
  end.

Lemma b_pub_no_err grp b k v e : SrpModel.compute_b_pub grp b k v <> Err e.
Proof. unfold SrpModel.compute_b_pub. intros H. err_steps H. exact (rem_no_err _ _ _ H). Qed.
Lemma server_premaster_no_err grp a v u b e : SrpModel.server_premaster grp a v u b <> Err e.
Proof. unfold SrpModel.server_premaster. intros H. err_steps H. exact (modpow_no_err _ _ _ _ H). Qed.
Lemma client_premaster_no_err grp b k x a u e : SrpModel.client_premaster grp b k x a u <> Err e.
Proof. unfold SrpModel.client_premaster. intros H. err_steps H. exact (modpow_no_err _ _ _ _ H). Qed.

(** The parameter of an error of srp is a fixed string of the crate, so only these texts occur. *)
Theorem C76_srp_texts :
  forall (D : bytes -> bytes) grp,
  (forall a user pass salt b e, SrpModel.client_process_reply D grp a user pass salt b = Err e ->
     SrpModel.display_error e = str "illegal_parameter: bad 'b_pub' value") /\
  (forall b v a e, SrpModel.server_process_reply D grp b v a = Err e ->
     SrpModel.display_error e = str "illegal_parameter: bad 'a_pub' value") /\
  (forall c m e, SrpModel.verify_server c m = Err e ->
     SrpModel.display_error e = str "bad_record_mac: incorrect 'server'  proof") /\
  (forall s m e, SrpModel.verify_client s m = Err e ->
     SrpModel.display_error e = str "bad_record_mac: incorrect 'client'  proof").
Proof.
  intros D grp. split; [|split; [|split]].
  - intros a user pass salt b e H. unfold SrpModel.client_process_reply, SrpModel.compute_a_pub in H. err_steps H.
    destruct (_ =? 0)%N in H; [injection H as <-; reflexivity|]. cbv zeta in H. err_steps H.
    destruct (SrpModel.client_premaster _ _ _ _ _ _) eqn:E2 in H; cbn [obind] in H;
      [discriminate H|elim (client_premaster_no_err _ _ _ _ _ _ _ E2)|discriminate H].
  - intros b v a e H. unfold SrpModel.server_process_reply in H. cbv zeta in H. err_steps H.
    destruct (SrpModel.compute_b_pub _ _ _ _) eqn:E2 in H; cbn [obind] in H;
      [|elim (b_pub_no_err _ _ _ _ _ E2)|discriminate H]. err_steps H.
    destruct (_ =? 0)%N in H; [injection H as <-; reflexivity|].
    destruct (SrpModel.server_premaster _ _ _ _ _) eqn:E3 in H; cbn [obind] in H;
      [discriminate H|elim (server_premaster_no_err _ _ _ _ _ _ E3)|discriminate H].
  - intros c m e H. unfold SrpModel.verify_server in H. destruct (_ =? 1)%N in H; [discriminate H|].
    injection H as <-. reflexivity.
  - intros c m e H. unfold SrpModel.verify_client in H. destruct (_ =? 1)%N in H; [discriminate H|].
    injection H as <-. reflexivity.
Qed.

(** ** Cases *)

(** A zero public value is refused by both sides, and a proof of the wrong length by both verifiers. *)
Definition grp23 : SrpModel.SrpGroup := {| SrpModel.sg_n := 23; SrpModel.sg_g := 5 |}.
Definition text_of {A} (r : outcome SrpModel.SrpAuthError A) : bytes :=
  match r with Err e => SrpModel.display_error e | _ => [] end.
Definition ident (m : bytes) : bytes := m.
Check (test (text_of (SrpModel.client_process_reply ident grp23 [x03] (str "alice") (str "pw") (str "salt") [x2e]))
  (str "illegal_parameter: bad 'b_pub' value")).
Check (test (text_of (SrpModel.server_process_reply ident grp23 [x03] [x04] [x17]))
  (str "illegal_parameter: bad 'a_pub' value")).
Check (test (text_of (SrpModel.verify_server {| SrpModel.cv_m1 := []; SrpModel.cv_m2 := [x01]; SrpModel.cv_key := [] |} []))
  (str "bad_record_mac: incorrect 'server'  proof")).
Check (test (text_of (SrpModel.verify_client {| SrpModel.sv_m1 := [x01]; SrpModel.sv_m2 := []; SrpModel.sv_key := [] |} [x02]))
  (str "bad_record_mac: incorrect 'client'  proof")).
(** An [inner] with two equal texts makes two errors of aucpace look alike; nothing else does. *)
Example C76_case :
  display_error (fun _ => str "crypto error") (PasswordHashing Crypto)
  = display_error (fun _ => str "crypto error") (PasswordHashing Password)
  /\ display_error (fun _ => str "password hash empty") (PasswordHashing Crypto)
  <> display_error (fun _ => str "password hash empty") HashEmpty.
Proof. split; [reflexivity|intros H; discriminate H]. Qed.
