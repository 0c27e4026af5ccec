(** * AuCPace: authenticators are "compared in constant time" (C96). *)
From Coq Require Import NArith Lia List Bool PeanoNat.
From Verif Require Import Base.Bytes Base.Outcome Base.CtEq Base.Kat Base.Leak Hash.Hash.
From Verif Require Import Aucpace.RistrettoGroup Aucpace.AucpaceModel Aucpace.AucpaceSpec Aucpace.AucpaceProofs.
Import ListNotations.
Local Open Scope nat_scope.

(** What the functions show: the branches and addresses of a comparison, and the number of bytes given to a digest
    (a digest runs in time that depends on the length of its input only). *)
Inductive seen := Step (o : obs) | Hashed (n : nat).

Section Leaky.
Context (R : RGroup) (D : bytes -> bytes).

(** [finalize], showing how much was hashed *)
Definition finalize_l (h : bytes) : bytes * list seen := (finalize D h, [Hashed (length h)]).
(** utils.rs:104-117 *)
Definition compute_authenticator_messages_l (ssid sk1 : bytes) : (bytes * bytes) * list seen :=
  let '(ta, t) := finalize_l (update (update H3 ssid) sk1) in
  let '(tb, u) := finalize_l (update (update H4 ssid) sk1) in ((ta, tb), t ++ u).
(** utils.rs:121-129 *)
Definition compute_session_key_l (ssid sk1 : bytes) : bytes * list seen :=
  finalize_l (update (update H5 ssid) sk1).

(** client.rs:906-916 *)
Definition receive_server_authenticator_l (c : AuCPaceClientExpMutAuth) (server_authenticator : bytes)
  : res bytes * list seen :=
  let '(eq, t) := ct_eq_l (cem_server_authenticator c) server_authenticator in
  let taken := N.eqb eq 1 in
  let t := map Step (t ++ [OBranch taken]) in
  if taken then let '(sk, u) := compute_session_key_l (cem_ssid c) (cem_sk1 c) in (Ok sk, t ++ u)
  else (Err MutualAuthFail, t).

(** server.rs:664-680 *)
Definition receive_client_authenticator_l (s : AuCPaceServerExpMutAuth) (client_authenticator : bytes)
  : res (bytes * ServerMessage R) * list seen :=
  let '((ta, tb), h) := compute_authenticator_messages_l (sem_ssid s) (sem_sk1 s) in
  let '(eq, t) := ct_eq_l tb client_authenticator in
  let taken := N.eqb eq 1 in
  let t := h ++ map Step (t ++ [OBranch taken]) in
  if taken then
    let '(sk, u) := compute_session_key_l (sem_ssid s) (sem_sk1 s) in
    (let! message := expect64 ta in Ok (sk, SAuthenticator message), t ++ u)
  else (Err MutualAuthFail, t).

(** C96: the functions with what they show return what the functions of the model return. *)
Theorem C96_results :
  (forall c a, fst (receive_server_authenticator_l c a) = receive_server_authenticator D c a) /\
  (forall s a, fst (receive_client_authenticator_l s a) = receive_client_authenticator R D s a).
Proof.
  split; intros v a.
  - unfold receive_server_authenticator_l, receive_server_authenticator. rewrite <- ct_eq_value.
    destruct (ct_eq_l _ _) as [e t]. cbn [fst]. now destruct (N.eqb e 1).
  - unfold receive_client_authenticator_l, receive_client_authenticator, compute_authenticator_messages_l,
      compute_authenticator_messages, finalize_l. rewrite <- ct_eq_value.
    destruct (ct_eq_l _ _) as [e t]. cbn [fst]. now destruct (N.eqb e 1).
Qed.

(** C96: what a client shows when it checks an authenticator depends on lengths and on whether it is the expected one;
    when it is not, neither does its result tell more. *)
Theorem C96_client :
  forall c c' a a',
  length (cem_server_authenticator c) = length (cem_server_authenticator c') -> length a = length a' ->
  length (cem_ssid c) = length (cem_ssid c') -> length (cem_sk1 c) = length (cem_sk1 c') ->
  (cem_server_authenticator c = a <-> cem_server_authenticator c' = a') ->
  snd (receive_server_authenticator_l c a) = snd (receive_server_authenticator_l c' a') /\
  (cem_server_authenticator c <> a -> receive_server_authenticator_l c a = receive_server_authenticator_l c' a').
Proof.
  intros c c' a a' L1 L2 L3 L4 HE. unfold receive_server_authenticator_l.
  rewrite (ct_eq_l_eq _ _ _ _ L1 L2 HE).
  pose proof (ct_eq_value (cem_server_authenticator c') a') as EV.
  destruct (ct_eq_l _ _) as [e t]. cbn [fst] in EV. destruct (N.eqb_spec e 1) as [E|E].
  - cbn [compute_session_key_l finalize_l snd]. split.
    + do 3 f_equal. unfold update. rewrite !app_length. lia.
    + intros HN. rewrite EV in E. apply slice_ct_eq_1, HE in E. now elim HN.
  - split; reflexivity.
Qed.

(** C96: the same for the server; the authenticator that it expects is a digest of its secrets. *)
Theorem C96_server :
  forall s s' a a',
  (forall m, length (D m) = 64) -> length a = length a' ->
  length (sem_ssid s) = length (sem_ssid s') -> length (sem_sk1 s) = length (sem_sk1 s') ->
  (spec_Tb D (sem_ssid s) (sem_sk1 s) = a <-> spec_Tb D (sem_ssid s') (sem_sk1 s') = a') ->
  snd (receive_client_authenticator_l s a) = snd (receive_client_authenticator_l s' a') /\
  (spec_Tb D (sem_ssid s) (sem_sk1 s) <> a -> receive_client_authenticator_l s a = receive_client_authenticator_l s' a').
Proof.
  intros s s' a a' Dlen L2 L3 L4 HE. unfold receive_client_authenticator_l, compute_authenticator_messages_l, finalize_l.
  assert (EA : forall x y, finalize D (update (update H4 x) y) = spec_Tb D x y)
    by (intros x y; exact (f_equal snd (authenticators_eq D x y))).
  rewrite !EA.
  assert (LT : length (spec_Tb D (sem_ssid s) (sem_sk1 s)) = length (spec_Tb D (sem_ssid s') (sem_sk1 s')))
    by (unfold spec_Tb; now rewrite !Dlen).
  assert (LU : forall h, length (update (update h (sem_ssid s)) (sem_sk1 s)) = length (update (update h (sem_ssid s')) (sem_sk1 s')))
    by (intros h; unfold update; rewrite !app_length; lia).
  rewrite (ct_eq_l_eq _ _ _ _ LT L2 HE), !LU.
  pose proof (ct_eq_value (spec_Tb D (sem_ssid s') (sem_sk1 s')) a') as EV.
  destruct (ct_eq_l _ _) as [e t]. cbn [fst] in EV. destruct (N.eqb_spec e 1) as [E|E].
  - cbn [compute_session_key_l finalize_l snd]. rewrite !LU. split; [reflexivity|].
    intros HN. rewrite EV in E. apply slice_ct_eq_1, HE in E. now elim HN.
  - split; reflexivity.
Qed.

(** C96: whoever watches sessions reject an authenticator learns that it was wrong, and nothing else: two servers (or
    two clients) with any secrets that reject it return and show the same. *)
Theorem C96_rejected :
  forall c c' s s' a,
  (forall m, length (D m) = 64) ->
  length (cem_server_authenticator c) = length (cem_server_authenticator c') ->
  length (sem_ssid s) = length (sem_ssid s') -> length (sem_sk1 s) = length (sem_sk1 s') ->
  (receive_server_authenticator D c a = Err MutualAuthFail -> receive_server_authenticator D c' a = Err MutualAuthFail ->
   receive_server_authenticator_l c a = receive_server_authenticator_l c' a) /\
  (receive_client_authenticator R D s a = Err MutualAuthFail -> receive_client_authenticator R D s' a = Err MutualAuthFail ->
   receive_client_authenticator_l s a = receive_client_authenticator_l s' a).
Proof.
  intros c c' s s' a Dlen L1 L3 L4. split.
  - unfold receive_server_authenticator, receive_server_authenticator_l.
    destruct (N.eqb_spec (slice_ct_eq (cem_server_authenticator c) a) 1) as [|N1]; [discriminate|]. intros _.
    destruct (N.eqb_spec (slice_ct_eq (cem_server_authenticator c') a) 1) as [|N2]; [discriminate|]. intros _.
    rewrite slice_ct_eq_1 in N1, N2.
    rewrite (ct_eq_l_eq _ a _ a L1 eq_refl) by tauto.
    pose proof (ct_eq_value (cem_server_authenticator c') a) as EV.
    destruct (ct_eq_l _ _) as [e t]. cbn [fst] in EV. destruct (N.eqb_spec e 1) as [E|E]; [|reflexivity].
    rewrite EV in E. apply slice_ct_eq_1 in E. now elim N2.
  - assert (K : forall s, receive_client_authenticator R D s a = Err MutualAuthFail ->
                spec_Tb D (sem_ssid s) (sem_sk1 s) <> a).
    { clear - Dlen. intros s. unfold receive_client_authenticator. rewrite authenticators_eq, slice_ct_eqb.
      destruct (bytes_eqb _ _) eqn:E.
      - unfold spec_Ta at 1. rewrite (expect64_D D Dlen). discriminate.
      - intros _ EQ. apply bytes_eqb_eq in EQ. congruence. }
    intros H1 H2. apply K in H1, H2. apply C96_server; auto. tauto.
Qed.
End Leaky.

(** Case: the hypotheses are met by the states of every session: digests of 64 bytes. *)
Definition case_c (x : byte) : AuCPaceClientExpMutAuth :=
  {| cem_ssid := repeat x 64; cem_sk1 := repeat x 64; cem_server_authenticator := repeat x 64 |}.
Definition case_s (x : byte) : AuCPaceServerExpMutAuth := {| sem_ssid := repeat x 64; sem_sk1 := repeat x 64 |}.
Example C96_aucpace_case :
  (forall m, length (sha512 m) = 64) /\
  length (cem_server_authenticator (case_c x01)) = length (cem_server_authenticator (case_c x02)) /\
  cem_server_authenticator (case_c x01) <> cem_server_authenticator (case_c x02) /\
  length (sem_ssid (case_s x01)) = length (sem_ssid (case_s x02)).
Proof. split; [exact sha512_length|]. repeat split; discriminate. Qed.
Check (test (length (snd (receive_server_authenticator_l sha512 (case_c x01) (repeat x01 64)))) (1 + 3 * 64 + 1 + 1 + 1)).
Check (test (receive_server_authenticator_l sha512 (case_c x01) (repeat x00 64))
            (receive_server_authenticator_l sha512 (case_c x02) (repeat x00 64))).
