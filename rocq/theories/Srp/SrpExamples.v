(** * Concrete cases used beside the SRP theorems, and the witnesses of the refutations.

    [grp16] is the 16-bit safe-prime group N = 65267, g = 2. *)
From Verif Require Import Base.Bytes Base.Outcome Base.BigUint Base.Hex Hash.Hash.
From Verif Require Import Srp.SrpModel Srp.SrpSpec Srp.SrpProofs Srp.SrpProofs2.
From Verif Require Import Srp.SrpGroups Srp.SrpRfcGroups Srp.SrpGroupProofs.
Local Open Scope N_scope.

Definition grp16 : SrpGroup := {| sg_n := 65267; sg_g := 2 |}.
Definition grp_bad : SrpGroup := {| sg_n := 251; sg_g := 300 |}.
Definition alice := str "alice".
Definition password123 := str "password123".
Definition salt0 := str "salt".
Definition a0 := hex "60975527035cf2ad".
Definition b0 := hex "e487cb59d31ac550".

Lemma grp16_usable : usable_group (sg_n grp16) (sg_g grp16).
Proof. apply usable_iff. split; [discriminate|]. vm_compute. repeat constructor. Qed.

Lemma minimal_be_exists_unique n : exists l, minimal_be n l /\ forall l', minimal_be n l' -> l' = l.
Proof.
  exists (to_bytes_be n). split; [apply minimal_be_to_bytes|apply minimal_be_unique].
Qed.

(** Checks a successful outcome by computation. *)
Ltac run := match goal with |- ?x = Ok _ => let r := eval vm_compute in x in vm_cast_no_check (eq_refl r) end.

Definition get {E} (m : outcome E bytes) : bytes := match m with Ok b => b | _ => [] end.
Definition v0 := get (compute_verifier sha256 grp16 alice password123 salt0).
Definition A0 := get (client_public grp16 a0).
Definition B0 := get (server_public sha256 grp16 b0 v0).

Lemma v0_eq : compute_verifier sha256 grp16 alice password123 salt0 = Ok v0.
Proof. vm_compute. reflexivity. Qed.
Lemma A0_eq : client_public grp16 a0 = Ok A0.
Proof. vm_compute. reflexivity. Qed.
Lemma B0_eq : server_public sha256 grp16 b0 v0 = Ok B0.
Proof. vm_compute. reflexivity. Qed.

Lemma c01_case : usable_group (sg_n grp16) (sg_g grp16) /\
  (exists v A B, compute_verifier sha256 grp16 alice password123 salt0 = Ok v /\
     client_public grp16 a0 = Ok A /\ server_public sha256 grp16 b0 v = Ok B /\
     be_val A mod sg_n grp16 <> 0 /\ be_val B mod sg_n grp16 <> 0).
Proof.
  split; [apply grp16_usable|]. exists v0, A0, B0.
  repeat (split; [first [apply v0_eq|apply A0_eq|apply B0_eq|vm_compute; discriminate]|]).
  vm_compute; discriminate.
Qed.

Lemma c02_case :
  client_premaster grp16 3 1000 5 7 11 = Ok 13604 /\
  srp_client_S 65267 2 3 1000 5 7 11 = 13604%Z /\ (3 - 1000 * 2 ^ 5 < 0)%Z.
Proof. vm_compute. repeat split. Qed.

Lemma c03_case : usable_group (sg_n grp16) (sg_g grp16) /\
  N.divide (sg_n grp16) (be_val (hex "01fde6")) /\ ~ N.divide (sg_n grp16) (be_val (hex "01fde7")) /\
  minimal_be (2 * sg_n grp16) (hex "01fde6").
Proof.
  split; [apply grp16_usable|]. split; [exists 2; reflexivity|].
  split; [rewrite divide_iff by discriminate; vm_compute; discriminate|].
  replace (hex "01fde6") with (to_bytes_be (2 * sg_n grp16)) by reflexivity.
  apply minimal_be_to_bytes.
Qed.

Lemma c04_case : usable_group (sg_n grp16) (sg_g grp16) /\
  ~ usable_group (sg_n grp_bad) (sg_g grp_bad) /\ sg_n grp_bad <> 0.
Proof.
  split; [apply grp16_usable|]. split; [|discriminate].
  rewrite usable_iff. intros [_ H]. vm_compute in H. lia.
Qed.

Lemma c06_case : exists v A B cv sv,
  compute_verifier sha256 grp16 alice password123 salt0 = Ok v /\
  client_process_reply sha256 grp16 a0 alice password123 salt0 B = Ok cv /\
  client_public grp16 a0 = Ok A /\
  server_process_reply sha256 grp16 b0 v A = Ok sv /\ server_public sha256 grp16 b0 v = Ok B /\
  verify_client sv (client_proof cv) = Ok tt /\ verify_server cv (server_proof sv) = Ok tt.
Proof.
  destruct (honest_handshake sha256 grp16 alice password123 salt0 a0 b0 grp16_usable)
    as (v & A & B & Hv & HA & HB & H).
  assert (v = v0) by (pose proof v0_eq; congruence). subst v.
  assert (A = A0) by (pose proof A0_eq; congruence). subst A.
  assert (B = B0) by (pose proof B0_eq; congruence). subst B.
  destruct H as (cv & sv & H1 & H2 & _ & _ & H3 & H4); [vm_compute; discriminate..|].
  exists v0, A0, B0, cv, sv. auto 10.
Qed.

(** C07: found by search; a = 1821 gives A = 117, b = 2022 gives B = 189; the client receives
    0x09bd instead of 0xbd and the server 0x7509 instead of 0x75. *)
Lemma altered_messages_accepted :
  exists grp user pw salt v a b A B A' B' cv sv,
    compute_verifier sha256 grp user pw salt = Ok v /\
    client_public grp a = Ok A /\ server_public sha256 grp b v = Ok B /\
    A' <> A /\ B' <> B /\
    client_process_reply sha256 grp a user pw salt B' = Ok cv /\
    server_process_reply sha256 grp b v A' = Ok sv /\
    verify_client sv (client_proof cv) = Ok tt /\
    client_key cv = server_key sv.
Proof.
  exists grp16, alice, password123, salt0, v0, (hex "071d"), (hex "07e6"),
    (hex "75"), (hex "bd"), (hex "7509"), (hex "09bd").
  destruct (client_process_reply sha256 grp16 (hex "071d") alice password123 salt0 (hex "09bd"))
    as [cv| |] eqn:EC; [|vm_compute in EC; discriminate..].
  destruct (server_process_reply sha256 grp16 (hex "07e6") v0 (hex "7509"))
    as [sv| |] eqn:ES; [|vm_compute in ES; discriminate..].
  exists cv, sv.
  split; [apply v0_eq|]. split; [vm_compute; reflexivity|]. split; [vm_compute; reflexivity|].
  split; [discriminate|]. split; [discriminate|]. split; [reflexivity|]. split; [reflexivity|].
  vm_compute in EC, ES. injection EC as <-. injection ES as <-.
  split; vm_compute; reflexivity.
Qed.

Lemma u_padding_refuted :
  exists grp a user pw salt B cv A,
    client_process_reply sha1 grp a user pw salt B = Ok cv /\ client_public grp a = Ok A /\
    let ln := to_bytes_be (sg_n grp) in
    let k := rfc_k sha1 ln (to_bytes_be (sg_g grp)) in
    let S u := srp_client_S (sg_n grp) (sg_g grp) (be_val B) k (rfc_x sha1 user pw salt) (be_val a) u in
    compute_u sha1 A B <> rfc_u sha1 ln A B /\
    Z.of_N (be_val (client_key cv)) <> S (rfc_u sha1 ln A B).
Proof.
  exists grp16, (hex "05"), alice, password123, salt0, (hex "1234").
  destruct (client_process_reply sha1 grp16 (hex "05") alice password123 salt0 (hex "1234"))
    as [cv| |] eqn:EC; [|vm_compute in EC; discriminate..].
  exists cv, (hex "20"). split; [reflexivity|]. split; [vm_compute; reflexivity|].
  cbv zeta. split; [vm_compute; discriminate|].
  pose proof (client_premaster_ok grp16 (be_val (hex "1234"))
    (rfc_k sha1 (to_bytes_be (sg_n grp16)) (to_bytes_be (sg_g grp16)))
    (rfc_x sha1 alice password123 salt0) (be_val (hex "05"))
    (rfc_u sha1 (to_bytes_be (sg_n grp16)) (hex "20") (hex "1234")) ltac:(discriminate))
    as (S & HS & HZ).
  rewrite <- HZ. clear HZ. vm_compute in HS. injection HS as <-.
  vm_compute in EC. injection EC as <-. vm_compute. discriminate.
Qed.

Lemma u_padding_G1024 :
  exists a A B, client_public G_1024 a = Ok A /\ length B = 128%nat /\
    compute_u sha1 A B <> rfc_u sha1 bin_1024 A B.
Proof.
  exists (hex "01"), (hex "02"), (repeat xab 128). split; [vm_compute; reflexivity|].
  split; [reflexivity|]. vm_compute. discriminate.
Qed.

Lemma c11_case : In (G_2048, (2048, rfc5054_N_2048, rfc5054_g_2048)) builtin.
Proof. right. right. left. reflexivity. Qed.

(** SHA-1 except that two chosen messages hash to zero. *)
Definition sha1_but (m1 m2 m : bytes) : bytes :=
  if bytes_eqb m m1 || bytes_eqb m m2 then repeat x00 20 else sha1 m.

Lemma key_independent_of_verifier :
  exists (D : bytes -> bytes) grp b v v' A sv sv',
    (forall m, length (D m) = 20%nat) /\ be_val v <> be_val v' /\
    server_process_reply D grp b v A = Ok sv /\ server_process_reply D grp b v' A = Ok sv' /\
    server_public D grp b v <> server_public D grp b v' /\
    server_key sv = server_key sv'.
Proof.
  set (A := hex "4321").
  set (B := get (server_public sha1 grp16 b0 (hex "1111"))).
  set (B' := get (server_public sha1 grp16 b0 (hex "2222"))).
  set (D := sha1_but (A ++ B) (A ++ B')).
  exists D, grp16, b0, (hex "1111"), (hex "2222"), A.
  destruct (server_process_reply D grp16 b0 (hex "1111") A) as [sv| |] eqn:E1;
    [|vm_compute in E1; discriminate..].
  destruct (server_process_reply D grp16 b0 (hex "2222") A) as [sv'| |] eqn:E2;
    [|vm_compute in E2; discriminate..].
  exists sv, sv'. split.
  { intros m. unfold D, sha1_but. destruct (_ || _); [reflexivity|apply sha1_length]. }
  split; [vm_compute; discriminate|]. split; [reflexivity|]. split; [reflexivity|].
  split; [vm_compute; discriminate|].
  vm_compute in E1, E2. injection E1 as <-. injection E2 as <-. reflexivity.
Qed.

Lemma c13_case : ~ In x3a alice.
Proof. cbn. intuition discriminate. Qed.

Lemma c14_case : (forall m, length (sha256 m) = 32%nat) /\
  minimal_be (sg_n grp16) (hex "fef3") /\
  exists cv, client_process_reply sha256 grp16 a0 alice password123 salt0 (hex "1234") = Ok cv.
Proof.
  split; [apply sha256_length|]. split.
  - replace (hex "fef3") with (to_bytes_be (sg_n grp16)) by reflexivity. apply minimal_be_to_bytes.
  - eexists. vm_compute. reflexivity.
Qed.
