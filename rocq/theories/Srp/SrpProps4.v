(** * SRP: replayed messages (C77); agreement on the user name (C78). *)
From Coq Require Import Znumtheory.
From Verif Require Import Base.Bytes Base.Outcome Base.BigUint Base.Kat Base.Hex Hash.Hash.
From Verif Require Import Srp.SrpModel Srp.SrpSpec Srp.SrpProofs Srp.SrpProofs2 Srp.SrpExamples Srp.SrpGenerator
  Srp.SrpWrongPassword Srp.SrpProps Srp.SrpProps3.
Local Open Scope N_scope.

(** ** C77: replays *)

(** The server session with private key [b] and verifier [v] accepts public key [A] and proof [m]; [B] is
    its own public key and [K] its key. *)
Definition server_accepts (D : bytes -> bytes) (grp : SrpGroup) (b v A m B K : bytes) : Prop :=
  server_public D grp b v = Ok B /\
  exists sv, server_process_reply D grp b v A = Ok sv /\ server_key sv = K /\ verify_client sv m = Ok tt.

(** The client session with private key [a] accepts salt, public key [B] and proof [m]; [A] is its own
    public key, [M] its own proof and [K] its key. *)
Definition client_accepts (D : bytes -> bytes) (grp : SrpGroup) (a user pw salt B m A M K : bytes) : Prop :=
  client_public grp a = Ok A /\
  exists cv, client_process_reply D grp a user pw salt B = Ok cv /\ client_key cv = K /\ client_proof cv = M /\
    verify_server cv m = Ok tt.

Lemma server_accepts_m1 D grp b v A m B K : usable_group (sg_n grp) (sg_g grp) ->
  server_accepts D grp b v A m B K -> m = D (enc (be_val A) ++ B ++ K).
Proof.
  intros Hu (HB & sv & HS & HK & HV).
  destruct (N.eq_dec (be_val A mod sg_n grp) 0) as [A0|AN].
  { rewrite server_process_reply_err in HS by (exact Hu || exact A0). discriminate HS. }
  pose proof (server_process_reply_ok D grp b v A Hu AN) as P. cbv zeta in P. destruct P as (S & _ & P).
  rewrite P in HS. injection HS as <-. apply verify_client_iff in HV. cbn [sv_m1 sv_key] in HV, HK.
  unfold server_key in HK. cbn [sv_key] in HK. subst K.
  rewrite server_public_ok in HB by exact Hu. injection HB as <-. exact HV.
Qed.

Lemma client_accepts_m2 D grp a user pw salt B m A M K : usable_group (sg_n grp) (sg_g grp) ->
  client_accepts D grp a user pw salt B m A M K ->
  M = D (A ++ enc (be_val B) ++ K) /\ m = D (A ++ M ++ K).
Proof.
  intros Hu (HA & cv & HC & HK & HM & HV). pose proof Hu as [N0 _]%usable_iff.
  destruct (N.eq_dec (be_val B mod sg_n grp) 0) as [B0|BN].
  { rewrite client_process_reply_err in HC by (exact N0 || exact B0). discriminate HC. }
  pose proof (client_process_reply_ok D grp a user pw salt B Hu BN) as P. cbv zeta in P. destruct P as (S & _ & P).
  rewrite P in HC. injection HC as <-. apply verify_server_iff in HV.
  unfold client_key in HK. unfold client_proof in HM. cbn [cv_m1 cv_m2 cv_key] in HV, HK, HM. subst K M.
  rewrite client_public_ok in HA by exact N0. injection HA as <-. split; [reflexivity|exact HV].
Qed.

(** C77: a recorded login is accepted by another session of the server only if that session has the same
    private key modulo [n - 1], or a public key of another length, or a collision is exhibited. *)
Theorem C77_srp_server :
  forall (D : bytes -> bytes) grp v A m b1 B1 K1 b2 B2 K2,
  usable_group (sg_n grp) (sg_g grp) -> prime (Z.of_N (sg_n grp)) -> generates (sg_n grp) (sg_g grp) -> 3 < sg_n grp ->
  server_accepts D grp b1 v A m B1 K1 -> server_accepts D grp b2 v A m B2 K2 ->
  be_val b1 mod (sg_n grp - 1) = be_val b2 mod (sg_n grp - 1) \/
  length B1 <> length B2 \/
  collision D (enc (be_val A) ++ B1 ++ K1) (enc (be_val A) ++ B2 ++ K2).
Proof.
  intros D grp v A m b1 B1 K1 b2 B2 K2 Hu Hp Hg H3 S1 S2.
  pose proof (server_accepts_m1 _ _ _ _ _ _ _ _ Hu S1) as M1.
  pose proof (server_accepts_m1 _ _ _ _ _ _ _ _ Hu S2) as M2.
  destruct S1 as [P1 _], S2 as [P2 _].
  destruct (Nat.eq_dec (length B1) (length B2)) as [EL|NL]; [|right; left; exact NL].
  destruct (list_eq_dec byte_eq_dec (enc (be_val A) ++ B1 ++ K1) (enc (be_val A) ++ B2 ++ K2)) as [E|NE];
    [|right; right; split; [exact NE|now rewrite <- M1]].
  left. apply app_inv_head in E. apply app_inj_length in E; [|exact EL]. destruct E as [E _].
  rewrite server_public_ok in P1, P2 by exact Hu. rewrite <- E in P2.
  assert (EB : srp_B (sg_n grp) (sg_g grp) (rfc_k D (enc (sg_n grp)) (enc (sg_g grp))) (be_val v) (be_val b1)
             = srp_B (sg_n grp) (sg_g grp) (rfc_k D (enc (sg_n grp)) (enc (sg_g grp))) (be_val v) (be_val b2)).
  { assert (EE : enc (srp_B (sg_n grp) (sg_g grp) (rfc_k D (enc (sg_n grp)) (enc (sg_g grp))) (be_val v) (be_val b1))
      = enc (srp_B (sg_n grp) (sg_g grp) (rfc_k D (enc (sg_n grp)) (enc (sg_g grp))) (be_val v) (be_val b2))) by congruence.
    apply (f_equal be_val) in EE. unfold enc in EE. now rewrite !be_val_to_bytes_be in EE. }
  clear - Hp Hg H3 EB. unfold srp_B in EB.
  revert EB. generalize (rfc_k D (enc (sg_n grp)) (enc (sg_g grp)) * be_val v). intros c EB.
  apply (f_equal Z.of_N) in EB. rewrite !N2Z.inj_mod, !N2Z.inj_add, !N2Z.inj_pow in EB.
  assert (EP : (Z.of_N (sg_g grp) ^ Z.of_N (be_val b1) mod Z.of_N (sg_n grp)
              = Z.of_N (sg_g grp) ^ Z.of_N (be_val b2) mod Z.of_N (sg_n grp))%Z).
  { revert EB H3. clear. generalize (Z.of_N (sg_g grp) ^ Z.of_N (be_val b1))%Z (Z.of_N (sg_g grp) ^ Z.of_N (be_val b2))%Z.
    generalize (sg_n grp). intros n y y' EB H3.
    assert (P0 : (0 < Z.of_N n)%Z) by lia.
    apply (mod_eq_divide _ _ _ P0) in EB. apply (mod_eq_divide _ _ _ P0).
    replace (y - y')%Z with (Z.of_N c + y - (Z.of_N c + y'))%Z by ring. exact EB. }
  apply (exp_inj (sg_n grp) (sg_g grp) Hp Hg H3) in EP; [|apply N2Z.is_nonneg|apply N2Z.is_nonneg].
  replace (Z.of_N (sg_n grp) - 1)%Z with (Z.of_N (sg_n grp - 1)) in EP by (clear - H3; lia).
  rewrite <- !N2Z.inj_mod in EP. now apply N2Z.inj.
Qed.

(** C77: the same for a recorded answer of the server. *)
Theorem C77_srp_client :
  forall (D : bytes -> bytes) grp user pw salt B m a1 A1 M1 K1 a2 A2 M2 K2,
  usable_group (sg_n grp) (sg_g grp) -> prime (Z.of_N (sg_n grp)) -> generates (sg_n grp) (sg_g grp) -> 3 < sg_n grp ->
  client_accepts D grp a1 user pw salt B m A1 M1 K1 -> client_accepts D grp a2 user pw salt B m A2 M2 K2 ->
  be_val a1 mod (sg_n grp - 1) = be_val a2 mod (sg_n grp - 1) \/
  length A1 <> length A2 \/
  collision D (A1 ++ M1 ++ K1) (A2 ++ M2 ++ K2).
Proof.
  intros D grp user pw salt B m a1 A1 M1 K1 a2 A2 M2 K2 Hu Hp Hg H3 S1 S2.
  pose proof (client_accepts_m2 _ _ _ _ _ _ _ _ _ _ _ Hu S1) as [_ E1].
  pose proof (client_accepts_m2 _ _ _ _ _ _ _ _ _ _ _ Hu S2) as [_ E2].
  destruct S1 as [P1 _], S2 as [P2 _]. pose proof Hu as [N0 _]%usable_iff.
  destruct (Nat.eq_dec (length A1) (length A2)) as [EL|NL]; [|right; left; exact NL].
  destruct (list_eq_dec byte_eq_dec (A1 ++ M1 ++ K1) (A2 ++ M2 ++ K2)) as [E|NE];
    [|right; right; split; [exact NE|now rewrite <- E1]].
  left. apply app_inj_length in E; [|exact EL]. destruct E as [E _].
  rewrite client_public_ok in P1, P2 by exact N0. rewrite <- E in P2.
  assert (EE : enc (sg_g grp ^ be_val a1 mod sg_n grp) = enc (sg_g grp ^ be_val a2 mod sg_n grp)) by congruence.
  apply (f_equal be_val) in EE. unfold enc in EE. rewrite !be_val_to_bytes_be in EE.
  apply (f_equal Z.of_N) in EE. rewrite !pow_mod_Z in EE by exact N0.
  apply (exp_inj (sg_n grp) (sg_g grp) Hp Hg H3) in EE; [|apply N2Z.is_nonneg|apply N2Z.is_nonneg].
  replace (Z.of_N (sg_n grp) - 1)%Z with (Z.of_N (sg_n grp - 1)) in EE by (clear - H3; lia).
  rewrite <- !N2Z.inj_mod in EE. now apply N2Z.inj.
Qed.

(** C77 without the condition on lengths is false: the values are hashed without padding.  In the 16-bit
    group with SHA-256 the client with private key 0x58 logs in to the session with private key 0x04e9; the
    recorded messages are accepted by the session with private key 0xee68, with another key. *)
Definition B77 := get (server_public sha256 grp16 (hex "04e9") v0).
Definition A77 := get (client_public grp16 (hex "58")).
Definition M77 := match client_process_reply sha256 grp16 (hex "58") alice password123 salt0 B77 with
                  | Ok cv => client_proof cv | _ => [] end.

Lemma accepts_by_computation D grp b v A m K :
  match server_public D grp b v, server_process_reply D grp b v A with
  | Ok _, Ok sv => bytes_eqb (server_key sv) K && match verify_client sv m with Ok _ => true | _ => false end
  | _, _ => false
  end = true ->
  server_accepts D grp b v A m (get (server_public D grp b v)) K.
Proof.
  unfold server_accepts. destruct (server_public D grp b v) as [B| |]; intros H; try discriminate H.
  destruct (server_process_reply D grp b v A) as [sv| |] eqn:S; try discriminate H.
  destruct (bytes_eqb (server_key sv) K) eqn:EK; [|discriminate H].
  destruct (verify_client sv m) as [[]| |] eqn:V; try discriminate H.
  split; [reflexivity|]. exists sv. split; [reflexivity|]. split; [apply bytes_eqb_eq; exact EK|exact V].
Qed.

Theorem C77_srp_replay_refuted :
  exists (D : bytes -> bytes) grp user pw salt v a A B1 M b1 b2 cv K1 B2 K2,
    usable_group (sg_n grp) (sg_g grp) /\ safe_prime (sg_n grp) /\ generates (sg_n grp) (sg_g grp) /\
    compute_verifier D grp user pw salt = Ok v /\ client_public grp a = Ok A /\
    client_process_reply D grp a user pw salt B1 = Ok cv /\ client_proof cv = M /\ client_key cv = K1 /\
    server_accepts D grp b1 v A M B1 K1 /\ server_accepts D grp b2 v A M B2 K2 /\
    be_val b1 mod (sg_n grp - 1) <> be_val b2 mod (sg_n grp - 1) /\ K1 <> K2.
Proof.
  exists sha256, grp16, alice, password123, salt0, v0, (hex "58"), A77, B77, M77, (hex "04e9"), (hex "ee68").
  destruct (client_process_reply sha256 grp16 (hex "58") alice password123 salt0 B77) as [cv|e|] eqn:E.
  2:{ exfalso. apply (f_equal (fun r => match r with Ok _ => true | _ => false end)) in E. vm_compute in E. discriminate E. }
  2:{ exfalso. apply (f_equal (fun r => match r with Ok _ => true | _ => false end)) in E. vm_compute in E. discriminate E. }
  exists cv, (hex "f97c"), (get (server_public sha256 grp16 (hex "ee68") v0)), (hex "7c").
  split; [exact grp16_usable|]. split; [exact grp16_safe|]. split; [exact grp16_generates|].
  split; [exact v0_eq|]. split; [run|]. split; [reflexivity|].
  split; [unfold M77; rewrite E; reflexivity|].
  split. { apply (f_equal (fun r => match r with Ok c => client_key c | _ => [] end)) in E.
           cbv beta iota in E. rewrite <- E. vm_compute. reflexivity. }
  split; [apply accepts_by_computation; vm_cast_no_check (eq_refl true)|].
  split; [apply accepts_by_computation; vm_cast_no_check (eq_refl true)|].
  split; [intros H; vm_compute in H; discriminate H|intros H; discriminate H].
Qed.

(** ** C78: the user name *)

(** C78: the client calls itself [user'] and the server takes the verifier of [user] (an attacker changed
    the name in transit).  As in C70, for one value of the scrambling parameter at most two private keys of
    the client are accepted, unless name and password are the same, when the names contain no colon. *)
Theorem C78_srp :
  forall (D : bytes -> bytes) grp h user user' pw pw' salt b v B a1 A1 K1 K1' a2 A2 K2 K2' u,
  usable_group (sg_n grp) (sg_g grp) -> safe_prime (sg_n grp) -> generates (sg_n grp) (sg_g grp) ->
  (forall m, length (D m) = h) -> 256 ^ N.of_nat h <= sg_n grp - 1 ->
  mult D grp <> 0 -> ~ In x3a user -> ~ In x3a user' ->
  compute_verifier D grp user pw salt = Ok v -> server_public D grp b v = Ok B ->
  accepted D grp user' pw' salt b v B a1 A1 K1 K1' -> accepted D grp user' pw' salt b v B a2 A2 K2 K2' ->
  be_val (D (A1 ++ B)) = u -> be_val (D (A2 ++ B)) = u ->
  be_val a1 < sg_n grp - 1 -> be_val a2 < sg_n grp - 1 ->
  let q := (sg_n grp - 1) / 2 in
  (user = user' /\ pw = pw') \/
  collision D (user ++ [x3a] ++ pw) (user' ++ [x3a] ++ pw') \/
  collision D (salt ++ D (user ++ [x3a] ++ pw)) (salt ++ D (user' ++ [x3a] ++ pw')) \/
  collision D (A1 ++ B ++ K1) (A1 ++ B ++ K1') \/ collision D (A2 ++ B ++ K2) (A2 ++ B ++ K2') \/
  (be_val B + sg_g grp ^ be_val b) mod sg_n grp
    = (mult D grp * sg_g grp ^ rfc_x D user' pw' salt) mod sg_n grp \/
  be_val a1 = be_val a2 \/ be_val a1 = be_val a2 + q \/ be_val a2 = be_val a1 + q.
Proof.
  intros D grp h user user' pw pw' salt b v B a1 A1 K1 K1' a2 A2 K2 K2' u Hu Hsp Hg Hh Hs Hk Hc Hc' Hv HB Ac1 Ac2 U1 U2 R1 R2 q.
  destruct (wrong_login D grp h user user' pw pw' salt b v B a1 A1 K1 K1' a2 A2 K2 K2' u Hu Hsp Hg Hh Hs Hk Hv HB
    Ac1 Ac2 U1 U2 R1 R2) as [E|E]; [left|right; exact E].
  exact (split_at_colon _ _ _ _ Hc Hc' E).
Qed.

(** C78 is false for names with a colon: whatever the group, the digest and the names, a client called
    [user:t] with password [pw] logs in as [user] if that user's password is [t:pw]. *)
Theorem C78_srp_refuted :
  forall (D : bytes -> bytes) grp user t pw salt a b,
  usable_group (sg_n grp) (sg_g grp) ->
  exists v A B,
    compute_verifier D grp user (t ++ [x3a] ++ pw) salt = Ok v /\ client_public grp a = Ok A /\ server_public D grp b v = Ok B /\
    user <> user ++ [x3a] ++ t /\
    (be_val A mod sg_n grp <> 0 -> be_val B mod sg_n grp <> 0 ->
     exists cv sv,
       client_process_reply D grp a (user ++ [x3a] ++ t) pw salt B = Ok cv /\ server_process_reply D grp b v A = Ok sv /\
       client_key cv = server_key sv /\ verify_client sv (client_proof cv) = Ok tt /\
       verify_server cv (server_proof sv) = Ok tt).
Proof.
  intros D grp user t pw salt a b Hu.
  destruct (C01_honest_handshake_agrees D grp user (t ++ [x3a] ++ pw) salt a b Hu) as (v & A & B & Hv & HA & HB & H).
  exists v, A, B. split; [exact Hv|]. split; [exact HA|]. split; [exact HB|]. split.
  { intros E. apply (f_equal (@length _)) in E. rewrite !app_length in E. cbn [length] in E. lia. }
  intros NA NB. destruct (H NA NB) as (cv & sv & HC & HS & HK & _ & V1 & V2).
  exists cv, sv. split; [|repeat (split; [assumption|]); assumption].
  rewrite <- HC. unfold client_process_reply, compute_identity_hash. now rewrite <- !app_assoc.
Qed.

(** ** Cases *)

(** C77: in the 16-bit group private keys that differ by a multiple of 65266 give the same session, and the
    recorded login is accepted by both (server keys 0x04e9 and 0x103db). *)
Example C77_srp_case : exists K,
  server_accepts sha256 grp16 (hex "04e9") v0 A77 M77 B77 K /\ server_accepts sha256 grp16 (hex "0103db") v0 A77 M77 B77 K /\
  be_val (hex "04e9") mod (sg_n grp16 - 1) = be_val (hex "0103db") mod (sg_n grp16 - 1).
Proof.
  exists (hex "f97c"). split; [apply accepts_by_computation; vm_cast_no_check (eq_refl true)|].
  split; [|vm_compute; reflexivity].
  replace B77 with (get (server_public sha256 grp16 (hex "0103db") v0)) by (vm_compute; reflexivity).
  apply accepts_by_computation. vm_cast_no_check (eq_refl true).
Qed.
(** ... and is refused by the honest session of C01. *)
Check (test (match server_process_reply sha256 grp16 b0 v0 A77 with
             | Ok sv => match verify_client sv M77 with Ok _ => true | _ => false end | _ => true end) false).
(** C78: against the session of C70_wrong_password_case the client "bob" is accepted with the private key
    0xa99a only. *)
Definition A78 := get (client_public grp16 (hex "a99a")).
Example C78_srp_case :
  ~ In x3a alice /\ ~ In x3a (str "bob") /\
  (exists K K', accepted mod251 grp16 (str "bob") password123 salt0 (hex "02b7") v70 B70 (hex "a99a") A78 K K') /\
  be_val (hex "a99a") < sg_n grp16 - 1 /\
  ~ (alice = str "bob" \/
     collision mod251 (alice ++ [x3a] ++ password123) (str "bob" ++ [x3a] ++ password123) \/
     collision mod251 (salt0 ++ mod251 (alice ++ [x3a] ++ password123))
       (salt0 ++ mod251 (str "bob" ++ [x3a] ++ password123))).
Proof.
  split; [intros H; cbn in H; repeat (destruct H as [H|H]; [discriminate H|]); exact H|].
  split; [intros H; cbn in H; repeat (destruct H as [H|H]; [discriminate H|]); exact H|].
  split; [apply accepted_by_computation; [run|vm_compute; reflexivity]|].
  split; [vm_compute; reflexivity|].
  intros [H|[[_ H]|[_ H]]]; vm_compute in H; discriminate H.
Qed.
(** C78_srp_refuted: "alice:x" with password123 logs in as alice, whose password is "x:password123". *)
Definition vx := get (compute_verifier sha256 grp16 alice (str "x:password123") salt0).
Definition redirected (user : bytes) : bool :=
  match client_process_reply sha256 grp16 a0 user password123 salt0 (get (server_public sha256 grp16 b0 vx)),
        server_process_reply sha256 grp16 b0 vx A0 with
  | Ok cv, Ok sv => match verify_client sv (client_proof cv) with Ok _ => true | _ => false end
  | _, _ => false end.
Check (test (redirected (str "alice:x"), redirected alice, redirected (str "alice:y")) (true, false, false)).
