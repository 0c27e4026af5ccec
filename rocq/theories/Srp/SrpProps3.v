(** * SRP: wrong passwords (C70); a fake server (C71). *)
From Coq Require Import Znumtheory.
From Verif Require Import Base.Bytes Base.Outcome Base.BigUint Base.Kat Base.Hex Hash.Hash.
From Verif Require Import Srp.SrpModel Srp.SrpSpec Srp.SrpProofs Srp.SrpProofs2 Srp.SrpExamples Srp.SrpGenerator
  Srp.SrpWrongPassword.
Local Open Scope N_scope.

(** The multiplier k of a group. *)
Notation mult D grp := (rfc_k D (to_bytes_be (sg_n grp)) (to_bytes_be (sg_g grp))).

(** A client with private key [a] and password [pw] against a server with private key [b] and verifier [v]:
    the server accepts its proof.  [A] and [B] are the public keys, [K] and [K'] the two keys. *)
Definition accepted (D : bytes -> bytes) (grp : SrpGroup) (user pw salt b v B a A K K' : bytes) : Prop :=
  client_public grp a = Ok A /\
  exists cv sv, client_process_reply D grp a user pw salt B = Ok cv /\ server_process_reply D grp b v A = Ok sv /\
    K = client_key cv /\ K' = server_key sv /\ verify_client sv (client_proof cv) = Ok tt.

Lemma safe_prime_big n : safe_prime n -> 3 < n.
Proof.
  intros [_ Hq]. pose proof (prime_ge_2 _ Hq) as H.
  destruct (N.lt_ge_cases 3 n) as [L|L]; [exact L|exfalso].
  assert (E : (n - 1) / 2 <= 2 / 2) by (apply N.div_le_mono; lia). change (2 / 2) with 1 in E.
  revert H E. generalize ((n - 1) / 2). intros. lia.
Qed.

Lemma safe_prime_split n : 3 < n -> prime (Z.of_N n) -> Z.of_N n = (2 * Z.of_N ((n - 1) / 2) + 1)%Z.
Proof.
  intros H3 Hp. destruct (N.Even_or_Odd n) as [[m Em]|[m Em]].
  - exfalso. assert ((2 | Z.of_N n)%Z) as H2 by (exists (Z.of_N m); lia).
    apply prime_divisors in H2; [|exact Hp]. lia.
  - rewrite Em. replace (2 * m + 1 - 1) with (m * 2) by lia. rewrite N.div_mul by lia. lia.
Qed.

(** C70: passwords with equal verifiers (for one user and salt) are equal, or a collision of the digest is
    exhibited.  The digest is shorter than the modulus. *)
Theorem C70_verifier_binding :
  forall (D : bytes -> bytes) grp h user pw pw' salt v,
  prime (Z.of_N (sg_n grp)) -> generates (sg_n grp) (sg_g grp) -> 3 < sg_n grp ->
  (forall m, length (D m) = h) -> 256 ^ N.of_nat h <= sg_n grp - 1 ->
  compute_verifier D grp user pw salt = Ok v -> compute_verifier D grp user pw' salt = Ok v ->
  pw = pw' \/ collision D (user ++ [x3a] ++ pw) (user ++ [x3a] ++ pw') \/
  collision D (salt ++ D (user ++ [x3a] ++ pw)) (salt ++ D (user ++ [x3a] ++ pw')).
Proof.
  intros D grp h user pw pw' salt v Hp Hg H3 Hh Hs Hv Hv'.
  destruct (verifier_binding D grp Hp Hg H3 (fun m => eq_ind_r (fun l => 256 ^ N.of_nat l <= _) Hs (Hh m))
    user user pw pw' salt v (fun m m' => eq_trans (Hh m) (eq_sym (Hh m'))) Hv Hv') as [E|E]; [left|right; exact E].
  now apply app_inv_head, app_inv_head in E.
Qed.
Print Assumptions C70_verifier_binding.

(** One login for two names and two passwords: see C70 and C78. *)
Lemma wrong_login :
  forall (D : bytes -> bytes) grp h user user' pw pw' salt b v B a1 A1 K1 K1' a2 A2 K2 K2' u,
  usable_group (sg_n grp) (sg_g grp) -> safe_prime (sg_n grp) -> generates (sg_n grp) (sg_g grp) ->
  (forall m, length (D m) = h) -> 256 ^ N.of_nat h <= sg_n grp - 1 ->
  mult D grp <> 0 ->
  compute_verifier D grp user pw salt = Ok v -> server_public D grp b v = Ok B ->
  accepted D grp user' pw' salt b v B a1 A1 K1 K1' -> accepted D grp user' pw' salt b v B a2 A2 K2 K2' ->
  be_val (D (A1 ++ B)) = u -> be_val (D (A2 ++ B)) = u ->
  be_val a1 < sg_n grp - 1 -> be_val a2 < sg_n grp - 1 ->
  let q := (sg_n grp - 1) / 2 in
  user ++ [x3a] ++ pw = user' ++ [x3a] ++ pw' \/
  collision D (user ++ [x3a] ++ pw) (user' ++ [x3a] ++ pw') \/
  collision D (salt ++ D (user ++ [x3a] ++ pw)) (salt ++ D (user' ++ [x3a] ++ pw')) \/
  collision D (A1 ++ B ++ K1) (A1 ++ B ++ K1') \/ collision D (A2 ++ B ++ K2) (A2 ++ B ++ K2') \/
  (be_val B + sg_g grp ^ be_val b) mod sg_n grp
    = (mult D grp * sg_g grp ^ rfc_x D user' pw' salt) mod sg_n grp \/
  be_val a1 = be_val a2 \/ be_val a1 = be_val a2 + q \/ be_val a2 = be_val a1 + q.
Proof.
  intros D grp h user user' pw pw' salt b v B a1 A1 K1 K1' a2 A2 K2 K2' u Hu Hsp Hg Hh Hs Hk Hv HB
    (HA1 & cv1 & sv1 & C1 & S1 & E1 & E1' & V1) (HA2 & cv2 & sv2 & C2 & S2 & E2 & E2' & V2) U1 U2 R1 R2 q.
  pose proof (safe_prime_big _ Hsp) as H3. destruct Hsp as [Hp Hq].
  assert (Dsmall : forall m, 256 ^ N.of_nat (length (D m)) <= sg_n grp - 1) by (intros m; rewrite Hh; exact Hs).
  (* equal keys, or a collision *)
  destruct (accepted_client_same_key D grp a1 user' pw' salt B b v A1 cv1 sv1 A1 B C1 HA1 S1 HB eq_refl eq_refl V1)
    as [EK1|EC]; [|right; right; right; left; subst K1 K1'; exact EC].
  destruct (accepted_client_same_key D grp a2 user' pw' salt B b v A2 cv2 sv2 A2 B C2 HA2 S2 HB eq_refl eq_refl V2)
    as [EK2|EC]; [|right; right; right; right; left; subst K2 K2'; exact EC].
  pose proof (equal_keys D grp H3 Dsmall Hu user user' pw pw' salt a1 b v A1 B cv1 sv1 Hv HB HA1 C1 S1 EK1) as Q1.
  pose proof (equal_keys D grp H3 Dsmall Hu user user' pw pw' salt a2 b v A2 B cv2 sv2 Hv HB HA2 C2 S2 EK2) as Q2.
  cbv zeta in Q1, Q2. rewrite U1 in Q1. rewrite U2 in Q2.
  (* equal scalars, or different ones *)
  destruct (N.eq_dec (rfc_x D user pw salt) (rfc_x D user' pw' salt)) as [Ex|Nx].
  { apply x_binding in Ex; [|intros m m'; now rewrite !Hh].
    destruct Ex as [Ex|[Ex|Ex]]; [left; exact Ex|right; left; exact Ex|right; right; left; exact Ex]. }
  do 5 right.
  destruct (N.eq_dec ((be_val B + sg_g grp ^ be_val b) mod sg_n grp)
              ((mult D grp * sg_g grp ^ rfc_x D user' pw' salt) mod sg_n grp)) as [EB|NB]; [left; exact EB|right].
  assert (N0 : sg_n grp <> 0) by lia.
  assert (P0 : (0 < Z.of_N (sg_n grp))%Z) by lia.
  assert (Hpq : Z.of_N (sg_n grp) = (2 * Z.of_N q + 1)%Z).
  { exact (safe_prime_split _ H3 Hp). }
  assert (HQ : (Z.of_N q | Z.of_N (be_val a1) - Z.of_N (be_val a2))%Z).
  { refine (coincidences (sg_n grp) (sg_g grp) Hp Hg H3 (Z.of_N q) Hq Hpq _ _ _ _ _ _
      (N2Z.is_nonneg _) _ _ (N2Z.is_nonneg _) (N2Z.is_nonneg _) _ _ Q1 Q2).
    - apply Z.mul_nonneg_nonneg; apply N2Z.is_nonneg.
    - apply Z.mul_nonneg_nonneg; apply N2Z.is_nonneg.
    - (* the client's base is not g^b *)
      intros E. apply Nx.
      rewrite compute_verifier_ok in Hv by exact N0. injection Hv as <-.
      rewrite server_public_ok in HB by exact Hu. injection HB as <-.
      unfold enc in E. rewrite !be_val_to_bytes_be in E. unfold srp_B in E.
      set (kk := mult D grp) in *. set (x := rfc_x D user pw salt) in *. set (x' := rfc_x D user' pw' salt) in *.
      rewrite N2Z.inj_mod, N2Z.inj_add, N2Z.inj_mul, pow_mod_Z in E by exact N0.
      rewrite N2Z.inj_pow in E.
      assert (X : (x < sg_n grp - 1) /\ (x' < sg_n grp - 1)) by (split; apply x_small; exact Dsmall).
      assert (KK : 0 < kk < sg_n grp).
      { unfold kk, rfc_k. split; [apply N.neq_0_lt_0; exact Hk|].
        match goal with |- be_val (D ?m) < _ => pose proof (be_val_bound (D m)) as Hb; specialize (Dsmall m);
          revert Hb Dsmall; generalize (be_val (D m)) (256 ^ N.of_nat (length (D m))) end.
        clear - H3. generalize (sg_n grp). intros. lia. }
      apply (powers_equal grp Hp Hg H3); [apply X|apply X|]. apply N2Z.inj. rewrite !pow_mod_Z by exact N0.
      refine (base_not_gb _ (Z.of_N kk) _ _ _ Hp _ E). clear - KK. lia.
    - intros E. apply NB. apply N2Z.inj. rewrite !N2Z.inj_mod, N2Z.inj_add, N2Z.inj_mul, !N2Z.inj_pow.
      exact (base_not_minus_gb _ _ _ _ P0 E). }
  destruct HQ as [m Hm].
  assert (HM : (m = -1 \/ m = 0 \/ m = 1)%Z).
  { clear - Hm Hpq R1 R2 H3. revert Hm Hpq R1 R2. generalize (be_val a1) (be_val a2) q. intros. nia. }
  clear - Hm HM. revert Hm. generalize (be_val a1) (be_val a2) q. intros. destruct HM as [-> | [-> | ->]]; lia.
Qed.

(** C70: fix everything but the client's private key: a server with the verifier of [pw] and a client with
    another password.  For one value of the scrambling parameter at most two of the [n - 1] private keys are
    accepted, and they differ by [(n - 1) / 2]; or a collision of the digest is exhibited; or the
    server's private key is the one with [B + g^b = k * g^x'] (C70_exception_unique). *)
Theorem C70_wrong_password :
  forall (D : bytes -> bytes) grp h user pw pw' salt b v B a1 A1 K1 K1' a2 A2 K2 K2' u,
  usable_group (sg_n grp) (sg_g grp) -> safe_prime (sg_n grp) -> generates (sg_n grp) (sg_g grp) ->
  (forall m, length (D m) = h) -> 256 ^ N.of_nat h <= sg_n grp - 1 ->
  mult D grp <> 0 ->
  compute_verifier D grp user pw salt = Ok v -> server_public D grp b v = Ok B ->
  accepted D grp user pw' salt b v B a1 A1 K1 K1' -> accepted D grp user pw' salt b v B a2 A2 K2 K2' ->
  be_val (D (A1 ++ B)) = u -> be_val (D (A2 ++ B)) = u ->
  be_val a1 < sg_n grp - 1 -> be_val a2 < sg_n grp - 1 ->
  let q := (sg_n grp - 1) / 2 in
  pw = pw' \/
  collision D (user ++ [x3a] ++ pw) (user ++ [x3a] ++ pw') \/
  collision D (salt ++ D (user ++ [x3a] ++ pw)) (salt ++ D (user ++ [x3a] ++ pw')) \/
  collision D (A1 ++ B ++ K1) (A1 ++ B ++ K1') \/ collision D (A2 ++ B ++ K2) (A2 ++ B ++ K2') \/
  (be_val B + sg_g grp ^ be_val b) mod sg_n grp
    = (mult D grp * sg_g grp ^ rfc_x D user pw' salt) mod sg_n grp \/
  be_val a1 = be_val a2 \/ be_val a1 = be_val a2 + q \/ be_val a2 = be_val a1 + q.
Proof.
  intros D grp h user pw pw' salt b v B a1 A1 K1 K1' a2 A2 K2 K2' u Hu Hsp Hg Hh Hs Hk Hv HB Ac1 Ac2 U1 U2 R1 R2 q.
  destruct (wrong_login D grp h user user pw pw' salt b v B a1 A1 K1 K1' a2 A2 K2 K2' u Hu Hsp Hg Hh Hs Hk Hv HB
    Ac1 Ac2 U1 U2 R1 R2) as [E|E]; [left|right; exact E].
  now apply app_inv_head, app_inv_head in E.
Qed.
Print Assumptions C70_wrong_password.

(** ... and for given passwords only one private key of the server, below [n - 1], is exceptional. *)
Theorem C70_exception_unique :
  forall (D : bytes -> bytes) grp user pw pw' salt v b B b' B',
  usable_group (sg_n grp) (sg_g grp) -> prime (Z.of_N (sg_n grp)) -> generates (sg_n grp) (sg_g grp) -> 3 < sg_n grp ->
  compute_verifier D grp user pw salt = Ok v ->
  server_public D grp b v = Ok B -> server_public D grp b' v = Ok B' ->
  be_val b < sg_n grp - 1 -> be_val b' < sg_n grp - 1 ->
  (be_val B + sg_g grp ^ be_val b) mod sg_n grp
    = (mult D grp * sg_g grp ^ rfc_x D user pw' salt) mod sg_n grp ->
  (be_val B' + sg_g grp ^ be_val b') mod sg_n grp
    = (mult D grp * sg_g grp ^ rfc_x D user pw' salt) mod sg_n grp ->
  be_val b = be_val b'.
Proof.
  intros D grp user pw pw' salt v b B b' B' Hu Hp Hg H3 Hv HB HB' Hb Hb' E E'.
  assert (N0 : sg_n grp <> 0) by lia.
  apply (powers_equal grp Hp Hg H3); [exact Hb|exact Hb'|].
  rewrite server_public_ok in HB by exact Hu. injection HB as <-.
  rewrite server_public_ok in HB' by exact Hu. injection HB' as <-.
  unfold enc in E, E'. rewrite be_val_to_bytes_be in E, E'. unfold srp_B in E, E'.
  apply N2Z.inj. rewrite !N2Z.inj_mod. rewrite <- E' in E. apply (f_equal Z.of_N) in E.
  rewrite !N2Z.inj_mod, !N2Z.inj_add, !N2Z.inj_mod, !N2Z.inj_add in E.
  revert E. generalize (Z.of_N (mult D grp * be_val v)) (Z.of_N (sg_g grp ^ be_val b)) (Z.of_N (sg_g grp ^ be_val b')).
  clear - Hp H3. revert Hp H3. generalize (sg_n grp). intros n Hp H3 c y y' E.
  assert (P0 : (0 < Z.of_N n)%Z) by lia.
  rewrite !Zplus_mod_idemp_l in E. apply (mod_eq_divide _ _ _ P0) in E. apply (mod_eq_divide _ _ _ P0).
  replace (c + y + y - (c + y' + y'))%Z with (2 * (y - y'))%Z in E by ring.
  apply (prime_mult _ Hp) in E. destruct E as [E|E]; [exfalso|exact E].
  apply Z.divide_pos_le in E; lia.
Qed.
Print Assumptions C70_exception_unique.

(** The hypotheses of C70_wrong_password are met: the digest [mod251] of one byte, the 16-bit group and two
    passwords.  The server's private key 0x02b7 and the scrambling parameter 1 leave two private keys of the
    client, 0x24a8 and 0xa421, and they differ by (n - 1) / 2. *)
Definition mod251 (m : bytes) : bytes := [n2b (le_val m mod 251)].
Definition v70 := get (compute_verifier mod251 grp16 alice password123 salt0).
Definition B70 := get (server_public mod251 grp16 (hex "02b7") v70).
Definition A70 := get (client_public grp16 (hex "24a8")).
Definition A70' := get (client_public grp16 (hex "a421")).

Lemma accepted_by_computation D grp user pw salt b v B a A :
  client_public grp a = Ok A ->
  match client_process_reply D grp a user pw salt B, server_process_reply D grp b v A with
  | Ok cv, Ok sv => match verify_client sv (client_proof cv) with Ok _ => true | _ => false end
  | _, _ => false
  end = true ->
  exists K K', accepted D grp user pw salt b v B a A K K'.
Proof.
  intros HA H. destruct (client_process_reply D grp a user pw salt B) as [cv| |] eqn:C; try discriminate H.
  destruct (server_process_reply D grp b v A) as [sv| |] eqn:S; try discriminate H.
  destruct (verify_client sv (client_proof cv)) as [[]| |] eqn:V; try discriminate H.
  exists (client_key cv), (server_key sv). split; [exact HA|]. exists cv, sv. repeat split; assumption.
Qed.

Example C70_wrong_password_case :
  usable_group (sg_n grp16) (sg_g grp16) /\ safe_prime (sg_n grp16) /\ generates (sg_n grp16) (sg_g grp16) /\
  (forall m, length (mod251 m) = 1%nat) /\ 256 ^ N.of_nat 1 <= sg_n grp16 - 1 /\ mult mod251 grp16 <> 0 /\
  compute_verifier mod251 grp16 alice password123 salt0 = Ok v70 /\
  server_public mod251 grp16 (hex "02b7") v70 = Ok B70 /\
  (exists K K', accepted mod251 grp16 alice (str "password124") salt0 (hex "02b7") v70 B70 (hex "24a8") A70 K K') /\
  (exists K K', accepted mod251 grp16 alice (str "password124") salt0 (hex "02b7") v70 B70 (hex "a421") A70' K K') /\
  be_val (mod251 (A70 ++ B70)) = 1 /\ be_val (mod251 (A70' ++ B70)) = 1 /\
  be_val (hex "24a8") < sg_n grp16 - 1 /\ be_val (hex "a421") < sg_n grp16 - 1 /\
  ~ (password123 = str "password124" \/
     collision mod251 (alice ++ [x3a] ++ password123) (alice ++ [x3a] ++ str "password124") \/
     collision mod251 (salt0 ++ mod251 (alice ++ [x3a] ++ password123))
       (salt0 ++ mod251 (alice ++ [x3a] ++ str "password124"))) /\
  be_val (hex "a421") = be_val (hex "24a8") + (sg_n grp16 - 1) / 2.
Proof.
  split; [exact grp16_usable|]. split; [exact grp16_safe|]. split; [exact grp16_generates|].
  split; [intros m; reflexivity|]. split; [intros H; discriminate H|].
  split; [intros H; vm_compute in H; discriminate H|].
  split; [run|]. split; [run|].
  split; [apply accepted_by_computation; [run|vm_compute; reflexivity]|].
  split; [apply accepted_by_computation; [run|vm_compute; reflexivity]|].
  split; [vm_compute; reflexivity|]. split; [vm_compute; reflexivity|].
  split; [vm_compute; reflexivity|]. split; [vm_compute; reflexivity|].
  split; [|vm_compute; reflexivity].
  intros [H|[[_ H]|[_ H]]]; vm_compute in H; discriminate H.
Qed.

(** The exceptional private key of the server exists for these passwords: 0x0dc9. *)
Example C70_exception_case : exists v B,
  compute_verifier mod251 grp16 alice password123 salt0 = Ok v /\ server_public mod251 grp16 (hex "0dc9") v = Ok B /\
  be_val (hex "0dc9") < sg_n grp16 - 1 /\
  (be_val B + sg_g grp16 ^ be_val (hex "0dc9")) mod sg_n grp16
    = (mult mod251 grp16 * sg_g grp16 ^ rfc_x mod251 alice (str "password124") salt0) mod sg_n grp16.
Proof.
  exists v70, (get (server_public mod251 grp16 (hex "0dc9") v70)).
  split; [run|]. split; [run|]. split; [vm_compute; reflexivity|]. vm_compute. reflexivity.
Qed.

(** C70_verifier_binding: two passwords with equal verifiers, by a collision of [mod251]. *)
Example C70_verifier_binding_case :
  compute_verifier mod251 grp16 alice (str "blue staple") salt0 = compute_verifier mod251 grp16 alice (str "small mountain") salt0 /\
  (str "blue staple") <> (str "small mountain") /\ collision mod251 (alice ++ [x3a] ++ (str "blue staple")) (alice ++ [x3a] ++ (str "small mountain")).
Proof.
  split; [vm_compute; reflexivity|]. split; [intros H; discriminate H|].
  split; [intros H; discriminate H|vm_compute; reflexivity].
Qed.

(** ** C71: a fake server *)

(** C71: whoever knows a discrete logarithm of k can, with one public key [B], pose as the server to clients
    with either of two passwords: to both the server's functions, with one private key each, compute the key
    of the client and accept its proof.  So one session tests two passwords. *)
Theorem C71_trapdoor :
  forall (D : bytes -> bytes) grp (log_k : N) user pw1 pw2 salt,
  usable_group (sg_n grp) (sg_g grp) ->
  sg_g grp ^ log_k mod sg_n grp = mult D grp mod sg_n grp ->
  exists b1 v1 b2 v2 B,
    compute_verifier D grp user pw1 salt = Ok v1 /\ compute_verifier D grp user pw2 salt = Ok v2 /\
    be_val b1 = log_k + rfc_x D user pw2 salt /\ be_val b2 = log_k + rfc_x D user pw1 salt /\
    server_public D grp b1 v1 = Ok B /\ server_public D grp b2 v2 = Ok B /\
    forall a A, client_public grp a = Ok A -> be_val A mod sg_n grp <> 0 -> be_val B mod sg_n grp <> 0 ->
    forall pw b v, (pw, b, v) = (pw1, b1, v1) \/ (pw, b, v) = (pw2, b2, v2) ->
    exists cv sv, client_process_reply D grp a user pw salt B = Ok cv /\ server_process_reply D grp b v A = Ok sv /\
      client_key cv = server_key sv /\ verify_client sv (client_proof cv) = Ok tt /\
      verify_server cv (server_proof sv) = Ok tt.
Proof.
  intros D grp lk user pw1 pw2 salt Hu Hk. pose proof Hu as [N0 _]%usable_iff.
  set (x1 := rfc_x D user pw1 salt). set (x2 := rfc_x D user pw2 salt).
  assert (G : forall y y', srp_B (sg_n grp) (sg_g grp) (mult D grp) (sg_g grp ^ y mod sg_n grp) (lk + y')
            = (mult D grp * (sg_g grp ^ y + sg_g grp ^ y')) mod sg_n grp).
  { intros y y'. unfold srp_B. rewrite N.pow_add_r. revert Hk.
    generalize (sg_g grp ^ lk) (sg_g grp ^ y) (sg_g grp ^ y') (mult D grp). clear - N0. intros K Y Y' k Hk.
    rewrite N.mul_add_distr_l. rewrite N.add_mod by exact N0. rewrite N.mul_mod_idemp_r by exact N0.
    rewrite (N.mul_mod K) by exact N0. rewrite Hk. rewrite <- N.mul_mod by exact N0.
    symmetry. apply N.add_mod. exact N0. }
  set (b1 := to_bytes_be (lk + x2)). set (b2 := to_bytes_be (lk + x1)).
  assert (V1 : be_val b1 = lk + x2) by apply be_val_to_bytes_be.
  assert (V2 : be_val b2 = lk + x1) by apply be_val_to_bytes_be.
  set (B := to_bytes_be ((mult D grp * (sg_g grp ^ x1 + sg_g grp ^ x2)) mod sg_n grp)).
  exists b1, (to_bytes_be (sg_g grp ^ x1 mod sg_n grp)), b2, (to_bytes_be (sg_g grp ^ x2 mod sg_n grp)), B.
  assert (C1 : compute_verifier D grp user pw1 salt = Ok (to_bytes_be (sg_g grp ^ x1 mod sg_n grp)))
    by (apply compute_verifier_ok; exact N0).
  assert (C2 : compute_verifier D grp user pw2 salt = Ok (to_bytes_be (sg_g grp ^ x2 mod sg_n grp)))
    by (apply compute_verifier_ok; exact N0).
  assert (S1 : server_public D grp b1 (to_bytes_be (sg_g grp ^ x1 mod sg_n grp)) = Ok B).
  { rewrite server_public_ok by exact Hu. unfold enc. rewrite be_val_to_bytes_be, V1, G. reflexivity. }
  assert (S2 : server_public D grp b2 (to_bytes_be (sg_g grp ^ x2 mod sg_n grp)) = Ok B).
  { rewrite server_public_ok by exact Hu. unfold enc. rewrite be_val_to_bytes_be, V2, G. unfold B.
    now rewrite (N.add_comm (sg_g grp ^ x2)). }
  do 2 (split; [assumption|]). do 2 (split; [assumption|]). do 2 (split; [assumption|]).
  intros a A HA NA NB.
  assert (H : forall pw b v, compute_verifier D grp user pw salt = Ok v -> server_public D grp b v = Ok B ->
    exists cv sv, client_process_reply D grp a user pw salt B = Ok cv /\ server_process_reply D grp b v A = Ok sv /\
      client_key cv = server_key sv /\ verify_client sv (client_proof cv) = Ok tt /\
      verify_server cv (server_proof sv) = Ok tt).
  { intros pw b v Hv HB. destruct (honest_handshake D grp user pw salt a b Hu) as (v' & A' & B' & Ev & EA & EB & HH).
    rewrite Hv in Ev. injection Ev as <-. rewrite HA in EA. injection EA as <-. rewrite HB in EB. injection EB as <-.
    destruct (HH NA NB) as (cv & sv & X1 & X2 & X3 & _ & X4 & X5). exists cv, sv. repeat split; assumption. }
  intros pw b v [E|E]; injection E as -> -> ->; apply H; assumption.
Qed.
Print Assumptions C71_trapdoor.

(** With SHA-256 and the 16-bit group the multiplier is 57119 = 2^24780. *)
Example C71_trapdoor_case :
  usable_group (sg_n grp16) (sg_g grp16) /\ sg_g grp16 ^ 24780 mod sg_n grp16 = mult sha256 grp16 mod sg_n grp16 /\
  mult sha256 grp16 mod sg_n grp16 = 57119 /\
  (exists A, client_public grp16 a0 = Ok A /\ be_val A mod sg_n grp16 <> 0) /\
  (exists v B, compute_verifier sha256 grp16 alice password123 salt0 = Ok v /\
     server_public sha256 grp16 (to_bytes_be (24780 + rfc_x sha256 alice (str "password124") salt0)) v = Ok B /\
     be_val B mod sg_n grp16 <> 0).
Proof.
  split; [exact grp16_usable|]. split; [vm_compute; reflexivity|]. split; [vm_compute; reflexivity|].
  split.
  - exists A0. split; [exact A0_eq|]. intros H. vm_compute in H. discriminate H.
  - exists v0, (get (server_public sha256 grp16 (to_bytes_be (24780 + rfc_x sha256 alice (str "password124") salt0)) v0)).
    split; [exact v0_eq|]. split; [run|]. intros H. vm_compute in H. discriminate H.
Qed.
