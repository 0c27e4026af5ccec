(** * SRP: a recorded session after the password has leaked (C84). *)
From Coq Require Import ZArith Lia Znumtheory Zpow_facts.
From Verif Require Import Base.Bytes Base.Outcome Base.BigUint Base.Hex Hash.Hash Curve.NumTheory.
From Verif Require Import Srp.SrpModel Srp.SrpSpec Srp.SrpProofs Srp.SrpProofs2
  Srp.SrpExamples Srp.SrpGenerator Srp.SrpWrongPassword Srp.SrpProps Srp.SrpProps3.

Section Numbers.
Local Open Scope Z_scope.
Context (p : Z) (Hp : prime p).

Lemma p_pos : 0 < p.
Proof. pose proof (prime_ge_2 p Hp). lia. Qed.

(** The server's value, with an honest client. *)
Lemma honest_value g a x u b : 0 <= a -> 0 <= x -> 0 <= u -> 0 <= b ->
  ((g ^ a mod p) * (g ^ x mod p) ^ u) ^ b mod p = (g ^ (a * b) * (g ^ b mod p) ^ (u * x)) mod p.
Proof.
  intros Ha Hx Hu Hb. pose proof p_pos as P0.
  assert (PM : forall c e, (c mod p) ^ e mod p = c ^ e mod p) by (intros c e; symmetry; now apply Zpower_mod).
  assert (B1 : ((g ^ a mod p) * (g ^ x mod p) ^ u) mod p = (g ^ a * (g ^ x) ^ u) mod p)
    by (rewrite Zmult_mod, Zmod_mod, PM, <- Zmult_mod; reflexivity).
  assert (B2 : (g ^ (a * b) * (g ^ b mod p) ^ (u * x)) mod p = (g ^ (a * b) * (g ^ b) ^ (u * x)) mod p)
    by (rewrite Zmult_mod, PM, <- Zmult_mod; reflexivity).
  rewrite B2, <- (PM (g ^ a mod p * _)), B1, PM. f_equal.
  rewrite Z.pow_mul_l, <- !Z.pow_mul_r by (try apply Z.mul_nonneg_nonneg; assumption).
  f_equal. f_equal. ring.
Qed.

Lemma power_unit c e : ~ (p | c) -> 0 <= e -> ~ (p | c ^ e).
Proof.
  intros Hc He. pose proof (prime_ge_2 p Hp). revert e He. apply natlike_ind.
  - rewrite Z.pow_0_r. intros Hd. apply Z.divide_1_r in Hd. lia.
  - intros e He IH Hd. rewrite Z.pow_succ_r in Hd by exact He. apply (prime_mult p Hp) in Hd. tauto.
Qed.

(** Dividing by a power. *)
Lemma power_inverse c e : ~ (p | c) -> 0 <= e -> (c ^ e * c ^ (e * (p - 2))) mod p = 1.
Proof.
  intros Hc He. pose proof (prime_ge_2 p Hp). rewrite <- Z.pow_add_r by (try apply Z.mul_nonneg_nonneg; lia).
  replace (e + e * (p - 2)) with (e * (p - 1)) by ring. rewrite Z.pow_mul_r by lia. apply fermat; [exact Hp|]. now apply power_unit.
Qed.

Lemma divides_out f y c e : ~ (p | c) -> 0 <= e ->
  f mod p = (y * c ^ e) mod p <-> (f * c ^ (e * (p - 2))) mod p = y mod p.
Proof.
  intros Hc He. pose proof p_pos as P0. pose proof (power_inverse c e Hc He) as I. split; intros H.
  - rewrite <- Zmult_mod_idemp_l, H, Zmult_mod_idemp_l, <- Z.mul_assoc, <- Zmult_mod_idemp_r, I, Z.mul_1_r. reflexivity.
  - rewrite <- Zmult_mod_idemp_l, <- H, Zmult_mod_idemp_l, <- Z.mul_assoc, (Z.mul_comm (c ^ (e * (p - 2)))),
      <- Zmult_mod_idemp_r, I, Z.mul_1_r. reflexivity.
Qed.
End Numbers.

Local Open Scope N_scope.

(** [F] makes of the two public keys of a session a number, hoped to be its key.  From it a Diffie-Hellman solver
    in the group of the numbers below [n], with the password's [x]: mask the second number with the verifier, ask
    [F], and divide by a power of the second number. *)
Definition solver_of (D : bytes -> bytes) (grp : SrpGroup) (x : N) (F : bytes -> bytes -> N) (P Q : N) : N :=
  let A := to_bytes_be P in
  let B := to_bytes_be ((mult D grp * (sg_g grp ^ x mod sg_n grp) + Q) mod sg_n grp) in
  (F A B * Q ^ (be_val (D (A ++ B)) * x * (sg_n grp - 2))) mod sg_n grp.

(** ** C84: whoever has recorded both public keys of a session and knows the password, and finds the key, solves
    Diffie-Hellman for the two private keys, and the other way round; no collisions are involved, as the key is
    not hashed (C14). *)
Theorem C84_srp :
  forall (D : bytes -> bytes) grp user pw salt v a b A B sv (F : bytes -> bytes -> N),
  usable_group (sg_n grp) (sg_g grp) -> prime (Z.of_N (sg_n grp)) -> sg_g grp mod sg_n grp <> 0 ->
  compute_verifier D grp user pw salt = Ok v -> client_public grp a = Ok A -> server_public D grp b v = Ok B ->
  server_process_reply D grp b v A = Ok sv ->
  F A B mod sg_n grp = be_val (server_key sv) <->
  solver_of D grp (rfc_x D user pw salt) F (sg_g grp ^ be_val a mod sg_n grp) (sg_g grp ^ be_val b mod sg_n grp) =
    sg_g grp ^ (be_val a * be_val b) mod sg_n grp.
Proof.
  intros D grp user pw salt v a b A B sv F Hu Hp Hg Hv HA HB Hs. pose proof Hu as [N0 _].
  assert (HA0 : be_val A mod sg_n grp <> 0).
  { intros E. rewrite server_process_reply_err in Hs by assumption. discriminate Hs. }
  rewrite compute_verifier_ok in Hv by exact N0. injection Hv as <-.
  rewrite client_public_ok in HA by exact N0. injection HA as EA. unfold enc in EA.
  rewrite server_public_ok in HB by exact Hu. injection HB as EB. unfold enc in EB.
  destruct (server_process_reply_ok D grp b (enc (sg_g grp ^ rfc_x D user pw salt mod sg_n grp)) A Hu HA0) as (S & ES & RS). rewrite RS in Hs. injection Hs as <-. clear RS.
  unfold server_key, enc. cbn [sv_key]. rewrite be_val_to_bytes_be.
  unfold solver_of. set (x := rfc_x D user pw salt) in *.
  unfold srp_B in EB. unfold enc in EB. rewrite be_val_to_bytes_be in EB.
  rewrite (N.add_mod_idemp_r _ (sg_g grp ^ be_val b)) by exact N0. rewrite EA, EB.
  unfold srp_server_S in ES. unfold srp_B, enc in ES. rewrite be_val_to_bytes_be, EB in ES.
  rewrite <- EA, be_val_to_bytes_be in ES. rewrite EA in ES.
  set (u := be_val (D (A ++ B))) in *. clearbody u x. clear EA EB HA0. generalize (F A B). intros f.
  rewrite !N2Z.inj_mod, !N2Z.inj_pow in ES.
  rewrite (honest_value _ Hp) in ES by apply N2Z.is_nonneg.
  assert (Hc : ~ (Z.of_N (sg_n grp) | Z.of_N (sg_g grp) ^ Z.of_N (be_val b) mod Z.of_N (sg_n grp))%Z).
  { intros Hd. apply Z.mod_divide in Hd; [|lia]. rewrite Zmod_mod in Hd. apply Z.mod_divide in Hd; [|lia].
    apply (power_unit _ Hp) in Hd; [exact Hd| |apply N2Z.is_nonneg].
    intros Hd'. apply Hg. apply N2Z.inj. rewrite N2Z.inj_mod. apply Zdivide_mod. exact Hd'. }
  pose proof (divides_out _ Hp (Z.of_N f) (Z.of_N (sg_g grp) ^ (Z.of_N (be_val a) * Z.of_N (be_val b))) _
    (Z.of_N u * Z.of_N x) Hc (Z.mul_nonneg_nonneg _ _ (N2Z.is_nonneg u) (N2Z.is_nonneg x))) as H.
  rewrite <- ES in H. clear ES Hc.
  pose proof (prime_ge_2 _ Hp) as H2.
  rewrite <- !N2Z.inj_mul, <- !N2Z.inj_pow, <- !N2Z.inj_mod in H.
  replace (Z.of_N (sg_n grp) - 2)%Z with (Z.of_N (sg_n grp - 2)) in H by lia.
  rewrite <- !N2Z.inj_mul, <- !N2Z.inj_pow, <- !N2Z.inj_mul, <- !N2Z.inj_mod in H.
  split; intros E.
  - apply N2Z.inj. apply H. now rewrite E.
  - apply N2Z.inj. apply H. now rewrite E.
Qed.
Print Assumptions C84_srp.

(** Back: from a solver the key, given the password's verifier [v] and its [x]. *)
Definition attack_of (D : bytes -> bytes) (grp : SrpGroup) (x : N) (S : N -> N -> N) (A B : bytes) : N :=
  let n := sg_n grp in
  let Q := (be_val B + (n - (mult D grp * (sg_g grp ^ x mod n)) mod n)) mod n in
  (S (be_val A) Q * Q ^ (be_val (D (A ++ B)) * x)) mod n.

Lemma unmask n c q : n <> 0 -> ((c + q) mod n + (n - c mod n)) mod n = q mod n.
Proof.
  intros Hn. rewrite N.add_mod_idemp_l by exact Hn. pose proof (N.mod_lt c n Hn) as L.
  pose proof (N.div_mod c n Hn) as E.
  replace (c + q + (n - c mod n)) with (q + (c / n + 1) * n) by lia. now apply N.mod_add.
Qed.

Theorem C84_srp_converse :
  forall (D : bytes -> bytes) grp user pw salt v a b A B sv (S : N -> N -> N),
  usable_group (sg_n grp) (sg_g grp) -> prime (Z.of_N (sg_n grp)) ->
  compute_verifier D grp user pw salt = Ok v -> client_public grp a = Ok A -> server_public D grp b v = Ok B ->
  server_process_reply D grp b v A = Ok sv ->
  S (sg_g grp ^ be_val a mod sg_n grp) (sg_g grp ^ be_val b mod sg_n grp) = sg_g grp ^ (be_val a * be_val b) mod sg_n grp ->
  attack_of D grp (rfc_x D user pw salt) S A B = be_val (server_key sv).
Proof.
  intros D grp user pw salt v a b A B sv S Hu Hp Hv HA HB Hs HS. pose proof Hu as [N0 _].
  assert (HA0 : be_val A mod sg_n grp <> 0).
  { intros E. rewrite server_process_reply_err in Hs by assumption. discriminate Hs. }
  rewrite compute_verifier_ok in Hv by exact N0. injection Hv as <-.
  rewrite client_public_ok in HA by exact N0. injection HA as EA. unfold enc in EA.
  rewrite server_public_ok in HB by exact Hu. injection HB as EB. unfold enc in EB.
  destruct (server_process_reply_ok D grp b (enc (sg_g grp ^ rfc_x D user pw salt mod sg_n grp)) A Hu HA0) as (K & ES & RS).
  rewrite RS in Hs. injection Hs as <-. clear RS.
  unfold server_key, enc. cbn [sv_key]. rewrite be_val_to_bytes_be.
  unfold attack_of. cbv zeta. set (x := rfc_x D user pw salt) in *.
  unfold srp_B in EB. rewrite be_val_to_bytes_be in EB.
  assert (EQ : (be_val B + (sg_n grp - (mult D grp * (sg_g grp ^ x mod sg_n grp)) mod sg_n grp)) mod sg_n grp
    = sg_g grp ^ be_val b mod sg_n grp).
  { rewrite <- EB, be_val_to_bytes_be. now apply unmask. }
  rewrite EQ. clear EQ. rewrite <- EA at 1. rewrite be_val_to_bytes_be, HS.
  unfold srp_server_S in ES. unfold srp_B, enc in ES. rewrite be_val_to_bytes_be, EB in ES.
  rewrite <- EA, be_val_to_bytes_be in ES. rewrite EA in ES.
  set (u := be_val (D (A ++ B))) in *. clearbody u x. clear EA EB HA0 HS.
  rewrite !N2Z.inj_mod, !N2Z.inj_pow in ES.
  rewrite (honest_value _ Hp) in ES by apply N2Z.is_nonneg.
  rewrite <- !N2Z.inj_mul, <- !N2Z.inj_pow, <- !N2Z.inj_mod, <- N2Z.inj_pow, <- N2Z.inj_mul, <- N2Z.inj_mod in ES.
  apply N2Z.inj. rewrite ES. f_equal. now apply N.mul_mod_idemp_l.
Qed.
Print Assumptions C84_srp_converse.

(** A case: a handshake in the 16-bit group; and the attacker that knows the server's private key, a solver that is
    right in every group. *)
Example C84_srp_case :
  usable_group (sg_n grp16) (sg_g grp16) /\ prime (Z.of_N (sg_n grp16)) /\ sg_g grp16 mod sg_n grp16 <> 0 /\
  compute_verifier sha256 grp16 alice password123 salt0 = Ok v0 /\ client_public grp16 a0 = Ok A0 /\
  server_public sha256 grp16 b0 v0 = Ok B0 /\ exists sv, server_process_reply sha256 grp16 b0 v0 A0 = Ok sv.
Proof.
  split; [exact grp16_usable|]. split; [exact (proj1 grp16_safe)|]. split; [discriminate|].
  split; [exact v0_eq|]. split; [exact A0_eq|]. split; [exact B0_eq|].
  destruct (server_process_reply_ok sha256 grp16 b0 v0 A0 grp16_usable) as (S & _ & ->).
  - intros H. vm_compute in H. discriminate H.
  - eexists. reflexivity.
Qed.
Example C84_srp_solver_case : forall n g a b, n <> 0 -> (g ^ a mod n) ^ b mod n = g ^ (a * b) mod n.
Proof.
  intros n g a b Hn. rewrite N.pow_mul_r. apply N2Z.inj. rewrite !N2Z.inj_mod, !N2Z.inj_pow, N2Z.inj_mod, N2Z.inj_pow.
  symmetry. apply Zpower_mod. lia.
Qed.
