(** * SRP with a wrong password (C70): exponents modulo a safe prime. *)
From Coq Require Import Znumtheory Zpow_facts.
From Verif Require Import Base.Bytes Base.Outcome Base.BigUint.
From Verif Require Import Srp.SrpModel Srp.SrpSpec Srp.SrpProofs Srp.SrpProofs2 Srp.SrpGenerator.
From Verif Require Import Curve.NumTheory.
Local Open Scope Z_scope.

Section Exponents.
Context (n gN : N) (Hp : prime (Z.of_N n)) (Hgen : generates n gN) (Hn3 : (3 < n)%N).
Let p := Z.of_N n.
Let g := Z.of_N gN.

Lemma p_big : 3 < p.
Proof. unfold p. lia. Qed.

Lemma g_unit : ~ (p | g).
Proof.
  pose proof p_big. intros Hd. destruct (Hgen 2%N ltac:(lia)) as (e & He & E2 & _).
  destruct (N.eq_dec e 0) as [->|Ne].
  - rewrite N.pow_0_r, N.mod_1_l in E2 by lia. discriminate E2.
  - assert (Z.of_N (gN ^ e mod n) = 0) as E0.
    { rewrite pow_mod_Z by lia. fold p g. apply Zdivide_mod.
      replace (Z.of_N e) with (1 + (Z.of_N e - 1)) by ring. rewrite Z.pow_add_r by lia. rewrite Z.pow_1_r.
      now apply Z.divide_mul_l. }
    rewrite E2 in E0. discriminate E0.
Qed.

Lemma pow_unit c e : ~ (p | c) -> 0 <= e -> ~ (p | c ^ e).
Proof.
  intros Hc He. revert e He. apply natlike_ind.
  - rewrite Z.pow_0_r. intros Hd. pose proof p_big. apply Z.divide_1_r in Hd. lia.
  - intros e He IH Hd. rewrite Z.pow_succ_r in Hd by exact He. apply (prime_mult p Hp) in Hd.
    destruct Hd as [Hd|Hd]; [exact (Hc Hd)|exact (IH Hd)].
Qed.

Lemma pow_period c e : ~ (p | c) -> 0 <= e -> c ^ e mod p = c ^ (e mod (p - 1)) mod p.
Proof.
  intros Hc He. pose proof p_big. pose proof (Z.mod_pos_bound e (p - 1) ltac:(lia)) as Hb.
  rewrite (Z.div_mod e (p - 1)) at 1 by lia.
  assert (0 <= e / (p - 1)) by (apply Z.div_pos; lia).
  revert Hb H0. generalize (e mod (p - 1)) (e / (p - 1)). clear e He. intros r k Hr Hk.
  rewrite Z.pow_add_r by nia. rewrite Z.pow_mul_r by lia. rewrite Zmult_mod.
  rewrite (Zpower_mod (c ^ (p - 1))) by lia. rewrite (fermat p Hp c Hc).
  rewrite Z.pow_1_l by lia. rewrite (Z.mod_1_l p) by lia. rewrite Z.mul_1_l. apply Z.mod_mod. lia.
Qed.

(** Equal powers of the generator have exponents equal modulo [p - 1]. *)
Lemma exp_inj s t : 0 <= s -> 0 <= t -> g ^ s mod p = g ^ t mod p -> s mod (p - 1) = t mod (p - 1).
Proof.
  intros Hs Ht E. pose proof p_big.
  pose proof (Z.mod_pos_bound s (p - 1) ltac:(lia)). pose proof (Z.mod_pos_bound t (p - 1) ltac:(lia)).
  rewrite (pow_period g s g_unit Hs), (pow_period g t g_unit Ht) in E.
  assert (U : g ^ (s mod (p - 1)) mod p <> 0).
  { intros U. apply Zmod_divide in U; [|lia]. apply pow_unit in U; [exact U|exact g_unit|lia]. }
  revert U E. generalize dependent (s mod (p - 1)). generalize dependent (t mod (p - 1)). clear s t Hs Ht.
  intros t Ht s Hs U E. pose proof (Z.mod_pos_bound (g ^ s) p ltac:(lia)) as Hm.
  assert (PZ : forall e, 0 <= e -> Z.of_N (gN ^ Z.to_N e mod n) = g ^ e mod p).
  { intros e He. rewrite pow_mod_Z by lia. now rewrite Z2N.id by exact He. }
  assert (Ep : p = Z.of_N n) by reflexivity.
  assert (Hy : (0 < gN ^ Z.to_N s mod n < n)%N).
  { pose proof (PZ s ltac:(lia)) as P1. revert P1 U Hm. clear - Ep.
    generalize (gN ^ Z.to_N s mod n)%N (g ^ s mod p). clearbody p. intros y z P1 U Hm. lia. }
  destruct (Hgen _ Hy) as (e & He & _ & Hun).
  assert (Hb : forall r, 0 <= r < p - 1 -> (Z.to_N r < n - 1)%N) by (clear - Ep; clearbody p; intros r Hr; lia).
  assert (A : Z.to_N s = e) by (apply Hun; [apply Hb; exact Hs|reflexivity]).
  assert (B : Z.to_N t = e).
  { apply Hun; [apply Hb; exact Ht|]. apply N2Z.inj. rewrite !PZ by lia. exact (eq_sym E). }
  clear - A B Hs Ht. apply Z2N.inj; [apply Hs|apply Ht|congruence].
Qed.

(** Every unit is a power of the generator. *)
Lemma log_exists c : ~ (p | c) -> exists d, 0 <= d /\ g ^ d mod p = c mod p.
Proof.
  intros Hc. pose proof p_big. pose proof (Z.mod_pos_bound c p ltac:(lia)) as Hm.
  assert (c mod p <> 0) by (intros U; apply Hc; apply Zmod_divide; [lia|exact U]).
  assert (Ep : p = Z.of_N n) by reflexivity.
  destruct (Hgen (Z.to_N (c mod p))) as (e & He & Ee & _).
  { revert H0 Hm. clear - Ep. generalize (c mod p). clearbody p. intros z H0 Hm. lia. }
  exists (Z.of_N e). split; [lia|]. unfold g, p. rewrite <- pow_mod_Z by lia. rewrite Ee.
  apply Z2N.id. apply Hm.
Qed.

Context (q : Z) (Hq : prime q) (Hpq : p = 2 * q + 1).

(** The power [q] of the generator is -1. *)
Lemma half_power : g ^ q mod p = (-1) mod p.
Proof.
  pose proof p_big. pose proof (prime_ge_2 q Hq).
  assert (F : (p | (g ^ q - 1) * (g ^ q + 1))).
  { replace ((g ^ q - 1) * (g ^ q + 1)) with (g ^ q * g ^ q - 1) by ring.
    rewrite <- Z.pow_add_r by lia. replace (q + q) with (p - 1) by lia.
    apply Z.mod_divide; [lia|]. rewrite Zminus_mod, (fermat p Hp g g_unit).
    rewrite (Z.mod_1_l p) by lia. apply Zmod_0_l. }
  apply (prime_mult p Hp) in F. destruct F as [F|F].
  - exfalso. assert (E : g ^ q mod p = g ^ 0 mod p).
    { rewrite Z.pow_0_r. apply Z.mod_divide in F; [|lia]. rewrite <- (Z.sub_add 1 (g ^ q)).
      rewrite Zplus_mod, F, Z.add_0_l. apply Z.mod_mod. lia. }
    apply exp_inj in E; [|lia|lia]. rewrite Zmod_0_l in E. rewrite Z.mod_small in E by lia. lia.
  - apply Z.mod_divide in F; [|lia]. replace (g ^ q) with (-1 + (g ^ q + 1)) by ring.
    rewrite Zplus_mod, F, Z.add_0_r. apply Z.mod_mod. lia.
Qed.

(** The base 0: only the exponent 0 gives a unit. *)
Lemma zero_base c e f : (p | c) -> 0 <= e -> 0 <= f -> c ^ e mod p = g ^ f mod p -> e = 0.
Proof.
  intros Hc He Hf E. pose proof p_big as HP. destruct (Z.eq_dec e 0) as [E0|NE]; [exact E0|exfalso].
  assert (Hpos : 0 <= e - 1) by (clear - He NE; lia).
  assert (c ^ e mod p = 0) as E0.
  { apply Zdivide_mod. replace e with (1 + (e - 1)) by (clear; ring).
    rewrite Z.pow_add_r, Z.pow_1_r by (exact Hpos || (clear; discriminate)).
    now apply Z.divide_mul_l. }
  rewrite E0 in E. symmetry in E. apply Zmod_divide in E; [|clear - HP; clearbody p; lia].
  exact (pow_unit g f g_unit Hf E).
Qed.

Lemma log_eq c d e f : 0 <= d -> 0 <= e -> 0 <= f -> g ^ d mod p = c mod p ->
  c ^ e mod p = g ^ f mod p -> (p - 1 | d * e - f).
Proof.
  intros Hd He Hf Ed E. pose proof p_big as HP.
  assert (P0 : 0 < p) by (clear - HP; clearbody p; lia).
  assert (P1 : p - 1 <> 0) by (clear - HP; clearbody p; lia).
  rewrite (Zpower_mod c e p P0), <- Ed, <- (Zpower_mod (g ^ d) e p P0) in E.
  rewrite <- Z.pow_mul_r in E by (exact Hd || exact He).
  apply exp_inj in E; [|apply Z.mul_nonneg_nonneg; assumption|exact Hf].
  apply Z.mod_divide; [exact P1|]. rewrite Zminus_mod, E, Z.sub_diag. apply Zmod_0_l.
Qed.

Lemma log_half d b : 0 <= d -> 0 <= b -> (q | d - b) ->
  g ^ d mod p = g ^ b mod p \/ g ^ d mod p = (- g ^ b) mod p.
Proof.
  intros Hd Hb [m Hm]. pose proof (prime_ge_2 q Hq) as Q2.
  assert (HP : forall s t, 0 <= s -> 0 <= t -> s mod (p - 1) = t mod (p - 1) -> g ^ s mod p = g ^ t mod p).
  { intros s t Hs Ht E. rewrite (pow_period g s g_unit Hs), (pow_period g t g_unit Ht). now rewrite E. }
  destruct (Z.Even_or_Odd m) as [[j Hj]|[j Hj]].
  - left. apply HP; [exact Hd|exact Hb|].
    replace d with (b + j * (p - 1)); [apply Z_mod_plus_full|].
    clear - Hm Hj Hpq. clearbody p. subst m p. lia.
  - right. assert (0 <= b + q) by (clear - Hb Q2; lia).
    transitivity (g ^ (b + q) mod p).
    + apply HP; [exact Hd|assumption|]. replace d with ((b + q) + j * (p - 1)); [apply Z_mod_plus_full|].
      clear - Hm Hj Hpq. clearbody p. subst m p. lia.
    + rewrite Z.pow_add_r by (exact Hb || (clear - Q2; lia)).
      rewrite Zmult_mod, half_power, <- Zmult_mod. f_equal. clear. ring.
Qed.

(** Two accepted private keys with the same [u]: equal modulo [q], unless the client's base is [g^b] or
    [-g^b]. *)
Lemma coincidences c b ux' ux a1 a2 :
  0 <= b -> 0 <= ux' -> 0 <= ux -> 0 <= a1 -> 0 <= a2 ->
  c mod p <> g ^ b mod p -> c mod p <> (- g ^ b) mod p ->
  c ^ (a1 + ux') mod p = g ^ (b * (a1 + ux)) mod p ->
  c ^ (a2 + ux') mod p = g ^ (b * (a2 + ux)) mod p ->
  (q | a1 - a2).
Proof.
  intros Hb Hu' Hu H1 H2 N1 N2 E1 E2.
  assert (P1 : 0 <= a1 + ux' /\ 0 <= b * (a1 + ux) /\ 0 <= a2 + ux' /\ 0 <= b * (a2 + ux)).
  { clear - Hb Hu' Hu H1 H2. repeat split; try lia; apply Z.mul_nonneg_nonneg; lia. }
  destruct P1 as (P1 & P2 & P3 & P4).
  destruct (Zdivide_dec p c) as [Hc|Hc].
  { pose proof (zero_base _ _ _ Hc P1 P2 E1) as Z1. pose proof (zero_base _ _ _ Hc P3 P4 E2) as Z2.
    replace (a1 - a2) with 0; [apply Z.divide_0_r|]. clear - Z1 Z2. lia. }
  destruct (log_exists c Hc) as (d & Hd & Ed).
  pose proof (log_eq c d _ _ Hd P1 P2 Ed E1) as L1. pose proof (log_eq c d _ _ Hd P3 P4 Ed E2) as L2.
  pose proof (Z.divide_sub_r _ _ _ L1 L2) as L3.
  assert (LQ : (q | (d - b) * (a1 - a2))).
  { apply Z.divide_trans with (p - 1); [exists 2; clear - Hpq; clearbody p; lia|].
    replace ((d - b) * (a1 - a2)) with (d * (a1 + ux') - b * (a1 + ux) - (d * (a2 + ux') - b * (a2 + ux)))
      by (clear; ring).
    exact L3. }
  apply (prime_mult q Hq) in LQ. destruct LQ as [LQ|LQ]; [exfalso|exact LQ].
  destruct (log_half d b Hd Hb LQ) as [EV|EV]; rewrite Ed in EV; [exact (N1 EV)|exact (N2 EV)].
Qed.
End Exponents.

(** ** The two exceptional bases *)
Lemma mod_eq_divide n a b : 0 < n -> (a mod n = b mod n <-> (n | a - b)).
Proof.
  intros Hn. assert (N0 : n <> 0) by lia. split; intros E.
  - apply Z.mod_divide; [exact N0|]. rewrite Zminus_mod, E, Z.sub_diag. apply Zmod_0_l.
  - destruct E as [m Hm]. replace a with (b + m * n) by lia. apply Z_mod_plus_full.
Qed.

Lemma base_not_gb n k gx gx' gb : prime n -> 0 < k < n ->
  ((k * (gx mod n) + gb) mod n - k * gx') mod n = gb mod n -> gx mod n = gx' mod n.
Proof.
  intros Hp Hk E. assert (Hn : 0 < n) by lia.
  rewrite Zminus_mod_idemp_l in E. apply (mod_eq_divide n _ _ Hn) in E.
  apply (mod_eq_divide n _ _ Hn).
  assert (F : (n | k * (gx - gx'))).
  { replace (k * (gx - gx')) with ((k * (gx mod n) + gb - k * gx' - gb) + k * (gx - gx mod n)) by ring.
    apply Z.divide_add_r; [exact E|]. apply Z.divide_mul_r. apply (mod_eq_divide n _ _ Hn).
    symmetry. apply Zmod_mod. }
  apply (prime_mult _ Hp) in F. destruct F as [F|F]; [exfalso|exact F].
  apply Z.divide_pos_le in F; lia.
Qed.

Lemma base_not_minus_gb n B c gb : 0 < n -> (B - c) mod n = (- gb) mod n -> (B + gb) mod n = c mod n.
Proof.
  intros Hn E. apply (mod_eq_divide n _ _ Hn) in E. apply (mod_eq_divide n _ _ Hn).
  replace (B + gb - c) with (B - c - - gb) by ring. exact E.
Qed.

(** ** Verifiers *)
Section Passwords.
Context (D : bytes -> bytes) (grp : SrpGroup).
Context (Hp : prime (Z.of_N (sg_n grp))) (Hgen : generates (sg_n grp) (sg_g grp)) (Hn3 : (3 < sg_n grp)%N).
Context (Dsmall : forall m, (256 ^ N.of_nat (length (D m)) <= sg_n grp - 1)%N).

Lemma x_small user pw salt : (rfc_x D user pw salt < sg_n grp - 1)%N.
Proof.
  unfold rfc_x. set (m := salt ++ D (user ++ [x3a] ++ pw)).
  pose proof (be_val_bound (D m)) as H. pose proof (Dsmall m) as H'. revert H H'. clear.
  generalize (be_val (D m)) (256 ^ N.of_nat (length (D m)))%N (sg_n grp). intros. lia.
Qed.

Lemma x_binding user user' pw pw' salt : rfc_x D user pw salt = rfc_x D user' pw' salt ->
  (forall m m', length (D m) = length (D m')) ->
  user ++ [x3a] ++ pw = user' ++ [x3a] ++ pw' \/ collision D (user ++ [x3a] ++ pw) (user' ++ [x3a] ++ pw') \/
  collision D (salt ++ D (user ++ [x3a] ++ pw)) (salt ++ D (user' ++ [x3a] ++ pw')).
Proof.
  intros E HL. destruct (list_eq_dec byte_eq_dec (user ++ [x3a] ++ pw) (user' ++ [x3a] ++ pw')) as [Ep|Np];
    [left; exact Ep|right].
  unfold rfc_x in E. apply (be_val_inj _ _ (HL _ _)) in E.
  destruct (list_eq_dec byte_eq_dec (D (user ++ [x3a] ++ pw)) (D (user' ++ [x3a] ++ pw'))) as [Eh|Nh].
  - left. split; [exact Np|exact Eh].
  - right. split; [|exact E]. intros Em. apply Nh. now apply app_inv_head in Em.
Qed.

Lemma powers_equal x x' : (x < sg_n grp - 1)%N -> (x' < sg_n grp - 1)%N ->
  (sg_g grp ^ x mod sg_n grp = sg_g grp ^ x' mod sg_n grp)%N -> x = x'.
Proof.
  intros Hx Hx' E. apply (f_equal Z.of_N) in E. rewrite !pow_mod_Z in E by lia.
  apply (exp_inj (sg_n grp) (sg_g grp) Hp Hgen Hn3) in E; [|apply N2Z.is_nonneg|apply N2Z.is_nonneg].
  rewrite !Z.mod_small in E by lia. now apply N2Z.inj.
Qed.

(** Equal verifiers for one salt. *)
Theorem verifier_binding user user' pw pw' salt v :
  (forall m m', length (D m) = length (D m')) ->
  compute_verifier D grp user pw salt = Ok v -> compute_verifier D grp user' pw' salt = Ok v ->
  user ++ [x3a] ++ pw = user' ++ [x3a] ++ pw' \/ collision D (user ++ [x3a] ++ pw) (user' ++ [x3a] ++ pw') \/
  collision D (salt ++ D (user ++ [x3a] ++ pw)) (salt ++ D (user' ++ [x3a] ++ pw')).
Proof.
  intros HL E E'. apply x_binding; [|exact HL].
  rewrite compute_verifier_ok in E by lia. rewrite compute_verifier_ok in E' by lia.
  assert (EE : enc (sg_g grp ^ rfc_x D user pw salt mod sg_n grp) = enc (sg_g grp ^ rfc_x D user' pw' salt mod sg_n grp))
    by congruence.
  apply (f_equal be_val) in EE. unfold enc in EE. rewrite !be_val_to_bytes_be in EE.
  apply powers_equal in EE; [exact EE|apply x_small|apply x_small].
Qed.

(** ** A login with another password *)
Context (Hu : usable_group (sg_n grp) (sg_g grp)).
Notation k := (rfc_k D (enc (sg_n grp)) (enc (sg_g grp))).

(** What equal keys mean in exponents. *)
Lemma equal_keys user user' pw pw' salt a b v A B cv sv :
  compute_verifier D grp user pw salt = Ok v -> server_public D grp b v = Ok B ->
  client_public grp a = Ok A ->
  client_process_reply D grp a user' pw' salt B = Ok cv -> server_process_reply D grp b v A = Ok sv ->
  client_key cv = server_key sv ->
  let x := Z.of_N (rfc_x D user pw salt) in
  let x' := Z.of_N (rfc_x D user' pw' salt) in
  let u := Z.of_N (be_val (D (A ++ B))) in
  let g := Z.of_N (sg_g grp) in
  let p := Z.of_N (sg_n grp) in
  (Z.of_N (be_val B) - Z.of_N k * g ^ x') ^ (Z.of_N (be_val a) + u * x') mod p
  = g ^ (Z.of_N (be_val b) * (Z.of_N (be_val a) + u * x)) mod p.
Proof.
  intros Hv HB HA HC HS HK. cbv zeta.
  assert (N0 : sg_n grp <> 0%N) by lia.
  rewrite compute_verifier_ok in Hv by exact N0. injection Hv as <-.
  rewrite client_public_ok in HA by exact N0. injection HA as <-.
  set (x := rfc_x D user pw salt) in *. set (x' := rfc_x D user' pw' salt).
  rewrite server_public_ok in HB by exact Hu. injection HB as HB.
  destruct (N.eq_dec (be_val B mod sg_n grp) 0) as [B0|BN].
  { rewrite client_process_reply_err in HC by (exact N0 || exact B0). discriminate HC. }
  pose proof (client_process_reply_ok D grp a user' pw' salt B Hu BN) as PC. cbv zeta in PC.
  destruct PC as (S & ES & PC). rewrite PC in HC. injection HC as <-. clear PC.
  destruct (N.eq_dec (be_val (enc (sg_g grp ^ be_val a mod sg_n grp)) mod sg_n grp) 0) as [A0|AN].
  { rewrite server_process_reply_err in HS by (exact Hu || exact A0). discriminate HS. }
  pose proof (server_process_reply_ok D grp b (enc (sg_g grp ^ x mod sg_n grp)) _ Hu AN) as PS. cbv zeta in PS.
  destruct PS as (S' & ES' & PS). rewrite PS in HS. injection HS as <-. clear PS.
  unfold client_key, server_key in HK. cbn [cv_key sv_key] in HK.
  apply (f_equal be_val) in HK. unfold enc in HK. rewrite !be_val_to_bytes_be in HK. subst S'.
  rewrite HB in ES'. unfold enc in ES'. rewrite !be_val_to_bytes_be in ES'.
  assert (EB : to_bytes_be (be_val B) = B).
  { rewrite <- HB. unfold enc. now rewrite !be_val_to_bytes_be. }
  unfold enc in ES. rewrite EB in ES.
  rewrite ES in ES'. rewrite server_S_honest in ES' by exact N0.
  unfold srp_client_S, srp_S in ES'. fold x' in ES'.
  rewrite pow_mod_Z in ES' by exact N0. rewrite N2Z.inj_mul, N2Z.inj_add, N2Z.inj_mul in ES'.
  exact ES'.
Qed.
End Passwords.
