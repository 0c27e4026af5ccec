(** * SRP: who chooses the key (C83). *)
From Coq Require Import ZArith Lia Znumtheory Zpow_facts.
From Verif Require Import Base.Bytes Base.Outcome Base.BigUint Base.Hex Hash.Hash.
From Verif Require Import Srp.SrpModel Srp.SrpGroups Srp.SrpSpec Srp.SrpRfcGroups Srp.SrpProofs Srp.SrpProofs2 Srp.SrpGroupProofs
  Srp.SrpExamples Srp.SrpGenerator Srp.SrpWrongPassword Srp.SrpProps Srp.SrpProps3.
Local Open Scope N_scope.

(** ** A server that sends [k * v] *)
Lemma zero_pow n c e : (0 < n -> (n | c) -> 0 < e -> c ^ e mod n = 0)%Z.
Proof.
  intros Hn Hd He. apply Zdivide_mod. replace e with (1 + (e - 1))%Z by ring.
  rewrite Z.pow_add_r, Z.pow_1_r by lia. now apply Z.divide_mul_l.
Qed.

(** C83: a server (or whoever has the verifier) that sends [k * v] instead of [k * v + g^b]: the client accepts,
    with the key 0 whatever its private key, and accepts a proof made without any private key. *)
Theorem C83_srp_constant_key :
  forall (D : bytes -> bytes) grp user pw salt v B a A,
  usable_group (sg_n grp) (sg_g grp) -> compute_verifier D grp user pw salt = Ok v ->
  be_val B mod sg_n grp = (mult D grp * be_val v) mod sg_n grp -> be_val B mod sg_n grp <> 0 ->
  client_public grp a = Ok A -> 0 < be_val a ->
  exists cv, client_process_reply D grp a user pw salt B = Ok cv /\ client_key cv = [x00] /\
    verify_server cv (D (A ++ client_proof cv ++ [x00])) = Ok tt.
Proof.
  intros D grp user pw salt v B a A Hu Hv HB HB0 HA Ha.
  pose proof Hu as [N0 _].
  rewrite compute_verifier_ok in Hv by exact N0. injection Hv as <-.
  rewrite client_public_ok in HA by exact N0. injection HA as <-.
  destruct (client_process_reply_ok D grp a user pw salt B Hu HB0) as (S & ES & ->).
  assert (S = 0) as ->.
  { apply N2Z.inj. rewrite ES. unfold srp_client_S. apply zero_pow; [lia| |].
    - unfold enc in HB. rewrite be_val_to_bytes_be in HB. rewrite N.mul_mod_idemp_r in HB by exact N0.
      apply (f_equal Z.of_N) in HB. rewrite !N2Z.inj_mod, N2Z.inj_mul, N2Z.inj_pow in HB.
      apply mod_eq_divide in HB; [exact HB|lia].
    - apply Z.add_pos_nonneg; [lia|]. apply Z.mul_nonneg_nonneg; apply N2Z.is_nonneg. }
  eexists. split; [reflexivity|]. split; [reflexivity|]. apply verify_server_iff. reflexivity.
Qed.
Print Assumptions C83_srp_constant_key.

Lemma gcd_pow n g e : N.gcd g n = 1 -> N.gcd (g ^ e) n = 1.
Proof.
  intros Hg. induction e as [|e IH] using N.peano_ind; [rewrite N.pow_0_r; apply N.gcd_1_l|].
  rewrite N.pow_succ_r'. apply N.gcd_unique; [lia|apply N.divide_1_l|apply N.divide_1_l|].
  intros q Hq1 Hq2. rewrite <- IH. apply N.gcd_greatest; [|exact Hq2]. apply N.gauss with g; [exact Hq1|].
  apply N.gcd_unique; [lia|apply N.divide_1_l|apply N.divide_1_l|].
  intros r Hr1 Hr2. rewrite <- Hg. apply N.gcd_greatest; [exact Hr2|]. now apply N.divide_trans with q.
Qed.

Lemma kv_nonzero n g x k : 1 < n -> N.gcd g n = 1 -> k mod n <> 0 -> (k * (g ^ x mod n)) mod n <> 0.
Proof.
  intros Hn Hg Hk E. rewrite N.mul_mod_idemp_r in E by lia. apply N.mod_divide in E; [|lia].
  apply Hk. apply N.mod_divide; [lia|]. rewrite N.mul_comm in E.
  apply N.gauss with (g ^ x); [exact E|]. rewrite N.gcd_comm. now apply gcd_pow.
Qed.

(** C83: so "no server can make the client's key one that does not depend on the client's private key" is false,
    in every built-in group (where the multiplier is not 0), for every user, password and salt. *)
Theorem C83_srp_builtin_refuted :
  forall (D : bytes -> bytes) grp e user pw salt,
  In (grp, e) builtin -> mult D grp mod sg_n grp <> 0 ->
  exists B K, forall a A, client_public grp a = Ok A -> 0 < be_val a ->
  exists cv, client_process_reply D grp a user pw salt B = Ok cv /\ client_key cv = K /\
    verify_server cv (D (A ++ client_proof cv ++ K)) = Ok tt.
Proof.
  intros D grp [[bits n] g] user pw salt Hin Hk.
  destruct (builtin_groups_rfc _ _ _ _ Hin) as (En & Eg & _ & Hg & Hgcd & Hu). rewrite <- En, <- Eg in Hgcd.
  assert (N1 : 1 < sg_n grp) by (rewrite En; lia).
  assert (N0 : sg_n grp <> 0) by (revert N1; generalize (sg_n grp); intros; lia).
  pose proof (compute_verifier_ok D grp user pw salt N0) as Hv.
  pose (v := enc (sg_g grp ^ rfc_x D user pw salt mod sg_n grp)).
  exists (to_bytes_be ((mult D grp * be_val v) mod sg_n grp)), [x00]. intros a A HA Ha.
  assert (HB : be_val (to_bytes_be ((mult D grp * be_val v) mod sg_n grp)) mod sg_n grp =
    (mult D grp * be_val v) mod sg_n grp).
  { rewrite be_val_to_bytes_be. apply N.mod_mod. exact N0. }
  apply (C83_srp_constant_key D grp user pw salt v _ a A Hu Hv HB); [|exact HA|exact Ha].
  rewrite HB. unfold v, enc. rewrite be_val_to_bytes_be. now apply kv_nonzero.
Qed.
Print Assumptions C83_srp_builtin_refuted.

(** With SHA-256 and the 1024-bit group. *)
Lemma k_1024 : negb (mult sha256 G_1024 mod sg_n G_1024 =? 0) = true.
Proof. vm_cast_no_check (eq_refl true). Qed.

Theorem C83_srp_client_refuted :
  exists grp user pw salt B K, forall a A, client_public grp a = Ok A -> 0 < be_val a ->
  exists cv, client_process_reply sha256 grp a user pw salt B = Ok cv /\ client_key cv = K /\
    verify_server cv (sha256 (A ++ client_proof cv ++ K)) = Ok tt.
Proof.
  exists G_1024, alice, password123, salt0.
  apply (C83_srp_builtin_refuted sha256 G_1024 (1024, rfc5054_N_1024, rfc5054_g_1024)); [left; reflexivity|].
  intros E. pose proof k_1024 as H. rewrite E in H. discriminate H.
Qed.
Print Assumptions C83_srp_client_refuted.

(** ** What is left *)
Section Powers.
Context (n gN : N) (Hp : prime (Z.of_N n)) (Hgen : generates n gN) (Hn3 : (3 < n)%N).
Context (q : Z) (Hq : prime q) (Hpq : Z.of_N n = (2 * q + 1)%Z).
Local Open Scope Z_scope.

(** Powers of a base other than 0, 1 and -1 have equal exponents, modulo (n - 1) / 2. *)
Lemma base_exponents c e f : ~ (Z.of_N n | c) -> c mod Z.of_N n <> 1 -> c mod Z.of_N n <> (-1) mod Z.of_N n ->
  0 <= e -> 0 <= f -> c ^ e mod Z.of_N n = c ^ f mod Z.of_N n -> (q | e - f).
Proof.
  intros C0 C1 C2 He Hf E.
  destruct (log_exists n gN Hgen Hn3 c C0) as (d & Hd & Ed).
  assert (P0 : 0 < Z.of_N n) by lia.
  assert (Ef : c ^ f mod Z.of_N n = Z.of_N gN ^ (d * f) mod Z.of_N n).
  { rewrite Z.pow_mul_r by assumption. rewrite Zpower_mod, <- Ed, <- Zpower_mod by exact P0. reflexivity. }
  rewrite Ef in E.
  pose proof (log_eq n gN Hp Hgen Hn3 c d e (d * f) Hd He ltac:(now apply Z.mul_nonneg_nonneg) Ed E) as HD.
  assert (HD' : (q | d * (e - f))).
  { apply Z.divide_trans with (Z.of_N n - 1); [exists 2; lia|]. now rewrite Z.mul_sub_distr_l. }
  apply (prime_mult q Hq) in HD'. destruct HD' as [HD'|HD']; [exfalso|exact HD'].
  destruct (log_half n gN Hp Hgen Hn3 q Hq Hpq d 0 Hd ltac:(lia) ltac:(now rewrite Z.sub_0_r)) as [H|H];
    rewrite Ed, Z.pow_0_r in H.
  - apply C1. rewrite H. apply Z.mod_1_l. lia.
  - apply C2. exact H.
Qed.
End Powers.

Lemma half_apart n q a a' : Z.of_N n = (2 * q + 1)%Z -> a < n - 1 -> a' < n - 1 -> (0 < q)%Z ->
  (q | Z.of_N a - Z.of_N a')%Z -> a = a' \/ (Z.of_N a = Z.of_N a' + q \/ Z.of_N a' = Z.of_N a + q)%Z.
Proof.
  intros Hn Ha Ha' Hq [m Hm].
  assert (-2 < m < 2)%Z by nia.
  assert (m = -1 \/ m = 0 \/ m = 1)%Z as [-> | [-> | ->]] by lia; lia.
Qed.

(** C83: a client whose server sent a value other than [k v], [k v + 1] and [k v - 1] (mod N): two private keys in
    range that give one key, with the two scramblers equal, are equal or differ by (N - 1) / 2. *)
Theorem C83_srp_client :
  forall (D : bytes -> bytes) grp user pw salt v B a a' A A' cv cv',
  usable_group (sg_n grp) (sg_g grp) -> safe_prime (sg_n grp) -> generates (sg_n grp) (sg_g grp) ->
  compute_verifier D grp user pw salt = Ok v ->
  let n := Z.of_N (sg_n grp) in
  let c := (Z.of_N (be_val B) - Z.of_N (mult D grp) * Z.of_N (be_val v))%Z in
  (c mod n <> 0 -> c mod n <> 1 -> c mod n <> n - 1 ->
  client_public grp a = Ok A -> client_public grp a' = Ok A' -> Z.of_N (be_val a) < n - 1 -> Z.of_N (be_val a') < n - 1 ->
  client_process_reply D grp a user pw salt B = Ok cv -> client_process_reply D grp a' user pw salt B = Ok cv' ->
  D (A ++ to_bytes_be (be_val B)) = D (A' ++ to_bytes_be (be_val B)) -> client_key cv = client_key cv' ->
  be_val a = be_val a' \/
  2 * (Z.of_N (be_val a) - Z.of_N (be_val a')) = n - 1 \/ 2 * (Z.of_N (be_val a') - Z.of_N (be_val a)) = n - 1)%Z.
Proof.
  intros D grp user pw salt v B a a' A A' cv cv' Hu Hsp Hg Hv n c C0 C1 C2 HA HA' La La' Hc Hc' EU EK.
  pose proof Hu as [N0 _]. pose proof (safe_prime_big _ Hsp) as H3. destruct Hsp as [Hp Hq].
  pose proof (safe_prime_split _ H3 Hp) as Hpq.
  rewrite compute_verifier_ok in Hv by exact N0. injection Hv as Ev.
  rewrite client_public_ok in HA by exact N0. injection HA as <-.
  rewrite client_public_ok in HA' by exact N0. injection HA' as <-.
  assert (HB0 : be_val B mod sg_n grp <> 0).
  { intros E. rewrite client_process_reply_err in Hc by assumption. discriminate Hc. }
  destruct (client_process_reply_ok D grp a user pw salt B Hu HB0) as (S & ES & RS). rewrite RS in Hc.
  destruct (client_process_reply_ok D grp a' user pw salt B Hu HB0) as (S' & ES' & RS'). rewrite RS' in Hc'.
  injection Hc as <-. injection Hc' as <-. unfold client_key in EK. cbn [cv_key] in EK.
  apply to_bytes_be_inj in EK. subst S'. rewrite ES in ES'. unfold srp_client_S in ES'.
  unfold enc in ES', EU. rewrite EU in ES'.
  assert (Ec : (forall e,
    (Z.of_N (be_val B) - Z.of_N (mult D grp) * Z.of_N (sg_g grp) ^ Z.of_N (rfc_x D user pw salt)) ^ e mod n =
    c ^ e mod n)%Z).
  { intros e. assert (P0 : (0 < n)%Z) by (unfold n; lia). rewrite Zpower_mod by exact P0.
    symmetry. rewrite Zpower_mod by exact P0.
    f_equal. f_equal. unfold c. rewrite <- Ev. unfold enc. rewrite be_val_to_bytes_be.
    rewrite N2Z.inj_mod, N2Z.inj_pow. fold n.
    rewrite <- Zminus_mod_idemp_r, Zmult_mod_idemp_r, Zminus_mod_idemp_r. reflexivity. }
  fold n in ES'. change (rfc_k D (to_bytes_be (sg_n grp)) (to_bytes_be (sg_g grp))) with (mult D grp) in ES'.
  rewrite !Ec in ES'. clear Ec ES RS RS' EU. clearbody c.
  revert ES'. generalize (be_val (D (to_bytes_be (sg_g grp ^ be_val a' mod sg_n grp) ++ to_bytes_be (be_val B)))).
  generalize (rfc_x D user pw salt). intros x u E.
  apply (base_exponents (sg_n grp) (sg_g grp) Hp Hg H3 _ Hq Hpq c) in E.
  - replace (Z.of_N (be_val a) + Z.of_N u * Z.of_N x - (Z.of_N (be_val a') + Z.of_N u * Z.of_N x))%Z
      with (Z.of_N (be_val a) - Z.of_N (be_val a'))%Z in E by ring.
    apply (half_apart (sg_n grp)) in E; [|exact Hpq|unfold n in La; lia|unfold n in La'; lia|].
    + unfold n. rewrite Hpq. destruct E as [E|[E|E]]; [left; exact E|right; left|right; right]; rewrite E; ring.
    + pose proof (prime_ge_2 _ Hq). lia.
  - intros Hd. apply C0. apply Zdivide_mod. exact Hd.
  - exact C1.
  - intros H. apply C2. fold n in H. rewrite H. rewrite <- (Z.mod_small (n - 1) n) by (unfold n; lia).
    apply mod_eq_divide; [unfold n; lia|]. exists (-1)%Z. ring.
  - apply Z.add_nonneg_nonneg; [lia|]. apply Z.mul_nonneg_nonneg; apply N2Z.is_nonneg.
  - apply Z.add_nonneg_nonneg; [lia|]. apply Z.mul_nonneg_nonneg; apply N2Z.is_nonneg.
Qed.
Print Assumptions C83_srp_client.

(** C83: the same for the server, when [A v^u] is not 0, 1 or -1 (mod N). *)
Theorem C83_srp_server :
  forall (D : bytes -> bytes) grp v A b b' B B' sv sv',
  usable_group (sg_n grp) (sg_g grp) -> safe_prime (sg_n grp) -> generates (sg_n grp) (sg_g grp) ->
  let n := Z.of_N (sg_n grp) in
  let u := be_val (D (to_bytes_be (be_val A) ++ B)) in
  let c := (Z.of_N (be_val A) * Z.of_N (be_val v) ^ Z.of_N u)%Z in
  (c mod n <> 0 -> c mod n <> 1 -> c mod n <> n - 1 ->
  server_public D grp b v = Ok B -> server_public D grp b' v = Ok B' ->
  Z.of_N (be_val b) < n - 1 -> Z.of_N (be_val b') < n - 1 ->
  server_process_reply D grp b v A = Ok sv -> server_process_reply D grp b' v A = Ok sv' ->
  D (to_bytes_be (be_val A) ++ B) = D (to_bytes_be (be_val A) ++ B') -> server_key sv = server_key sv' ->
  be_val b = be_val b' \/
  2 * (Z.of_N (be_val b) - Z.of_N (be_val b')) = n - 1 \/ 2 * (Z.of_N (be_val b') - Z.of_N (be_val b)) = n - 1)%Z.
Proof.
  intros D grp v A b b' B B' sv sv' Hu Hsp Hg n u c C0 C1 C2 HB HB' Lb Lb' Hs Hs' EU EK.
  pose proof (safe_prime_big _ Hsp) as H3. destruct Hsp as [Hp Hq].
  pose proof (safe_prime_split _ H3 Hp) as Hpq.
  rewrite server_public_ok in HB by exact Hu. injection HB as HB.
  rewrite server_public_ok in HB' by exact Hu. injection HB' as HB'.
  assert (HA0 : be_val A mod sg_n grp <> 0).
  { intros E. rewrite server_process_reply_err in Hs by assumption. discriminate Hs. }
  destruct (server_process_reply_ok D grp b v A Hu HA0) as (S & ES & RS). rewrite RS in Hs.
  destruct (server_process_reply_ok D grp b' v A Hu HA0) as (S' & ES' & RS'). rewrite RS' in Hs'.
  injection Hs as <-. injection Hs' as <-. unfold server_key in EK. cbn [sv_key] in EK.
  apply to_bytes_be_inj in EK. subst S'. rewrite ES in ES'. unfold srp_server_S in ES'.
  rewrite HB, HB' in ES'. unfold enc in ES'. rewrite <- EU in ES'. fold u in ES'. fold c in ES'. fold n in ES'.
  clear ES RS RS' EU. clearbody c.
  apply (base_exponents (sg_n grp) (sg_g grp) Hp Hg H3 _ Hq Hpq c) in ES'.
  - apply (half_apart (sg_n grp)) in ES'; [|exact Hpq|unfold n in Lb; lia|unfold n in Lb'; lia|].
    + unfold n. rewrite Hpq. destruct ES' as [E|[E|E]]; [left; exact E|right; left|right; right]; rewrite E; ring.
    + pose proof (prime_ge_2 _ Hq). lia.
  - intros Hd. apply C0. apply Zdivide_mod. exact Hd.
  - exact C1.
  - intros H. apply C2. fold n in H. rewrite H. rewrite <- (Z.mod_small (n - 1) n) by (unfold n; lia).
    apply mod_eq_divide; [unfold n; lia|]. exists (-1)%Z. ring.
  - lia.
  - lia.
Qed.
Print Assumptions C83_srp_server.

(** ** Cases *)

(** The group of the tests' size, SHA-256: the client with [k v] for the server's value. *)
Example C83_srp_constant_key_case :
  usable_group (sg_n grp16) (sg_g grp16) /\ compute_verifier sha256 grp16 alice password123 salt0 = Ok v0 /\
  (mult sha256 grp16 * be_val v0) mod sg_n grp16 <> 0 /\ client_public grp16 a0 = Ok A0 /\ 0 < be_val a0.
Proof.
  split; [exact grp16_usable|]. split; [exact v0_eq|]. split; [|split; [exact A0_eq|reflexivity]].
  intros H. vm_compute in H. discriminate H.
Qed.

(** A digest that is always 3: the scramblers are equal, and two private keys (N - 1) / 2 apart do give one key,
    on either side; so the second alternatives cannot be dropped. *)
Definition three (_ : bytes) : bytes := [x03].
Definition apart : N := (sg_n grp16 - 1) / 2.

Example C83_srp_client_case :
  let c : N := 4 in let B := to_bytes_be (3 * 2 ^ 3 + c) in
  usable_group (sg_n grp16) (sg_g grp16) /\ safe_prime (sg_n grp16) /\ generates (sg_n grp16) (sg_g grp16) /\
  compute_verifier three grp16 alice password123 salt0 = Ok (to_bytes_be (2 ^ 3)) /\ mult three grp16 = 3 /\
  exists A A' cv cv', client_public grp16 (to_bytes_be 5) = Ok A /\ client_public grp16 (to_bytes_be (5 + apart)) = Ok A' /\
    client_process_reply three grp16 (to_bytes_be 5) alice password123 salt0 B = Ok cv /\
    client_process_reply three grp16 (to_bytes_be (5 + apart)) alice password123 salt0 B = Ok cv' /\
    5 + apart < sg_n grp16 - 1 /\ A <> A' /\ client_key cv = client_key cv'.
Proof.
  split; [exact grp16_usable|]. split; [exact grp16_safe|]. split; [exact grp16_generates|].
  split; [vm_compute; reflexivity|]. split; [vm_compute; reflexivity|].
  eexists _, _, _, _. repeat (split; [vm_compute; reflexivity|]). split; [intros H; vm_compute in H; discriminate H|].
  vm_compute; reflexivity.
Qed.

Example C83_srp_server_case :
  let v := to_bytes_be (2 ^ 3) in let A := to_bytes_be (2 ^ 3) in
  exists B B' sv sv', server_public three grp16 (to_bytes_be 5) v = Ok B /\
    server_public three grp16 (to_bytes_be (5 + apart)) v = Ok B' /\
    server_process_reply three grp16 (to_bytes_be 5) v A = Ok sv /\
    server_process_reply three grp16 (to_bytes_be (5 + apart)) v A = Ok sv' /\
    2 ^ 3 * (2 ^ 3) ^ be_val (three (A ++ B)) = 4096 /\ B <> B' /\ server_key sv = server_key sv'.
Proof.
  eexists _, _, _, _. repeat (split; [vm_compute; reflexivity|]). split; [intros H; vm_compute in H; discriminate H|].
  vm_compute; reflexivity.
Qed.
