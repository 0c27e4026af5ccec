(** * SRP: the crate's randomised tests, for every generator (C79). *)
From Coq Require Import ZArith Znumtheory Lia.
From Verif Require Import Base.Bytes Base.Outcome Base.BigUint Base.Hex Base.RustTest Hash.Hash.
From Verif Require Import Srp.SrpModel Srp.SrpGroups Srp.SrpSpec Srp.SrpRfcGroups Srp.SrpProofs Srp.SrpProofs2 Srp.SrpExamples Srp.SrpGenerator
  Srp.SrpWrongPassword Srp.SrpProps Srp.SrpProps2 Srp.SrpProps3.
Local Open Scope N_scope.

(** tests/srp.rs:8-69 [auth_test]; [salt] (16 bytes), [b] and [a] (64 bytes each) are what the generator
    yields. *)
Definition auth_test (D : bytes -> bytes) (grp : SrpGroup) (username true_pwd auth_pwd salt b a : bytes) : res unit :=
  let! verifier := compute_verifier D grp username true_pwd salt in
  let! b_pub := server_public D grp b verifier in
  let! cv := unwrap_ok (client_process_reply D grp a username auth_pwd salt b_pub) in
  let! a_pub := client_public grp a in
  let! sv := unwrap_ok (server_process_reply D grp b verifier a_pub) in
  let! _ := unwrap_ok (verify_client sv (client_proof cv)) in
  let! _ := unwrap_ok (verify_server cv (server_proof sv)) in
  assert_eq (server_key sv) (client_key cv).

Section Auth.
Context (D : bytes -> bytes) (grp : SrpGroup).
Context (Hu : usable_group (sg_n grp) (sg_g grp)).

(** With the right password the test passes unless the server's public key is zero; then it panics. *)
Lemma auth_good user pw salt b a :
  (forall b' v, exists A sv, client_public grp a = Ok A /\ ~ N.divide (sg_n grp) (be_val A) /\
     server_process_reply D grp b' v A = Ok sv) ->
  exists v B, compute_verifier D grp user pw salt = Ok v /\ server_public D grp b v = Ok B /\
    (be_val B <> 0 -> auth_test D grp user pw pw salt b a = Ok tt) /\
    (be_val B = 0 -> auth_test D grp user pw pw salt b a = Panic).
Proof.
  intros HA. destruct (C01_honest_handshake_agrees D grp user pw salt a b Hu) as (v & A & B & Hv & HAp & HB & H).
  exists v, B. split; [exact Hv|]. split; [exact HB|].
  destruct (HA b v) as (A' & sv' & HA' & Nd & _). rewrite HAp in HA'. injection HA' as <-.
  pose proof Hu as [N0 _]%usable_iff.
  assert (An : be_val A mod sg_n grp <> 0) by (intros C; apply Nd; now apply N.mod_divide).
  unfold auth_test. rewrite Hv. cbn [obind]. rewrite HB. cbn [obind]. split; intros Bn.
  - pose proof (proj2 (C11_honest_server_accepted_iff_nonzero D grp a user pw salt b v B HB) Bn) as [cv0 Hc0].
    assert (Bm : be_val B mod sg_n grp <> 0).
    { intros C. rewrite client_process_reply_err in Hc0 by (exact N0 || exact C). discriminate Hc0. }
    destruct (H An Bm) as (cv & sv & Hc & Hs & Hk & _ & V1 & V2).
    rewrite Hc. cbn [unwrap_ok obind]. rewrite HAp. cbn [obind]. rewrite Hs. cbn [unwrap_ok obind].
    rewrite V1. cbn [unwrap_ok obind]. rewrite V2. cbn [unwrap_ok obind]. rewrite Hk. apply assert_eq_refl.
  - destruct (client_process_reply D grp a user pw salt B) as [cv|e|] eqn:Hc; [|reflexivity|reflexivity].
    exfalso. apply (proj1 (C11_honest_server_accepted_iff_nonzero D grp a user pw salt b v B HB)); [|exact Bn].
    now exists cv.
Qed.

(** Two private keys with a zero public key are the same modulo the order. *)
Lemma zero_public_unique user pw salt v b B b' B' : prime (Z.of_N (sg_n grp)) -> generates (sg_n grp) (sg_g grp) -> 3 < sg_n grp ->
  compute_verifier D grp user pw salt = Ok v -> server_public D grp b v = Ok B -> server_public D grp b' v = Ok B' ->
  be_val b < sg_n grp - 1 -> be_val b' < sg_n grp - 1 -> be_val B = 0 -> be_val B' = 0 -> be_val b = be_val b'.
Proof.
  intros Hp Hg H3 Hv HB HB' Rb Rb' Z Z'. apply (powers_equal grp Hp Hg H3); [exact Rb|exact Rb'|].
  rewrite server_public_ok in HB by exact Hu. injection HB as <-.
  rewrite server_public_ok in HB' by exact Hu. injection HB' as <-.
  unfold enc in Z, Z'. rewrite be_val_to_bytes_be in Z, Z'. unfold srp_B in Z, Z'.
  revert Z Z'. generalize (mult D grp * be_val v) (sg_g grp ^ be_val b) (sg_g grp ^ be_val b'). clear - H3.
  revert H3. generalize (sg_n grp). intros n H3 c y y' Z Z'. assert (N0 : n <> 0) by lia.
  apply N.mod_divide in Z; [|exact N0]. apply N.mod_divide in Z'; [|exact N0]. destruct Z as [p Hp], Z' as [q Hq].
  apply N2Z.inj. rewrite !N2Z.inj_mod. apply (f_equal Z.of_N) in Hp, Hq.
  rewrite !N2Z.inj_add, !N2Z.inj_mul in *.
  replace (Z.of_N y) with (Z.of_N y' + (Z.of_N p - Z.of_N q) * Z.of_N n)%Z by lia. apply Z_mod_plus_full.
Qed.

Lemma auth_ok_accepted user pw pw' salt b a : auth_test D grp user pw pw' salt b a = Ok tt ->
  exists v B A K, compute_verifier D grp user pw salt = Ok v /\ server_public D grp b v = Ok B /\
    accepted D grp user pw' salt b v B a A K K.
Proof.
  unfold auth_test. intros H. apply obind_ok in H. destruct H as (v & Hv & H). apply obind_ok in H. destruct H as (B & HB & H).
  exists v, B. apply obind_ok in H. destruct H as (cv & Hc & H). apply obind_ok in H. destruct H as (A & HA & H).
  apply obind_ok in H. destruct H as (sv & Hs & H). apply obind_ok in H. destruct H as (t1 & V1 & H).
  apply obind_ok in H. destruct H as (t2 & V2 & H).
  exists A, (client_key cv). split; [exact Hv|]. split; [exact HB|]. split; [exact HA|]. exists cv, sv.
  destruct (client_process_reply D grp a user pw' salt B) as [cv0|e|]; [|discriminate Hc|discriminate Hc]. injection Hc as ->.
  destruct (server_process_reply D grp b v A) as [sv0|e|]; [|discriminate Hs|discriminate Hs]. injection Hs as ->.
  split; [reflexivity|]. split; [reflexivity|]. split; [reflexivity|].
  destruct (verify_client sv (client_proof cv)) as [[]|e|]; [|discriminate V1|discriminate V1].
  split; [|reflexivity]. unfold assert_eq in H. destruct (bytes_eqb (server_key sv) (client_key cv)) eqn:E in H; [|discriminate H].
  apply bytes_eqb_eq in E. exact (eq_sym E).
Qed.
End Auth.

(** ** The tests themselves: SHA-256 and the 2048-bit group *)
(** tests/srp.rs:71-74 and 76-80 *)
Definition good_password (salt b a : bytes) := auth_test sha256 G_2048 (str "alice") (str "password") (str "password") salt b a.
Definition bad_password (salt b a : bytes) := auth_test sha256 G_2048 (str "alice") (str "password") (str "paSsword") salt b a.

Lemma g2048_usable : usable_group (sg_n G_2048) (sg_g G_2048).
Proof. exact (proj2 (proj2 (proj2 (proj2 (proj2 (C11_builtin_groups_are_rfc5054 _ _ _ _ C11_case)))))). Qed.
Lemma g2048_big : 2 ^ 2047 <= sg_n G_2048.
Proof. destruct (C11_builtin_groups_are_rfc5054 _ _ _ _ C11_case) as (-> & _ & [H _] & _). exact H. Qed.

(** C79: the first passes whatever the generator yields, unless the server's public key is zero; then the
    client rightly refuses and the test panics. *)
Theorem C79_srp_good_password :
  forall salt b a, exists v B,
  compute_verifier sha256 G_2048 (str "alice") (str "password") salt = Ok v /\ server_public sha256 G_2048 b v = Ok B /\
  (passes (good_password salt b a) <-> be_val B <> 0) /\ (good_password salt b a = Panic <-> be_val B = 0).
Proof.
  intros salt b a. unfold good_password, passes. generalize (str "alice") (str "password"). intros user pw.
  pose proof g2048_usable as Hu.
  pose proof (fun b' v => C11_honest_client_always_accepted sha256 G_2048 _ a b' v C11_case) as HA.
  revert Hu HA. generalize sha256 G_2048. intros D grp Hu HA.
  destruct (auth_good D grp Hu user pw salt b a HA) as (v & B & Hv & HB & H1 & H2).
  exists v, B. split; [exact Hv|]. split; [exact HB|].
  destruct (N.eq_dec (be_val B) 0) as [Z|NZ].
  - rewrite (H2 Z). split; split; intros H; [discriminate H|now elim H|exact Z|reflexivity].
  - rewrite (H1 NZ). split; split; intros H; [exact NZ|reflexivity|discriminate H|now elim NZ].
Qed.
Print Assumptions C79_srp_good_password.

Lemma small_key b : length b = 64%nat -> be_val b < 2 ^ 512.
Proof. intros H. pose proof (be_val_bound b) as B. rewrite H in B. exact B. Qed.

Lemma key_range n : 2 ^ 2047 <= n -> 2 ^ 512 <= n - 1 /\ 2 ^ 512 <= (n - 1) / 2.
Proof.
  change (2 ^ 2047) with (2 ^ 512 * 2 ^ 1535). generalize (eq_refl : (2 ^ 512 ?= 0) = Gt) (eq_refl : (2 ^ 1535 ?= 3) = Gt).
  generalize (2 ^ 512) (2 ^ 1535). clear. intros x y X Y H. apply N.compare_gt_iff in X, Y.
  assert (2 * x <= n - 1) by nia. split; [lia|]. apply N.div_le_lower_bound; lia.
Qed.

(** For each salt there is at most one private key of 64 bytes with which it fails, if the modulus is a
    safe prime. *)
Theorem C79_srp_good_password_fails_once_partial :
  forall salt b a b' a', safe_prime (sg_n G_2048) -> length b = 64%nat -> length b' = 64%nat ->
  good_password salt b a = Panic -> good_password salt b' a' = Panic -> b = b'.
Proof.
  intros salt b a b' a' Hs Lb Lb' F F'.
  destruct (C79_srp_good_password salt b a) as (v & B & Hv & HB & _ & Z).
  destruct (C79_srp_good_password salt b' a') as (v' & B' & Hv' & HB' & _ & Z').
  rewrite Hv in Hv'. injection Hv' as <-. apply Z in F. apply Z' in F'.
  assert (Hn : sg_n G_2048 = rfc5054_N_2048) by exact (proj1 (C11_builtin_groups_are_rfc5054 _ _ _ _ C11_case)).
  pose proof Hs as Hs0. rewrite Hn in Hs0. pose proof (C67_builtin_generators_partial _ _ _ _ C11_case Hs0) as Hg.
  pose proof (small_key b Lb) as Rb. pose proof (small_key b' Lb') as Rb'. pose proof g2048_big as Big.
  pose proof g2048_usable as Hu. clear Hn Hs0 Z Z'. revert Hs Hg Hu Big Hv HB HB' F F'.
  generalize sha256 G_2048 (str "alice") (str "password"). intros D grp user pw Hs Hg Hu Big Hv HB HB' F F'.
  apply be_val_inj; [congruence|].
  pose proof (key_range _ Big) as [P _].
  apply (zero_public_unique D grp Hu user pw salt v b B b' B' (proj1 Hs) Hg (safe_prime_big _ Hs) Hv HB HB'); try assumption.
  - exact (N.lt_le_trans _ _ _ Rb P).
  - exact (N.lt_le_trans _ _ _ Rb' P).
Qed.
Print Assumptions C79_srp_good_password_fails_once_partial.

(** The wrong password: the test never returns an error, and if it fails to panic for two private keys of
    the client that lead to the same scrambling parameter, then SHA-256 has a collision, or the server's
    private key is the exceptional one, or the private keys are the same. *)
Lemma auth_no_err D grp user pw pw' salt b a e : usable_group (sg_n grp) (sg_g grp) ->
  auth_test D grp user pw pw' salt b a <> Err e.
Proof.
  intros Hu H. unfold auth_test in H. pose proof Hu as [N0 _]%usable_iff.
  rewrite compute_verifier_ok in H by exact N0. cbn [obind] in H. rewrite server_public_ok in H by exact Hu. cbn [obind] in H.
  match type of H with context [client_process_reply ?d ?g ?a ?u ?p ?s ?B] =>
    destruct (client_process_reply d g a u p s B) as [cv|?|]; [|discriminate H|discriminate H] end.
  cbn [unwrap_ok obind] in H. rewrite client_public_ok in H by exact N0. cbn [obind] in H.
  match type of H with context [server_process_reply ?d ?g ?b ?v ?A] =>
    destruct (server_process_reply d g b v A) as [sv|?|]; [|discriminate H|discriminate H] end.
  cbn [unwrap_ok obind] in H.
  destruct (verify_client sv (client_proof cv)) as [?|?|]; [|discriminate H|discriminate H]. cbn [unwrap_ok obind] in H.
  destruct (verify_server cv (server_proof sv)) as [?|?|]; [|discriminate H|discriminate H]. cbn [unwrap_ok obind] in H.
  unfold assert_eq, assert in H. destruct (bytes_eqb (server_key sv) (client_key cv)) in H; discriminate H.
Qed.

Definition differs (x y : bytes) : bool := negb (bytes_eqb x y).
Lemma differs_neq x y : differs x y = true -> x <> y.
Proof. unfold differs. intros H ->. rewrite (proj2 (bytes_eqb_eq y y) eq_refl) in H. discriminate H. Qed.
Lemma passwords_hash_apart :
  differs (sha256 (str "alice" ++ [x3a] ++ str "password")) (sha256 (str "alice" ++ [x3a] ++ str "paSsword")) = true.
Proof. vm_cast_no_check (eq_refl true). Qed.
Lemma k2048_nonzero : negb (mult sha256 G_2048 =? 0) = true.
Proof. vm_cast_no_check (eq_refl true). Qed.

Lemma auth_bad D grp user pw pw' salt b a1 A1 a2 A2 : usable_group (sg_n grp) (sg_g grp) -> safe_prime (sg_n grp) ->
  generates (sg_n grp) (sg_g grp) -> (forall m, length (D m) = 32%nat) -> 2 ^ 2047 <= sg_n grp -> mult D grp <> 0 ->
  D (user ++ [x3a] ++ pw) <> D (user ++ [x3a] ++ pw') ->
  length a1 = 64%nat -> length a2 = 64%nat ->
  client_public grp a1 = Ok A1 -> client_public grp a2 = Ok A2 ->
  auth_test D grp user pw pw' salt b a1 <> Panic -> auth_test D grp user pw pw' salt b a2 <> Panic ->
  exists v B, compute_verifier D grp user pw salt = Ok v /\ server_public D grp b v = Ok B /\
  (D (A1 ++ B) = D (A2 ++ B) ->
   collision D (salt ++ D (user ++ [x3a] ++ pw)) (salt ++ D (user ++ [x3a] ++ pw')) \/
   (be_val B + sg_g grp ^ be_val b) mod sg_n grp = (mult D grp * sg_g grp ^ rfc_x D user pw' salt) mod sg_n grp \/
   a1 = a2).
Proof.
  intros Hu Hs Hg HD Big Hk Hne L1 L2 HA1 HA2 T1 T2.
  assert (R : forall a, auth_test D grp user pw pw' salt b a <> Panic -> auth_test D grp user pw pw' salt b a = Ok tt).
  { intros a Ha. destruct (auth_test D grp user pw pw' salt b a) as [[]|e|] eqn:E; [reflexivity| |now elim Ha].
    now apply auth_no_err in E. }
  apply R, auth_ok_accepted in T1. apply R, auth_ok_accepted in T2. clear R.
  destruct T1 as (v & B & A1' & K1 & Hv & HB & Ac1), T2 as (v' & B' & A2' & K2 & Hv' & HB' & Ac2).
  rewrite Hv in Hv'. injection Hv' as <-. rewrite HB in HB'. injection HB' as <-.
  pose proof (proj1 Ac1) as E1. rewrite HA1 in E1. injection E1 as <-. pose proof (proj1 Ac2) as E2. rewrite HA2 in E2. injection E2 as <-.
  exists v, B. split; [exact Hv|]. split; [exact HB|]. intros HU.
  destruct (key_range _ Big) as [P Q].
  pose proof (small_key a1 L1) as S1. pose proof (small_key a2 L2) as S2.
  assert (HP : 256 ^ N.of_nat 32 <= sg_n grp - 1).
  { apply N.le_trans with (2 ^ 512); [|exact P]. intros C. discriminate C. }
  destruct (C70_wrong_password D grp 32 user pw pw' salt b v B a1 A1 K1 K1 a2 A2 K2 K2 _ Hu Hs Hg HD HP Hk Hv HB Ac1 Ac2 eq_refl
    (f_equal be_val (eq_sym HU)) (N.lt_le_trans _ _ _ S1 P) (N.lt_le_trans _ _ _ S2 P))
    as [E|[[_ E]|[E|[[E _]|[[E _]|[E|[E|[E|E]]]]]]]].
  - elim Hne. now rewrite E.
  - now elim Hne.
  - left. exact E.
  - now elim E.
  - now elim E.
  - right. left. exact E.
  - right. right. apply be_val_inj; [congruence|exact E].
  - exfalso. revert Q S1 E. clear. generalize (2 ^ 512) ((sg_n grp - 1) / 2). intros. lia.
  - exfalso. revert Q S2 E. clear. generalize (2 ^ 512) ((sg_n grp - 1) / 2). intros. lia.
Qed.

Theorem C79_srp_bad_password_partial :
  forall salt b a1 A1 a2 A2, safe_prime (sg_n G_2048) -> length a1 = 64%nat -> length a2 = 64%nat ->
  client_public G_2048 a1 = Ok A1 -> client_public G_2048 a2 = Ok A2 ->
  ~ passes_should_panic (bad_password salt b a1) -> ~ passes_should_panic (bad_password salt b a2) ->
  exists v B, compute_verifier sha256 G_2048 (str "alice") (str "password") salt = Ok v /\ server_public sha256 G_2048 b v = Ok B /\
  (sha256 (A1 ++ B) = sha256 (A2 ++ B) ->
   collision sha256 (salt ++ sha256 (str "alice" ++ [x3a] ++ str "password")) (salt ++ sha256 (str "alice" ++ [x3a] ++ str "paSsword")) \/
   (be_val B + sg_g G_2048 ^ be_val b) mod sg_n G_2048
     = (mult sha256 G_2048 * sg_g G_2048 ^ rfc_x sha256 (str "alice") (str "paSsword") salt) mod sg_n G_2048 \/
   a1 = a2).
Proof.
  intros salt b a1 A1 a2 A2 Hs. unfold passes_should_panic, bad_password.
  assert (Hn : sg_n G_2048 = rfc5054_N_2048) by exact (proj1 (C11_builtin_groups_are_rfc5054 _ _ _ _ C11_case)).
  pose proof Hs as Hs0. rewrite Hn in Hs0. pose proof (C67_builtin_generators_partial _ _ _ _ C11_case Hs0) as Hg.
  pose proof g2048_big as Big. pose proof g2048_usable as Hu. clear Hn Hs0.
  pose proof (differs_neq _ _ passwords_hash_apart) as Hne. pose proof sha256_length as HD.
  assert (Hk : mult sha256 G_2048 <> 0).
  { pose proof k2048_nonzero as K. revert K. generalize (mult sha256 G_2048). intros k K ->. discriminate K. }
  revert Hs Hg Big Hu Hne HD Hk. generalize sha256 G_2048 (str "alice") (str "password") (str "paSsword").
  intros D grp user pw pw' Hs Hg Big Hu Hne HD Hk L1 L2 HA1 HA2 T1 T2.
  exact (auth_bad D grp user pw pw' salt b a1 A1 a2 A2 Hu Hs Hg HD Big Hk Hne L1 L2 HA1 HA2 T1 T2).
Qed.
Print Assumptions C79_srp_bad_password_partial.

(** ** tests/bad_public.rs:8-24, for every private key, verifier, user name, password and salt *)
Definition bad_a_pub (b v : bytes) : res unit :=
  let! _ := unwrap_ok (server_process_reply sha1 G_1024 b v (to_bytes_be 0)) in Ok tt.
Definition bad_b_pub (a user pw salt : bytes) : res unit :=
  let! _ := unwrap_ok (client_process_reply sha1 G_1024 a user pw salt (to_bytes_be 0)) in Ok tt.

Theorem C79_srp_bad_public :
  forall b v a user pw salt, passes_should_panic (bad_a_pub b v) /\ passes_should_panic (bad_b_pub a user pw salt).
Proof.
  intros b v a user pw salt.
  assert (Hu : usable_group (sg_n G_1024) (sg_g G_1024))
    by exact (proj2 (proj2 (proj2 (proj2 (proj2 (C11_builtin_groups_are_rfc5054 G_1024 _ _ _ (or_introl eq_refl))))))).
  unfold passes_should_panic, bad_a_pub, bad_b_pub. revert Hu. generalize sha1 G_1024. intros D grp Hu.
  assert (Z : N.divide (sg_n grp) (be_val (to_bytes_be 0))) by (rewrite be_val_to_bytes_be; apply N.divide_0_r).
  rewrite (proj1 (C03_server_rejects_exactly_zero D grp b v _ Hu) Z).
  rewrite (proj1 (C03_client_rejects_exactly_zero D grp a user pw salt _ Hu) Z).
  split; reflexivity.
Qed.
Print Assumptions C79_srp_bad_public.

(** The same program over the 16-bit group and under [mod251]: it passes; with a wrong password it panics; with
    the one private key of the server that makes its public key zero it panics; and it can pass with a wrong
    password, for both private keys of C70's case. *)
Example C79_srp_case :
  auth_test mod251 grp16 alice password123 password123 salt0 b0 a0 = Ok tt /\
  auth_test mod251 grp16 alice password123 (str "password124") salt0 b0 a0 = Panic /\
  auth_test mod251 grp16 alice password123 password123 salt0 (hex "54c2") a0 = Panic /\
  auth_test mod251 grp16 alice password123 (str "password124") salt0 (hex "02b7") (hex "24a8") = Ok tt /\
  auth_test mod251 grp16 alice password123 (str "password124") salt0 (hex "02b7") (hex "a421") = Ok tt.
Proof. do 4 (split; [vm_compute; reflexivity|]). vm_compute. reflexivity. Qed.
