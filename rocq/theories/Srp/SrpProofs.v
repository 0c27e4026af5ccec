(** * Proofs about the SRP model. *)
From Coq Require Import Zpow_facts.
From Verif Require Import Base.Bytes Base.Outcome Base.CtEq Base.BigUint.
From Verif Require Import Srp.SrpModel Srp.SrpSpec.
Local Open Scope N_scope.

(** ** Encodings *)

Lemma minimal_be_to_bytes n : minimal_be n (to_bytes_be n).
Proof.
  split; [apply be_val_to_bytes_be|]. split; [apply to_bytes_be_nonempty|].
  intros t H. destruct (N.eq_dec n 0) as [->|Hn].
  - now injection H.
  - destruct (to_bytes_be_head n Hn) as (b & t' & E & Hb). rewrite E in H.
    injection H as -> ->. exfalso. now apply Hb.
Qed.

Lemma minimal_be_unique n l : minimal_be n l -> l = to_bytes_be n.
Proof.
  intros (HV & HN & HZ). apply to_bytes_be_unique; auto.
  intros b t -> Ht ->. apply Ht. now apply HZ.
Qed.

Lemma usable_iff n g :
  usable_group n g <-> n <> 0 /\ (length (to_bytes_be g) <= length (to_bytes_be n))%nat.
Proof.
  unfold usable_group. split; intros [H1 H2]; (split; [exact H1|]).
  - apply H2; apply minimal_be_to_bytes.
  - intros ln lg ->%minimal_be_unique ->%minimal_be_unique. exact H2.
Qed.

(** ** Small facts about integers modulo n *)

Lemma of_N_pow a b : Z.of_N (a ^ b) = (Z.of_N a ^ Z.of_N b)%Z.
Proof. apply N2Z.inj_pow. Qed.

Lemma of_N_mod a n : Z.of_N (a mod n) = (Z.of_N a mod Z.of_N n)%Z.
Proof. apply N2Z.inj_mod. Qed.

Lemma Zpow_mod_base b e n : (0 < n)%Z -> ((b mod n) ^ e mod n = b ^ e mod n)%Z.
Proof. intros H. symmetry. now apply Zpower_mod. Qed.

Section WithD.
Context (D : bytes -> bytes).

Lemma compute_k_ok grp :
  (length (to_bytes_be (sg_g grp)) <= length (to_bytes_be (sg_n grp)))%nat ->
  compute_k D grp = Ok (rfc_k D (to_bytes_be (sg_n grp)) (to_bytes_be (sg_g grp))).
Proof.
  intros H. unfold compute_k. destruct (Nat.ltb_spec (length (to_bytes_be (sg_n grp)))
    (length (to_bytes_be (sg_g grp)))); [lia|].
  unfold rfc_k, pad. rewrite from_bytes_be_spec. do 4 f_equal.
  set (g := length (to_bytes_be (sg_g grp))) in *.
  set (n := length (to_bytes_be (sg_n grp))) in *. clearbody g n.
  replace n with ((n - g) + g)%nat at 2 by lia. rewrite repeat_app.
  rewrite firstn_app, repeat_length, Nat.sub_diag. cbn [firstn]. rewrite app_nil_r.
  rewrite firstn_all2 by (rewrite repeat_length; lia). reflexivity.
Qed.

Lemma compute_k_panic grp :
  (length (to_bytes_be (sg_n grp)) < length (to_bytes_be (sg_g grp)))%nat ->
  compute_k D grp = Panic.
Proof. intros H. unfold compute_k. apply Nat.ltb_lt in H. now rewrite H. Qed.

Lemma compute_x_spec user pw salt :
  compute_x D (compute_identity_hash D user pw) salt = rfc_x D user pw salt.
Proof. unfold compute_x, compute_identity_hash, rfc_x. now rewrite from_bytes_be_spec. Qed.

Lemma compute_u_spec a b : compute_u D a b = be_val (D (a ++ b)).
Proof. unfold compute_u. now rewrite from_bytes_be_spec. Qed.

(** ** Premaster secrets *)

Lemma client_premaster_ok grp B k x a u :
  sg_n grp <> 0 ->
  exists S, client_premaster grp B k x a u = Ok S /\
            Z.of_N S = srp_client_S (sg_n grp) (sg_g grp) B k x a u.
Proof.
  intros Hn. destruct grp as [n g]. cbn [sg_n sg_g] in *. unfold client_premaster.
  cbn [sg_n sg_g]. rewrite big_modpow_ok by exact Hn. cbn [obind].
  rewrite big_rem_ok by exact Hn. cbn [obind].
  assert (Hlt : (k * (g ^ x mod n)) mod n < n) by now apply N.mod_lt.
  rewrite big_sub_ok by lia. cbn [obind].
  rewrite big_rem_ok by exact Hn. cbn [obind].
  rewrite big_modpow_ok by exact Hn. eexists; split; [reflexivity|].
  unfold srp_client_S. rewrite of_N_mod, of_N_pow, of_N_mod.
  rewrite Zpow_mod_base by lia.
  rewrite N2Z.inj_sub by lia. rewrite N2Z.inj_add, of_N_mod, N2Z.inj_mul, of_N_mod, of_N_pow.
  rewrite <- (Zpow_mod_base (_ + _ - _)%Z) by lia.
  rewrite <- (Zpow_mod_base (_ - _)%Z) by lia.
  rewrite N2Z.inj_add, N2Z.inj_mul.
  replace (Z.of_N u * Z.of_N x + Z.of_N a)%Z with (Z.of_N a + Z.of_N u * Z.of_N x)%Z by ring.
  f_equal. f_equal.
  rewrite Zmult_mod_idemp_r. rewrite Zminus_mod_idemp_r.
  replace (Z.of_N n + Z.of_N B - Z.of_N k * Z.of_N g ^ Z.of_N x)%Z
    with (Z.of_N B - Z.of_N k * Z.of_N g ^ Z.of_N x + 1 * Z.of_N n)%Z by ring.
  apply Z_mod_plus_full.
Qed.

Lemma server_premaster_ok grp A v u b :
  sg_n grp <> 0 ->
  exists S, server_premaster grp A v u b = Ok S /\
            Z.of_N S = srp_server_S (sg_n grp) A v u b.
Proof.
  intros Hn. destruct grp as [n g]. cbn [sg_n sg_g] in *. unfold server_premaster.
  cbn [sg_n sg_g]. rewrite big_modpow_ok by exact Hn. cbn [obind].
  rewrite big_rem_ok by exact Hn. cbn [obind].
  rewrite big_modpow_ok by exact Hn. eexists; split; [reflexivity|].
  unfold srp_server_S. rewrite of_N_mod, of_N_pow, of_N_mod, Zpow_mod_base by lia.
  rewrite N2Z.inj_mul, of_N_mod, of_N_pow.
  rewrite <- (Zpow_mod_base (_ * (_ mod _))%Z) by lia.
  rewrite Zmult_mod_idemp_r. now rewrite Zpow_mod_base by lia.
Qed.

Lemma compute_b_pub_ok grp b k v :
  sg_n grp <> 0 -> compute_b_pub grp b k v = Ok (srp_B (sg_n grp) (sg_g grp) k v b).
Proof.
  intros Hn. unfold compute_b_pub, srp_B. rewrite big_rem_ok by exact Hn. cbn [obind].
  rewrite big_modpow_ok by exact Hn. cbn [obind]. rewrite big_rem_ok by exact Hn.
  now rewrite <- N.add_mod by exact Hn.
Qed.

(** ** The two [process_reply] functions on a usable group *)

Definition enc := to_bytes_be.

Lemma client_process_reply_ok grp a user pw salt Bb :
  usable_group (sg_n grp) (sg_g grp) ->
  be_val Bb mod sg_n grp <> 0 ->
  let A := sg_g grp ^ be_val a mod sg_n grp in
  let B := be_val Bb in
  let u := be_val (D (enc A ++ enc B)) in
  let k := rfc_k D (enc (sg_n grp)) (enc (sg_g grp)) in
  let x := rfc_x D user pw salt in
  exists S, Z.of_N S = srp_client_S (sg_n grp) (sg_g grp) B k x (be_val a) u /\
  client_process_reply D grp a user pw salt Bb =
    Ok {| cv_m1 := D (enc A ++ enc B ++ enc S);
          cv_m2 := D (enc A ++ D (enc A ++ enc B ++ enc S) ++ enc S);
          cv_key := enc S |}.
Proof.
  intros [Hn Hg]%usable_iff HB A B u k x.
  unfold client_process_reply, compute_a_pub. rewrite !from_bytes_be_spec.
  rewrite big_modpow_ok by exact Hn. cbn [obind]. fold A. fold B.
  rewrite big_rem_ok by exact Hn. cbn [obind].
  destruct (N.eqb_spec (B mod sg_n grp) 0) as [E|_]; [now elim HB|].
  rewrite compute_k_ok by exact Hg. cbn [obind]. rewrite compute_x_spec, compute_u_spec.
  destruct (client_premaster_ok grp B k x (be_val a) u Hn) as (S & HS & HZ).
  exists S. split; [exact HZ|]. unfold u, x, k, enc in HS. rewrite HS. reflexivity.
Qed.

Lemma client_process_reply_err grp a user pw salt Bb :
  sg_n grp <> 0 -> be_val Bb mod sg_n grp = 0 ->
  client_process_reply D grp a user pw salt Bb = Err (IllegalParameter (str "b_pub")).
Proof.
  intros Hn HB. unfold client_process_reply, compute_a_pub. rewrite !from_bytes_be_spec.
  rewrite big_modpow_ok by exact Hn. cbn [obind].
  rewrite big_rem_ok by exact Hn. cbn [obind]. now rewrite HB.
Qed.

Lemma server_process_reply_ok grp b v Ab :
  usable_group (sg_n grp) (sg_g grp) ->
  be_val Ab mod sg_n grp <> 0 ->
  let A := be_val Ab in
  let k := rfc_k D (enc (sg_n grp)) (enc (sg_g grp)) in
  let B := srp_B (sg_n grp) (sg_g grp) k (be_val v) (be_val b) in
  let u := be_val (D (enc A ++ enc B)) in
  exists S, Z.of_N S = srp_server_S (sg_n grp) A (be_val v) u (be_val b) /\
  server_process_reply D grp b v Ab =
    Ok {| sv_m1 := D (enc A ++ enc B ++ enc S);
          sv_m2 := D (enc A ++ D (enc A ++ enc B ++ enc S) ++ enc S);
          sv_key := enc S |}.
Proof.
  intros [Hn Hg]%usable_iff HA A k B u.
  unfold server_process_reply. rewrite !from_bytes_be_spec.
  rewrite compute_k_ok by exact Hg. cbn [obind]. rewrite compute_b_pub_ok by exact Hn.
  cbn [obind]. rewrite big_rem_ok by exact Hn. cbn [obind]. fold A.
  destruct (N.eqb_spec (A mod sg_n grp) 0) as [E|_]; [now elim HA|].
  rewrite compute_u_spec.
  destruct (server_premaster_ok grp A (be_val v) u (be_val b) Hn) as (S & HS & HZ).
  exists S. split; [exact HZ|]. unfold u, B, k, enc in HS. rewrite HS. reflexivity.
Qed.

Lemma server_process_reply_err grp b v Ab :
  usable_group (sg_n grp) (sg_g grp) -> be_val Ab mod sg_n grp = 0 ->
  server_process_reply D grp b v Ab = Err (IllegalParameter (str "a_pub")).
Proof.
  intros [Hn Hg]%usable_iff HA. unfold server_process_reply. rewrite !from_bytes_be_spec.
  rewrite compute_k_ok by exact Hg. cbn [obind]. rewrite compute_b_pub_ok by exact Hn.
  cbn [obind]. rewrite big_rem_ok by exact Hn. cbn [obind]. now rewrite HA.
Qed.

Lemma client_public_ok grp a :
  sg_n grp <> 0 -> client_public grp a = Ok (enc (sg_g grp ^ be_val a mod sg_n grp)).
Proof.
  intros Hn. unfold client_public, compute_a_pub. rewrite from_bytes_be_spec.
  now rewrite big_modpow_ok by exact Hn.
Qed.

Lemma server_public_ok grp b v :
  usable_group (sg_n grp) (sg_g grp) ->
  server_public D grp b v =
    Ok (enc (srp_B (sg_n grp) (sg_g grp) (rfc_k D (enc (sg_n grp)) (enc (sg_g grp)))
               (be_val v) (be_val b))).
Proof.
  intros [Hn Hg]%usable_iff. unfold server_public. rewrite compute_k_ok by exact Hg.
  cbn [obind]. rewrite compute_b_pub_ok by exact Hn. now rewrite !from_bytes_be_spec.
Qed.

Lemma compute_verifier_ok grp user pw salt :
  sg_n grp <> 0 ->
  compute_verifier D grp user pw salt
  = Ok (enc (sg_g grp ^ rfc_x D user pw salt mod sg_n grp)).
Proof.
  intros Hn. unfold compute_verifier, compute_v. rewrite compute_x_spec.
  now rewrite big_modpow_ok by exact Hn.
Qed.

(** ** Algebra of the honest run *)

Lemma server_S_honest n g a b u x :
  n <> 0 ->
  srp_server_S n (g ^ a mod n) (g ^ x mod n) u b = Z.of_N (srp_S n g a b u x).
Proof.
  intros Hn. unfold srp_server_S, srp_S.
  rewrite !of_N_mod, !of_N_pow. assert (Hz : (0 < Z.of_N n)%Z) by lia.
  set (ga := (Z.of_N g ^ Z.of_N a)%Z). set (gx := (Z.of_N g ^ Z.of_N x)%Z).
  rewrite <- (Zpow_mod_base (_ * _)%Z) by exact Hz.
  replace ((ga mod Z.of_N n * (gx mod Z.of_N n) ^ Z.of_N u) mod Z.of_N n)%Z
    with ((ga * gx ^ Z.of_N u) mod Z.of_N n)%Z.
  2:{ rewrite Zmult_mod_idemp_l. rewrite <- (Zmult_mod_idemp_r (gx ^ _)%Z).
      rewrite <- (Zmult_mod_idemp_r ((gx mod _) ^ _)%Z).
      now rewrite (Zpow_mod_base gx) by exact Hz. }
  rewrite Zpow_mod_base by exact Hz. f_equal. unfold ga, gx.
  rewrite <- Z.pow_mul_r by lia. rewrite <- Z.pow_add_r by lia.
  rewrite <- Z.pow_mul_r by lia. f_equal. lia.
Qed.

Lemma client_S_honest n g a b u x k :
  n <> 0 ->
  srp_client_S n g (srp_B n g k (g ^ x mod n) b) k x a u = Z.of_N (srp_S n g a b u x).
Proof.
  intros Hn. unfold srp_client_S, srp_S, srp_B.
  assert (Hz : (0 < Z.of_N n)%Z) by lia.
  rewrite !of_N_mod, N2Z.inj_add, N2Z.inj_mul, of_N_mod, !of_N_pow.
  rewrite <- (Zpow_mod_base (_ - _)%Z) by exact Hz.
  rewrite Zminus_mod_idemp_l.
  set (gx := (Z.of_N g ^ Z.of_N x)%Z). set (gb := (Z.of_N g ^ Z.of_N b)%Z).
  replace ((Z.of_N k * (gx mod Z.of_N n) + gb - Z.of_N k * gx) mod Z.of_N n)%Z
    with (gb mod Z.of_N n)%Z.
  - rewrite Zpow_mod_base by exact Hz. f_equal. unfold gb.
    rewrite <- Z.pow_mul_r by lia. f_equal. lia.
  - rewrite Zminus_mod, Zplus_mod, Zmult_mod_idemp_r, <- Zplus_mod, <- Zminus_mod.
    f_equal. ring.
Qed.

(** ** Verification of proofs *)

Lemma verify_client_iff sv reply : verify_client sv reply = Ok tt <-> reply = sv_m1 sv.
Proof.
  unfold verify_client. destruct (N.eqb_spec (slice_ct_eq (sv_m1 sv) reply) 1) as [E|E].
  - apply slice_ct_eq_1 in E. now subst.
  - split; [discriminate|]. intros ->. elim E. now apply slice_ct_eq_1.
Qed.

Lemma verify_client_else sv reply :
  reply <> sv_m1 sv -> verify_client sv reply = Err (BadRecordMac (str "client")).
Proof.
  intros H. unfold verify_client. destruct (N.eqb_spec (slice_ct_eq (sv_m1 sv) reply) 1) as [E|E]; auto.
  apply slice_ct_eq_1 in E. now elim H.
Qed.

Lemma verify_server_iff cv reply : verify_server cv reply = Ok tt <-> reply = cv_m2 cv.
Proof.
  unfold verify_server. destruct (N.eqb_spec (slice_ct_eq (cv_m2 cv) reply) 1) as [E|E].
  - apply slice_ct_eq_1 in E. now subst.
  - split; [discriminate|]. intros ->. elim E. now apply slice_ct_eq_1.
Qed.

Lemma verify_server_else cv reply :
  reply <> cv_m2 cv -> verify_server cv reply = Err (BadRecordMac (str "server")).
Proof.
  intros H. unfold verify_server. destruct (N.eqb_spec (slice_ct_eq (cv_m2 cv) reply) 1) as [E|E]; auto.
  apply slice_ct_eq_1 in E. now elim H.
Qed.

(** ** C01, C02: the honest handshake *)

Theorem honest_handshake grp user pw salt a b :
  usable_group (sg_n grp) (sg_g grp) ->
  exists v A B,
    compute_verifier D grp user pw salt = Ok v /\
    client_public grp a = Ok A /\
    server_public D grp b v = Ok B /\
    (be_val A mod sg_n grp <> 0 -> be_val B mod sg_n grp <> 0 ->
     exists cv sv,
       client_process_reply D grp a user pw salt B = Ok cv /\
       server_process_reply D grp b v A = Ok sv /\
       client_key cv = server_key sv /\
       minimal_be (srp_S (sg_n grp) (sg_g grp) (be_val a) (be_val b)
                     (be_val (D (A ++ B))) (rfc_x D user pw salt)) (client_key cv) /\
       verify_client sv (client_proof cv) = Ok tt /\
       verify_server cv (server_proof sv) = Ok tt).
Proof.
  intros Hu. pose proof Hu as [Hn Hg]%usable_iff. destruct grp as [n g]. cbn [sg_n sg_g] in *.
  set (x := rfc_x D user pw salt).
  set (k := rfc_k D (enc n) (enc g)).
  set (v := g ^ x mod n). set (A := g ^ be_val a mod n).
  set (B := srp_B n g k v (be_val b)).
  exists (enc v), (enc A), (enc B).
  split; [now apply (compute_verifier_ok {| sg_n := n; sg_g := g |})|].
  split; [now apply (client_public_ok {| sg_n := n; sg_g := g |})|].
  split.
  { rewrite (server_public_ok {| sg_n := n; sg_g := g |}) by exact Hu. cbn [sg_n sg_g].
    unfold enc at 3. now rewrite be_val_to_bytes_be. }
  intros HA HB. unfold enc in HA, HB.
  pose proof (client_process_reply_ok {| sg_n := n; sg_g := g |} a user pw salt (enc B) Hu HB) as HC.
  pose proof (server_process_reply_ok {| sg_n := n; sg_g := g |} (b) (enc v) (enc A) Hu HA) as HS.
  cbn [sg_n sg_g] in HC, HS. cbv zeta in HC, HS.
  assert (VA : be_val (enc A) = A) by apply be_val_to_bytes_be.
  assert (VB : be_val (enc B) = B) by apply be_val_to_bytes_be.
  assert (Vv : be_val (enc v) = v) by apply be_val_to_bytes_be.
  rewrite ?VA, ?VB, ?Vv in HC. rewrite ?VA in HS. rewrite ?Vv in HS.
  fold x in HC. fold k in HC, HS. fold A in HC. fold B in HS.
  destruct HC as (S & ES & HC). destruct HS as (S' & ES' & HS).
  unfold B, v in ES. rewrite client_S_honest in ES by exact Hn.
  unfold A, v in ES'. rewrite server_S_honest in ES' by exact Hn.
  fold v B in ES. fold A v in ES'. apply N2Z.inj in ES. apply N2Z.inj in ES'.
  subst S S'.
  eexists _, _. split; [exact HC|]. split; [exact HS|].
  split; [reflexivity|]. split.
  { unfold client_key. cbn [cv_key].
    apply minimal_be_to_bytes. }
  split; [now apply verify_client_iff|now apply verify_server_iff].
Qed.

End WithD.
