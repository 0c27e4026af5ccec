(** * Proofs about the SRP model, continued (C03-C14). *)
From Verif Require Import Base.Bytes Base.Outcome Base.CtEq Base.BigUint.
From Verif Require Import Srp.SrpModel Srp.SrpSpec Srp.SrpProofs.
Local Open Scope N_scope.

Lemma divide_iff n m : n <> 0 -> (N.divide n m <-> m mod n = 0).
Proof. intros Hn. symmetry. now apply N.mod_divide. Qed.

Lemma usable_dec n g : usable_group n g \/ ~ usable_group n g.
Proof.
  rewrite usable_iff. destruct (N.eq_dec n 0); [right; tauto|].
  destruct (le_dec (length (to_bytes_be g)) (length (to_bytes_be n))); [left|right]; tauto.
Qed.

Section WithD.
Context (D : bytes -> bytes).

(** ** C03 *)

Theorem client_accepts_iff grp a user pw salt B :
  usable_group (sg_n grp) (sg_g grp) ->
  (N.divide (sg_n grp) (be_val B) ->
     client_process_reply D grp a user pw salt B = Err (IllegalParameter (str "b_pub"))) /\
  (~ N.divide (sg_n grp) (be_val B) ->
     exists cv, client_process_reply D grp a user pw salt B = Ok cv).
Proof.
  intros Hu. pose proof Hu as [Hn Hg]%usable_iff. rewrite divide_iff by exact Hn. split; intros H.
  - now apply client_process_reply_err.
  - destruct (client_process_reply_ok D grp a user pw salt B Hu H) as (S & _ & HS). eauto.
Qed.

Theorem server_accepts_iff grp b v A :
  usable_group (sg_n grp) (sg_g grp) ->
  (N.divide (sg_n grp) (be_val A) ->
     server_process_reply D grp b v A = Err (IllegalParameter (str "a_pub"))) /\
  (~ N.divide (sg_n grp) (be_val A) ->
     exists sv, server_process_reply D grp b v A = Ok sv).
Proof.
  intros Hu. pose proof Hu as [Hn Hg]%usable_iff. rewrite divide_iff by exact Hn. split; intros H.
  - now apply server_process_reply_err.
  - destruct (server_process_reply_ok D grp b v A Hu H) as (S & _ & HS). eauto.
Qed.

(** Every encoding of every multiple of N, with any number of leading zeros. *)
Theorem multiples_rejected grp j z l a user pw salt b v :
  usable_group (sg_n grp) (sg_g grp) ->
  minimal_be (j * sg_n grp) l ->
  client_process_reply D grp a user pw salt (repeat x00 z ++ l)
    = Err (IllegalParameter (str "b_pub")) /\
  server_process_reply D grp b v (repeat x00 z ++ l) = Err (IllegalParameter (str "a_pub")).
Proof.
  intros Hu [HV _].
  assert (N.divide (sg_n grp) (be_val (repeat x00 z ++ l))).
  { rewrite be_val_zeros, HV. exists j. reflexivity. }
  split; [now apply client_accepts_iff|now apply server_accepts_iff].
Qed.

(** ** C04 *)

Lemma big_modpow_0 {E} b e : @big_modpow E b e 0 = Panic.
Proof. reflexivity. Qed.
Lemma big_rem_0 {E} a : @big_rem E a 0 = Panic.
Proof. reflexivity. Qed.

Theorem client_process_reply_panic grp a user pw salt B :
  client_process_reply D grp a user pw salt B = Panic <->
  sg_n grp = 0 \/
  (~ usable_group (sg_n grp) (sg_g grp) /\ ~ N.divide (sg_n grp) (be_val B)).
Proof.
  destruct (N.eq_dec (sg_n grp) 0) as [E|Hn].
  { split; [now left|intros _]. unfold client_process_reply, compute_a_pub. now rewrite E. }
  destruct (usable_dec (sg_n grp) (sg_g grp)) as [Hu|Hu].
  - split; [|tauto]. intros H. exfalso.
    destruct (N.eq_dec (be_val B mod sg_n grp) 0) as [E|E].
    + rewrite (proj1 (client_accepts_iff grp a user pw salt B Hu)) in H by now apply divide_iff.
      discriminate.
    + destruct (proj2 (client_accepts_iff grp a user pw salt B Hu)) as [cv Hcv].
      { now rewrite divide_iff. }
      congruence.
  - rewrite divide_iff by exact Hn. split.
    + intros H. right. split; [exact Hu|]. intros E.
      rewrite client_process_reply_err in H by assumption. discriminate.
    + intros [E|[_ HB]]; [contradiction|].
      unfold client_process_reply, compute_a_pub.
      rewrite big_modpow_ok by exact Hn. cbn [obind]. rewrite big_rem_ok by exact Hn. cbn [obind].
      rewrite from_bytes_be_spec.
      destruct (N.eqb_spec (be_val B mod sg_n grp) 0); [contradiction|].
      rewrite compute_k_panic; [reflexivity|]. rewrite usable_iff in Hu. lia.
Qed.

Theorem server_process_reply_panic grp b v A :
  server_process_reply D grp b v A = Panic <-> ~ usable_group (sg_n grp) (sg_g grp).
Proof.
  destruct (usable_dec (sg_n grp) (sg_g grp)) as [Hu|Hu].
  - split; [|tauto]. intros H. exfalso. pose proof Hu as [Hn Hg]%usable_iff.
    destruct (N.eq_dec (be_val A mod sg_n grp) 0) as [E|E].
    + rewrite (proj1 (server_accepts_iff grp b v A Hu)) in H by now apply divide_iff.
      discriminate.
    + destruct (proj2 (server_accepts_iff grp b v A Hu)) as [cv Hcv].
      { now rewrite divide_iff. }
      congruence.
  - split; [intros _; exact Hu|intros _]. unfold server_process_reply.
    destruct (le_lt_dec (length (to_bytes_be (sg_g grp))) (length (to_bytes_be (sg_n grp)))) as [L|L].
    + assert (E : sg_n grp = 0) by (rewrite usable_iff in Hu; lia).
      rewrite compute_k_ok by exact L. cbn [obind]. unfold compute_b_pub. now rewrite E.
    + now rewrite compute_k_panic.
Qed.

Theorem server_public_panic grp b v :
  server_public D grp b v = Panic <-> ~ usable_group (sg_n grp) (sg_g grp).
Proof.
  destruct (usable_dec (sg_n grp) (sg_g grp)) as [Hu|Hu].
  - split; [|tauto]. rewrite server_public_ok by exact Hu. discriminate.
  - split; [intros _; exact Hu|intros _]. unfold server_public.
    destruct (le_lt_dec (length (to_bytes_be (sg_g grp))) (length (to_bytes_be (sg_n grp)))) as [L|L].
    + assert (E : sg_n grp = 0) by (rewrite usable_iff in Hu; lia).
      rewrite compute_k_ok by exact L. cbn [obind]. unfold compute_b_pub. now rewrite E.
    + now rewrite compute_k_panic.
Qed.

Theorem client_public_panic grp a : client_public grp a = Panic <-> sg_n grp = 0.
Proof.
  destruct (N.eq_dec (sg_n grp) 0) as [E|Hn].
  - split; auto. intros _. unfold client_public, compute_a_pub. now rewrite E.
  - rewrite client_public_ok by exact Hn. split; [discriminate|contradiction].
Qed.

Theorem compute_verifier_panic grp user pw salt :
  compute_verifier D grp user pw salt = Panic <-> sg_n grp = 0.
Proof.
  destruct (N.eq_dec (sg_n grp) 0) as [E|Hn].
  - split; auto. intros _. unfold compute_verifier, compute_v. now rewrite E.
  - rewrite compute_verifier_ok by exact Hn. split; [discriminate|contradiction].
Qed.

Theorem client_premaster_panic grp B k x a u :
  client_premaster grp B k x a u = Panic <-> sg_n grp = 0.
Proof.
  destruct (N.eq_dec (sg_n grp) 0) as [E|Hn].
  - split; auto. intros _. unfold client_premaster. now rewrite E.
  - destruct (client_premaster_ok grp B k x a u Hn) as (S & -> & _).
    split; [discriminate|contradiction].
Qed.

Theorem server_premaster_panic grp A v u b :
  server_premaster grp A v u b = Panic <-> sg_n grp = 0.
Proof.
  destruct (N.eq_dec (sg_n grp) 0) as [E|Hn].
  - split; auto. intros _. unfold server_premaster. now rewrite E.
  - destruct (server_premaster_ok grp A v u b Hn) as (S & -> & _).
    split; [discriminate|contradiction].
Qed.

(** The methods without a [Result] never produce an [Err]. *)
Theorem publics_no_err grp a b v user pw salt :
  (forall e, client_public grp a <> Err e) /\
  (forall e, server_public D grp b v <> Err e) /\
  (forall e, compute_verifier D grp user pw salt <> Err e).
Proof.
  destruct (N.eq_dec (sg_n grp) 0) as [E|Hn].
  - assert (~ usable_group (sg_n grp) (sg_g grp)) by (rewrite usable_iff; tauto).
    rewrite (proj2 (client_public_panic grp a) E).
    rewrite (proj2 (compute_verifier_panic grp user pw salt) E).
    rewrite (proj2 (server_public_panic grp b v)) by assumption. repeat split; discriminate.
  - rewrite client_public_ok, compute_verifier_ok by exact Hn.
    repeat split; try discriminate. intros e.
    destruct (usable_dec (sg_n grp) (sg_g grp)) as [Hu|Hu].
    + rewrite server_public_ok by exact Hu. discriminate.
    + rewrite (proj2 (server_public_panic grp b v)) by assumption. discriminate.
Qed.

(** ** C05 *)

Theorem verify_client_exact grp b v A ln lg lA lB lS :
  usable_group (sg_n grp) (sg_g grp) ->
  ~ N.divide (sg_n grp) (be_val A) ->
  minimal_be (sg_n grp) ln -> minimal_be (sg_g grp) lg ->
  minimal_be (be_val A) lA ->
  minimal_be (srp_B (sg_n grp) (sg_g grp) (rfc_k D ln lg) (be_val v) (be_val b)) lB ->
  minimal_be (Z.to_N (srp_server_S (sg_n grp) (be_val A) (be_val v) (be_val (D (lA ++ lB)))
                        (be_val b))) lS ->
  exists sv, server_process_reply D grp b v A = Ok sv /\ server_key sv = lS /\
    server_proof sv = D (lA ++ D (lA ++ lB ++ lS) ++ lS) /\
    forall reply,
      (reply = D (lA ++ lB ++ lS) -> verify_client sv reply = Ok tt) /\
      (reply <> D (lA ++ lB ++ lS) -> verify_client sv reply = Err (BadRecordMac (str "client"))).
Proof.
  intros Hu HA ->%minimal_be_unique ->%minimal_be_unique ->%minimal_be_unique HB HS.
  pose proof Hu as [Hn Hg]%usable_iff. rewrite divide_iff in HA by exact Hn.
  destruct (server_process_reply_ok D grp b v A Hu HA) as (S & ES & HR).
  apply minimal_be_unique in HB. unfold enc in *. rewrite <- HB in ES, HR.
  rewrite <- ES, N2Z.id in HS. apply minimal_be_unique in HS. rewrite <- HS in HR.
  eexists. split; [exact HR|]. split; [reflexivity|]. split; [reflexivity|].
  intros reply. split; intros E.
  - now apply verify_client_iff.
  - now apply verify_client_else.
Qed.

Theorem verify_server_exact grp a user pw salt B ln lg lA lB lS :
  usable_group (sg_n grp) (sg_g grp) ->
  ~ N.divide (sg_n grp) (be_val B) ->
  minimal_be (sg_n grp) ln -> minimal_be (sg_g grp) lg ->
  minimal_be (sg_g grp ^ be_val a mod sg_n grp) lA ->
  minimal_be (be_val B) lB ->
  minimal_be (Z.to_N (srp_client_S (sg_n grp) (sg_g grp) (be_val B) (rfc_k D ln lg)
                        (rfc_x D user pw salt) (be_val a) (be_val (D (lA ++ lB))))) lS ->
  exists cv, client_process_reply D grp a user pw salt B = Ok cv /\ client_key cv = lS /\
    client_proof cv = D (lA ++ lB ++ lS) /\
    forall reply,
      (reply = D (lA ++ D (lA ++ lB ++ lS) ++ lS) -> verify_server cv reply = Ok tt) /\
      (reply <> D (lA ++ D (lA ++ lB ++ lS) ++ lS) ->
         verify_server cv reply = Err (BadRecordMac (str "server"))).
Proof.
  intros Hu HB ->%minimal_be_unique ->%minimal_be_unique HA HlB HS.
  pose proof Hu as [Hn Hg]%usable_iff. rewrite divide_iff in HB by exact Hn.
  destruct (client_process_reply_ok D grp a user pw salt B Hu HB) as (S & ES & HR).
  apply minimal_be_unique in HA, HlB. unfold enc in *. rewrite <- HA, <- HlB in ES, HR.
  rewrite <- ES, N2Z.id in HS. apply minimal_be_unique in HS. rewrite <- HS in HR.
  eexists. split; [exact HR|]. split; [reflexivity|]. split; [reflexivity|].
  intros reply. split; intros E.
  - now apply verify_server_iff.
  - now apply verify_server_else.
Qed.

(** ** C06 *)

(** What each verifier contains, in terms of its own session's values. *)
Lemma server_reply_inv grp b v A sv :
  server_process_reply D grp b v A = Ok sv ->
  exists lB, server_public D grp b v = Ok lB /\
    server_proof sv = D (to_bytes_be (be_val A) ++ D (to_bytes_be (be_val A) ++ lB ++ server_key sv)
                           ++ server_key sv) /\
    sv_m1 sv = D (to_bytes_be (be_val A) ++ lB ++ server_key sv).
Proof.
  intros H.
  assert (Hu : usable_group (sg_n grp) (sg_g grp)).
  { destruct (usable_dec (sg_n grp) (sg_g grp)) as [|Hu]; [assumption|].
    apply (server_process_reply_panic grp b v A) in Hu. congruence. }
  pose proof Hu as [Hn Hg]%usable_iff.
  assert (HA : be_val A mod sg_n grp <> 0).
  { intros E. rewrite server_process_reply_err in H by assumption. discriminate. }
  destruct (server_process_reply_ok D grp b v A Hu HA) as (S & _ & HR).
  rewrite HR in H. injection H as <-. rewrite server_public_ok by exact Hu.
  eexists. split; [reflexivity|]. split; reflexivity.
Qed.

Lemma client_reply_inv grp a user pw salt B cv :
  client_process_reply D grp a user pw salt B = Ok cv ->
  exists lA, client_public grp a = Ok lA /\
    client_proof cv = D (lA ++ to_bytes_be (be_val B) ++ client_key cv) /\
    cv_m2 cv = D (lA ++ D (lA ++ to_bytes_be (be_val B) ++ client_key cv) ++ client_key cv).
Proof.
  intros H.
  assert (Hp : client_process_reply D grp a user pw salt B <> Panic) by congruence.
  rewrite client_process_reply_panic in Hp.
  assert (Hn : sg_n grp <> 0) by tauto.
  assert (HB : be_val B mod sg_n grp <> 0).
  { intros E. rewrite client_process_reply_err in H by assumption. discriminate. }
  assert (Hu : usable_group (sg_n grp) (sg_g grp)).
  { rewrite divide_iff in Hp by exact Hn. destruct (usable_dec (sg_n grp) (sg_g grp)); tauto. }
  destruct (client_process_reply_ok D grp a user pw salt B Hu HB) as (S & _ & HR).
  rewrite HR in H. injection H as <-. rewrite client_public_ok by exact Hn.
  eexists. split; [reflexivity|]. split; reflexivity.
Qed.

(** Two strings are a digest collision. *)
Definition collision (m m' : bytes) : Prop := m <> m' /\ D m = D m'.

Lemma eq_or_collision m m' : D m = D m' -> m = m' \/ collision m m'.
Proof. intros H. destruct (bytes_eq_dec m m'); [now left|right; now split]. Qed.

(** No hypothesis on what either side received: acceptance of M1 forces equal transcripts. *)
Theorem accepted_m1_transcript grp grp' a user pw salt B b v A cv sv lA lB :
  client_process_reply D grp a user pw salt B = Ok cv -> client_public grp a = Ok lA ->
  server_process_reply D grp' b v A = Ok sv -> server_public D grp' b v = Ok lB ->
  verify_client sv (client_proof cv) = Ok tt ->
  let tc := lA ++ to_bytes_be (be_val B) ++ client_key cv in
  let ts := to_bytes_be (be_val A) ++ lB ++ server_key sv in
  tc = ts \/ collision tc ts.
Proof.
  intros HC HlA HS HlB HV tc ts.
  destruct (client_reply_inv _ _ _ _ _ _ _ HC) as (lA' & HlA' & Hp & _).
  destruct (server_reply_inv _ _ _ _ _ HS) as (lB' & HlB' & _ & Hm).
  assert (lA' = lA) by congruence. assert (lB' = lB) by congruence. subst lA' lB'.
  apply verify_client_iff in HV. apply eq_or_collision. unfold tc, ts. congruence.
Qed.

Theorem accepted_client_same_key grp a user pw salt B b v A cv sv lA lB :
  client_process_reply D grp a user pw salt B = Ok cv -> client_public grp a = Ok lA ->
  server_process_reply D grp b v A = Ok sv -> server_public D grp b v = Ok lB ->
  be_val A = be_val lA -> be_val B = be_val lB ->
  verify_client sv (client_proof cv) = Ok tt ->
  client_key cv = server_key sv \/
  collision (lA ++ lB ++ client_key cv) (lA ++ lB ++ server_key sv).
Proof.
  intros HC HlA HS HlB EA EB HV.
  pose proof (accepted_m1_transcript _ _ _ _ _ _ _ _ _ _ _ _ _ _ HC HlA HS HlB HV) as H.
  cbv zeta in H. rewrite EA, EB in H.
  assert (RA : to_bytes_be (be_val lA) = lA).
  { destruct (N.eq_dec (sg_n grp) 0) as [E|Hn].
    - rewrite (proj2 (client_public_panic grp a) E) in HlA. discriminate.
    - rewrite client_public_ok in HlA by exact Hn. injection HlA as <-.
      unfold enc. now rewrite be_val_to_bytes_be. }
  assert (RB : to_bytes_be (be_val lB) = lB).
  { destruct (usable_dec (sg_n grp) (sg_g grp)) as [Hu|Hu].
    - rewrite server_public_ok in HlB by exact Hu. injection HlB as <-.
      unfold enc. now rewrite be_val_to_bytes_be.
    - rewrite (proj2 (server_public_panic grp b v) Hu) in HlB. discriminate. }
  rewrite RA, RB in H. destruct H as [H|H]; [left|right; exact H].
  now apply app_inv_head, app_inv_head in H.
Qed.

Theorem accepted_server_same_key grp a user pw salt B b v A cv sv lA lB h :
  (forall m, length (D m) = h) ->
  client_process_reply D grp a user pw salt B = Ok cv -> client_public grp a = Ok lA ->
  server_process_reply D grp b v A = Ok sv -> server_public D grp b v = Ok lB ->
  be_val A = be_val lA ->
  verify_server cv (server_proof sv) = Ok tt ->
  client_key cv = server_key sv \/
  collision (lA ++ client_proof cv ++ client_key cv)
            (lA ++ D (lA ++ lB ++ server_key sv) ++ server_key sv).
Proof.
  intros Hlen HC HlA HS HlB EA HV.
  destruct (client_reply_inv _ _ _ _ _ _ _ HC) as (lA' & HlA' & Hp & Hm2).
  destruct (server_reply_inv _ _ _ _ _ HS) as (lB' & HlB' & Hsp & _).
  assert (lA' = lA) by congruence. assert (lB' = lB) by congruence. subst lA' lB'.
  assert (RA : to_bytes_be (be_val lA) = lA).
  { destruct (N.eq_dec (sg_n grp) 0) as [E|Hn].
    - rewrite (proj2 (client_public_panic grp a) E) in HlA. discriminate.
    - rewrite client_public_ok in HlA by exact Hn. injection HlA as <-.
      unfold enc. now rewrite be_val_to_bytes_be. }
  apply verify_server_iff in HV. rewrite EA, RA in Hsp. rewrite <- Hp in Hm2.
  assert (E : D (lA ++ client_proof cv ++ client_key cv)
              = D (lA ++ D (lA ++ lB ++ server_key sv) ++ server_key sv)) by congruence.
  destruct (eq_or_collision _ _ E) as [H|H]; [left|right; exact H].
  apply app_inv_head in H. apply app_inj_length in H; [tauto|].
  rewrite Hp. now rewrite !Hlen.
Qed.

(** ** C07 *)

Theorem m1_ambiguous :
  exists A B K A' B' K', (A, B, K) <> (A', B', K') /\ A <> [] /\ B <> [] /\ A' <> [] /\ B' <> [] /\
    compute_m1 D A B K = compute_m1 D A' B' K'.
Proof.
  exists [x01], [x02; x03], [x04], [x01; x02], [x03], [x04].
  repeat split; try discriminate.
Qed.

Theorem m1_binding A B K A' B' K' :
  length A = length A' -> length B = length B' ->
  compute_m1 D A B K = compute_m1 D A' B' K' ->
  (A = A' /\ B = B' /\ K = K') \/ collision (A ++ B ++ K) (A' ++ B' ++ K').
Proof.
  intros LA LB H. destruct (eq_or_collision _ _ H) as [E|E]; [left|now right].
  apply app_inj_length in E as [-> E]; [|exact LA].
  apply app_inj_length in E as [-> E]; [|exact LB]. auto.
Qed.

Theorem m2_binding A B K A' B' K' h :
  (forall m, length (D m) = h) ->
  length A = length A' ->
  compute_m2 D A (compute_m1 D A B K) K = compute_m2 D A' (compute_m1 D A' B' K') K' ->
  (A = A' /\ B = B' /\ K = K') \/
  collision (A ++ B ++ K) (A' ++ B' ++ K') \/
  collision (A ++ compute_m1 D A B K ++ K) (A' ++ compute_m1 D A' B' K' ++ K').
Proof.
  intros HL LA H. destruct (eq_or_collision _ _ H) as [E|E]; [|now right; right].
  apply app_inj_length in E as [-> E]; [|exact LA].
  apply app_inj_length in E as [E ->]; [|unfold compute_m1; now rewrite !HL].
  destruct (eq_or_collision _ _ E) as [E'|E']; [left|right; now left].
  apply app_inv_head in E'. apply app_inv_tail in E'. auto.
Qed.

(** ** C08 *)

Theorem k_rfc grp ln lg :
  usable_group (sg_n grp) (sg_g grp) ->
  minimal_be (sg_n grp) ln -> minimal_be (sg_g grp) lg ->
  compute_k D grp = Ok (rfc_k D ln lg).
Proof.
  intros [Hn Hg]%usable_iff ->%minimal_be_unique ->%minimal_be_unique. now apply compute_k_ok.
Qed.

Theorem verifier_rfc grp user pw salt :
  sg_n grp <> 0 ->
  exists v, compute_verifier D grp user pw salt = Ok v /\
            minimal_be (sg_g grp ^ rfc_x D user pw salt mod sg_n grp) v.
Proof.
  intros Hn. rewrite compute_verifier_ok by exact Hn. eexists. split; [reflexivity|].
  apply minimal_be_to_bytes.
Qed.

(** ** C09 *)

Lemma pad_full k l : length l = k -> pad k l = l.
Proof. intros <-. unfold pad. now rewrite Nat.sub_diag. Qed.

Theorem u_full_length ln lA lB :
  length lA = length ln -> length lB = length ln ->
  compute_u D lA lB = rfc_u D ln lA lB.
Proof.
  intros HA HB. rewrite compute_u_spec. unfold rfc_u. now rewrite !pad_full.
Qed.

(** ** C10 *)

Theorem leading_zeros_client grp z1 z2 a user pw salt B :
  client_process_reply D grp (repeat x00 z1 ++ a) user pw salt (repeat x00 z2 ++ B)
  = client_process_reply D grp a user pw salt B.
Proof.
  unfold client_process_reply. now rewrite !from_bytes_be_spec, !be_val_zeros.
Qed.

Theorem leading_zeros_server grp z1 z2 z3 b v A :
  server_process_reply D grp (repeat x00 z1 ++ b) (repeat x00 z2 ++ v) (repeat x00 z3 ++ A)
  = server_process_reply D grp b v A.
Proof.
  unfold server_process_reply. now rewrite !from_bytes_be_spec, !be_val_zeros.
Qed.

Theorem leading_zeros_publics grp z1 z2 z3 a b v :
  client_public grp (repeat x00 z1 ++ a) = client_public grp a /\
  server_public D grp (repeat x00 z2 ++ b) (repeat x00 z3 ++ v) = server_public D grp b v.
Proof.
  unfold client_public, server_public. now rewrite !from_bytes_be_spec, !be_val_zeros.
Qed.

Lemma enc_mod_canonical n m l ln :
  n <> 0 -> l = to_bytes_be (m mod n) -> minimal_be n ln ->
  be_val l < n /\ minimal_be (be_val l) l /\ (length l <= length ln)%nat.
Proof.
  intros Hn -> ->%minimal_be_unique. rewrite be_val_to_bytes_be.
  pose proof (N.mod_lt m n Hn).
  split; [assumption|]. split; [apply minimal_be_to_bytes|]. apply to_bytes_be_length_mono. lia.
Qed.

Definition canonical_below (n : N) (ln l : bytes) : Prop :=
  be_val l < n /\ minimal_be (be_val l) l /\ (length l <= length ln)%nat.

Theorem outputs_canonical grp ln :
  minimal_be (sg_n grp) ln ->
  (forall a l, client_public grp a = Ok l -> canonical_below (sg_n grp) ln l) /\
  (forall b v l, server_public D grp b v = Ok l -> canonical_below (sg_n grp) ln l) /\
  (forall user pw salt l, compute_verifier D grp user pw salt = Ok l ->
     canonical_below (sg_n grp) ln l) /\
  (forall a user pw salt B cv, client_process_reply D grp a user pw salt B = Ok cv ->
     canonical_below (sg_n grp) ln (client_key cv)) /\
  (forall b v A sv, server_process_reply D grp b v A = Ok sv ->
     canonical_below (sg_n grp) ln (server_key sv)).
Proof.
  intros Hln. unfold canonical_below.
  assert (HU : forall b v l, server_public D grp b v = Ok l -> usable_group (sg_n grp) (sg_g grp)).
  { intros b v l H. destruct (usable_dec (sg_n grp) (sg_g grp)) as [|Hu]; [assumption|].
    rewrite (proj2 (server_public_panic grp b v) Hu) in H. discriminate. }
  repeat apply conj.
  - intros a l H. destruct (N.eq_dec (sg_n grp) 0) as [E|Hn].
    + rewrite (proj2 (client_public_panic grp a) E) in H. discriminate.
    + rewrite client_public_ok in H by exact Hn. injection H as <-.
      now eapply enc_mod_canonical.
  - intros b v l H. pose proof (HU _ _ _ H) as Hu. pose proof Hu as [Hn _]%usable_iff.
    rewrite server_public_ok in H by exact Hu. injection H as <-.
    now eapply enc_mod_canonical.
  - intros user pw salt l H. destruct (N.eq_dec (sg_n grp) 0) as [E|Hn].
    + rewrite (proj2 (compute_verifier_panic grp user pw salt) E) in H. discriminate.
    + rewrite compute_verifier_ok in H by exact Hn. injection H as <-.
      now eapply enc_mod_canonical.
  - intros a user pw salt B cv H.
    assert (Hp : client_process_reply D grp a user pw salt B <> Panic) by congruence.
    rewrite client_process_reply_panic in Hp.
    assert (Hn : sg_n grp <> 0) by tauto.
    assert (HB : be_val B mod sg_n grp <> 0).
    { intros E. rewrite client_process_reply_err in H by assumption. discriminate. }
    assert (Hu : usable_group (sg_n grp) (sg_g grp)).
    { rewrite divide_iff in Hp by exact Hn. destruct (usable_dec (sg_n grp) (sg_g grp)); tauto. }
    destruct (client_process_reply_ok D grp a user pw salt B Hu HB) as (S & HS & HR).
    rewrite HR in H. injection H as <-. unfold client_key; cbn [cv_key].
    assert (E : S mod sg_n grp = S).
    { apply N2Z.inj. rewrite of_N_mod, HS. unfold srp_client_S. apply Z.mod_mod. lia. }
    eapply enc_mod_canonical; [exact Hn| |exact Hln]. unfold enc. f_equal. symmetry. exact E.
  - intros b v A sv H.
    assert (Hu : usable_group (sg_n grp) (sg_g grp)).
    { destruct (usable_dec (sg_n grp) (sg_g grp)) as [|Hu]; [assumption|].
      apply (server_process_reply_panic grp b v A) in Hu. congruence. }
    pose proof Hu as [Hn Hg]%usable_iff.
    assert (HA : be_val A mod sg_n grp <> 0).
    { intros E. rewrite server_process_reply_err in H by assumption. discriminate. }
    destruct (server_process_reply_ok D grp b v A Hu HA) as (S & HS & HR).
    rewrite HR in H. injection H as <-. unfold server_key; cbn [sv_key].
    assert (E : S mod sg_n grp = S).
    { apply N2Z.inj. rewrite of_N_mod, HS. unfold srp_server_S. apply Z.mod_mod. lia. }
    eapply enc_mod_canonical; [exact Hn| |exact Hln]. unfold enc. f_equal. symmetry. exact E.
Qed.

(** ** C11, the algebraic half *)

Lemma coprime_pow n g a : n <> 0 -> 1 < n -> N.gcd g n = 1 -> g ^ a mod n <> 0.
Proof.
  intros Hn H1 Hg E. apply N.mod_divide in E; [|exact Hn].
  assert (G : forall e, N.gcd (g ^ e) n = 1).
  { induction e as [|e IH] using N.peano_ind.
    - rewrite N.pow_0_r. apply N.gcd_1_l.
    - rewrite N.pow_succ_r'. apply N.gcd_unique; [lia|apply N.divide_1_l|apply N.divide_1_l|].
      + intros q Hq1 Hq2.
        assert (N.gcd q g = 1).
        { apply N.gcd_unique; [lia|apply N.divide_1_l|apply N.divide_1_l|].
          intros r Hr1 Hr2. rewrite <- Hg. apply N.gcd_greatest; [assumption|].
          now apply N.divide_trans with q. }
        rewrite <- IH. apply N.gcd_greatest; [|assumption].
        apply N.gauss with g; assumption. }
  specialize (G a).
  assert (N.divide n 1).
  { rewrite <- G. apply N.gcd_greatest; [exact E|reflexivity]. }
  apply N.divide_1_r in H. lia.
Qed.

Theorem honest_a_accepted grp a b v :
  usable_group (sg_n grp) (sg_g grp) -> 1 < sg_n grp -> N.gcd (sg_g grp) (sg_n grp) = 1 ->
  exists A sv, client_public grp a = Ok A /\ ~ N.divide (sg_n grp) (be_val A) /\
    server_process_reply D grp b v A = Ok sv.
Proof.
  intros Hu H1 Hg. pose proof Hu as [Hn _]%usable_iff.
  rewrite client_public_ok by exact Hn.
  pose proof (coprime_pow (sg_n grp) (sg_g grp) (be_val a) Hn H1 Hg) as HA.
  assert (ND : ~ N.divide (sg_n grp) (be_val (enc (sg_g grp ^ be_val a mod sg_n grp)))).
  { unfold enc. rewrite be_val_to_bytes_be, divide_iff, N.mod_mod by exact Hn. exact HA. }
  destruct (proj2 (server_accepts_iff grp b v _ Hu) ND) as [sv Hsv].
  eauto.
Qed.

(** The client rejects an honest server exactly when B happens to be 0 modulo N. *)
Theorem honest_b_accepted grp a user pw salt b v B :
  server_public D grp b v = Ok B ->
  (exists cv, client_process_reply D grp a user pw salt B = Ok cv) <-> be_val B <> 0.
Proof.
  intros HB.
  assert (Hu : usable_group (sg_n grp) (sg_g grp)).
  { destruct (usable_dec (sg_n grp) (sg_g grp)) as [|Hu]; [assumption|].
    rewrite (proj2 (server_public_panic grp b v) Hu) in HB. discriminate. }
  pose proof Hu as [Hn _]%usable_iff.
  destruct (outputs_canonical grp _ (minimal_be_to_bytes (sg_n grp))) as (_ & H & _).
  destruct (H _ _ _ HB) as [Hlt _].
  assert (E : be_val B mod sg_n grp = be_val B) by now apply N.mod_small.
  split.
  - intros [cv Hcv] E0. rewrite client_process_reply_err in Hcv; [discriminate|exact Hn|congruence].
  - intros H0. apply client_accepts_iff; [exact Hu|]. rewrite divide_iff by exact Hn. congruence.
Qed.

(** ** C12 *)

Theorem u_zero_server_key grp b v A lA lB :
  usable_group (sg_n grp) (sg_g grp) ->
  ~ N.divide (sg_n grp) (be_val A) ->
  minimal_be (be_val A) lA -> server_public D grp b v = Ok lB ->
  be_val (D (lA ++ lB)) = 0 ->
  exists sv, server_process_reply D grp b v A = Ok sv /\
             minimal_be (be_val A ^ be_val b mod sg_n grp) (server_key sv).
Proof.
  intros Hu HA ->%minimal_be_unique HlB H0. pose proof Hu as [Hn Hg]%usable_iff.
  rewrite divide_iff in HA by exact Hn.
  destruct (server_process_reply_ok D grp b v A Hu HA) as (S & ES & HR).
  rewrite server_public_ok in HlB by exact Hu. injection HlB as <-.
  unfold enc in *. rewrite H0 in ES. eexists. split; [exact HR|].
  unfold server_key; cbn [sv_key].
  assert (E : S = be_val A ^ be_val b mod sg_n grp).
  { apply N2Z.inj. rewrite ES. unfold srp_server_S. rewrite of_N_mod, of_N_pow.
    now rewrite Z.pow_0_r, Z.mul_1_r. }
  rewrite E. apply minimal_be_to_bytes.
Qed.

(** ** C13 *)

Theorem credentials_ambiguous :
  exists user pw user' pw', (user, pw) <> (user', pw') /\
    forall salt grp,
      compute_identity_hash D user pw = compute_identity_hash D user' pw' /\
      compute_verifier D grp user pw salt = compute_verifier D grp user' pw' salt.
Proof.
  exists (str "alice"), (str "x:secret"), (str "alice:x"), (str "secret").
  split; [discriminate|]. intros salt grp. split; reflexivity.
Qed.

Lemma split_at_colon (u p u' p' : bytes) :
  ~ In x3a u -> ~ In x3a u' -> u ++ [x3a] ++ p = u' ++ [x3a] ++ p' -> u = u' /\ p = p'.
Proof.
  revert u'; induction u as [|c u IH]; intros [|c' u'] H H' E; cbn in *.
  - injection E; auto.
  - injection E as <- _. exfalso; auto.
  - injection E as -> _. exfalso; auto.
  - injection E as -> E. destruct (IH u') as [-> ->]; auto.
Qed.

Theorem credentials_binding user pw user' pw' :
  ~ In x3a user -> ~ In x3a user' ->
  compute_identity_hash D user pw = compute_identity_hash D user' pw' ->
  (user = user' /\ pw = pw') \/
  collision (user ++ [x3a] ++ pw) (user' ++ [x3a] ++ pw').
Proof.
  intros H H' E. destruct (eq_or_collision _ _ E) as [E'|E']; [left|now right].
  now apply split_at_colon.
Qed.

(** ** C14 *)

Theorem key_is_not_a_digest grp h ln :
  (forall m, length (D m) = h) -> minimal_be (sg_n grp) ln -> (length ln < h)%nat ->
  (forall a user pw salt B cv, client_process_reply D grp a user pw salt B = Ok cv ->
     forall m, client_key cv <> D m) /\
  (forall b v A sv, server_process_reply D grp b v A = Ok sv ->
     forall m, server_key sv <> D m).
Proof.
  intros HL Hln Hlt.
  destruct (outputs_canonical grp ln Hln) as (_ & _ & _ & HC & HS). split.
  - intros a user pw salt B cv H m E. destruct (HC _ _ _ _ _ _ H) as (_ & _ & HK).
    rewrite E, HL in HK. lia.
  - intros b v A sv H m E. destruct (HS _ _ _ _ H) as (_ & _ & HK).
    rewrite E, HL in HK. lia.
Qed.

End WithD.
