(** * Properties C62-C66: the example programs of the aucpace crate. *)
From Coq Require Import ZArith Lia.
From Verif Require Import Base.Bytes Base.Outcome Base.Rng Base.Kat.
From Verif Require Import Curve.Scalar25519.
From Verif Require Import Aucpace.RistrettoGroup Aucpace.PwHash Aucpace.AucpaceModel Aucpace.AucpaceSpec
  Aucpace.AucpaceRun Aucpace.AucpaceDb Aucpace.AucpaceToy Aucpace.AucpaceProofs Aucpace.AucpaceProps
  Aucpace.Wire Aucpace.WireProofs Aucpace.AucpaceProps3 Aucpace.Net Aucpace.TcpExample Aucpace.TcpProofs
  Aucpace.NoStdExample.
Local Open Scope nat_scope.

Section Tcp.
Context (R : RGroup) (L : rgroup_laws R) (D : bytes -> bytes) (Dlen : forall m, length (D m) = 64).
Context (Params : Type) (params_of : bytes -> res Params).
Context (Tc Ts : Rng) (user pass : bytes) (h : hasher Params) (rngs : rng_state Ts).

(** ** The three programs *)

Definition records_valid (DB : Database R) (d : db DB) : Prop :=
  forall u W salt ps, lookup_verifier DB d u = Some (W, salt, ps) -> salt_valid salt /\ params_valid ps.
Definition strong_records_valid (DB : StrongDatabase R) (d : sdb DB) : Prop :=
  forall u W q ps, lookup_verifier_strong DB d u = Some (W, q, ps) -> params_valid ps.

(** the server's replies have the group's name, a short salt and short parameters *)
Definition short_reply (M : ServerMessage R) : Prop :=
  match M with
  | SAugmentationInfo g _ salt ps => g = group_name /\ length salt <= 64 /\ length ps <= 127
  | SStrongAugmentationInfo g _ _ ps => g = group_name /\ length ps <= 127
  | _ => False
  end.
Lemma short_reply_fits strong M : short_reply M -> length (put_server R bincode strong M) <= BUF.
Proof.
  unfold put_server, put_point, BUF. destruct M as [n|g P salt ps|g P Q ps|P|a]; cbn [short_reply]; try contradiction.
  - intros (-> & H1 & H2). rewrite !app_length, !pb_length, (rl_length R L).
    cbn [bincode put_tag]. rewrite le_bytes_length. change (length group_name) with 12. lia.
  - intros (-> & H2). rewrite !app_length, !pb_length, !(rl_length R L).
    cbn [bincode put_tag]. rewrite le_bytes_length. change (length group_name) with 12. lia.
Qed.

Lemma substep_ok (s : AuCPaceServerAugLayer) r ss M : cpace_substep R Ts s r = Ok (ss, M) ->
  scs_ssid Ts ss = sal_ssid s /\ exists prs, fst r = Ok (prs, M).
Proof.
  unfold cpace_substep. destruct r as [r st]. intros E. apply obind_ok in E. destruct E as ([prs m] & -> & E).
  injection E as <- <-. split; [reflexivity|]. now exists prs.
Qed.

Lemma prs_reply (DB : Database R) d s u st x P prs M : records_valid DB d ->
  fst (generate_prs R D DB Ts s u d st x P) = Ok (prs, M) ->
  server_valid R K1 M /\ (forall strong, server_has R strong M = true) /\ short_reply M.
Proof.
  intros HD. unfold generate_prs. destruct (lookup_verifier DB d u) as [[[W salt] ps]|] eqn:El.
  - cbn [fst]. intros E. injection E as _ <-. destruct (HD _ _ _ _ El) as [H1 H2].
    split; [|split; [reflexivity|split; [reflexivity|split; [apply H1|apply H2]]]].
    cbn [server_valid]. split; [reflexivity|split; [now apply short_small; cbn; lia|split; assumption]].
  - rewrite lookup_failed_eq by exact Dlen. cbn [fst]. intros E. injection E as _ <-.
    assert (V : salt_valid (fake_salt D (sal_secret s) u)).
    { unfold fake_salt. apply salt_encode_ok. rewrite firstn_length, Dlen. cbn. lia. }
    split; [|split; [reflexivity|split; [reflexivity|split; [apply V|cbn; lia]]]].
    cbn [server_valid]. split; [reflexivity|split; [now apply short_small; cbn; lia|split; [exact V|]]].
    split; [cbn; lia|now left].
Qed.
Lemma failed_reply s u P st prs M :
  fst (lookup_failed R D Ts s u P st) = Ok (prs, M) ->
  server_valid R K1 M /\ (forall strong, server_has R strong M = true) /\ short_reply M.
Proof.
  rewrite lookup_failed_eq by exact Dlen. cbn [fst]. intros E. injection E as _ <-.
  assert (V : salt_valid (fake_salt D (sal_secret s) u)).
  { unfold fake_salt. apply salt_encode_ok. rewrite firstn_length, Dlen. cbn. lia. }
  split; [|split; [reflexivity|split; [reflexivity|split; [apply V|cbn; lia]]]].
  cbn [server_valid]. split; [reflexivity|split; [now apply short_small; cbn; lia|split; [exact V|]]].
  split; [cbn; lia|now left].
Qed.
Lemma prs_strong_reply (DB : StrongDatabase R) d s u U st x P prs M : strong_records_valid DB d ->
  fst (generate_prs_strong R D DB Ts s u U d st x P) = Ok (prs, M) ->
  server_valid R K1 M /\ server_has R true M = true /\ short_reply M.
Proof.
  intros HD. unfold generate_prs_strong. destruct (lookup_verifier_strong DB d u) as [[[W q] ps]|] eqn:El.
  - destruct (is_identity _); cbn [fst]; [discriminate|]. intros E. injection E as _ <-. pose proof (HD _ _ _ _ El) as H2.
    split; [|split; [reflexivity|split; [reflexivity|apply H2]]].
    cbn [server_valid]. split; [reflexivity|split; [now apply short_small; cbn; lia|exact H2]].
  - rewrite lookup_failed_strong_eq. cbv zeta. destruct (is_identity _); cbn [fst]; [discriminate|].
    intros E. injection E as _ <-. split; [|split; [reflexivity|split; [reflexivity|cbn; lia]]].
    cbn [server_valid]. split; [reflexivity|split; [now apply short_small; cbn; lia|]]. split; [cbn; lia|now left].
Qed.

Lemma finish_plain_ssid st M cs : finish_plain R Params params_of h st M = Ok cs -> ccs_ssid cs = cal_ssid st.
Proof.
  unfold finish_plain. destruct M as [ |g P salt ps| | | ]; try discriminate. intros E.
  apply obind_ok in E. destruct E as (params & _ & E). unfold generate_cpace_alloc in E.
  destruct (is_identity P); [discriminate|]. apply obind_ok in E. destruct E as (o & _ & E).
  apply obind_ok in E. destruct E as (w & _ & E). now injection E as <-.
Qed.

(** A reply is valid and short. *)
Definition replies_ok (strong : bool) (X : example R Ts) : Prop :=
  forall s m ss M, ex_info R Ts X s m = Ok (ss, M) -> short_reply M.

Lemma plain_laws strong (DB : Database R) d : records_valid DB d -> small user ->
  let X := key_agreement R D Ts Params params_of user pass h rngs DB d in
  example_laws R Ts strong X /\ replies_ok strong X.
Proof.
  intros HD Hu X.
  assert (HI : forall s m ss M, ex_info R Ts X s m = Ok (ss, M) ->
    scs_ssid Ts ss = sal_ssid s /\ server_valid R K1 M /\ (forall strong, server_has R strong M = true) /\ short_reply M).
  { intros s m ss M E. destruct m as [ |u| | | | | ]; try discriminate E.
    cbn [X key_agreement ex_info] in E. rewrite generate_client_info_eq in E. apply substep_ok in E.
    destruct E as [E1 [prs E2]]. split; [exact E1|]. exact (prs_reply DB d _ _ _ _ _ _ _ HD E2). }
  split.
  - constructor.
    + intros c st m M cs E1 E2. cbn [X key_agreement ex_start] in E1. injection E1 as <- _.
      cbn [X key_agreement ex_finish] in E2. now apply finish_plain_ssid in E2.
    + intros s m ss M E. apply (HI s m ss M E).
    + intros c st m E. injection E as _ <-. split; [reflexivity|exact Hu].
    + intros s m ss M E. destruct (HI s m ss M E) as (_ & H1 & H2 & _). split; [apply H2|exact H1].
  - intros s m ss M E. apply (HI s m ss M E).
Qed.
Lemma partial_laws strong (DB : Database R) PDB d : records_valid DB d -> small user ->
  let X := key_agreement_partial_aug R D Ts Params params_of user pass h rngs DB PDB d in
  example_laws R Ts strong X /\ replies_ok strong X.
Proof.
  intros HD Hu X.
  assert (HI : forall s m ss M, ex_info R Ts X s m = Ok (ss, M) ->
    scs_ssid Ts ss = sal_ssid s /\ server_valid R K1 M /\ (forall strong, server_has R strong M = true) /\ short_reply M).
  { intros s m ss M E. destruct m as [ |u| | | | | ]; try discriminate E.
    cbn [X key_agreement_partial_aug ex_info] in E. unfold generate_client_info_partial_aug in E. apply substep_ok in E.
    destruct E as [E1 [prs E2]]. split; [exact E1|].
    destruct (lookup_long_term_keypair PDB d u) as [[x P]|].
    - exact (prs_reply DB d _ _ _ _ _ _ _ HD E2).
    - destruct (point_random R Ts rngs) as [P st]. exact (failed_reply _ _ _ _ _ _ E2). }
  split.
  - constructor.
    + intros c st m M cs E1 E2. cbn [X key_agreement_partial_aug ex_start] in E1. injection E1 as <- _.
      cbn [X key_agreement_partial_aug ex_finish] in E2. now apply finish_plain_ssid in E2.
    + intros s m ss M E. apply (HI s m ss M E).
    + intros c st m E. injection E as _ <-. split; [reflexivity|exact Hu].
    + intros s m ss M E. destruct (HI s m ss M E) as (_ & H1 & H2 & _). split; [apply H2|exact H1].
  - intros s m ss M E. apply (HI s m ss M E).
Qed.
Lemma strong_laws (DB : StrongDatabase R) d fuel crng : strong_records_valid DB d -> small user ->
  let X := key_agreement_strong R D Tc Ts Params params_of user pass h rngs DB d fuel crng in
  example_laws R Ts true X /\ replies_ok true X.
Proof.
  intros HD Hu X.
  assert (HI : forall s m ss M, ex_info R Ts X s m = Ok (ss, M) ->
    scs_ssid Ts ss = sal_ssid s /\ server_valid R K1 M /\ server_has R true M = true /\ short_reply M).
  { intros s m ss M E. destruct m as [ | |u U| | | | ]; try discriminate E.
    cbn [X key_agreement_strong ex_info] in E. rewrite generate_client_info_strong_eq in E.
    destruct (cpace_substep R Ts s _) as [[ss' M']| | ] eqn:E'; try discriminate E. injection E as -> ->.
    apply substep_ok in E'. destruct E' as [E1 [prs E2]]. split; [exact E1|].
    exact (prs_strong_reply DB d _ _ _ _ _ _ _ _ HD E2). }
  split.
  - constructor.
    + intros c st m M cs E1 E2. cbn [X key_agreement_strong ex_start] in E1. rewrite start_augmentation_strong_eq in E1.
      destruct (draw_blinding_value Tc fuel crng) as [[r st']|]; [|discriminate E1]. injection E1 as <- _.
      cbn [X key_agreement_strong ex_finish] in E2. destruct M as [ | |g P Q ps| | ]; try discriminate E2.
      apply obind_ok in E2. destruct E2 as (params & _ & E). unfold strong_generate_cpace_alloc in E.
      destruct (is_identity P); [discriminate E|]. cbv zeta in E.
      destruct (is_identity _) in E; [discriminate E|].
      apply obind_ok in E. destruct E as (o1 & _ & E). apply obind_ok in E. destruct E as (o2 & _ & E).
      apply obind_ok in E. destruct E as (w & _ & E). now injection E as <-.
    + intros s m ss M E. apply (HI s m ss M E).
    + intros c st m E. cbn [X key_agreement_strong ex_start] in E. rewrite start_augmentation_strong_eq in E.
      destruct (draw_blinding_value Tc fuel crng) as [[r st']|]; [|discriminate E]. injection E as _ <-. split; [reflexivity|exact Hu].
    + intros s m ss M E. destruct (HI s m ss M E) as (_ & H1 & H2 & _). split; [exact H2|exact H1].
  - intros s m ss M E. apply (HI s m ss M E).
Qed.

(** ** C62: however the bytes are cut into reads, a client that ends with a key ends with the server's *)

(** One of the three programs, with a database of valid records. *)
Inductive tcp_example : bool -> example R Ts -> Prop :=
| te_plain strong DB d : records_valid DB d ->
    tcp_example strong (key_agreement R D Ts Params params_of user pass h rngs DB d)
| te_partial strong DB PDB d : records_valid DB d ->
    tcp_example strong (key_agreement_partial_aug R D Ts Params params_of user pass h rngs DB PDB d)
| te_strong DB d fuel crng : strong_records_valid DB d ->
    tcp_example true (key_agreement_strong R D Tc Ts Params params_of user pass h rngs DB d fuel crng).
Lemma tcp_example_laws strong X : tcp_example strong X -> small user -> example_laws R Ts strong X /\ replies_ok strong X.
Proof.
  intros H Hu. destruct H as [strong DB d HD|strong DB PDB d HD|DB d fuel crng HD].
  - exact (plain_laws strong DB d HD Hu).
  - exact (partial_laws strong DB PDB d HD Hu).
  - exact (strong_laws DB d fuel crng HD Hu).
Qed.

Section Sessions.
Context (strong : bool) (X : example R Ts) (HX : tcp_example strong X) (Hu : small user).
Context (c : AuCPaceClient Tc) (s : AuCPaceServer Ts) (ci_c ci_s : bytes) (rngc : rng_state Tc).
Notation c0 := (client_thread R D Tc Ts strong X c ci_c rngc).
Notation s0 := (server_thread R D Ts strong X s ci_s).
Notation ssid := (the_ssid D Tc Ts c s).

(** In every execution: if the client has ended with a key, the server has ended with a key, and the two
    keys are equal or the digest has a collision at two values that the reads of the two threads
    determine. *)
Theorem C62_agreement :
  forall n kc, exec (start c0 s0) n -> cl n = PDone (Ok kc) ->
  exists ks a b, sv n = PDone (Ok ks) /\
    client_sk1 R D Tc Ts strong c s rngc n = Some a /\ server_sk1 R D Tc Ts strong X c s n = Some b /\
    (kc = ks \/ collision D (word x03 ++ ssid ++ a) (word x03 ++ ssid ++ b)).
Proof.
  intros n kc He Hk.
  destruct (tcp_agree R L D Dlen Tc Ts strong X (proj1 (tcp_example_laws strong X HX Hu)) c s ci_c ci_s rngc n kc He Hk)
    as (ks & a & b & H1 & H2 & H3 & -> & -> & H4 & _).
  exists (spec_sk D ssid b), a, b. split; [exact H1|]. split; [exact H2|]. split; [exact H3|].
  destruct (bytes_eq_dec a b) as [->|Hab]; [now left|right]. split; [|exact H4].
  intros E. apply Hab. now apply app_inv_head, app_inv_head in E.
Qed.

(** The client has then read all the server wrote, one message at a time. *)
Theorem C62_client_reads_all :
  forall n kc, exec (start c0 s0) n -> cl n = PDone (Ok kc) -> s2c n = [] /\ concat (c_reads n) = s_out n.
Proof.
  intros n kc He Hk.
  destruct (tcp_agree R L D Dlen Tc Ts strong X (proj1 (tcp_example_laws strong X HX Hu)) c s ci_c ci_s rngc n kc He Hk)
    as (ks & a & b & _ & _ & _ & _ & _ & _ & H1 & H2).
  split; [exact H1|now symmetry].
Qed.

(** ** C63: the programs do not always end *)

(** For every session whose first two client messages fit the buffer together there is an execution in
    which both threads wait for ever: the server's first read returns both messages, and drops the
    second. *)
Theorem C63_termination_refuted :
  forall st m, ex_start R Ts X {| cpa_ssid := ssid |} = Some (st, m) ->
  28 + length (put_client R bincode strong m) <= 1024 ->
  exists n, exec (start c0 s0) n /\
    (forall r, cl n <> PDone r) /\ (forall r, sv n <> PDone r) /\ forall n', ~ step n n'.
Proof.
  intros st m Est Hm. destruct (tcp_deadlocks R L D Dlen Tc Ts strong X c s ci_c ci_s rngc st m Est Hm)
    as (n & He & [k Hc] & [k' Hs] & Hn).
  exists n. split; [exact He|]. split; [intros r; rewrite Hc; discriminate|]. split; [intros r; rewrite Hs; discriminate|exact Hn].
Qed.

(** In every session the server can panic: its first read returns one byte. *)
Theorem C63_split_refuted : exists n, exec (start c0 s0) n /\ sv n = PDone Panic.
Proof. exact (tcp_splits R L D Dlen Tc Ts strong X c s ci_c ci_s rngc). Qed.
End Sessions.

(** ** Sessions that end well: if a run in which each message is delivered whole ends with keys, so does
    an execution of the threads. *)
Section Completion.
Context (c : AuCPaceClient Tc) (s : AuCPaceServer Ts) (ci : bytes) (rngc : rng_state Tc).
Notation ssid := (the_ssid D Tc Ts c s).

Lemma run_ssid_nonces : run_ssid R D Tc Ts (ByNonces K1) c s
  = Ok ({| cpa_ssid := ssid |}, sal D Ts s (nonce Tc (c_rng Tc c))).
Proof.
  cbn [run_ssid]. destruct (client_begin R Tc K1 c) as [[sess m0] c'] eqn:Eb.
  pose proof (client_begin_nonce R Tc c) as En. rewrite Eb in En. injection En as -> ->.
  destruct (server_begin R Ts K1 s) as [[ses' m1] s'] eqn:Eb'.
  pose proof (server_begin_nonce R Ts s) as En. rewrite Eb' in En. injection En as -> ->.
  unfold client_agree_ssid, server_agree_ssid. rewrite !compute_ssid_eq. reflexivity.
Qed.

Lemma completes strong X st m ss M cs kc ks : tcp_example strong X -> small user ->
  ex_start R Ts X {| cpa_ssid := ssid |} = Some (st, m) ->
  ex_info R Ts X (sal D Ts s (nonce Tc (c_rng Tc c))) m = Ok (ss, M) -> ex_finish R Ts X st M = Ok cs ->
  run_explicit R D Tc Ts cs ss ci ci rngc = Ok (kc, ks) -> length (put_client R bincode strong m) <= BUF ->
  exists n, exec (start (client_thread R D Tc Ts strong X c ci rngc) (server_thread R D Ts strong X s ci)) n /\
    cl n = PDone (Ok kc) /\ sv n = PDone (Ok ks) /\ c2s n = [] /\ s2c n = [].
Proof.
  intros HX Hu E1 E2 E3 E4 Hm. destruct (tcp_example_laws strong X HX Hu) as [EL Hs].
  apply (tcp_completes R L D Dlen Tc Ts strong X EL c s ci ci rngc st m ss M cs kc ks E1 E2 E3 E4 Hm).
  exact (short_reply_fits strong M (Hs _ _ _ _ E2)).
Qed.

Lemma user_small : length user <= 1012 -> small user.
Proof. unfold small. intros H. assert (N.of_nat (length user) <= 1012)%N by lia. lia. Qed.

Theorem C62_completes :
  forall strong (DB : Database R) d kc ks, records_valid DB d -> length user <= 1012 ->
  run_login R D Params params_of Explicit Tc Ts (ByNonces 16) AllocBuf c s
    (fun sess u => generate_client_info R D DB Ts sess u d rngs) user pass h ci rngc = Ok (kc, ks) ->
  let X := key_agreement R D Ts Params params_of user pass h rngs DB d in
  exists n, exec (start (client_thread R D Tc Ts strong X c ci rngc) (server_thread R D Ts strong X s ci)) n /\
    cl n = PDone (Ok kc) /\ sv n = PDone (Ok ks) /\ c2s n = [] /\ s2c n = [].
Proof.
  intros strong DB d kc ks HD Hl Hrun X. unfold run_login in Hrun. change 16 with K1 in Hrun.
  rewrite run_ssid_nonces in Hrun. cbn [obind] in Hrun. unfold run_aug in Hrun.
  destruct (start_augmentation R {| cpa_ssid := ssid |} user pass) as [st m] eqn:Est.
  pose proof Est as Est'. unfold start_augmentation in Est'. injection Est' as _ <-.
  apply obind_ok in Hrun. destruct Hrun as ([cs ss] & Ha & Hrun).
  apply obind_ok in Ha. destruct Ha as ([ss' M] & Hi & Ha).
  apply (completes strong X st (CUsername user) ss M cs).
  - now apply te_plain.
  - now apply user_small.
  - cbn [X key_agreement ex_start]. now rewrite Est.
  - cbn [X key_agreement ex_info]. rewrite Hi. destruct M as [ |g P salt ps| | | ]; try discriminate Ha.
    apply obind_ok in Ha. destruct Ha as (params & _ & Ha). apply obind_ok in Ha. destruct Ha as (cs' & _ & Ha).
    now injection Ha as <- <-.
  - cbn [X key_agreement ex_finish]. unfold finish_plain. destruct M as [ |g P salt ps| | | ]; try discriminate Ha.
    apply obind_ok in Ha. destruct Ha as (params & Hp & Ha). rewrite Hp. cbn [obind].
    apply obind_ok in Ha. destruct Ha as (cs' & Hc & Ha). injection Ha as <- <-. exact Hc.
  - exact Hrun.
  - unfold put_client. rewrite app_length, pb_length. cbn [bincode put_tag]. rewrite le_bytes_length. unfold BUF. lia.
Qed.
Theorem C62_completes_partial_aug :
  forall strong (DB : Database R) PDB d kc ks, records_valid DB d -> length user <= 1012 ->
  run_login R D Params params_of Explicit Tc Ts (ByNonces 16) AllocBuf c s
    (fun sess u => generate_client_info_partial_aug R D DB PDB Ts sess u d rngs) user pass h ci rngc = Ok (kc, ks) ->
  let X := key_agreement_partial_aug R D Ts Params params_of user pass h rngs DB PDB d in
  exists n, exec (start (client_thread R D Tc Ts strong X c ci rngc) (server_thread R D Ts strong X s ci)) n /\
    cl n = PDone (Ok kc) /\ sv n = PDone (Ok ks) /\ c2s n = [] /\ s2c n = [].
Proof.
  intros strong DB PDB d kc ks HD Hl Hrun X. unfold run_login in Hrun. change 16 with K1 in Hrun.
  rewrite run_ssid_nonces in Hrun. cbn [obind] in Hrun. unfold run_aug in Hrun.
  destruct (start_augmentation R {| cpa_ssid := ssid |} user pass) as [st m] eqn:Est.
  pose proof Est as Est'. unfold start_augmentation in Est'. injection Est' as _ <-.
  apply obind_ok in Hrun. destruct Hrun as ([cs ss] & Ha & Hrun).
  apply obind_ok in Ha. destruct Ha as ([ss' M] & Hi & Ha).
  apply (completes strong X st (CUsername user) ss M cs).
  - now apply te_partial.
  - now apply user_small.
  - cbn [X key_agreement_partial_aug ex_start]. now rewrite Est.
  - cbn [X key_agreement_partial_aug ex_info]. rewrite Hi. destruct M as [ |g P salt ps| | | ]; try discriminate Ha.
    apply obind_ok in Ha. destruct Ha as (params & _ & Ha). apply obind_ok in Ha. destruct Ha as (cs' & _ & Ha).
    now injection Ha as <- <-.
  - cbn [X key_agreement_partial_aug ex_finish]. unfold finish_plain. destruct M as [ |g P salt ps| | | ]; try discriminate Ha.
    apply obind_ok in Ha. destruct Ha as (params & Hp & Ha). rewrite Hp. cbn [obind].
    apply obind_ok in Ha. destruct Ha as (cs' & Hc & Ha). injection Ha as <- <-. exact Hc.
  - exact Hrun.
  - unfold put_client. rewrite app_length, pb_length. cbn [bincode put_tag]. rewrite le_bytes_length. unfold BUF. lia.
Qed.
Theorem C62_completes_strong :
  forall (DB : StrongDatabase R) d fuel crng kc ks, strong_records_valid DB d -> length user <= 980 ->
  run_login_strong R D Params params_of Explicit Tc Ts (ByNonces 16) AllocBuf c s
    (fun sess u U => generate_client_info_strong R D DB Ts sess u U d rngs) fuel user pass h ci crng rngc
    = Some (Ok (kc, ks)) ->
  let X := key_agreement_strong R D Tc Ts Params params_of user pass h rngs DB d fuel crng in
  exists n, exec (start (client_thread R D Tc Ts true X c ci rngc) (server_thread R D Ts true X s ci)) n /\
    cl n = PDone (Ok kc) /\ sv n = PDone (Ok ks) /\ c2s n = [] /\ s2c n = [].
Proof.
  intros DB d fuel crng kc ks HD Hl Hrun X. unfold run_login_strong in Hrun. change 16 with K1 in Hrun.
  rewrite run_ssid_nonces in Hrun.
  destruct (start_augmentation_strong R D Tc fuel {| cpa_ssid := ssid |} user pass crng) as [[[st m] r]|] eqn:Est; [|discriminate Hrun].
  injection Hrun as Hrun. unfold run_aug_strong in Hrun.
  pose proof Est as Est'. rewrite start_augmentation_strong_eq in Est'.
  destruct (draw_blinding_value Tc fuel crng) as [[rv r']|]; [|discriminate Est']. injection Est' as _ <- _.
  apply obind_ok in Hrun. destruct Hrun as ([cs ss] & Ha & Hrun).
  apply obind_ok in Ha. destruct Ha as ([ss' M] & Hi & Ha).
  apply (completes true X st (CStrongUsername user (rmul (spec_Z R D user pass) rv)) ss M cs).
  - now apply te_strong.
  - apply user_small. lia.
  - cbn [X key_agreement_strong ex_start]. now rewrite Est.
  - cbn [X key_agreement_strong ex_info]. rewrite Hi. cbn [unwrap]. destruct M as [ | |g P Q ps| | ]; try discriminate Ha.
    apply obind_ok in Ha. destruct Ha as (params & _ & Ha). apply obind_ok in Ha. destruct Ha as (cs' & _ & Ha).
    now injection Ha as <- <-.
  - cbn [X key_agreement_strong ex_finish]. destruct M as [ | |g P Q ps| | ]; try discriminate Ha.
    apply obind_ok in Ha. destruct Ha as (params & Hp & Ha). rewrite Hp. cbn [obind].
    apply obind_ok in Ha. destruct Ha as (cs' & Hc & Ha). injection Ha as <- <-. exact Hc.
  - exact Hrun.
  - unfold put_client, put_point. rewrite !app_length, pb_length, (rl_length R L). cbn [bincode put_tag].
    rewrite le_bytes_length. unfold BUF. lia.
Qed.

(** After [register_alloc] and [store_verifier] in the example's database, the example can end with the
    same key of 64 bytes in both threads (no exchanged point being the identity). *)
Theorem C62_honest :
  forall strong params_try_into Treg (creg : AuCPaceClient Treg) params u salt ps W creg' d,
  length user <= 1012 -> params_valid ps ->
  register_alloc R Params params_try_into Treg creg user pass params h = (Ok (CRegistration u salt ps W), creg') ->
  params_of ps = Ok params ->
  (forall w, spec_w h user pass salt params = Ok w ->
     forall P, In P (honest_points R D ssid w (drawn Ts rngs) ci (drawn Ts (after Ts 64 rngs)) (drawn Tc rngc)) ->
     P <> rzero R) ->
  let d' := store_verifier (SingleDb R) d u salt None W ps in
  let X := key_agreement R D Ts Params params_of user pass h rngs (SingleDb R) d' in
  exists n key, exec (start (client_thread R D Tc Ts strong X c ci rngc) (server_thread R D Ts strong X s ci)) n /\
    length key = 64 /\ cl n = PDone (Ok key) /\ sv n = PDone (Ok key) /\ c2s n = [] /\ s2c n = [].
Proof.
  intros strong params_try_into Treg creg params u salt ps W creg' d Hl Hps Hreg Hp Hpts d' X.
  assert (Hlook : forall v, lookup_verifier (SingleDb R) d' v = if bytes_eqb u v then Some (W, salt, ps) else None).
  { intros v. reflexivity. }
  pose proof Hreg as Hr. apply (do_register_ok R Params params_try_into AllocBuf) in Hr; [|exact I].
  destruct Hr as (-> & Hs & _).
  destruct (C29_agreement R L D Dlen Params params_try_into params_of (SingleDb R) Treg Tc Ts creg c s (ByNonces 16)
    AllocBuf AllocBuf user pass params h user salt ps W creg' d None ci rngs rngc) as (key & Hk & E); try exact I;
    try assumption.
  { rewrite Hlook. assert (bytes_eqb user user = true) as -> by now apply bytes_eqb_eq. reflexivity. }
  destruct (C62_completes strong (SingleDb R) d' key key) as (n & He & H1 & H2 & H3 & H4); try assumption.
  { intros v W' salt' ps' E'. rewrite Hlook in E'. destruct (bytes_eqb user v); [|discriminate E'].
    injection E' as <- <- <-. split; [|exact Hps].
    rewrite Hs. apply salt_generate_eq. }
  exists n, key. split; [exact He|]. split; [exact Hk|]. split; [exact H1|]. split; [exact H2|]. split; [exact H3|exact H4].
Qed.
End Completion.

(** ** C63, continued: the server may look up a user the client did not name *)

(** The user name of the session ends in what could be a message itself.  Then there is an execution in
    which the server's first read ends just before these bytes, its second read returns them, and it
    answers for the other user. *)
Theorem C63_other_user_refuted :
  forall strong (DB : Database R) d (c : AuCPaceClient Tc) (s : AuCPaceServer Ts) ci_c ci_s rngc p v ss M,
  user = p ++ put_client R bincode strong (CUsername v) -> 40 + length p <= 1024 -> 12 + length v <= 1024 ->
  generate_client_info R D DB Ts (sal D Ts s (nonce Tc (c_rng Tc c))) v d rngs = Ok (ss, M) ->
  let X := key_agreement R D Ts Params params_of user pass h rngs DB d in
  exists n a, exec (start (client_thread R D Tc Ts strong X c ci_c rngc) (server_thread R D Ts strong X s ci_s)) n /\
    s_out n = a ++ put_server R bincode strong M.
Proof.
  intros strong DB d c s ci_c ci_s rngc p v ss M Eu Hp Hv Hi X.
  assert (Sv : small v). { unfold small. assert (N.of_nat (length v) <= 1012)%N by lia. lia. }
  assert (Epc : put_client R bincode strong (CUsername user)
    = (le_bytes 4 (client_tag R strong (CUsername user)) ++ le_bytes 8 (N.of_nat (length user)) ++ p)
      ++ put_client R bincode strong (CUsername v)).
  { unfold put_client at 1, put_bytes. cbn [bincode put_tag put_len]. rewrite Eu at 3. now rewrite <- !app_assoc. }
  eexists. eexists. split.
  { unfold start, client_thread, server_thread.
    destruct (client_begin R Tc K1 c) as [[sess m0] c'] eqn:Eb.
    pose proof (client_begin_nonce R Tc c) as En. rewrite Eb in En. injection En as -> ->.
    destruct (server_begin R Ts K1 s) as [[ses' m1] s'] eqn:Eb'.
    pose proof (server_begin_nonce R Ts s) as En. rewrite Eb' in En. injection En as -> ->.
    unfold send_client, send_server, recv_client, recv_server.
    eapply ex_step; [apply c_send|]. eapply ex_step; [apply s_send|]. cbn [app].
    eapply ex_step; [apply c_read_all; rewrite ps_nonce_length by apply nonce_length; unfold BUF; lia|].
    cbv beta. rewrite (gs_put R L strong) by (reflexivity || apply nonce_s_valid).
    cbn [X key_agreement ex_start]. unfold start_augmentation.
    eapply ex_step; [apply c_send|].
    rewrite Epc. rewrite app_assoc.
    eapply ex_step; [apply s_recv; rewrite !app_length, pc_nonce_length, !le_bytes_length by apply nonce_length;
      unfold BUF; lia|].
    cbv beta. rewrite (C48_client_roundtrip R L bincode strong K1) by (now left || reflexivity || apply nonce_c_valid).
    eapply ex_step; [apply s_read_all; unfold put_client; rewrite app_length, pb_length; cbn [bincode put_tag];
      rewrite le_bytes_length; unfold BUF; lia|].
    cbv beta. rewrite (gc_put R L strong) by (reflexivity || exact Sv).
    cbn [X key_agreement ex_info]. unfold server_agree_ssid. rewrite compute_ssid_eq. cbn [sse_nonce sse_secret].
    change {| sal_secret := _; sal_ssid := _ |} with (sal D Ts s (nonce Tc (c_rng Tc c))).
    rewrite Hi. cbn [try].
    eapply ex_step; [apply s_send|]. apply ex_nil. }
  cbn [s_out]. reflexivity.
Qed.
End Tcp.

(** ** Cases *)
Lemma toy_records_valid : records_valid ToyGroup (AssocDb ToyGroup) toy_db.
Proof.
  intros u W salt ps. unfold toy_db. destruct (toy_reg AllocBuf) as [r c'] eqn:E. cbn [fst].
  destruct r as [m|e|]; [|intros H; discriminate H|intros H; discriminate H].
  destruct m as [ | | | | |u' salt' ps' W'| ]; try (intros H; discriminate H).
  apply (do_register_ok ToyGroup bytes toy_params_try_into AllocBuf) in E; [|exact I].
  destruct E as (-> & -> & Hp & _). cbn [AssocDb lookup_verifier store_verifier add_verifier a_verifiers assoc].
  destruct (bytes_eqb alice u); [|discriminate]. intros E. injection E as _ <- <-.
  split; [apply salt_generate_eq|]. unfold toy_params_try_into in Hp. apply params_parse_iff in Hp.
  destruct Hp as [-> Hp]. exact Hp.
Qed.
Definition toy_example : example ToyGroup tape_rng :=
  key_agreement ToyGroup toyD tape_rng bytes toy_params_of alice secret toy_hash (toy_tape 3001 3002)
    (AssocDb ToyGroup) toy_db.
Definition toy_cl := client_thread ToyGroup toyD tape_rng tape_rng false toy_example toy_client channel (toy_tape 4001 4002).
Definition toy_sv := server_thread ToyGroup toyD tape_rng false toy_example toy_server channel.
Notation toy_run := (run_login ToyGroup toyD bytes toy_params_of Explicit tape_rng tape_rng (ByNonces 16) AllocBuf
  toy_client toy_server
  (fun sess u => generate_client_info ToyGroup toyD (AssocDb ToyGroup) tape_rng sess u toy_db (toy_tape 3001 3002))
  alice secret toy_hash channel (toy_tape 4001 4002)).
Lemma toy_run_agrees : agreed toy_run = true.
Proof. vm_cast_no_check (eq_refl true). Qed.

(** C62: an execution in which both threads end with the same key of 64 bytes; in it C62_agreement and
    C62_client_reads_all apply. *)
Example C62_case : exists n key, exec (start toy_cl toy_sv) n /\
  length key = 64 /\ cl n = PDone (Ok key) /\ sv n = PDone (Ok key).
Proof.
  pose proof toy_run_agrees as H. destruct toy_run as [[kc ks]| | ] eqn:E; try discriminate H.
  cbn [agreed] in H. apply andb_prop in H. destruct H as [H1 H2]. apply bytes_eqb_eq in H1. subst ks.
  apply Nat.eqb_eq in H2.
  destruct (C62_completes ToyGroup toy_laws toyD toyD_length bytes toy_params_of tape_rng tape_rng alice secret toy_hash
    (toy_tape 3001 3002) toy_client toy_server channel (toy_tape 4001 4002) false (AssocDb ToyGroup) toy_db kc kc
    toy_records_valid) as (n & He & Hc & Hs & _).
  - cbn. lia.
  - exact E.
  - exists n, kc. split; [exact He|]. split; [exact H2|]. split; [exact Hc|exact Hs].
Qed.
(** C63: the same two threads can wait for ever. *)
Example C63_case : exists n, exec (start toy_cl toy_sv) n /\
  (forall r, cl n <> PDone r) /\ (forall r, sv n <> PDone r) /\ forall n', ~ step n n'.
Proof.
  eapply (C63_termination_refuted ToyGroup toy_laws toyD toyD_length tape_rng tape_rng).
  - reflexivity.
  - cbn. lia.
Qed.
(** C63: a user name that ends in the message naming alice. *)
Definition nested : bytes := str "x" ++ put_client ToyGroup bincode false (CUsername alice).
Lemma toy_info_ok : is_ok (generate_client_info ToyGroup toyD (AssocDb ToyGroup) tape_rng
  (sal toyD tape_rng toy_server (nonce tape_rng (c_rng tape_rng toy_client))) alice toy_db (toy_tape 3001 3002)) = true.
Proof. vm_cast_no_check (eq_refl true). Qed.
Example C63_case_other_user : exists ss M n a,
  generate_client_info ToyGroup toyD (AssocDb ToyGroup) tape_rng
    (sal toyD tape_rng toy_server (nonce tape_rng (c_rng tape_rng toy_client))) alice toy_db (toy_tape 3001 3002) = Ok (ss, M) /\
  let X := key_agreement ToyGroup toyD tape_rng bytes toy_params_of nested secret toy_hash (toy_tape 3001 3002)
    (AssocDb ToyGroup) toy_db in
  exec (start (client_thread ToyGroup toyD tape_rng tape_rng false X toy_client channel (toy_tape 4001 4002))
              (server_thread ToyGroup toyD tape_rng false X toy_server channel)) n /\
  s_out n = a ++ put_server ToyGroup bincode false M.
Proof.
  pose proof toy_info_ok as H.
  destruct (generate_client_info ToyGroup toyD (AssocDb ToyGroup) tape_rng
    (sal toyD tape_rng toy_server (nonce tape_rng (c_rng tape_rng toy_client))) alice toy_db (toy_tape 3001 3002))
    as [[ss M]| | ] eqn:E; try discriminate H.
  exists ss, M.
  destruct (C63_other_user_refuted ToyGroup toy_laws toyD toyD_length bytes toy_params_of tape_rng tape_rng nested secret
    toy_hash (toy_tape 3001 3002) false (AssocDb ToyGroup) toy_db toy_client toy_server channel channel (toy_tape 4001 4002)
    (str "x") alice ss M) as (n & a & He & Ho); [reflexivity|cbn; lia|cbn; lia|exact E|].
  exists n, a. split; [reflexivity|]. split; [exact He|exact Ho].
Qed.
