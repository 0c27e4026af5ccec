(** * Properties C37-C39 and C47 of the aucpace crate: histories. *)
From Coq Require Import ZArith Lia.
From Verif Require Import Base.Bytes Base.Outcome Base.CtEq Base.Rng Base.Kat.
From Verif Require Import Curve.Scalar25519.
From Verif Require Import Aucpace.RistrettoGroup Aucpace.PwHash Aucpace.AucpaceModel Aucpace.AucpaceSpec
  Aucpace.AucpaceRun Aucpace.AucpaceDb Aucpace.AucpaceToy Aucpace.AucpaceProofs Aucpace.AucpaceProps
  Aucpace.AucpaceWorld Aucpace.AucpaceWorldProofs.
Local Open Scope nat_scope.

(** Two messages made of an index word, an SSID of 64 bytes and a first session key. *)
Lemma same_parts i (s s' k k' : bytes) : length s = 64 -> length s' = 64 ->
  word i ++ s ++ k = word i ++ s' ++ k' -> s = s' /\ k = k'.
Proof.
  intros H H' E. apply app_inv_head in E. apply app_inj_length in E; [exact E|congruence].
Qed.

Section Histories.
Context (R : RGroup) (L : rgroup_laws R) (D : bytes -> bytes) (Dlen : forall m, length (D m) = 64).
Context (Params : Type) (Tc Ts : Rng).
Context (DB : Database R) (SDB : StrongDatabase R).
Context (PDB : PartialAugDatabase R (db DB)) (PSDB : PartialAugDatabase R (sdb SDB)).

(** The log after a history: a new server with any databases, then any list of events. *)
Definition after_events (rng : rng_state Ts) (d : db DB) (sd : sdb SDB)
  (es : list (event R Params Tc Ts)) : world R Ts DB SDB :=
  run R D Params Tc Ts DB SDB PDB PSDB (init R Ts DB SDB rng d sd) es.
Definition log_after rng d sd es := w_log (after_events rng d sd es).

Lemma log_ok rng d sd es :
  (forall i, exists s k, length s = 64 /\
     forall l, In (LC i l) (log_after rng d sd es) -> clog_ok D s k l) /\
  (forall j, exists s k, length s = 64 /\
     forall l, In (LS j l) (log_after rng d sd es) -> slog_ok R D (s_secret Ts (server_new Ts rng)) s k l).
Proof.
  destruct (world_inv_reachable R D Dlen Params Tc Ts DB SDB PDB PSDB rng d sd es) as (_ & HC & HS).
  split.
  - intros i. destruct (HC i) as (s & k & HL & HF & _). exists s, k. split; [exact HL|].
    intros l Hl. rewrite Forall_forall in HF. apply HF. now apply in_clogs.
  - intros j. destruct (HS j) as (s & k & HL & HF & _). exists s, k. split; [exact HL|].
    intros l Hl. rewrite Forall_forall in HF. apply HF. now apply in_slogs.
Qed.

(** ** C37 *)

(** A server session accepted the authenticator some client session sent: the sessions have the same
    SSID, and the client session never returns (explicitly) any key but the server's - unless the two
    authenticator messages are a collision. *)
Theorem C37_server_accepts :
  forall rng d sd es i j ssid sk1 a key b ssid' sk1',
  In (LS j (SL_Accept ssid sk1 a key b)) (log_after rng d sd es) ->
  In (LC i (CL_Auth ssid' sk1' a)) (log_after rng d sd es) ->
  (ssid = ssid' /\
   forall ssid'' sk1'' a'' key'',
     In (LC i (CL_Accept ssid'' sk1'' a'' key'')) (log_after rng d sd es) -> ssid'' = ssid /\ key'' = key) \/
  collision D (word x04 ++ ssid ++ sk1) (word x04 ++ ssid' ++ sk1').
Proof.
  intros rng d sd es i j ssid sk1 a key b ssid' sk1' HS HC.
  destruct (log_ok rng d sd es) as [LC LS].
  destruct (LC i) as (s & k & H64 & HLC). destruct (LS j) as (s' & k' & H64' & HLS).
  pose proof (HLC _ HC) as (-> & -> & Ha). pose proof (HLS _ HS) as (-> & -> & Ha' & Hk & Hb).
  destruct (bytes_eq_dec (s' ++ k') (s ++ k)) as [E|NE].
  - left. apply app_inj_length in E; [|congruence]. destruct E as [-> ->]. split; [reflexivity|].
    intros ssid'' sk1'' a'' key'' HA. pose proof (HLC _ HA) as (-> & _ & _ & ->). split; [reflexivity|now symmetry].
  - right. split.
    + intros E. now apply app_inv_head in E.
    + unfold spec_Tb in *. congruence.
Qed.

(** The same for a client session that accepts what a server session sent. *)
Theorem C37_client_accepts :
  forall rng d sd es i j ssid sk1 a key ssid' sk1' a' key',
  In (LC i (CL_Accept ssid sk1 a key)) (log_after rng d sd es) ->
  In (LS j (SL_Accept ssid' sk1' a' key' a)) (log_after rng d sd es) ->
  (ssid = ssid' /\ key = key') \/
  collision D (word x03 ++ ssid ++ sk1) (word x03 ++ ssid' ++ sk1').
Proof.
  intros rng d sd es i j ssid sk1 a key ssid' sk1' a' key' HC HS.
  destruct (log_ok rng d sd es) as [LC LS].
  destruct (LC i) as (s & k & H64 & HLC). destruct (LS j) as (s' & k' & H64' & HLS).
  pose proof (HLC _ HC) as (-> & -> & Ha & ->). pose proof (HLS _ HS) as (-> & -> & Ha' & -> & Hb).
  destruct (bytes_eq_dec (s ++ k) (s' ++ k')) as [E|NE].
  - left. apply app_inj_length in E; [|congruence]. destruct E as [-> ->]. now split.
  - right. split.
    + intros E. now apply app_inv_head in E.
    + unfold spec_Ta in *. congruence.
Qed.

(** Sessions that agreed on an SSID from nonces also agree on the nonces, so on who they talk to. *)
Theorem C37_same_nonces :
  forall rng d sd es i j ssid sk1 a key b ssid' sk1' ns nc s1 ns' nc' s2,
  In (LS j (SL_Accept ssid sk1 a key b)) (log_after rng d sd es) ->
  In (LC i (CL_Auth ssid' sk1' a)) (log_after rng d sd es) ->
  In (LS j (SL_Nonces ns nc s1)) (log_after rng d sd es) ->
  In (LC i (CL_Nonces ns' nc' s2)) (log_after rng d sd es) ->
  (ns = ns' /\ nc = nc') \/
  collision D (word x04 ++ ssid ++ sk1) (word x04 ++ ssid' ++ sk1') \/
  collision D (word x00 ++ ns ++ nc) (word x00 ++ ns' ++ nc').
Proof.
  intros rng d sd es i j ssid sk1 a key b ssid' sk1' ns nc s1 ns' nc' s2 HS HC HNS HNC.
  destruct (C37_server_accepts rng d sd es i j ssid sk1 a key b ssid' sk1' HS HC) as [[Es _]|C]; [|auto].
  destruct (log_ok rng d sd es) as [LC LS].
  destruct (LC i) as (s & k & H64 & HLC). destruct (LS j) as (s' & k' & H64' & HLS).
  pose proof (HLC _ HC) as (E1 & _). pose proof (HLS _ HS) as (E2 & _).
  pose proof (HLC _ HNC) as (_ & F1 & G1). pose proof (HLS _ HNS) as (_ & F2 & G2).
  destruct (bytes_eq_dec (ns ++ nc) (ns' ++ nc')) as [E|NE].
  - left. pose proof (f_equal (@length _) E) as HL. rewrite !app_length in HL.
    apply app_inj_length; [lia|exact E].
  - right. right. split.
    + intros E. now apply app_inv_head in E.
    + unfold spec_ssid in *. congruence.
Qed.

(** No reflection: a client never accepts an authenticator a client sent, a server never one a server
    sent. *)
Theorem C37_no_reflection_client :
  forall rng d sd es i i' ssid sk1 a key ssid' sk1',
  In (LC i (CL_Accept ssid sk1 a key)) (log_after rng d sd es) ->
  In (LC i' (CL_Auth ssid' sk1' a)) (log_after rng d sd es) ->
  collision D (word x03 ++ ssid ++ sk1) (word x04 ++ ssid' ++ sk1').
Proof.
  intros rng d sd es i i' ssid sk1 a key ssid' sk1' HC HC'.
  destruct (log_ok rng d sd es) as [LC _].
  destruct (LC i) as (s & k & _ & HLC). destruct (LC i') as (s' & k' & _ & HLC').
  pose proof (HLC _ HC) as (-> & -> & Ha & _). pose proof (HLC' _ HC') as (-> & -> & Ha').
  split; [discriminate|]. unfold spec_Ta, spec_Tb in *. congruence.
Qed.
Theorem C37_no_reflection_server :
  forall rng d sd es j j' ssid sk1 a key b ssid' sk1' a' key',
  In (LS j (SL_Accept ssid sk1 a key b)) (log_after rng d sd es) ->
  In (LS j' (SL_Accept ssid' sk1' a' key' a)) (log_after rng d sd es) ->
  collision D (word x04 ++ ssid ++ sk1) (word x03 ++ ssid' ++ sk1').
Proof.
  intros rng d sd es j j' ssid sk1 a key b ssid' sk1' a' key' HS HS'.
  destruct (log_ok rng d sd es) as [_ LS].
  destruct (LS j) as (s & k & _ & HLS). destruct (LS j') as (s' & k' & _ & HLS').
  pose proof (HLS _ HS) as (-> & -> & Ha & _). pose proof (HLS' _ HS') as (-> & -> & _ & _ & Ha').
  split; [discriminate|]. unfold spec_Ta, spec_Tb in *. congruence.
Qed.

(** ** C38 *)

(** In every history the salt in a reply for an unknown user is the same function of the server's secret
    and the user name; likewise the exponent in the strong variant. *)
Theorem C38_fake_salt :
  forall rng d sd es j user g X salt ps,
  In (LS j (SL_Reply user None false (SAugmentationInfo g X salt ps))) (log_after rng d sd es) ->
  salt = b64_encode (firstn 48 (D (le_bytes 8 (fst (rng_next_u64 Ts rng)) ++ user))).
Proof.
  intros rng d sd es j user g X salt ps HR. destruct (log_ok rng d sd es) as [_ LS].
  destruct (LS j) as (s & k & _ & HLS). destruct (HLS _ HR eq_refl) as (_ & -> & _).
  unfold fake_salt, server_new. now destruct (rng_next_u64 Ts rng).
Qed.
Theorem C38_fake_exponent :
  forall rng d sd es j user U g X bs ps,
  In (LS j (SL_Reply user (Some U) false (SStrongAugmentationInfo g X bs ps))) (log_after rng d sd es) ->
  bs = rmul U (sof (Z.of_N (le_val (D (le_bytes 8 (fst (rng_next_u64 Ts rng)) ++ user))))).
Proof.
  intros rng d sd es j user U g X bs ps HR. destruct (log_ok rng d sd es) as [_ LS].
  destruct (LS j) as (s & k & _ & HLS). destruct (HLS _ HR eq_refl) as (_ & -> & _).
  unfold fake_exponent, server_new. now destruct (rng_next_u64 Ts rng).
Qed.

(** So any two sessions, at any times, give the same salt for the same unknown user. *)
Theorem C38_consistent :
  forall rng d sd es j j' user g X salt ps g' X' salt' ps',
  In (LS j (SL_Reply user None false (SAugmentationInfo g X salt ps))) (log_after rng d sd es) ->
  In (LS j' (SL_Reply user None false (SAugmentationInfo g' X' salt' ps'))) (log_after rng d sd es) ->
  salt = salt'.
Proof.
  intros rng d sd es j j' user g X salt ps g' X' salt' ps' H H'.
  apply C38_fake_salt in H, H'. congruence.
Qed.

(** A reply for an unknown user always has one of these two forms. *)
Theorem C38_reply_form :
  forall rng d sd es j user U reply,
  In (LS j (SL_Reply user U false reply)) (log_after rng d sd es) ->
  (U = None /\ exists X salt, reply = SAugmentationInfo (str "ristretto255") X salt []) \/
  (exists V X bs, U = Some V /\ reply = SStrongAugmentationInfo (str "ristretto255") X bs []).
Proof.
  intros rng d sd es j user U reply HR. destruct (log_ok rng d sd es) as [_ LS].
  destruct (LS j) as (s & k & _ & HLS). pose proof (HLS _ HR eq_refl) as H.
  destruct U as [U|], reply; cbn in H; try contradiction; destruct H as (-> & _ & ->).
  - right. do 3 eexists. split; reflexivity.
  - left. split; [reflexivity|]. do 2 eexists. reflexivity.
Qed.

(** ** C39 *)

(** The reply for a user who registered has a salt of 22 characters and the user's parameters, the reply
    for an unknown user one of 64 characters and no parameters: whoever sees a reply knows whether the
    user exists. *)
Theorem C39_salt_length_refuted :
  forall (params_try_into : Params -> outcome pherror bytes) d user pass m Treg (creg : AuCPaceClient Treg)
    params h u salt ps W creg' s st v reply user0 s0 st0 v0 reply0,
  fits m user pass ->
  do_register R Params params_try_into m Treg creg user pass params h = (Ok (CRegistration u salt ps W), creg') ->
  lookup_verifier DB d user = Some (W, salt, ps) ->
  generate_client_info R D DB Ts s user d st = Ok (v, reply) ->
  lookup_verifier DB d user0 = None ->
  generate_client_info R D DB Ts s0 user0 d st0 = Ok (v0, reply0) ->
  exists X salt' ps' X0 salt0 ps0,
    reply = SAugmentationInfo (str "ristretto255") X salt' ps' /\ reply0 = SAugmentationInfo (str "ristretto255") X0 salt0 ps0 /\
    length salt' = 22 /\ length salt0 = 64 /\ params_try_into params = Ok ps' /\ ps0 = [].
Proof.
  intros pti d user pass m Treg creg params h u salt ps W creg' s st v reply user0 s0 st0 v0 reply0
    HF Hreg Hl Hr Hl0 Hr0.
  apply do_register_ok in Hreg; [|exact HF]. destruct Hreg as (-> & Hs & Ht & w & _ & _).
  rewrite generate_client_info_eq in Hr. unfold generate_prs in Hr. rewrite Hl in Hr.
  cbn [cpace_substep obind] in Hr. injection Hr as _ <-.
  destruct (reply_unknown_info R D Dlen Ts DB s0 user0 d st0 v0 reply0 Hl0 Hr0) as [X0 ->].
  do 6 eexists. repeat apply conj; try reflexivity.
  - rewrite Hs. apply salt_generate_eq.
  - unfold fake_salt. rewrite b64_length, firstn_length, Dlen. reflexivity.
  - exact Ht.
Qed.

(** With partial augmentation the server's public key is the same in every reply for a user with a stored
    key pair, and made anew for every reply for a user without: two replies for the same name tell
    the cases apart whenever the two random points differ. *)
Theorem C39_partial_refuted :
  forall d user s st v reply s' st' v' reply' g X salt ps g' X' salt' ps',
  generate_client_info_partial_aug R D DB PDB Ts s user d st = Ok (v, reply) ->
  generate_client_info_partial_aug R D DB PDB Ts s' user d st' = Ok (v', reply') ->
  reply = SAugmentationInfo g X salt ps -> reply' = SAugmentationInfo g' X' salt' ps' ->
  match lookup_long_term_keypair PDB d user with
  | Some (_, X0) => X = X0 /\ X' = X0
  | None => X = rfrom_uniform R (fst (rng_fill Ts 64 st)) /\ X' = rfrom_uniform R (fst (rng_fill Ts 64 st'))
  end.
Proof.
  intros d user s st v reply s' st' v' reply' g X salt ps g' X' salt' ps' H H' -> ->.
  unfold generate_client_info_partial_aug in *.
  destruct (lookup_long_term_keypair PDB d user) as [[x X0]|].
  - unfold generate_prs in *. destruct (lookup_verifier DB d user) as [[[W sa] p]|].
    + cbn [cpace_substep obind] in *. injection H as _ _ <- _ _. injection H' as _ _ <- _ _. now split.
    + rewrite lookup_failed_eq in H by exact Dlen. rewrite lookup_failed_eq in H' by exact Dlen.
      cbn [cpace_substep obind] in *. injection H as _ _ <- _ _. injection H' as _ _ <- _ _. now split.
  - unfold point_random in *.
    destruct (rng_fill Ts 64 st) as [b st1], (rng_fill Ts 64 st') as [b' st1'].
    rewrite lookup_failed_eq in H by exact Dlen. rewrite lookup_failed_eq in H' by exact Dlen.
    cbn [cpace_substep obind] in *. injection H as _ _ <- _ _. injection H' as _ _ <- _ _. now split.
Qed.

(** What holds in the strong variant: the reply for an unknown user is the reply for a user registered
    with the fake exponent and an empty parameter string; only the parameters give it away. *)
Theorem C39_strong_partial :
  forall d d' user U W s st v reply v' reply',
  lookup_verifier_strong SDB d user = None ->
  lookup_verifier_strong SDB d' user = Some (W, fake_exponent D (sal_secret s) user, []) ->
  generate_client_info_strong R D SDB Ts s user U d st = Ok (v, reply) ->
  generate_client_info_strong R D SDB Ts s user U d' st = Ok (v', reply') ->
  reply = reply'.
Proof.
  intros d d' user U W s st v reply v' reply' Hn Hs H H'.
  rewrite generate_client_info_strong_eq in H, H'. unfold generate_prs_strong in *.
  rewrite Hn, lookup_failed_strong_eq in H. rewrite Hs, !smult_one_r in H'. cbv zeta in H.
  destruct (is_identity (rmul U _)); cbn [cpace_substep obind] in *; [discriminate|].
  injection H as _ <-. injection H' as _ <-. reflexivity.
Qed.

(** ** C47 *)

(** The record a list of events leaves for a user, given the one before. *)
Definition latest (user : bytes) (before : option (pt R * bytes * bytes)) (es : list (event R Params Tc Ts)) :=
  fold_left (fun r e => match e with
                        | EStore _ _ _ _ u salt _ W ps => if bytes_eqb u user then Some (W, salt, ps) else r
                        | _ => r
                        end) es before.
Definition latest_strong (user : bytes) (before : option (pt R * scalar * bytes)) (es : list (event R Params Tc Ts)) :=
  fold_left (fun r e => match e with
                        | EStoreStrong _ _ _ _ u _ W q ps => if bytes_eqb u user then Some (W, q, ps) else r
                        | _ => r
                        end) es before.

Lemma step_db w e u : db_lawful DB -> pdb_lawful PDB (lookup_verifier DB) ->
  lookup_verifier DB (sv_db (w_server (step R D Params Tc Ts DB SDB PDB PSDB w e))) u
  = latest u (lookup_verifier DB (sv_db (w_server w)) u) [e].
Proof.
  intros HD HP. unfold latest. cbn [fold_left].
  destruct e as [i e|j e|u' salt uad W ps|u' uad W q ps|u'|u']; cbn [step].
  - now destruct (client_step _ _ _ _ _ _) as [c l].
  - now destruct (server_step _ _ _ _ _ _ _ _ _ _) as [[sv s] l].
  - cbn [with_server w_server sv_db]. destruct (bytes_eqb u' u) eqn:E.
    + apply bytes_eqb_eq in E. subst. apply (dl_same _ HD).
    + apply bytes_eqb_neq in E. apply (dl_other _ HD). congruence.
  - reflexivity.
  - destruct (generate_long_term_keypair R Ts _) as [[x X] sv]. cbn [with_server w_server sv_db].
    destruct (store_long_term_keypair PDB _ u' x X) as [d|e|] eqn:E; try reflexivity.
    apply (pdl_verifier _ _ HP _ _ _ _ _ u E).
  - now destruct (generate_long_term_keypair R Ts _) as [[x X] sv].
Qed.
Lemma step_sdb w e u : sdb_lawful SDB -> pdb_lawful PSDB (lookup_verifier_strong SDB) ->
  lookup_verifier_strong SDB (sv_sdb (w_server (step R D Params Tc Ts DB SDB PDB PSDB w e))) u
  = latest_strong u (lookup_verifier_strong SDB (sv_sdb (w_server w)) u) [e].
Proof.
  intros HD HP. unfold latest_strong. cbn [fold_left].
  destruct e as [i e|j e|u' salt uad W ps|u' uad W q ps|u'|u']; cbn [step].
  - now destruct (client_step _ _ _ _ _ _) as [c l].
  - now destruct (server_step _ _ _ _ _ _ _ _ _ _) as [[sv s] l].
  - reflexivity.
  - cbn [with_server w_server sv_sdb]. destruct (bytes_eqb u' u) eqn:E.
    + apply bytes_eqb_eq in E. subst. apply (sdl_same _ HD).
    + apply bytes_eqb_neq in E. apply (sdl_other _ HD). congruence.
  - now destruct (generate_long_term_keypair R Ts _) as [[x X] sv].
  - destruct (generate_long_term_keypair R Ts _) as [[x X] sv]. cbn [with_server w_server sv_sdb].
    destruct (store_long_term_keypair PSDB _ u' x X) as [d|e|] eqn:E; try reflexivity.
    apply (pdl_verifier _ _ HP _ _ _ _ _ u E).
Qed.

Lemma run_db es u : db_lawful DB -> pdb_lawful PDB (lookup_verifier DB) -> forall w,
  lookup_verifier DB (sv_db (w_server (run R D Params Tc Ts DB SDB PDB PSDB w es))) u
  = latest u (lookup_verifier DB (sv_db (w_server w)) u) es.
Proof.
  intros HD HP. induction es as [|e es IH]; intros w; [reflexivity|].
  etransitivity; [exact (IH (step R D Params Tc Ts DB SDB PDB PSDB w e))|]. rewrite step_db by assumption.
  reflexivity.
Qed.
Lemma run_sdb es u : sdb_lawful SDB -> pdb_lawful PSDB (lookup_verifier_strong SDB) -> forall w,
  lookup_verifier_strong SDB (sv_sdb (w_server (run R D Params Tc Ts DB SDB PDB PSDB w es))) u
  = latest_strong u (lookup_verifier_strong SDB (sv_sdb (w_server w)) u) es.
Proof.
  intros HD HP. induction es as [|e es IH]; intros w; [reflexivity|].
  etransitivity; [exact (IH (step R D Params Tc Ts DB SDB PDB PSDB w e))|]. rewrite step_sdb by assumption.
  reflexivity.
Qed.

(** After any history whose last [store] for the user stored the result of a registration, a login with
    that password ends as in C29. *)
Theorem C47_login_after_history :
  forall (params_try_into : Params -> outcome pherror bytes) (params_of : bytes -> res Params)
    rng d sd before after_ user pass m mreg sm Treg (creg : AuCPaceClient Treg) params h u salt ps W creg' uad
    (c : AuCPaceClient Tc) ci (sts : rng_state Ts) (stc : rng_state Tc) am,
  db_lawful DB -> pdb_lawful PDB (lookup_verifier DB) ->
  ssid_mode_ok sm -> fits mreg user pass -> fits m user pass ->
  do_register R Params params_try_into mreg Treg creg user pass params h
    = (Ok (CRegistration u salt ps W), creg') ->
  params_of ps = Ok params ->
  (forall salt' uad' W' ps', ~ In (EStore _ _ _ _ user salt' uad' W' ps') after_) ->
  let w := after_events rng d sd (before ++ [EStore _ _ _ _ u salt uad W ps] ++ after_) in
  let s := sv_server (w_server w) in
  exists pw, spec_w h user pass salt params = Ok pw /\
  let ssid := agreed_ssid D Tc Ts sm c s in
  let x := drawn Ts sts in
  let ya := drawn Ts (after Ts 64 sts) in
  let yb := drawn Tc stc in
  run_login R D Params params_of am Tc Ts sm m c s
    (fun sess u => generate_client_info R D DB Ts sess u (sv_db (w_server w)) sts) user pass h ci stc
  = honest_outcome R (honest_points R D ssid pw x ci ya yb) (honest_key R D ssid pw x ci ya yb).
Proof.
  intros pti pof rng d sd before after_ user pass m mreg sm Treg creg params h u salt ps W creg' uad c ci sts stc
    am HD HP Hm HFr HF Hreg Hpo Hno w s.
  apply do_register_ok in Hreg; [|exact HFr].
  destruct Hreg as (-> & Hs & Ht & pw & Hw & ->). exists pw. split; [exact Hw|]. cbv zeta.
  apply (honest_login_generic R L D Dlen Params pof DB Tc Ts am sm m c s
           (fun sess u => generate_client_info R D DB Ts sess u (sv_db (w_server w)) sts) user pass params h
           (sv_db (w_server w)) pw salt ps (drawn Ts sts) (after Ts 64 sts) ci stc); try assumption.
  - rewrite Hs. apply salt_generate_eq.
  - unfold w, after_events. rewrite run_db by assumption. unfold latest. rewrite !fold_left_app.
    cbn [fold_left]. rewrite bytes_eqb_refl.
    clear - Hno. induction after_ as [|e es IH]; [reflexivity|]. cbn [fold_left].
    assert (Hes : forall salt' uad' W' ps', ~ In (EStore _ _ _ _ user salt' uad' W' ps') es).
    { intros. intros Hin. apply (Hno salt' uad' W' ps'). now right. }
    destruct e as [i e|j e|u' salt' uad' W' ps'|u' uad' W' q' ps'|u'|u']; try exact (IH Hes).
    destruct (bytes_eqb u' user) eqn:E; [|exact (IH Hes)].
    apply bytes_eqb_eq in E. subst. exfalso. apply (Hno salt' uad' W' ps'). now left.
  - intros sess. apply generate_client_info_eq.
Qed.

(** The strong variant. *)
Theorem C47_login_after_history_strong :
  forall (params_try_into : Params -> outcome pherror bytes) (params_of : bytes -> res Params)
    rng d sd before after_ user pass m mreg sm Treg (creg : AuCPaceClient Treg) params h u q ps W creg' uad
    (c : AuCPaceClient Tc) ci (sts : rng_state Ts) (stb stc : rng_state Tc) am fuel r stb',
  sdb_lawful SDB -> pdb_lawful PSDB (lookup_verifier_strong SDB) ->
  ssid_mode_ok sm -> fits mreg user pass -> fits m user pass ->
  do_register_strong R D Params params_try_into mreg Treg creg user pass params h
    = (Ok (CStrongRegistration u q ps W), creg') ->
  params_of ps = Ok params ->
  (forall uad' W' q' ps', ~ In (EStoreStrong _ _ _ _ user uad' W' q' ps') after_) ->
  draw_blinding_value Tc fuel stb = Some (r, stb') ->
  let w := after_events rng d sd (before ++ [EStoreStrong _ _ _ _ u uad W q ps] ++ after_) in
  let s := sv_server (w_server w) in
  exists pw, spec_w h user pass (b64_encode (rcompress R (rmul (spec_Z R D user pass) q))) params = Ok pw /\
  let ssid := agreed_ssid D Tc Ts sm c s in
  let x := drawn Ts sts in
  let ya := drawn Ts (after Ts 64 sts) in
  let yb := drawn Tc stc in
  run_login_strong R D Params params_of am Tc Ts sm m c s
    (fun sess u U => generate_client_info_strong R D SDB Ts sess u U (sv_sdb (w_server w)) sts)
    fuel user pass h ci stb stc
  = Some (honest_outcome R (honest_points_strong R D ssid user pass q pw x ci ya yb)
                           (honest_key R D ssid pw x ci ya yb)).
Proof.
  intros pti pof rng d sd before after_ user pass m mreg sm Treg creg params h u q ps W creg' uad c ci sts stb stc
    am fuel r stb' HD HP Hm HFr HF Hreg Hpo Hno Hb w s.
  apply do_register_strong_ok in Hreg; [|exact L|exact HFr].
  destruct Hreg as (-> & Ht & pw & Hw & ->). exists pw. split; [exact Hw|]. cbv zeta.
  apply (honest_login_strong_generic R L D Dlen Params pof SDB Tc Ts am sm m c s
           (fun sess u U => generate_client_info_strong R D SDB Ts sess u U (sv_sdb (w_server w)) sts) user pass params h
           (sv_sdb (w_server w)) pw q ps fuel stb r stb' (drawn Ts sts) (after Ts 64 sts) ci stc); try assumption.
  - unfold w, after_events. rewrite run_sdb by assumption. unfold latest_strong. rewrite !fold_left_app.
    cbn [fold_left]. rewrite bytes_eqb_refl.
    clear - Hno. induction after_ as [|e es IH]; [reflexivity|]. cbn [fold_left].
    assert (Hes : forall uad' W' q' ps', ~ In (EStoreStrong _ _ _ _ user uad' W' q' ps') es).
    { intros. intros Hin. apply (Hno uad' W' q' ps'). now right. }
    destruct e as [i e|j e|u' salt' uad' W' ps'|u' uad' W' q' ps'|u'|u']; try exact (IH Hes).
    destruct (bytes_eqb u' user) eqn:E; [|exact (IH Hes)].
    apply bytes_eqb_eq in E. subst. exfalso. apply (Hno uad' W' q' ps'). now left.
  - intros sess U. apply generate_client_info_strong_eq.
Qed.

(** Events about other users do not change a user's record. *)
Theorem C47_others_unaffected :
  forall rng d sd es user,
  db_lawful DB -> pdb_lawful PDB (lookup_verifier DB) ->
  (forall salt uad W ps, ~ In (EStore _ _ _ _ user salt uad W ps) es) ->
  lookup_verifier DB (sv_db (w_server (after_events rng d sd es))) user = lookup_verifier DB d user.
Proof.
  intros rng d sd es user HD HP Hno. unfold after_events. rewrite run_db by assumption.
  cbn [init w_server sv_db]. generalize (lookup_verifier DB d user). clear - Hno.
  induction es as [|e es IH]; intros o; [reflexivity|]. cbn [latest fold_left].
  assert (Hes : forall salt' uad' W' ps', ~ In (EStore _ _ _ _ user salt' uad' W' ps') es).
  { intros. intros Hin. apply (Hno salt' uad' W' ps'). now right. }
  destruct e as [i e|j e|u' salt' uad' W' ps'|u' uad' W' q' ps'|u'|u']; try exact (IH Hes o).
  destruct (bytes_eqb u' user) eqn:E; [|exact (IH Hes o)].
  apply bytes_eqb_eq in E. subst. exfalso. apply (Hno salt' uad' W' ps'). now left.
Qed.
End Histories.

(** ** Concrete cases

    One history: alice registers, logs in explicitly in client session 0 and server session 0, while
    sessions 1 and 2 of the server are asked for a user it does not know.  Each message handed to
    a session is the one the other side produced. *)
Section Cases.
Definition DBt := AssocDb ToyGroup.
Definition SDBt := AssocStrongDb ToyGroup.
Definition PDBt : PartialAugDatabase ToyGroup (db DBt) := AssocPartial ToyGroup.
Definition PSDBt : PartialAugDatabase ToyGroup (sdb SDBt) := AssocPartial ToyGroup.
Definition ev := event ToyGroup bytes tape_rng tape_rng.
Definition wld := world ToyGroup tape_rng DBt SDBt.
Definition after_ (es : list ev) : wld :=
  after_events ToyGroup toyD bytes tape_rng tape_rng DBt SDBt PDBt PSDBt
    (le_bytes 64 77 ++ le_bytes 64 88 ++ le_bytes 64 99) empty_db empty_db es.
Notation EC := (EClient ToyGroup bytes tape_rng tape_rng).
Notation ES := (EServer ToyGroup bytes tape_rng tape_rng).

Definition bob := str "bob".
Definition store_alice : list ev :=
  match fst (toy_reg AllocBuf) with
  | Ok (CRegistration u salt ps W) => [EStore ToyGroup bytes tape_rng tape_rng u salt None W ps]
  | _ => []
  end.

Definition es1 : list ev := store_alice ++
  [ ES 0 (SE_Begin _ _ 16); EC 0 (CE_Begin _ _ tape_rng 16 (toy_tape 11 12));
    ES 1 (SE_BeginPre _ _ (repeat x41 16)); ES 1 (SE_Info _ tape_rng bob (toy_tape 21 22));
    ES 2 (SE_BeginPre _ _ (repeat x42 16)); ES 2 (SE_Info _ tape_rng bob (toy_tape 31 32)) ].
Definition nonces : bytes * bytes :=
  match w_sessions (after_ es1) 0, w_clients (after_ es1) 0 with
  | S_Ssid s, C_Ssid c => (sse_nonce s, cse_nonce c) | _, _ => ([], []) end.
Definition es2 : list ev := es1 ++
  [ ES 0 (SE_Agree _ _ (snd nonces)); EC 0 (CE_Agree _ _ _ (fst nonces));
    EC 0 (CE_Start _ _ _ alice secret); ES 0 (SE_Info _ tape_rng alice (toy_tape 3001 3002)) ].
Definition es3 : list ev := es2 ++
  flat_map (fun l => match l with
    | LS O (SL_Reply _ _ _ (SAugmentationInfo _ X salt ps)) =>
        [EC 0 (CE_Generate ToyGroup bytes tape_rng AllocBuf X salt ps toy_hash)]
    | _ => [] end) (w_log (after_ es2)).
Definition es4 : list ev :=
  match w_sessions (after_ es3) 0, w_clients (after_ es3) 0 with
  | S_CPace s, C_CPace c =>
      match server_generate_public_key ToyGroup toyD tape_rng s channel,
            client_generate_public_key ToyGroup toyD tape_rng c channel (toy_tape 4001 4002) with
      | (_, SPublicKey Ys), ((_, CPublicKey Yc), _) =>
          es3 ++ [ ES 0 (SE_Key _ _ channel); EC 0 (CE_Key _ _ tape_rng channel (toy_tape 4001 4002));
                   ES 0 (SE_RecvKey ToyGroup _ Yc); EC 0 (CE_RecvKey ToyGroup _ _ Ys) ]
      | _, _ => es3
      end
  | _, _ => es3
  end.
Definition es5 : list ev := es4 ++
  flat_map (fun l => match l with LC O (CL_Auth _ _ a) => [ES 0 (SE_RecvAuth _ _ a)] | _ => [] end)
    (w_log (after_ es4)).
Definition es6 : list ev := es5 ++
  flat_map (fun l => match l with LS O (SL_Accept _ _ _ _ b) => [EC 0 (CE_RecvAuth _ _ _ b)] | _ => [] end)
    (w_log (after_ es5)).

(** what the log has: nonces agreed by both, two replies for the unknown user, one for alice, and the
    keys, equal and of 64 bytes *)
Definition client_keys es : list bytes :=
  flat_map (fun l => match l with LC O (CL_Accept _ _ _ k) => [k] | _ => [] end) (w_log (after_ es)).
Definition server_keys es : list bytes :=
  flat_map (fun l => match l with LS O (SL_Accept _ _ _ k _) => [k] | _ => [] end) (w_log (after_ es)).
Definition salts (known : bool) es : list bytes :=
  flat_map (fun l => match l with
    | LS _ (SL_Reply _ None b (SAugmentationInfo _ _ salt _)) => if Bool.eqb b known then [salt] else []
    | _ => [] end) (w_log (after_ es)).

(* C37: both sessions accept and return one key *)
Check (test (map (@length byte) (client_keys es6)) [64]).
Check (test (match client_keys es6, server_keys es6 with [k], [k'] => bytes_eqb k k' | _, _ => false end) true).
(* the nonces are in both logs *)
Check (test (length (w_log (after_ es6))) 8).
(* C38, C39: two replies for bob with one salt of 64 characters, alice's has 22 *)
Check (test (match salts false es6 with [a; b] => bytes_eqb a b | _ => false end) true).
Check (test (map (@length byte) (salts false es6), map (@length byte) (salts true es6)) ([64; 64], [22])).
(* C37: an authenticator sent by the client and reflected to it is refused *)
Definition es6' : list ev := es5 ++
  flat_map (fun l => match l with LC O (CL_Auth _ _ a) => [EC 0 (CE_RecvAuth _ _ _ a)] | _ => [] end)
    (w_log (after_ es4)).
Check (test (length (client_keys es6')) 0).

(* C39, partial augmentation: the point of the server changes for a user without a key pair *)
Definition partial_points (d : db DBt) (u : bytes) : list bytes :=
  flat_map (fun st =>
    match generate_client_info_partial_aug ToyGroup toyD DBt PDBt tape_rng
            {| sal_secret := 5; sal_ssid := repeat x41 64 |} u d st with
    | Ok (_, SAugmentationInfo _ X _ _) => [rcompress ToyGroup X] | _ => [] end)
    [toy_tape 21 22; toy_tape 31 32].
Definition distinct (l : list bytes) : bool := match l with [a; b] => negb (bytes_eqb a b) | _ => false end.
Definition with_key : db DBt :=
  match store_long_term_keypair PDBt toy_db alice (sof 9) (rmul (rbase ToyGroup) (sof 9)) with
  | Ok d => d | _ => toy_db end.
Check (test (distinct (partial_points toy_db bob), distinct (partial_points with_key alice),
             length (partial_points with_key alice)) (true, false, 2)).

(* C39, strong: the two databases of the hypotheses *)
Definition strong_bytes (d : sdb SDBt) : list bytes :=
  match generate_client_info_strong ToyGroup toyD SDBt tape_rng
          {| sal_secret := 5; sal_ssid := repeat x41 64 |} bob (rmul (rbase ToyGroup) (sof 4)) d (toy_tape 21 22) with
  | Ok (_, SStrongAugmentationInfo _ X bs ps) => [rcompress ToyGroup X; rcompress ToyGroup bs; ps] | _ => [] end.
Definition sdb_bob : sdb SDBt :=
  store_verifier_strong SDBt toy_sdb bob None (rbase ToyGroup) (fake_exponent toyD 5 bob) [].
Check (test (strong_bytes toy_sdb) (strong_bytes sdb_bob)).
Check (test (length (strong_bytes sdb_bob)) 3).

(* C47: two registrations for alice with other events between and after them; the last one counts *)
Definition store_again : list ev :=
  match fst (do_register ToyGroup bytes toy_params_try_into AllocBuf tape_rng (client_new tape_rng (toy_tape 51 52))
               alice wrong toy_params toy_hash) with
  | Ok (CRegistration u salt ps W) => [EStore ToyGroup bytes tape_rng tape_rng u salt None W ps]
  | _ => []
  end.
Definition store_bob : list ev := [EStore ToyGroup bytes tape_rng tape_rng bob (repeat x41 22) None (rbase ToyGroup) []].
Definition login_in (es : list ev) (pass : bytes) : res (bytes * bytes) :=
  let w := after_ es in
  run_login ToyGroup toyD bytes toy_params_of Explicit tape_rng tape_rng (ByNonces 16) AllocBuf toy_client
    (sv_server (w_server w))
    (fun sess u => generate_client_info ToyGroup toyD DBt tape_rng sess u (sv_db (w_server w)) (toy_tape 3001 3002))
    alice pass toy_hash channel (toy_tape 4001 4002).
Definition two_stores : list ev := es6 ++ store_again ++ store_bob ++ [ELongTerm _ _ _ _ alice].
Check (test (agreed (login_in es6 secret), agreed (login_in es6 wrong)) (true, false)).
Check (test (agreed (login_in two_stores secret), agreed (login_in two_stores wrong)) (false, true)).
End Cases.
