(** * Further properties of the aucpace crate: C40, C45 on whole functions, C56-C61. *)
From Coq Require Import ZArith Lia.
From Verif Require Import Base.Bytes Base.Outcome Base.CtEq Base.Rng Base.Kat.
From Verif Require Import Curve.Primes Curve.Scalar25519.
From Verif Require Import Aucpace.RistrettoGroup Aucpace.PwHash Aucpace.PwHashProofs Aucpace.AucpaceModel
  Aucpace.AucpaceSpec Aucpace.AucpaceRun Aucpace.AucpaceDb Aucpace.AucpaceToy Aucpace.AucpaceProofs
  Aucpace.AucpaceProps.
Local Open Scope nat_scope.

(** ** Panics *)

Definition no_panic {E A} (o : outcome E A) : Prop := o <> Panic.

Lemma np_ok {E A} (a : A) : @no_panic E A (Ok a). Proof. discriminate. Qed.
Lemma np_err {E A} (e : E) : @no_panic E A (Err e). Proof. discriminate. Qed.
Lemma np_bind {E A B} (m : outcome E A) (f : A -> outcome E B) :
  no_panic m -> (forall a, m = Ok a -> no_panic (f a)) -> no_panic (obind m f).
Proof.
  unfold no_panic. destruct m as [a|e|]; cbn [obind]; intros H1 H2; [now apply H2|discriminate|now destruct H1].
Qed.
Lemma np_map_err {E E' A} (g : E -> E') (m : outcome E A) : no_panic m -> no_panic (omap_err g m).
Proof. unfold no_panic. destruct m; cbn; congruence. Qed.

Section Props4.
Context (R : RGroup) (L : rgroup_laws R) (D : bytes -> bytes).
Context (Dlen : forall m, length (D m) = 64).
Context (Params : Type) (params_try_into : Params -> outcome pherror bytes).

Lemma np_scalar_from_hash hash : no_panic (scalar_from_hash hash).
Proof.
  rewrite scalar_from_hash_eq. destruct hash as [b|]; [|apply np_err]. cbn [spec_scalar].
  destruct (_ || _); [apply np_ok|apply np_err].
Qed.

(** The hasher and the conversion of parameters are the application's; these are the only things a
    registration can panic in.  In particular the salts it makes are always usable. *)
Theorem C40_registration_no_panic :
  forall m T (c : AuCPaceClient T) user pass params (h : hasher Params),
  (forall i p s, no_panic (h i p s)) -> (forall p, no_panic (params_try_into p)) ->
  no_panic (fst (do_register R Params params_try_into m T c user pass params h)) /\
  no_panic (fst (do_register_strong R D Params params_try_into m T c user pass params h)).
Proof.
  intros m T c user pass params h Hh Hp.
  assert (HP : forall n s, salt_valid s ->
     no_panic (hash_password Params n user pass s params h) /\
     no_panic (hash_password_alloc Params user pass s params h)).
  { intros n s V. apply C40_no_panic; assumption. }
  assert (K : forall s (mk : bytes -> pt R -> ClientMessage R), salt_valid s ->
    no_panic (let! pw_hash := match m with FixedBuf n => hash_password Params n user pass s params h
                              | AllocBuf => hash_password_alloc Params user pass s params h end in
              let! w := scalar_from_hash pw_hash in
              let! params_string := omap_err PasswordHashing (params_try_into params) in
              Ok (mk params_string (rmul (rbase R) (smult w sone))))).
  { intros s mk V. apply np_bind.
    - destruct m as [n|]; [apply (proj1 (HP n s V))|apply (proj2 (HP 0 s V))].
    - intros hash _. apply np_bind; [apply np_scalar_from_hash|]. intros w _.
      apply np_bind; [apply np_map_err, Hp|]. intros ps _. apply np_ok. }
  split.
  - destruct (salt_generate_eq T (c_rng T c)) as (E & V & _).
    destruct m as [n|]; cbn [do_register]; unfold register, register_alloc; rewrite E; cbn [fst omap_err obind];
      exact (K _ (fun ps W => CRegistration user _ ps W) V).
  - destruct m as [n|]; cbn [do_register_strong]; unfold register_strong, register_alloc_strong;
      rewrite (generate_salt_strong_eq R L D); cbn [fst obind];
      apply (K _ (fun ps W => CStrongRegistration user _ ps W)); apply (strong_salt_encode R L).
Qed.

(** ** C45: whole functions *)

(** The PRS of a server session has 32 bytes, and its SSID is that of the augmentation layer. *)
Lemma rfl_length n T st : length (fst (rng_fill T n st)) = n.
Proof. apply rng_fill_length. Qed.

Lemma generate_prs_length (DB : Database R) T s user d st x X prs msg st' :
  generate_prs R D DB T s user d st x X = (Ok (prs, msg), st') -> length prs = 32.
Proof.
  unfold generate_prs. destruct (lookup_verifier DB d user) as [[[W salt] ps]|].
  - intros E. injection E as <- _ _. apply (rl_length R L).
  - rewrite (lookup_failed_eq R D Dlen). intros E. injection E as <- _ _. apply rfl_length.
Qed.
Lemma lookup_failed_strong_length T s user U X st prs msg st' :
  lookup_failed_strong R D T s user U X st = (Ok (prs, msg), st') -> length prs = 32.
Proof.
  rewrite lookup_failed_strong_eq. cbv zeta. destruct (is_identity _); [discriminate|].
  intros E. injection E as <- _ _. apply rfl_length.
Qed.
Lemma generate_prs_strong_length (DB : StrongDatabase R) T s user U d st x X prs msg st' :
  generate_prs_strong R D DB T s user U d st x X = (Ok (prs, msg), st') -> length prs = 32.
Proof.
  unfold generate_prs_strong. destruct (lookup_verifier_strong DB d user) as [[[W q] ps]|].
  - destruct (is_identity _); [discriminate|]. intros E. injection E as <- _ _. apply (rl_length R L).
  - apply lookup_failed_strong_length.
Qed.

(** The four ways a server gets to its CPace substep. *)
Inductive server_reaches (T : Rng) (s : AuCPaceServerAugLayer) : AuCPaceServerCPaceSubstep T -> Prop :=
| sr_plain (DB : Database R) user d st s' msg :
    generate_client_info R D DB T s user d st = Ok (s', msg) -> server_reaches T s s'
| sr_partial (DB : Database R) PDB user d st s' msg :
    generate_client_info_partial_aug R D DB PDB T s user d st = Ok (s', msg) -> server_reaches T s s'
| sr_strong (DB : StrongDatabase R) user U d st s' msg :
    generate_client_info_strong R D DB T s user U d st = Ok (s', msg) -> server_reaches T s s'
| sr_partial_strong (DB : StrongDatabase R) PDB user U d st s' msg :
    generate_client_info_partial_strong R D DB PDB T s user U d st = Ok (s', msg) -> server_reaches T s s'.

Lemma substep_parts T s r s' msg :
  cpace_substep R T s r = Ok (s', msg) ->
  exists prs st, r = (Ok (prs, msg), st) /\ s' = {| scs_ssid := sal_ssid s; scs_prs := prs; scs_rng := st |}.
Proof.
  destruct r as [[[prs m]|e|] st]; cbn [cpace_substep obind]; intros E; try discriminate E.
  injection E as <- <-. now exists prs, st.
Qed.

Lemma server_reaches_parts T s s' : server_reaches T s s' ->
  scs_ssid T s' = sal_ssid s /\ length (scs_prs T s') = 32.
Proof.
  intros H. destruct H as [DB user d st s' msg E|DB PDB user d st s' msg E|DB user U d st s' msg E
                          |DB PDB user U d st s' msg E].
  - rewrite generate_client_info_eq in E. apply substep_parts in E. destruct E as (prs & st' & E & ->).
    split; [reflexivity|]. exact (generate_prs_length _ _ _ _ _ _ _ _ _ _ _ E).
  - unfold generate_client_info_partial_aug in E. apply substep_parts in E. destruct E as (prs & st' & E & ->).
    split; [reflexivity|]. cbn [scs_prs].
    destruct (lookup_long_term_keypair PDB d user) as [[x X]|].
    + exact (generate_prs_length _ _ _ _ _ _ _ _ _ _ _ E).
    + destruct (point_random R T st) as [X st1]. rewrite (lookup_failed_eq R D Dlen) in E.
      injection E as <- _ _. apply rfl_length.
  - rewrite generate_client_info_strong_eq in E. apply substep_parts in E. destruct E as (prs & st' & E & ->).
    split; [reflexivity|]. exact (generate_prs_strong_length _ _ _ _ _ _ _ _ _ _ _ _ E).
  - unfold generate_client_info_partial_strong in E. apply substep_parts in E. destruct E as (prs & st' & E & ->).
    split; [reflexivity|]. cbn [scs_prs].
    destruct (lookup_long_term_keypair PDB d user) as [[x X]|].
    + exact (generate_prs_strong_length _ _ _ _ _ _ _ _ _ _ _ _ E).
    + destruct (point_random R T st) as [X st1]. exact (lookup_failed_strong_length _ _ _ _ _ _ _ _ _ E).
Qed.

(** The ways a client gets to its CPace substep; the SSID is that of the session. *)
Inductive client_reaches (ssid : bytes) : AuCPaceClientCPaceSubstep -> Prop :=
| cr_plain m c x_pub salt params (h : hasher Params) c' :
    cal_ssid c = ssid -> do_generate_cpace R Params m c x_pub salt params h = Ok c' -> client_reaches ssid c'
| cr_strong m c x_pub bs params (h : hasher Params) c' :
    scal_ssid c = ssid -> do_strong_generate_cpace R Params m c x_pub bs params h = Ok c' -> client_reaches ssid c'.

Lemma client_reaches_parts ssid c : client_reaches ssid c -> ccs_ssid c = ssid /\ length (ccs_prs c) = 32.
Proof.
  intros [m c' X salt params h c'' <- E|m c' X bs params h c'' <- E].
  - destruct m as [n|]; cbn [do_generate_cpace] in E; unfold generate_cpace, generate_cpace_alloc in E;
      (destruct (is_identity X); [discriminate E|]);
      apply obind_ok in E; destruct E as (hash & _ & E); apply obind_ok in E; destruct E as (w & _ & E);
      injection E as <-; (split; [reflexivity|apply (rl_length R L)]).
  - destruct m as [n|]; cbn [do_strong_generate_cpace] in E;
      unfold strong_generate_cpace, strong_generate_cpace_alloc in E;
      (destruct (is_identity X); [discriminate E|]).
    + apply obind_ok in E. destruct E as (s & _ & E). apply obind_ok in E. destruct E as (hash & _ & E).
      apply obind_ok in E. destruct E as (w & _ & E). injection E as <-.
      split; [reflexivity|apply (rl_length R L)].
    + cbv zeta in E. destruct (is_identity _) in E; [discriminate E|].
      apply obind_ok in E. destruct E as (s & _ & E). apply obind_ok in E. destruct E as (hash & _ & E).
      apply obind_ok in E. destruct E as (w & _ & E). injection E as <-.
      split; [reflexivity|apply (rl_length R L)].
Qed.

(** A party of either kind in its CPace substep: its SSID, PRS, private key and the public key it sends
    on channel [ci]. *)
Inductive sends_key : bytes -> bytes -> bytes -> scalar -> pt R -> Prop :=
| sk_server T s s' ci next Y : server_reaches T s s' ->
    server_generate_public_key R D T s' ci = (next, SPublicKey Y) ->
    sends_key (sal_ssid s) (scs_prs T s') ci (src_priv_key next) Y
| sk_client T ssid c ci st next Y st' : client_reaches ssid c ->
    client_generate_public_key R D T c ci st = ((next, CPublicKey Y), st') ->
    sends_key ssid (ccs_prs c) ci (crs_priv_key next) Y.

Lemma sends_key_value ssid prs ci y Y : sends_key ssid prs ci y Y ->
  length prs = 32 /\ Y = rmul (spec_G R D ssid prs ci) y.
Proof.
  intros [T s s' ci' next Y' HR E|T ssid' c ci' st next Y' st' HR E].
  - destruct (server_reaches_parts T s s' HR) as [Es Hp]. split; [exact Hp|].
    unfold server_generate_public_key in E. rewrite generate_keypair_eq in E.
    injection E as <- <-. now rewrite Es.
  - destruct (client_reaches_parts ssid' c HR) as [Es Hp]. split; [exact Hp|].
    unfold client_generate_public_key in E. rewrite generate_keypair_eq in E.
    injection E as <- <- _. now rewrite Es.
Qed.

(** Two sessions of any kinds, on either side, with the same private key: if they send the same public
    key then their SSID, PRS and channel are equal, or there is a collision of the generator map. *)
Theorem C45_public_keys :
  forall ssid prs ci y Y ssid' prs' ci', length ssid = 64 -> length ssid' = 64 -> y <> szero ->
  sends_key ssid prs ci y Y -> sends_key ssid' prs' ci' y Y ->
  (ssid = ssid' /\ prs = prs' /\ ci = ci') \/
  collision (fun m => rfrom_uniform R (D m)) (word x01 ++ ssid ++ prs ++ ci) (word x01 ++ ssid' ++ prs' ++ ci').
Proof.
  intros ssid prs ci y Y ssid' prs' ci' H1 H2 Hy S1 S2.
  apply sends_key_value in S1, S2. destruct S1 as [H3 E1]. destruct S2 as [H4 E2].
  destruct (list_eq_dec byte_eq_dec (ssid ++ prs ++ ci) (ssid' ++ prs' ++ ci')) as [Eq|Ne].
  - left. apply app_inj_length in Eq; [|congruence]. destruct Eq as [-> Eq].
    apply app_inj_length in Eq; [|congruence]. now destruct Eq as [-> ->].
  - right. split; [intros Eq; now apply app_inv_head in Eq|].
    rewrite E1 in E2.
    rewrite <- (rmul_one (spec_G R D ssid prs ci)), <- (rmul_one (spec_G R D ssid' prs' ci')) in E2.
    assert (G : spec_G R D ssid prs ci = spec_G R D ssid' prs' ci').
    { rewrite <- (rmul_one (spec_G R D ssid prs ci)), <- (rmul_one (spec_G R D ssid' prs' ci')).
      rewrite <- (sinv_l y Hy), smult_comm, <- !(rmul_mul L). rewrite !(rmul_one (R:=R)) in E2. now rewrite E2. }
    exact G.
Qed.

(** and with equal SSID, PRS and channel they use the same generator: the public keys are y·G for one
    G. *)
Theorem C45_same_generator :
  forall ssid prs ci y Y y' Y',
  sends_key ssid prs ci y Y -> sends_key ssid prs ci y' Y' ->
  exists G, Y = rmul G y /\ Y' = rmul G y'.
Proof.
  intros ssid prs ci y Y y' Y' S1 S2. apply sends_key_value in S1, S2.
  exists (spec_G R D ssid prs ci). split; [apply S1|apply S2].
Qed.

(** ** C56: no panics *)

(** The client.  A [SaltString] always holds a valid salt; the hasher must not panic. *)
Theorem C56_client_no_panic :
  forall (h : hasher Params) params, (forall i p s, no_panic (h i p s)) ->
  (forall ssid, no_panic (client_begin_prestablished_ssid D ssid)) /\
  (forall m c X salt, salt_valid salt -> no_panic (do_generate_cpace R Params m c X salt params h)) /\
  (forall m c X bs, no_panic (do_strong_generate_cpace R Params m c X bs params h)) /\
  (forall c Y, no_panic (receive_server_pubkey R D c Y)) /\
  (forall c Y, no_panic (client_implicit_auth R D c Y)) /\
  (forall c a, no_panic (receive_server_authenticator D c a)).
Proof.
  intros h params Hh.
  assert (HP : forall n user pass s, salt_valid s ->
     no_panic (hash_password Params n user pass s params h) /\
     no_panic (hash_password_alloc Params user pass s params h)).
  { intros n user pass s V. apply C40_no_panic; assumption. }
  repeat apply conj.
  - intros ssid. unfold client_begin_prestablished_ssid. destruct (Nat.ltb _ _); [apply np_err|apply np_ok].
  - intros [n|] c X salt V; cbn [do_generate_cpace]; unfold generate_cpace, generate_cpace_alloc;
      (destruct (is_identity X); [apply np_err|]); 
      (apply np_bind; [first [exact (proj1 (HP _ _ _ _ V))|exact (proj2 (HP 0 _ _ _ V))]|]); intros hash _; (apply np_bind; [apply np_scalar_from_hash|]); intros w _; apply np_ok.
  - intros [n|] c X bs; cbn [do_strong_generate_cpace]; unfold strong_generate_cpace, strong_generate_cpace_alloc;
      (destruct (is_identity X); [apply np_err|]); cbv zeta;
      [|destruct (is_identity _); [apply np_err|]];
      [destruct (strong_salt_encode R L (rmul bs (smult (sinv (smult (smult (scal_blinding_value c) sone) sone)) sone)))
         as [E V]
      |destruct (strong_salt_encode R L (rmul bs (smult (sinv (smult (smult (scal_blinding_value c) sone) sone)) sone)))
         as [E V]];
      rewrite E; cbn [omap_err obind]; 
      (apply np_bind; [first [exact (proj1 (HP _ _ _ _ V))|exact (proj2 (HP 0 _ _ _ V))]|]); intros hash _; (apply np_bind; [apply np_scalar_from_hash|]); intros w _; apply np_ok.
  - intros c Y. unfold receive_server_pubkey. destruct (is_identity Y); [apply np_err|].
    rewrite authenticators_eq. unfold spec_Tb. rewrite (expect64_D D Dlen). apply np_ok.
  - intros c Y. unfold client_implicit_auth. destruct (is_identity Y); [apply np_err|apply np_ok].
  - intros c a. unfold receive_server_authenticator. destruct (N.eqb _ _); [apply np_ok|apply np_err].
Qed.

(** The server, for any database, any generator and any messages. *)
Theorem C56_server_no_panic :
  (forall T s ssid, no_panic (server_begin_prestablished_ssid D T s ssid)) /\
  (forall DB T s user d st, exists r, generate_client_info R D DB T s user d st = Ok r) /\
  (forall DB PDB T s user d st, exists r, generate_client_info_partial_aug R D DB PDB T s user d st = Ok r) /\
  (forall DB T s user U d st, no_panic (generate_client_info_strong R D DB T s user U d st)) /\
  (forall DB PDB T s user U d st, no_panic (generate_client_info_partial_strong R D DB PDB T s user U d st)) /\
  (forall s Y, no_panic (receive_client_pubkey R D s Y)) /\
  (forall s Y, no_panic (server_implicit_auth R D s Y)) /\
  (forall s a, no_panic (receive_client_authenticator R D s a)).
Proof.
  assert (F : forall T s user X st, exists r, cpace_substep R T s (lookup_failed R D T s user X st) = Ok r).
  { intros. rewrite (lookup_failed_eq R D Dlen). cbn [cpace_substep obind]. eexists. reflexivity. }
  assert (FS : forall T s user U X st, no_panic (cpace_substep R T s (lookup_failed_strong R D T s user U X st))).
  { intros. rewrite lookup_failed_strong_eq. cbv zeta. destruct (is_identity _); [apply np_err|apply np_ok]. }
  assert (P : forall DB T s user d st x X, exists r,
             cpace_substep R T s (generate_prs R D DB T s user d st x X) = Ok r).
  { intros. unfold generate_prs. destruct (lookup_verifier DB d user) as [[[W salt] ps]|]; [|apply F].
    eexists. reflexivity. }
  assert (PS : forall DB T s user U d st x X,
             no_panic (cpace_substep R T s (generate_prs_strong R D DB T s user U d st x X))).
  { intros. unfold generate_prs_strong. destruct (lookup_verifier_strong DB d user) as [[[W q] ps]|]; [|apply FS].
    destruct (is_identity _); [apply np_err|apply np_ok]. }
  repeat apply conj.
  - intros T s ssid. unfold server_begin_prestablished_ssid. destruct (Nat.ltb _ _); [apply np_err|apply np_ok].
  - intros. rewrite generate_client_info_eq. apply P.
  - intros. unfold generate_client_info_partial_aug.
    destruct (lookup_long_term_keypair PDB d user) as [[x X]|]; [apply P|].
    destruct (point_random R T st). apply F.
  - intros. rewrite generate_client_info_strong_eq. apply PS.
  - intros. unfold generate_client_info_partial_strong.
    destruct (lookup_long_term_keypair PDB d user) as [[x X]|]; [apply PS|].
    destruct (point_random R T st). apply FS.
  - intros s Y. unfold receive_client_pubkey. destruct (is_identity Y); [apply np_err|apply np_ok].
  - intros s Y. unfold server_implicit_auth. destruct (is_identity Y); [apply np_err|apply np_ok].
  - intros s a. unfold receive_client_authenticator. rewrite authenticators_eq.
    destruct (N.eqb _ _); [|apply np_err]. unfold spec_Ta. rewrite (expect64_D D Dlen). apply np_ok.
Qed.

(** ** C57: a server restart *)

(** The property: a reply does not change when the server process is restarted.  It holds for
    registered users ... *)
Theorem C57_registered_partial :
  forall DB T d user rec, lookup_verifier DB d user = Some rec ->
  forall s s' st st' v v' g g' X X' salt salt' ps ps',
  generate_client_info R D DB T s user d st = Ok (v, SAugmentationInfo g X salt ps) ->
  generate_client_info R D DB T s' user d st' = Ok (v', SAugmentationInfo g' X' salt' ps') ->
  salt = salt' /\ ps = ps'.
Proof.
  intros DB T d user [[W sa] p] Hl s s' st st' v v' g g' X X' salt salt' ps ps' E E'.
  rewrite generate_client_info_eq in E, E'. unfold generate_prs in E, E'. rewrite Hl in E, E'.
  cbn [cpace_substep obind] in E, E'.
  injection E as _ _ _ <- <-. injection E' as _ _ _ <- <-. now split.
Qed.

(** ... but not for unknown ones: the replies of two servers with different secrets carry different
    salts, or two hashed messages agree in their first 48 bytes. *)
Theorem C57_restart_refuted :
  forall DB T d user, lookup_verifier DB d user = None ->
  forall rng rng' st st',
  let s := server_new T rng in
  let s' := server_new T rng' in
  s_secret T s <> s_secret T s' ->
  forall ssid ssid' v v' g g' X X' salt salt' ps ps',
  generate_client_info R D DB T {| sal_secret := s_secret T s; sal_ssid := ssid |} user d st
    = Ok (v, SAugmentationInfo g X salt ps) ->
  generate_client_info R D DB T {| sal_secret := s_secret T s'; sal_ssid := ssid' |} user d st'
    = Ok (v', SAugmentationInfo g' X' salt' ps') ->
  salt <> salt' \/
  collision (fun m => firstn 48 (D m)) (le_bytes 8 (s_secret T s) ++ user) (le_bytes 8 (s_secret T s') ++ user).
Proof.
  intros DB T d user Hl rng rng' st st' s s' Hs ssid ssid' v v' g g' X X' salt salt' ps ps' E E'.
  rewrite generate_client_info_eq in E, E'. unfold generate_prs in E, E'.
  rewrite Hl, (lookup_failed_eq R D Dlen) in E, E'. cbn [cpace_substep obind sal_secret] in E, E'.
  injection E as _ _ _ <- _. injection E' as _ _ _ <- _.
  destruct (bytes_eq_dec (fake_salt D (s_secret T s) user) (fake_salt D (s_secret T s') user)) as [Eq|NE]; [right|now left].
  assert (B : forall r, (s_secret T (server_new T r) < 256 ^ N.of_nat 8)%N).
  { intros r. unfold server_new. pose proof (rng_next_u64_bound T r) as HB. now destruct (rng_next_u64 T r). }
  split.
  - intros Em. apply app_inv_tail in Em. apply Hs. exact (le_bytes_inj 8 _ _ (B rng) (B rng') Em).
  - unfold fake_salt in Eq. apply b64_encode_inj in Eq; [exact Eq|].
    now rewrite !firstn_length, !Dlen.
Qed.

(** ** C58: a stolen database *)

(** The property: who holds the server's database but not the password cannot log in as the user.  With
    partial augmentation it is false: from a stored verifier and long-term key alone one computes the
    PRS, and a client that starts from it completes every honest run. *)
Definition stolen_prs (W : pt R) (x : scalar) : bytes := rcompress R (rmul W x).

Theorem C58_stolen_partial_refuted :
  forall DB PDB Ts Tc d user W salt ps x X s st s' msg am ci stc,
  lookup_verifier DB d user = Some (W, salt, ps) ->
  lookup_long_term_keypair PDB d user = Some (x, X) ->
  generate_client_info_partial_aug R D DB PDB Ts s user d st = Ok (s', msg) ->
  let thief := {| ccs_ssid := sal_ssid s; ccs_prs := stolen_prs W x |} in
  let G := spec_G R D (sal_ssid s) (stolen_prs W x) ci in
  rmul G (drawn Ts st) <> rzero R -> rmul G (drawn Tc stc) <> rzero R ->
  exists key, run_cpace R D am Tc Ts thief s' ci ci stc = Ok (key, key).
Proof.
  intros DB PDB Ts Tc d user W salt ps x X s st s' msg am ci stc Hv Hk E thief G Hs Hc.
  unfold generate_client_info_partial_aug in E. rewrite Hk in E. unfold generate_prs in E. rewrite Hv in E.
  cbn [cpace_substep obind] in E. injection E as <- _. rewrite rmul_one.
  unfold thief. rewrite (run_cpace_eq R L D Dlen). unfold cpace_result.
  fold (stolen_prs W x). fold G.
  rewrite (proj2 (is_identity_neq L _) Hs), (proj2 (is_identity_neq L _) Hc). cbn [orb].
  eexists. reflexivity.
Qed.

(** With full augmentation the server's key is fresh.  For any verifier other than the identity, each
    possible PRS comes from exactly one value of that key. *)
Theorem C58_fresh_key_partial :
  forall W : pt R, W <> rzero R -> forall P : pt R,
  exists! x : scalar, stolen_prs W x = rcompress R P.
Proof.
  intros W HW P. destruct (rmul_onto L W P HW) as [x Ex]. exists x. split.
  - unfold stolen_prs. now rewrite Ex.
  - intros x' E. apply (rcompress_inj L) in E. rewrite <- Ex in E. symmetry. exact (rmul_inj L W _ _ HW E).
Qed.

(** ** C59: the two kinds of SSID *)

(** The property: a session with a pre-established SSID never has the SSID of a session with nonces.
    It is false for every pair of nonces of 8 bytes or more. *)
Theorem C59_modes_refuted :
  forall Ts Tc K1 (s : AuCPaceServer Ts) (c : AuCPaceClient Tc), 8 <= K1 ->
  exists ssid : bytes, forall s2 : AuCPaceServer Ts, forall c2 : AuCPaceClient Tc,
  exists cs ss cs2 ss2,
    run_ssid R D Tc Ts (ByNonces K1) c s = Ok (cs, ss) /\
    run_ssid R D Tc Ts (PreEstablished ssid) c2 s2 = Ok (cs2, ss2) /\
    cpa_ssid cs = cpa_ssid cs2 /\ sal_ssid ss = sal_ssid ss2.
Proof.
  intros Ts Tc K1 s c HK.
  exists (fst (rng_fill Ts K1 (s_rng Ts s)) ++ fst (rng_fill Tc K1 (c_rng Tc c))). intros s2 c2.
  rewrite (run_ssid_eq R D Tc Ts (ByNonces K1)) by exact I.
  rewrite (run_ssid_eq R D Tc Ts (PreEstablished _)).
  2:{ cbn [ssid_mode_ok]. rewrite app_length, !rng_fill_length. lia. }
  do 4 eexists. repeat split.
Qed.

(** Nothing prevents nonces of length 0 ([K1] is the caller's): then every session has the same SSID. *)
Theorem C59_empty_nonces_refuted :
  forall Ts Tc (s s2 : AuCPaceServer Ts) (c c2 : AuCPaceClient Tc),
  exists cs ss cs2 ss2,
    run_ssid R D Tc Ts (ByNonces 0) c s = Ok (cs, ss) /\ run_ssid R D Tc Ts (ByNonces 0) c2 s2 = Ok (cs2, ss2) /\
    cpa_ssid cs = cpa_ssid cs2 /\ sal_ssid ss = sal_ssid ss2.
Proof.
  intros Ts Tc s s2 c c2. rewrite !(run_ssid_eq R D Tc Ts (ByNonces 0)) by exact I.
  assert (Z0 : forall T st, fst (rng_fill T 0 st) = []).
  { intros T st. pose proof (rng_fill_length T 0 st) as H. now destruct (fst (rng_fill T 0 st)). }
  do 4 eexists. repeat split; cbn [cpa_ssid sal_ssid agreed_ssid]; now rewrite !Z0.
Qed.

(** ** C60: the loop that draws a blinding value *)

Fixpoint nth_state (T : Rng) (k : nat) (st : rng_state T) : rng_state T :=
  match k with O => st | S k' => nth_state T k' (after T 64 st) end.

(** It ends exactly when the generator at some time yields 64 bytes whose value is not a multiple of the
    group order, and returns the first such value. *)
Theorem C60_terminates_iff :
  forall T st r st',
  (exists fuel, draw_blinding_value T fuel st = Some (r, st')) <->
  (exists k, r = drawn T (nth_state T k st) /\ r <> szero /\ st' = nth_state T (S k) st /\
             forall j, j < k -> drawn T (nth_state T j st) = szero).
Proof.
  intros T st r st'. split.
  - intros [fuel E]. revert st E. induction fuel as [|fuel IH]; intros st E; cbn [draw_blinding_value] in E; [discriminate|].
    rewrite scalar_random_eq in E. destruct (seqb (drawn T st) szero) eqn:Es; cbn [negb] in E.
    + apply seqb_eq in Es. destruct (IH _ E) as (k & Hr & Hn & Hs & Hj). exists (S k).
      repeat split; try assumption. intros [|j] Hlt; [exact Es|]. apply (Hj j). lia.
    + apply seqb_neq in Es. injection E as <- <-. exists 0. repeat split; [exact Es|]. intros j Hj. lia.
  - intros (k & Hr & Hn & Hs & Hj). exists (S k). revert st Hr Hs Hj.
    induction k as [|k IH]; intros st Hr Hs Hj; cbn [draw_blinding_value]; rewrite scalar_random_eq.
    + cbn [nth_state] in *. rewrite <- Hr. rewrite (proj2 (seqb_neq r szero) Hn). cbn [negb]. now rewrite Hs.
    + rewrite (Hj 0 ltac:(lia) : drawn T st = szero), (proj2 (seqb_eq szero szero) eq_refl). cbn [negb].
      apply IH; [exact Hr|exact Hs|]. intros j Hlt. exact (Hj (S j) ltac:(lia)).
Qed.

(** The property "start_augmentation_strong always returns" is therefore false: a generator that
    only yields zeros keeps it looping. *)
Theorem C60_always_terminates_refuted :
  exists (T : Rng) (st : rng_state T), forall fuel c user pass,
  start_augmentation_strong R D T fuel c user pass st = None.
Proof.
  exists tape_rng, []. intros fuel c user pass. rewrite start_augmentation_strong_eq.
  assert (Z0 : drawn tape_rng [] = szero) by (apply sval_inj; vm_compute; reflexivity).
  assert (A0 : after tape_rng 64 [] = []) by reflexivity.
  assert (N0 : draw_blinding_value tape_rng fuel [] = None).
  { induction fuel as [|fuel IH]; [reflexivity|]. cbn [draw_blinding_value].
    rewrite scalar_random_eq, Z0, (proj2 (seqb_eq szero szero) eq_refl). cbn [negb]. rewrite A0. exact IH. }
  now rewrite N0.
Qed.
End Props4.

(** ** C61: the scalars drawn are nearly uniform *)

Local Open Scope Z_scope.
(** How many of the numbers below [m] leave the remainder [v]. *)
Definition preimages (m v : Z) : Z := (m - v + ell - 1) / ell.

Lemma preimages_spec m v k : v + ell * k < m <-> k < preimages m v.
Proof.
  unfold preimages. pose proof ell_gt_1 as Hl. revert Hl. generalize ell. intros l Hl. split; intros H.
  - enough (k + 1 <= (m - v + l - 1) / l) by lia.
    apply Z.div_le_lower_bound; lia.
  - assert (k + 1 <= (m - v + l - 1) / l) as H' by lia.
    pose proof (Z.mul_div_le (m - v + l - 1) l ltac:(lia)).
    pose proof (Z.mul_le_mono_nonneg_l _ _ l ltac:(lia) H'). lia.
Qed.
Lemma preimages_bound m v : 0 <= v < ell -> m / ell <= preimages m v <= m / ell + 1.
Proof.
  unfold preimages. pose proof ell_gt_1 as Hl. revert Hl. generalize ell. intros l Hl Hv. split.
  - apply Z.div_le_mono; lia.
  - replace (m / l + 1) with ((m + 1 * l) / l) by (rewrite Z.div_add; lia).
    apply Z.div_le_mono; lia.
Qed.

Lemma pow256_Z n : Z.of_N (256 ^ N.of_nat n) = 256 ^ Z.of_nat n.
Proof. now rewrite N2Z.inj_pow, nat_N_Z. Qed.

(** For every scalar, the strings of [n] bytes reduced to it can be listed: each once, and there are
    [preimages] of them. *)
Theorem C61_preimages :
  forall (n : nat) (s : scalar), exists l : list bytes,
  NoDup l /\
  (forall b, In b l <-> length b = n /\ sof (Z.of_N (le_val b)) = s) /\
  Z.of_nat (length l) = Z.max 0 (preimages (256 ^ Z.of_nat n) (sval s)).
Proof.
  intros n s. pose proof (sval_range s) as Hs. pose proof ell_gt_1 as Hl.
  set (v := sval s) in *.
  set (C := preimages (256 ^ Z.of_nat n) v).
  assert (HC : forall k, v + ell * k < 256 ^ Z.of_nat n <-> k < C) by (intros k; apply preimages_spec).
  clearbody C.
  set (f := fun k : nat => le_bytes n (Z.to_N (v + ell * Z.of_nat k))).
  assert (Hf : forall k, (k < Z.to_nat C)%nat -> Z.of_N (le_val (f k)) = v + ell * Z.of_nat k).
  { intros k Hk. assert (Hk' : Z.of_nat k < C) by lia. apply HC in Hk'.
    assert (0 <= v + ell * Z.of_nat k) as H0.
    { clear - Hs Hl. revert Hs Hl. generalize ell. intros l Hs Hl. nia. }
    unfold f. rewrite le_val_le_bytes, N.mod_small.
    - now rewrite Z2N.id by exact H0.
    - apply N2Z.inj_lt. rewrite Z2N.id, pow256_Z by exact H0. exact Hk'. }
  exists (map f (seq 0 (Z.to_nat C))). split; [|split].
  - assert (J : forall k k', In k (seq 0 (Z.to_nat C)) -> In k' (seq 0 (Z.to_nat C)) -> f k = f k' -> k = k').
    { intros k k' H H' E. apply in_seq in H, H'. apply (f_equal (fun b => Z.of_N (le_val b))) in E.
      rewrite !Hf in E by lia. assert (ell * Z.of_nat k = ell * Z.of_nat k') as E' by lia.
      apply Z.mul_reg_l in E'; [|discriminate]. lia. }
    revert J. pose proof (seq_NoDup (Z.to_nat C) 0%nat) as ND. revert ND.
    generalize (seq 0 (Z.to_nat C)). intros q ND. induction ND as [|x q Hx ND IH]; intros J; cbn [map]; [constructor|].
    constructor.
    + intros Hin. apply in_map_iff in Hin. destruct Hin as (y & Ey & Hy).
      assert (y = x) by (apply J; [now right|now left|exact Ey]). subst y. contradiction.
    + apply IH. intros k k' H H'. apply J; now right.
  - intros b. rewrite in_map_iff. split.
    + intros (k & <- & Hk). apply in_seq in Hk. split; [apply le_bytes_length|].
      rewrite Hf by lia. apply sval_inj. rewrite sval_sof, Z.mul_comm, Z.mod_add by discriminate.
      now apply Z.mod_small.
    + intros [Hb E]. apply (f_equal sval) in E. rewrite sval_sof in E. fold v in E.
      set (x := Z.of_N (le_val b)) in *.
      assert (Hx : 0 <= x < 256 ^ Z.of_nat n).
      { unfold x. split; [apply N2Z.is_nonneg|]. rewrite <- pow256_Z, <- Hb. apply N2Z.inj_lt, le_val_bound. }
      pose proof (Z.div_mod x ell ltac:(discriminate)) as DM. rewrite E in DM.
      assert (0 <= x / ell) as Hq by (apply Z.div_pos; lia).
      assert (x / ell < C) as HqC by (apply HC; lia).
      exists (Z.to_nat (x / ell)). split.
      * unfold f. rewrite Z2Nat.id by exact Hq. replace (v + ell * (x / ell)) with x by lia.
        unfold x. rewrite N2Z.id, <- Hb. apply le_bytes_le_val.
      * apply in_seq. lia.
  - rewrite map_length, seq_length. lia.
Qed.

(** So the probability of each scalar, when [n] uniform bytes are reduced, differs from 1/l by at most
    1/256^n. *)
Theorem C61_bias :
  forall (n : nat) (s : scalar) (l : list bytes),
  NoDup l -> (forall b, In b l <-> length b = n /\ sof (Z.of_N (le_val b)) = s) ->
  Z.abs (ell * Z.of_nat (length l) - 256 ^ Z.of_nat n) <= ell.
Proof.
  intros n s l ND Hl. destruct (C61_preimages n s) as (l' & ND' & Hl' & E).
  assert (length l = length l') as EL.
  { apply Nat.le_antisymm; apply NoDup_incl_length; try assumption; intros b Hb; [apply Hl', Hl|apply Hl, Hl']; exact Hb. }
  rewrite EL, E. pose proof (preimages_bound (256 ^ Z.of_nat n) (sval s) (sval_range s)) as HB.
  assert (HM : 0 <= 256 ^ Z.of_nat n) by (apply Z.pow_nonneg; lia).
  revert HB HM. generalize (preimages (256 ^ Z.of_nat n) (sval s)). intros C. generalize (256 ^ Z.of_nat n). intros M.
  pose proof ell_gt_1 as H1. revert H1. generalize ell. intros q H1 HB HM.
  assert (0 <= M / q) by (apply Z.div_pos; lia).
  pose proof (Z.div_mod M q ltac:(lia)). pose proof (Z.mod_pos_bound M q ltac:(lia)).
  rewrite Z.max_r by lia. revert HB H H0 H2. generalize (M / q) (M mod q). intros t r HB Ht EM Hr.
  apply Z.abs_le. assert (C = t \/ C = t + 1) as [-> | ->] by lia; [lia|]. rewrite Z.mul_add_distr_l. lia.
Qed.

(** The private keys and password scalars of the crate are such reductions: of the 64-byte tapes, those
    that make a server choose the private key [s]; those that make a party choose the CPace key [s]; of
    the password hashes of 32 or 64 bytes, those that give the scalar [s]. *)
Theorem C61_keys :
  forall (R : RGroup) (D : bytes -> bytes) (s : scalar) (l : list bytes), NoDup l ->
  ((forall b, In b l <-> length b = 64%nat /\ fst (fst (generate_server_keypair R tape_rng b)) = s) ->
    Z.abs (ell * Z.of_nat (length l) - 256 ^ 64) <= ell) /\
  (forall ssid prs ci,
    (forall b, In b l <-> length b = 64%nat /\ fst (fst (generate_keypair R D tape_rng b ssid prs ci)) = s) ->
    Z.abs (ell * Z.of_nat (length l) - 256 ^ 64) <= ell) /\
  (forall n, n = 32%nat \/ n = 64%nat ->
    (forall b, In b l <-> length b = n /\ scalar_from_hash (Some b) = Ok s) ->
    Z.abs (ell * Z.of_nat (length l) - 256 ^ Z.of_nat n) <= ell).
Proof.
  intros R D s l ND.
  assert (T64 : forall b, length b = 64%nat -> drawn tape_rng b = sof (Z.of_N (le_val b))).
  { intros b Hb. unfold drawn. cbn [rng_fill tape_rng tape_fill fst].
    unfold tape_fill. cbn [fst]. rewrite Hb, Nat.sub_diag, <- Hb, firstn_all. cbn [repeat]. now rewrite app_nil_r. }
  split; [|split].
  - intros H. apply (C61_bias 64 s l ND). intros b. rewrite H. rewrite generate_server_keypair_eq. cbn [fst].
    split; intros [Hb E]; (split; [exact Hb|]); now rewrite <- E, (T64 b Hb).
  - intros ssid prs ci H. apply (C61_bias 64 s l ND). intros b. rewrite H. rewrite generate_keypair_eq. cbn [fst].
    split; intros [Hb E]; (split; [exact Hb|]); now rewrite <- E, (T64 b Hb).
  - intros n Hn H. apply (C61_bias n s l ND). intros b. rewrite H. rewrite scalar_from_hash_eq. cbn [spec_scalar].
    split; intros [Hb E]; (split; [exact Hb|]); rewrite Hb in *.
    + destruct Hn as [-> | ->]; cbn [Nat.eqb orb] in E; now injection E.
    + destruct Hn as [-> | ->]; cbn [Nat.eqb orb]; now rewrite E.
Qed.
Local Close Scope Z_scope.

(** ** Cases *)

(** C40, C56: the toy hasher and parameters never panic. *)
Example C56_case :
  (forall i p s, no_panic (toy_hash i p s)) /\ salt_valid (str "saltsalt") /\
  no_panic (toy_params_try_into toy_params).
Proof.
  split; [intros; discriminate|]. split; [split; [cbn; lia|vm_compute; reflexivity]|]. vm_compute. discriminate.
Qed.

(** C45: a server session for a registered user sends a key, and so does a client with the password. *)
Definition toy_sal : AuCPaceServerAugLayer := {| sal_secret := 7; sal_ssid := repeat x01 64 |}.
Definition toy_cal : AuCPaceClientAugLayer :=
  {| cal_ssid := repeat x01 64; cal_username := alice; cal_password := secret |}.
Example C45_case_keys :
  (exists prs ci y Y, sends_key ToyGroup toyD bytes (repeat x01 64) prs ci y Y) /\
  (exists c, client_reaches ToyGroup bytes (repeat x01 64) c).
Proof.
  split.
  - destruct (C56_server_no_panic ToyGroup toyD toyD_length) as (_ & H & _).
    destruct (H (AssocDb ToyGroup) tape_rng toy_sal alice toy_db (toy_tape 3001 3002)) as [[s' msg] E].
    destruct (server_generate_public_key ToyGroup toyD tape_rng s' channel) as [next msg'] eqn:EP.
    unfold server_generate_public_key in EP. rewrite generate_keypair_eq in EP.
    exists (scs_prs tape_rng s'), channel.
    do 2 eexists. apply (sk_server ToyGroup toyD bytes tape_rng toy_sal s' channel next).
    + exact (sr_plain ToyGroup toyD tape_rng toy_sal _ _ _ _ _ _ E).
    + unfold server_generate_public_key. rewrite generate_keypair_eq. injection EP as <- <-. reflexivity.
  - destruct (do_generate_cpace ToyGroup bytes AllocBuf toy_cal sone (str "saltsalt") toy_params toy_hash)
      as [c|e|] eqn:E; [exists c; exact (cr_plain ToyGroup bytes _ _ _ _ _ _ _ _ eq_refl E)|exfalso..];
      unfold toy_cal in E; rewrite (do_generate_cpace_eq ToyGroup bytes AllocBuf) in E;
      try exact I; try exact (proj1 (proj2 C56_case));
      (destruct (@is_identity ToyGroup sone) eqn:Ei;
        [apply (is_identity_eq toy_laws) in Ei; apply (f_equal sval) in Ei; discriminate Ei|]);
      unfold spec_w, toy_hash in E; cbn [omap_err obind spec_scalar] in E;
      rewrite le_bytes_length in E; discriminate E.
Qed.

(** C57: an unknown user, two servers. *)
Example C57_case :
  lookup_verifier (AssocDb ToyGroup) toy_db (str "mallory") = None /\
  s_secret _ (server_new tape_rng [x01]) <> s_secret _ (server_new tape_rng [x02]) /\
  fake_salt toyD 1 (str "mallory") <> fake_salt toyD 2 (str "mallory").
Proof. split; [vm_compute; reflexivity|]. split; vm_compute; discriminate. Qed.

(** C58: the registered user with a key pair, and a thief. *)
Check (test (match toy_pdb with
  | Ok d =>
      match lookup_verifier (AssocDb ToyGroup) d alice, lookup_long_term_keypair (AssocPartial ToyGroup) d alice,
            generate_client_info_partial_aug ToyGroup toyD (AssocDb ToyGroup) (AssocPartial ToyGroup)
              tape_rng toy_sal alice d (toy_tape 3001 3002) with
      | Some (W, _, _), Some (x, _), Ok (s', _) =>
          agreed (run_explicit ToyGroup toyD tape_rng tape_rng
                    {| ccs_ssid := sal_ssid toy_sal; ccs_prs := stolen_prs ToyGroup W x |} s' channel channel
                    (toy_tape 4001 4002))
      | _, _, _ => false
      end
  | _ => false end) true).

(** C60: the second draw is the first that is not zero. *)
Example C60_case :
  drawn tape_rng (toy_tape 0 5002) = szero /\ drawn tape_rng (after tape_rng 64 (toy_tape 0 5002)) <> szero.
Proof.
  split; [apply sval_inj; vm_compute; reflexivity|]. intros E. apply (f_equal sval) in E. vm_compute in E. discriminate E.
Qed.

(** C61: 2^512 and 2^256 are 2^260 and 15.999 times the group order, about. *)
Example C61_case :
  ((256 ^ 64) / ell / 2 ^ 259 = 1 /\ (256 ^ 32) / ell = 15)%Z.
Proof. split; vm_compute; reflexivity. Qed.
