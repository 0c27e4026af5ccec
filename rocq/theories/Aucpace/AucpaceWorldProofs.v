(** * Invariants of the world of sessions. *)
From Coq Require Import ZArith Lia.
From Verif Require Import Base.Bytes Base.Outcome Base.CtEq Base.Rng.
From Verif Require Import Curve.Scalar25519.
From Verif Require Import Aucpace.RistrettoGroup Aucpace.PwHash Aucpace.AucpaceModel Aucpace.AucpaceSpec
  Aucpace.AucpaceRun Aucpace.AucpaceDb Aucpace.AucpaceProofs Aucpace.AucpaceWorld.
Local Open Scope nat_scope.

Section Invariants.
Context (R : RGroup) (D : bytes -> bytes) (Dlen : forall m, length (D m) = 64).
Context (Params : Type) (Tc Ts : Rng).
Context (DB : Database R) (SDB : StrongDatabase R).
Context (PDB : PartialAugDatabase R (db DB)) (PSDB : PartialAugDatabase R (sdb SDB)).

Notation cstep := (client_step R D Params Tc).
Notation sstep := (server_step R D Ts DB SDB PDB PSDB).
Notation wstep := (step R D Params Tc Ts DB SDB PDB PSDB).
Notation wrun := (run R D Params Tc Ts DB SDB PDB PSDB).

(** ** One client session *)

(** Everything in the log of a client session is about one SSID [s] and one first session key [k]. *)
Definition clog_ok (s k : bytes) (l : clog) : Prop :=
  match l with
  | CL_Nonces n m ssid => ssid = s /\ s = spec_ssid D n m /\ length n = length m
  | CL_Auth ssid sk1 a => ssid = s /\ sk1 = k /\ a = spec_Tb D s k
  | CL_Accept ssid sk1 a key => ssid = s /\ sk1 = k /\ a = spec_Ta D s k /\ key = spec_sk D s k
  | CL_Implicit ssid key => ssid = s /\ key = spec_sk D s k
  end.
Definition only_nonces (es : list clog) : Prop :=
  forall l, In l es -> match l with CL_Nonces _ _ _ => True | _ => False end.

Definition cinv (c : csess) (es : list clog) : Prop :=
  exists s k, length s = 64 /\ Forall (clog_ok s k) es /\
  match c with
  | C_None | C_Ssid _ => es = []
  | C_PreAug c => cpa_ssid c = s /\ only_nonces es
  | C_Aug c => cal_ssid c = s /\ only_nonces es
  | C_StrongAug c => scal_ssid c = s /\ only_nonces es
  | C_CPace c => ccs_ssid c = s /\ only_nonces es
  | C_Recv c => crs_ssid c = s /\ only_nonces es
  | C_Exp c => cem_ssid c = s /\ cem_sk1 c = k /\ cem_server_authenticator c = spec_Ta D s k
  | C_End => True
  end.

Lemma only_nonces_any s k k' es : only_nonces es -> Forall (clog_ok s k) es -> Forall (clog_ok s k') es.
Proof.
  intros HN HF. rewrite Forall_forall in *. intros l Hl. pose proof (HN l Hl). pose proof (HF l Hl).
  destruct l; cbn in *; tauto.
Qed.

Lemma do_generate_cpace_ssid m c X salt params h c' :
  do_generate_cpace R Params m c X salt params h = Ok c' -> ccs_ssid c' = cal_ssid c.
Proof.
  destruct m as [n|]; cbn [do_generate_cpace]; [unfold generate_cpace|unfold generate_cpace_alloc];
    (destruct (is_identity X); [discriminate|]).
  - destruct (hash_password _ _ _ _ _ _ _) as [o|e|]; cbn [obind]; try discriminate.
    destruct (scalar_from_hash o); cbn [obind]; try discriminate. intros E. now injection E as <-.
  - destruct (hash_password_alloc _ _ _ _ _ _) as [o|e|]; cbn [obind]; try discriminate.
    destruct (scalar_from_hash o); cbn [obind]; try discriminate. intros E. now injection E as <-.
Qed.
Lemma do_strong_generate_cpace_ssid m c X bs params h c' :
  do_strong_generate_cpace R Params m c X bs params h = Ok c' -> ccs_ssid c' = scal_ssid c.
Proof.
  destruct m as [n|]; cbn [do_strong_generate_cpace];
    [unfold strong_generate_cpace|unfold strong_generate_cpace_alloc];
    (destruct (is_identity X); [discriminate|]).
  - destruct (salt_encode_b64 _); cbn [omap_err obind]; try discriminate.
    destruct (hash_password _ _ _ _ _ _ _) as [o|e|]; cbn [obind]; try discriminate.
    destruct (scalar_from_hash o); cbn [obind]; try discriminate. intros E. now injection E as <-.
  - destruct (is_identity _); [discriminate|].
    destruct (salt_encode_b64 _); cbn [omap_err obind]; try discriminate.
    destruct (hash_password_alloc _ _ _ _ _ _) as [o|e|]; cbn [obind]; try discriminate.
    destruct (scalar_from_hash o); cbn [obind]; try discriminate. intros E. now injection E as <-.
Qed.

Lemma receive_server_pubkey_ok c Y st msg : receive_server_pubkey R D c Y = Ok (st, msg) ->
  cem_ssid st = crs_ssid c /\ cem_server_authenticator st = spec_Ta D (cem_ssid st) (cem_sk1 st) /\
  msg = CAuthenticator (spec_Tb D (cem_ssid st) (cem_sk1 st)).
Proof.
  unfold receive_server_pubkey. destruct (is_identity Y); [discriminate|].
  rewrite authenticators_eq. unfold spec_Tb at 1. rewrite expect64_D by exact Dlen. cbn [obind].
  intros E. injection E as <- <-. repeat split.
Qed.
Lemma receive_server_authenticator_ok c a k : receive_server_authenticator D c a = Ok k ->
  a = cem_server_authenticator c /\ k = spec_sk D (cem_ssid c) (cem_sk1 c).
Proof.
  unfold receive_server_authenticator. rewrite slice_ct_eqb.
  destruct (bytes_eqb _ _) eqn:E; [|discriminate]. apply bytes_eqb_eq in E.
  intros H. injection H as <-. split; [now symmetry|]. apply session_key_eq.
Qed.
Lemma receive_client_authenticator_ok s a k msg : receive_client_authenticator R D s a = Ok (k, msg) ->
  a = spec_Tb D (sem_ssid s) (sem_sk1 s) /\ k = spec_sk D (sem_ssid s) (sem_sk1 s) /\
  msg = SAuthenticator (spec_Ta D (sem_ssid s) (sem_sk1 s)).
Proof.
  unfold receive_client_authenticator. rewrite authenticators_eq, slice_ct_eqb.
  destruct (bytes_eqb _ _) eqn:E; [|discriminate]. apply bytes_eqb_eq in E.
  unfold spec_Ta at 1. rewrite expect64_D by exact Dlen. cbn [obind].
  intros H. injection H as <- <-. split; [now symmetry|]. split; [apply session_key_eq|reflexivity].
Qed.

Lemma pre_length ssid c : client_begin_prestablished_ssid D ssid = Ok c -> length (cpa_ssid c) = 64.
Proof.
  unfold client_begin_prestablished_ssid. destruct (Nat.ltb _ _); [discriminate|].
  intros E. injection E as <-. apply Dlen.
Qed.

Lemma cinv_step c es e c' l : cinv c es -> cstep c e = (c', l) -> cinv c' (es ++ l).
Proof.
  intros (s & k & H64 & HF & HS) E.
  assert (Same : c' = c -> l = [] -> cinv c' (es ++ l)).
  { intros -> ->. rewrite app_nil_r. exists s, k; split; [exact H64|]; now split. }
  assert (End : c' = C_End -> l = [] -> cinv c' (es ++ l)).
  { intros -> ->. rewrite app_nil_r. exists s, k; split; [exact H64|]; now split. }
  destruct c, e; cbn [client_step] in E;
    try (injection E as <- <-; apply Same; reflexivity).
  - (* begin *) unfold client_begin in E. destruct (generate_nonce Tc K1 _) as [n st'].
    injection E as <- <-. rewrite app_nil_r. exists s, k. split; [exact H64|]. split; assumption.
  - (* begin_pre *) destruct (client_begin_prestablished_ssid D ssid) as [c|e|] eqn:G;
      injection E as <- <-; try (apply End; reflexivity).
    subst es. exists (cpa_ssid c), k. split; [exact (pre_length ssid c G)|]. split; [constructor|]. split; [reflexivity|]. intros l [].
  - (* agree *) destruct (Nat.eqb_spec (length server_nonce) (length (cse_nonce c))) as [HL|HL];
      injection E as <- <-; [|apply Same; reflexivity].
    subst es. eexists _, k. split; [apply Dlen|]. split; [constructor; [|constructor]|].
    + cbn [clog_ok]. split; [reflexivity|]. split; [|exact HL]. unfold client_agree_ssid. cbn [cpa_ssid].
      apply compute_ssid_eq.
    + split; [reflexivity|]. intros l [<-|[]]. exact I.
  - (* start *) injection E as <- <-. rewrite app_nil_r. exists s, k. split; [exact H64|]. split; assumption.
  - (* start strong *) rewrite start_augmentation_strong_eq in E.
    destruct (draw_blinding_value Tc fuel st) as [[r st']|]; injection E as <- <-;
      [|apply End; reflexivity].
    rewrite app_nil_r. exists s, k. split; [exact H64|]. split; assumption.
  - (* generate *) destruct (do_generate_cpace R Params m c x_pub salt params h) as [c1|e|] eqn:G;
      injection E as <- <-; try (apply End; reflexivity).
    apply do_generate_cpace_ssid in G. rewrite app_nil_r. exists s, k. split; [exact H64|]. rewrite G. split; assumption.
  - (* generate strong *)
    destruct (do_strong_generate_cpace R Params m c x_pub blinded_salt params h) as [c1|e|] eqn:G;
      injection E as <- <-; try (apply End; reflexivity).
    apply do_strong_generate_cpace_ssid in G. rewrite app_nil_r. exists s, k. split; [exact H64|]. rewrite G. split; assumption.
  - (* key *) unfold client_generate_public_key in E. rewrite generate_keypair_eq in E.
    injection E as <- <-. rewrite app_nil_r. exists s, k. split; [exact H64|]. split; assumption.
  - (* recv key *) destruct HS as [Hs HN].
    destruct (receive_server_pubkey R D c Y) as [[c1 msg]|e|] eqn:G;
      [|injection E as <- <-; apply End; reflexivity|injection E as <- <-; apply End; reflexivity].
    apply receive_server_pubkey_ok in G. destruct G as (G1 & G2 & ->). injection E as <- <-.
    rewrite Hs in G1. exists s, (cem_sk1 c1). split; [exact H64|]. rewrite G1 in *. split.
    + apply Forall_app. split; [now apply (only_nonces_any s k)|]. constructor; [|constructor].
      repeat split.
    + repeat split. exact G2.
  - (* implicit *) destruct HS as [Hs HN]. unfold client_implicit_auth in E.
    destruct (is_identity Y); injection E as <- <-; [apply End; reflexivity|].
    rewrite session_key_eq, Hs.
    eexists s, _. split; [exact H64|]. split; [|exact I].
    apply Forall_app. split; [now apply (only_nonces_any s k)|]. constructor; [|constructor].
    split; reflexivity.
  - (* recv auth *) destruct HS as (Hs & Hk & Ha).
    destruct (receive_server_authenticator D c a) as [key|e|] eqn:G;
      injection E as <- <-; try (apply End; reflexivity).
    apply receive_server_authenticator_ok in G. destruct G as [-> ->].
    exists s, k. split; [exact H64|]. split; [|exact I]. apply Forall_app. split; [exact HF|]. constructor; [|constructor].
    rewrite Hs, Hk in *. repeat split. exact Ha.
Qed.

(** ** One server session *)

Definition slog_ok (secret : N) (s k : bytes) (l : slog R) : Prop :=
  match l with
  | SL_Nonces n m ssid => ssid = s /\ s = spec_ssid D n m /\ length n = length m
  | SL_Reply user U known reply =>
      known = false ->
      match U, reply with
      | None, SAugmentationInfo g X salt ps =>
          g = group_name /\ salt = fake_salt D secret user /\ ps = []
      | Some U, SStrongAugmentationInfo g X bs ps =>
          g = group_name /\ bs = rmul U (fake_exponent D secret user) /\ ps = []
      | _, _ => False
      end
  | SL_Accept ssid sk1 a key b =>
      ssid = s /\ sk1 = k /\ a = spec_Tb D s k /\ key = spec_sk D s k /\ b = spec_Ta D s k
  | SL_Implicit ssid key => ssid = s /\ key = spec_sk D s k
  end.
Definition no_keys (es : list (slog R)) : Prop :=
  forall l, In l es -> match l with SL_Nonces _ _ _ | SL_Reply _ _ _ _ => True | _ => False end.

Definition sinv (secret : N) (v : ssess Ts) (es : list (slog R)) : Prop :=
  exists s k, length s = 64 /\ Forall (slog_ok secret s k) es /\
  match v with
  | S_None => es = []
  | S_Ssid v => sse_secret v = secret /\ es = []
  | S_Aug v => sal_secret v = secret /\ sal_ssid v = s /\ no_keys es
  | S_CPace v => scs_ssid Ts v = s /\ no_keys es
  | S_Recv v => src_ssid v = s /\ no_keys es
  | S_Exp v => sem_ssid v = s /\ no_keys es
  | S_End => True
  end.

Lemma no_keys_any secret s k k' es : no_keys es -> Forall (slog_ok secret s k) es -> Forall (slog_ok secret s k') es.
Proof.
  intros HN HF. rewrite Forall_forall in *. intros l Hl. pose proof (HN l Hl). pose proof (HF l Hl).
  destruct l; cbn in *; tauto.
Qed.

(** The reply for an unknown user. *)
Lemma reply_unknown_info s u d st v msg :
  lookup_verifier DB d u = None ->
  generate_client_info R D DB Ts s u d st = Ok (v, msg) ->
  exists X, msg = SAugmentationInfo group_name X (fake_salt D (sal_secret s) u) [].
Proof.
  intros HN. rewrite generate_client_info_eq. unfold generate_prs. rewrite HN, lookup_failed_eq by exact Dlen.
  cbn [cpace_substep obind]. intros E. injection E as _ <-. eexists. reflexivity.
Qed.
Lemma reply_unknown_partial s u d st v msg :
  lookup_verifier DB d u = None \/ lookup_long_term_keypair PDB d u = None ->
  generate_client_info_partial_aug R D DB PDB Ts s u d st = Ok (v, msg) ->
  exists X, msg = SAugmentationInfo group_name X (fake_salt D (sal_secret s) u) [].
Proof.
  intros HN. unfold generate_client_info_partial_aug, generate_prs.
  destruct (lookup_long_term_keypair PDB d u) as [[x X]|].
  - destruct HN as [HN|]; [|discriminate]. rewrite HN, lookup_failed_eq by exact Dlen.
    cbn [cpace_substep obind]. intros E. injection E as _ <-. eexists. reflexivity.
  - destruct (point_random R Ts st) as [X st']. rewrite lookup_failed_eq by exact Dlen.
    cbn [cpace_substep obind]. intros E. injection E as _ <-. eexists. reflexivity.
Qed.
Lemma reply_unknown_strong s u U d st v msg :
  lookup_verifier_strong SDB d u = None ->
  generate_client_info_strong R D SDB Ts s u U d st = Ok (v, msg) ->
  exists X, msg = SStrongAugmentationInfo group_name X (rmul U (fake_exponent D (sal_secret s) u)) [].
Proof.
  intros HN. rewrite generate_client_info_strong_eq. unfold generate_prs_strong.
  rewrite HN, lookup_failed_strong_eq. cbv zeta. destruct (is_identity _); cbn [cpace_substep obind]; [discriminate|].
  intros E. injection E as _ <-. eexists. reflexivity.
Qed.
Lemma reply_unknown_partial_strong s u U d st v msg :
  lookup_verifier_strong SDB d u = None \/ lookup_long_term_keypair PSDB d u = None ->
  generate_client_info_partial_strong R D SDB PSDB Ts s u U d st = Ok (v, msg) ->
  exists X, msg = SStrongAugmentationInfo group_name X (rmul U (fake_exponent D (sal_secret s) u)) [].
Proof.
  intros HN. unfold generate_client_info_partial_strong, generate_prs_strong.
  destruct (lookup_long_term_keypair PSDB d u) as [[x X]|].
  - destruct HN as [HN|]; [|discriminate]. rewrite HN, lookup_failed_strong_eq. cbv zeta.
    destruct (is_identity _); cbn [cpace_substep obind]; [discriminate|].
    intros E. injection E as _ <-. eexists. reflexivity.
  - destruct (point_random R Ts st) as [X st']. rewrite lookup_failed_strong_eq. cbv zeta.
    destruct (is_identity _); cbn [cpace_substep obind]; [discriminate|].
    intros E. injection E as _ <-. eexists. reflexivity.
Qed.

Lemma cpace_substep_ssid s r v msg : cpace_substep R Ts s r = Ok (v, msg) -> scs_ssid Ts v = sal_ssid s.
Proof.
  unfold cpace_substep. destruct r as [[[prs m]|e|] st]; cbn [obind]; try discriminate.
  intros E. injection E as <- <-. reflexivity.
Qed.
Lemma info_ssid s u d st v msg : generate_client_info R D DB Ts s u d st = Ok (v, msg) -> scs_ssid Ts v = sal_ssid s.
Proof. rewrite generate_client_info_eq. apply cpace_substep_ssid. Qed.
Lemma info_partial_ssid s u d st v msg :
  generate_client_info_partial_aug R D DB PDB Ts s u d st = Ok (v, msg) -> scs_ssid Ts v = sal_ssid s.
Proof. apply cpace_substep_ssid. Qed.
Lemma info_strong_ssid s u U d st v msg :
  generate_client_info_strong R D SDB Ts s u U d st = Ok (v, msg) -> scs_ssid Ts v = sal_ssid s.
Proof. rewrite generate_client_info_strong_eq. apply cpace_substep_ssid. Qed.
Lemma info_partial_strong_ssid s u U d st v msg :
  generate_client_info_partial_strong R D SDB PSDB Ts s u U d st = Ok (v, msg) -> scs_ssid Ts v = sal_ssid s.
Proof. apply cpace_substep_ssid. Qed.

(** The server secret never changes, and the session keeps its invariant. *)
Lemma sinv_step v x es e sv' x' l :
  sinv (s_secret Ts (sv_server v)) x es -> sstep v x e = (sv', x', l) ->
  s_secret Ts sv' = s_secret Ts (sv_server v) /\
  sinv (s_secret Ts (sv_server v)) x' (es ++ l).
Proof.
  set (secret := s_secret Ts (sv_server v)).
  intros (s & k & H64 & HF & HS) E.
  assert (Same : sv' = sv_server v -> x' = x -> l = [] ->
            s_secret Ts sv' = secret /\ sinv secret x' (es ++ l)).
  { intros -> -> ->. split; [reflexivity|]. rewrite app_nil_r. exists s, k; split; [exact H64|]; now split. }
  assert (End : sv' = sv_server v -> x' = S_End -> l = [] ->
            s_secret Ts sv' = secret /\ sinv secret x' (es ++ l)).
  { intros -> -> ->. split; [reflexivity|]. rewrite app_nil_r. exists s, k; split; [exact H64|]; now split. }
  assert (Reply : forall a r u U known s' l', x = S_Aug a ->
            reply_of R Ts u U known r = (s', l') -> sv' = sv_server v -> x' = s' -> l = l' ->
            (forall y msg, r = Ok (y, msg) -> scs_ssid Ts y = sal_ssid a /\
               slog_ok secret s k (SL_Reply u U known msg)) ->
            s_secret Ts sv' = secret /\ sinv secret x' (es ++ l)).
  { intros a r u U known s' l' -> Hr -> -> -> Hy. split; [reflexivity|]. cbn in HS.
    destruct HS as (_ & Hs & HN). unfold reply_of in Hr.
    destruct r as [[y msg]|e'|]; injection Hr as <- <-.
    - destruct (Hy y msg eq_refl) as [Hy1 Hy2]. exists s, k. split; [exact H64|]. split.
      + apply Forall_app. split; [exact HF|]. constructor; [exact Hy2|constructor].
      + split; [congruence|]. intros z Hz. apply in_app_or in Hz. destruct Hz as [Hz|[<-|[]]]; [now apply HN|exact I].
    - rewrite app_nil_r. exists s, k; split; [exact H64|]; now split.
    - rewrite app_nil_r. exists s, k; split; [exact H64|]; now split. }
  destruct x as [|c|c|c|c|c|], e; cbn [server_step] in E;
    try (injection E as <- <- <-; apply Same; reflexivity).
  - (* begin *) unfold server_begin in E. destruct (generate_nonce Ts K1 _) as [n st'].
    injection E as <- <- <-. split; [reflexivity|]. rewrite app_nil_r. exists s, k. split; [exact H64|]. split; [assumption|].
    split; [reflexivity|exact HS].
  - (* begin pre *) unfold server_begin_prestablished_ssid in E.
    destruct (Nat.ltb _ _); injection E as <- <- <-; [apply End; reflexivity|].
    split; [reflexivity|]. cbn in HS. subst es. eexists _, k. split; [apply Dlen|]. split; [constructor|].
    split; [reflexivity|]. split; [reflexivity|]. intros z [].
  - (* agree *) destruct (Nat.eqb_spec (length client_nonce) (length (sse_nonce c))) as [HL|HL];
      injection E as <- <- <-; [|apply Same; reflexivity].
    destruct HS as [Hsec ->]. split; [reflexivity|]. eexists _, k. split; [apply Dlen|]. split; [constructor; [|constructor]|].
    + cbn [slog_ok]. split; [reflexivity|]. split; [|now symmetry]. unfold server_agree_ssid. cbn [sal_ssid].
      apply compute_ssid_eq.
    + split; [exact Hsec|]. split; [reflexivity|]. intros z [<-|[]]. exact I.
  - (* info *)
    destruct (reply_of R Ts user None _ _) as [s' l'] eqn:G. injection E as <- <- <-.
    eapply Reply; try reflexivity; [exact G|]. destruct HS as (Hsec & _). intros y msg Hy.
    split; [now apply info_ssid in Hy|]. cbn [slog_ok]. intros Hk.
    apply reply_unknown_info in Hy; [|destruct (lookup_verifier _ _ _); [discriminate|reflexivity]].
    destruct Hy as [X ->]. rewrite Hsec. repeat split.
  - (* info partial *)
    destruct (reply_of R Ts user None _ _) as [s' l'] eqn:G. injection E as <- <- <-.
    eapply Reply; try reflexivity; [exact G|]. destruct HS as (Hsec & _). intros y msg Hy.
    split; [now apply info_partial_ssid in Hy|]. cbn [slog_ok]. intros Hk.
    apply reply_unknown_partial in Hy.
    2:{ destruct (lookup_verifier _ _ _); [|now left].
        destruct (lookup_long_term_keypair _ _ _); [discriminate|now right]. }
    destruct Hy as [X ->]. rewrite Hsec. repeat split.
  - (* info strong *)
    destruct (reply_of R Ts user (Some U) _ _) as [s' l'] eqn:G. injection E as <- <- <-.
    eapply Reply; try reflexivity; [exact G|]. destruct HS as (Hsec & _). intros y msg Hy.
    split; [now apply info_strong_ssid in Hy|]. cbn [slog_ok]. intros Hk.
    apply reply_unknown_strong in Hy; [|destruct (lookup_verifier_strong _ _ _); [discriminate|reflexivity]].
    destruct Hy as [X ->]. rewrite Hsec. repeat split.
  - (* info partial strong *)
    destruct (reply_of R Ts user (Some U) _ _) as [s' l'] eqn:G. injection E as <- <- <-.
    eapply Reply; try reflexivity; [exact G|]. destruct HS as (Hsec & _). intros y msg Hy.
    split; [now apply info_partial_strong_ssid in Hy|]. cbn [slog_ok]. intros Hk.
    apply reply_unknown_partial_strong in Hy.
    2:{ destruct (lookup_verifier_strong _ _ _); [|now left].
        destruct (lookup_long_term_keypair _ _ _); [discriminate|now right]. }
    destruct Hy as [X ->]. rewrite Hsec. repeat split.
  - (* key *) unfold server_generate_public_key in E. rewrite generate_keypair_eq in E.
    injection E as <- <- <-. split; [reflexivity|]. rewrite app_nil_r. exists s, k. split; [exact H64|]. split; assumption.
  - (* recv key *) unfold receive_client_pubkey in E.
    destruct (is_identity Y); injection E as <- <- <-; [apply End; reflexivity|].
    split; [reflexivity|]. rewrite app_nil_r. exists s, k. split; [exact H64|]. split; assumption.
  - (* implicit *) destruct HS as [Hs HN]. unfold server_implicit_auth in E.
    destruct (is_identity Y); injection E as <- <- <-; [apply End; reflexivity|].
    split; [reflexivity|]. rewrite session_key_eq, Hs. eexists s, _. split; [exact H64|]. split; [|exact I].
    apply Forall_app. split; [now apply (no_keys_any secret s k)|]. constructor; [|constructor].
    split; reflexivity.
  - (* recv auth *) destruct HS as [Hs HN].
    destruct (receive_client_authenticator R D c a) as [[key msg]|e|] eqn:G;
      [|injection E as <- <- <-; apply End; reflexivity|injection E as <- <- <-; apply End; reflexivity].
    apply receive_client_authenticator_ok in G. destruct G as (-> & -> & ->).
    injection E as <- <- <-. split; [reflexivity|]. exists s, (sem_sk1 c). split; [exact H64|]. split; [|exact I].
    apply Forall_app. split; [now apply (no_keys_any secret s k)|]. constructor; [|constructor].
    rewrite Hs. repeat split.
Qed.

(** ** The world *)
Definition clogs (w : world R Ts DB SDB) (i : nat) : list clog :=
  flat_map (fun e => match e with LC k l => if Nat.eqb k i then [l] else [] | LS _ _ => [] end) (w_log w).
Definition slogs (w : world R Ts DB SDB) (j : nat) : list (slog R) :=
  flat_map (fun e => match e with LS k l => if Nat.eqb k j then [l] else [] | LC _ _ => [] end) (w_log w).

Definition world_inv (secret : N) (w : world R Ts DB SDB) : Prop :=
  s_secret Ts (sv_server (w_server w)) = secret /\
  (forall i, cinv (w_clients w i) (clogs w i)) /\
  (forall j, sinv secret (w_sessions w j) (slogs w j)).

Lemma in_clogs w i l : In l (clogs w i) <-> In (LC i l) (w_log w).
Proof.
  unfold clogs. rewrite in_flat_map. split.
  - intros ([k l'|k l'] & Hin & Hl); [|destruct Hl].
    destruct (Nat.eqb_spec k i) as [->|]; [|destruct Hl]. destruct Hl as [<-|[]]. exact Hin.
  - intros Hin. exists (LC i l). split; [exact Hin|]. rewrite Nat.eqb_refl. now left.
Qed.
Lemma in_slogs w i l : In l (slogs w i) <-> In (LS i l) (w_log w).
Proof.
  unfold slogs. rewrite in_flat_map. split.
  - intros ([k l'|k l'] & Hin & Hl); [destruct Hl|].
    destruct (Nat.eqb_spec k i) as [->|]; [|destruct Hl]. destruct Hl as [<-|[]]. exact Hin.
  - intros Hin. exists (LS i l). split; [exact Hin|]. rewrite Nat.eqb_refl. now left.
Qed.

Lemma clogs_LC i k l :
  flat_map (fun e : entry R => match e with LC k l => if Nat.eqb k i then [l] else [] | LS _ _ => [] end)
    (map (LC k) l) = if Nat.eqb k i then l else [].
Proof.
  induction l as [|a l IH]; cbn [map flat_map]; [now destruct (Nat.eqb k i)|]. rewrite IH.
  now destruct (Nat.eqb k i).
Qed.
Lemma clogs_LS i k l :
  flat_map (fun e : entry R => match e with LC k l => if Nat.eqb k i then [l] else [] | LS _ _ => [] end)
    (map (LS k) l) = [].
Proof. induction l as [|a l IH]; cbn [map flat_map]; [reflexivity|exact IH]. Qed.
Lemma slogs_LS i k l :
  flat_map (fun e : entry R => match e with LS k l => if Nat.eqb k i then [l] else [] | LC _ _ => [] end)
    (map (LS k) l) = if Nat.eqb k i then l else [].
Proof.
  induction l as [|a l IH]; cbn [map flat_map]; [now destruct (Nat.eqb k i)|]. rewrite IH.
  now destruct (Nat.eqb k i).
Qed.
Lemma slogs_LC i k l :
  flat_map (fun e : entry R => match e with LS k l => if Nat.eqb k i then [l] else [] | LC _ _ => [] end)
    (map (LC k) l) = [].
Proof. induction l as [|a l IH]; cbn [map flat_map]; [reflexivity|exact IH]. Qed.

Lemma world_inv_step secret w e : world_inv secret w -> world_inv secret (wstep w e).
Proof.
  intros (HS & HC & HV). destruct e as [i e|j e|u salt uad W ps|u uad W q ps|u|u]; cbn [step].
  - destruct (client_step R D Params Tc (w_clients w i) e) as [c l] eqn:E.
    split; [exact HS|split].
    + intros k. unfold clogs. cbn [w_clients w_log]. rewrite flat_map_app, clogs_LC. unfold set.
      rewrite (Nat.eqb_sym k i). destruct (Nat.eqb_spec i k) as [<-|].
      * exact (cinv_step _ _ _ _ _ (HC i) E).
      * rewrite app_nil_r. apply HC.
    + intros k. unfold slogs. cbn [w_sessions w_log]. rewrite flat_map_app, slogs_LC, app_nil_r. apply HV.
  - destruct (server_step R D Ts DB SDB PDB PSDB (w_server w) (w_sessions w j) e)
      as [[sv s] l] eqn:E.
    pose proof (HV j) as HVj. rewrite <- HS in HVj. destruct (sinv_step _ _ _ _ _ _ _ HVj E) as [E1 E2].
    rewrite HS in E1, E2.
    split; [exact E1|split].
    + intros k. unfold clogs. cbn [w_clients w_log]. rewrite flat_map_app, clogs_LS, app_nil_r. apply HC.
    + intros k. unfold slogs. cbn [w_sessions w_log]. rewrite flat_map_app, slogs_LS. unfold set.
      rewrite (Nat.eqb_sym k j). destruct (Nat.eqb_spec j k) as [<-|].
      * exact E2.
      * rewrite app_nil_r. apply HV.
  - split; [exact HS|split; [exact HC|exact HV]].
  - split; [exact HS|split; [exact HC|exact HV]].
  - unfold generate_long_term_keypair. destruct (generate_server_keypair R Ts _) as [[x X] st].
    split; [exact HS|split; [exact HC|exact HV]].
  - unfold generate_long_term_keypair. destruct (generate_server_keypair R Ts _) as [[x X] st].
    split; [exact HS|split; [exact HC|exact HV]].
Qed.

Lemma world_inv_run secret es w : world_inv secret w -> world_inv secret (wrun w es).
Proof.
  revert w. induction es as [|e es IH]; intros w HW; [exact HW|].
  cbn [run fold_left]. apply IH. now apply world_inv_step.
Qed.

Lemma world_inv_init rng d sd :
  world_inv (s_secret Ts (server_new Ts rng)) (init R Ts DB SDB rng d sd).
Proof.
  split; [reflexivity|split]; intros i; exists (D []), []; (split; [apply Dlen|]); split; try constructor.
Qed.

Lemma world_inv_reachable rng d sd es :
  world_inv (s_secret Ts (server_new Ts rng)) (wrun (init R Ts DB SDB rng d sd) es).
Proof. apply world_inv_run, world_inv_init. Qed.
End Invariants.
