(** * AuCPace: sessions of one server do not interfere (C93)

    In the world of sessions (AucpaceWorld.v) a network interleaves the steps of any number of client and server
    sessions with stores to the databases.  Here: what each session sees of the rest, where the nonces come from, what
    the log says of known users, and that a login whose messages are delivered ends as if it were alone. *)
From Coq Require Import ZArith Lia List.
From Verif Require Import Base.Bytes Base.Outcome Base.Rng Base.Kat.
From Verif Require Import Curve.Scalar25519 Aucpace.RistrettoGroup Aucpace.PwHash Aucpace.AucpaceModel Aucpace.AucpaceSpec
  Aucpace.AucpaceRun Aucpace.AucpaceDb Aucpace.AucpaceToy Aucpace.AucpaceProofs Aucpace.AucpaceProps Aucpace.AucpaceWorld
  Aucpace.AucpaceWorldProofs Aucpace.AucpaceRng Aucpace.AucpaceProps2 Aucpace.AucpaceProps25.
Import ListNotations.
Local Open Scope nat_scope.

Section World.
Context (R : RGroup) (D : bytes -> bytes) (Dlen : forall m, length (D m) = 64).
Context (Params : Type) (Tc Ts : Rng).
Context (DB : Database R) (SDB : StrongDatabase R).
Context (PDB : PartialAugDatabase R (db DB)) (PSDB : PartialAugDatabase R (sdb SDB)).
Notation event := (event R Params Tc Ts).
Notation world := (world R Ts DB SDB).
Notation state := (server_state R Ts DB SDB).
Notation cstep := (client_step R D Params Tc).
Notation sstep := (server_step R D Ts DB SDB PDB PSDB).
Notation wstep := (step R D Params Tc Ts DB SDB PDB PSDB).
Notation wrun := (run R D Params Tc Ts DB SDB PDB PSDB).

(** The events of client session [i] in a history. *)
Definition client_events (i : nat) (es : list event) : list (cevent R Params Tc) :=
  flat_map (fun e => match e with EClient _ _ _ _ k e => if Nat.eqb k i then [e] else [] | _ => [] end) es.
(** The events of server session [j], each with the state of the server (generator, secret, databases) at that time. *)
Fixpoint server_events (j : nat) (w : world) (es : list event) : list (state * sevent R Ts) :=
  match es with
  | [] => []
  | e :: es =>
      match e with EServer _ _ _ _ k e => if Nat.eqb k j then [(w_server w, e)] else [] | _ => [] end
      ++ server_events j (wstep w e) es
  end.

(** A session alone: its state and what it logs. *)
Fixpoint client_alone (c : csess) (es : list (cevent R Params Tc)) : csess * list clog :=
  match es with
  | [] => (c, [])
  | e :: es => let '(c, l) := cstep c e in let '(c, l') := client_alone c es in (c, l ++ l')
  end.
Fixpoint server_alone (s : ssess Ts) (es : list (state * sevent R Ts)) : ssess Ts * list (slog R) :=
  match es with
  | [] => (s, [])
  | (v, e) :: es => let '(_, s, l) := sstep v s e in let '(s, l') := server_alone s es in (s, l ++ l')
  end.

Lemma clogs_step w i l : clogs R Ts DB SDB w i = l -> forall v c s log,
  clogs R Ts DB SDB {| w_server := v; w_clients := c; w_sessions := s; w_log := w_log w ++ log |} i =
  l ++ flat_map (fun e : entry R => match e with LC k l => if Nat.eqb k i then [l] else [] | LS _ _ => [] end) log.
Proof. intros <- v c s log. unfold clogs. cbn [w_log]. apply flat_map_app. Qed.
Lemma slogs_step w i l : slogs R Ts DB SDB w i = l -> forall v c s log,
  slogs R Ts DB SDB {| w_server := v; w_clients := c; w_sessions := s; w_log := w_log w ++ log |} i =
  l ++ flat_map (fun e : entry R => match e with LS k l => if Nat.eqb k i then [l] else [] | LC _ _ => [] end) log.
Proof. intros <- v c s log. unfold slogs. cbn [w_log]. apply flat_map_app. Qed.

(** A client session ends up where its own events alone take it, and logs what they alone log. *)
Theorem C93_client i es : forall w, let '(c, l) := client_alone (w_clients w i) (client_events i es) in
  w_clients (wrun w es) i = c /\ clogs R Ts DB SDB (wrun w es) i = clogs R Ts DB SDB w i ++ l.
Proof.
  induction es as [|e es IH]; intros w; [cbn; now rewrite app_nil_r|].
  change (wrun w (e :: es)) with (wrun (wstep w e) es). specialize (IH (wstep w e)).
  destruct e as [k e|k e|u salt uad W ps|u uad W q ps|u|u]; cbn [client_events flat_map] in *; fold (client_events i es) in *.
  - cbn [step] in IH |- *. destruct (cstep (w_clients w k) e) as [c l] eqn:E. cbn [w_clients] in IH. unfold set in IH.
    rewrite (clogs_step w i _ eq_refl), clogs_LC in IH. rewrite (Nat.eqb_sym i k) in IH. destruct (Nat.eqb_spec k i) as [->|N].
    + cbn [app client_alone]. rewrite E. destruct (client_alone c (client_events i es)) as [c' l']. rewrite app_assoc. exact IH.
    + cbn [app]. rewrite app_nil_r in IH. exact IH.
  - cbn [step app] in IH |- *. destruct (sstep (w_server w) (w_sessions w k) e) as [[sv s] l] eqn:E. cbn [w_clients] in IH.
    rewrite (clogs_step w i _ eq_refl), clogs_LS, app_nil_r in IH. exact IH.
  - exact IH.
  - exact IH.
  - cbn [step app] in IH |- *. destruct (generate_long_term_keypair R Ts _) as [[x X] sv]. exact IH.
  - cbn [step app] in IH |- *. destruct (generate_long_term_keypair R Ts _) as [[x X] sv]. exact IH.
Qed.
(** Likewise a server session, with the state of the server at each of its events. *)
Theorem C93_server j es : forall w, let '(s, l) := server_alone (w_sessions w j) (server_events j w es) in
  w_sessions (wrun w es) j = s /\ slogs R Ts DB SDB (wrun w es) j = slogs R Ts DB SDB w j ++ l.
Proof.
  induction es as [|e es IH]; intros w; [cbn; now rewrite app_nil_r|].
  change (wrun w (e :: es)) with (wrun (wstep w e) es). specialize (IH (wstep w e)). cbn [server_events].
  destruct e as [k e|k e|u salt uad W ps|u uad W q ps|u|u].
  - cbn [step app] in IH |- *. destruct (cstep (w_clients w k) e) as [c l] eqn:E. cbn [w_sessions] in IH.
    rewrite (slogs_step w j _ eq_refl), slogs_LC, app_nil_r in IH. exact IH.
  - cbn [step] in IH |- *. destruct (sstep (w_server w) (w_sessions w k) e) as [[sv s] l] eqn:E. cbn [w_sessions] in IH. unfold set in IH at 1.
    rewrite (slogs_step w j _ eq_refl), slogs_LS in IH. rewrite (Nat.eqb_sym j k) in IH. destruct (Nat.eqb_spec k j) as [->|N].
    + cbn [app server_alone]. rewrite E. destruct (server_alone s _) as [s' l']. rewrite app_assoc. exact IH.
    + cbn [app]. rewrite app_nil_r in IH. exact IH.
  - exact IH.
  - exact IH.
  - cbn [step app] in IH |- *. destruct (generate_long_term_keypair R Ts _) as [[x X] sv]. exact IH.
  - cbn [step app] in IH |- *. destruct (generate_long_term_keypair R Ts _) as [[x X] sv]. exact IH.
Qed.

(** All a server session takes from the server: the nonce and the secret when it begins, the secret alone with a
    pre-established SSID, and what the databases have of the user it is asked for. *)
Definition sees (e : sevent R Ts) (v : state) : option (AuCPaceServer Ts) * option N * option (db DB) * option (sdb SDB) :=
  match e with
  | SE_Begin _ _ _ => (Some (sv_server v), None, None, None)
  | SE_BeginPre _ _ _ => (None, Some (s_secret Ts (sv_server v)), None, None)
  | SE_Info _ _ _ _ | SE_InfoPartial _ _ _ _ => (None, None, Some (sv_db v), None)
  | SE_InfoStrong _ _ _ _ _ | SE_InfoPartialStrong _ _ _ _ _ => (None, None, None, Some (sv_sdb v))
  | _ => (None, None, None, None)
  end.
Theorem C93_sees v v' s e : sees e v = sees e v' ->
  let '(_, s1, l1) := sstep v s e in let '(_, s2, l2) := sstep v' s e in s1 = s2 /\ l1 = l2.
Proof.
  destruct s as [|s|s|s|s|s|], e as [K1|ssid|n|u st|u st|u U st|u U st|ci|Y|Y|a]; cbn [sees server_step]; intros H;
    try (now split).
  - injection H as ->. destruct (server_begin R Ts K1 (sv_server v')) as [[s m] sv]. now split.
  - injection H as H. unfold server_begin_prestablished_ssid. rewrite H. destruct (Nat.ltb _ _); now split.
  - destruct (Nat.eqb _ _); now split.
  - injection H as ->. destruct (reply_of _ _ _ _ _ _) as [s' l]. now split.
  - injection H as ->. destruct (reply_of _ _ _ _ _ _) as [s' l]. now split.
  - injection H as ->. destruct (reply_of _ _ _ _ _ _) as [s' l]. now split.
  - injection H as ->. destruct (reply_of _ _ _ _ _ _) as [s' l]. now split.
  - destruct (server_generate_public_key R D Ts s ci) as [s' m]. now split.
  - destruct (receive_client_pubkey R D s Y); now split.
  - destruct (server_implicit_auth R D s Y); now split.
  - destruct (receive_client_authenticator R D s a) as [[k [| | | |]]| |]; now split.
Qed.
Theorem C93_same_view j w es w' es' :
  w_sessions w j = w_sessions w' j -> slogs R Ts DB SDB w j = slogs R Ts DB SDB w' j ->
  map (fun ve => (snd ve, sees (snd ve) (fst ve))) (server_events j w es) =
  map (fun ve => (snd ve, sees (snd ve) (fst ve))) (server_events j w' es') ->
  w_sessions (wrun w es) j = w_sessions (wrun w' es') j /\ slogs R Ts DB SDB (wrun w es) j = slogs R Ts DB SDB (wrun w' es') j.
Proof.
  intros Hs Hl HE. pose proof (C93_server j es w) as A. pose proof (C93_server j es' w') as B. rewrite <- Hs in B.
  assert (E : server_alone (w_sessions w j) (server_events j w es) = server_alone (w_sessions w j) (server_events j w' es')).
  { clear A B Hs Hl. revert HE. generalize (server_events j w es) (server_events j w' es') (w_sessions w j).
    induction l as [|[v e] l IH]; intros [|[v' e'] l'] s HE; try discriminate HE; [reflexivity|].
    cbn [map fst snd] in HE. injection HE as <- HV HE. cbn [server_alone]. pose proof (C93_sees v v' s e HV) as X.
    destruct (sstep v s e) as [[sv s1] l1], (sstep v' s e) as [[sv' s2] l2]. destruct X as [-> ->]. now rewrite (IH _ s2 HE). }
  rewrite E in A. destruct (server_alone _ _) as [s l]. destruct A as [-> ->], B as [-> ->]. now rewrite Hl.
Qed.

(** ** Where an entry of the log comes from *)
Lemma step_log w e : exists l, w_log (wstep w e) = w_log w ++ l /\
  forall x, In x l -> match x, e with
    | LC k _, EClient _ _ _ _ i _ => k = i
    | LS k m, EServer _ _ _ _ j e => k = j /\ In m (snd (sstep (w_server w) (w_sessions w j) e))
    | _, _ => False end.
Proof.
  destruct e as [i e|j e|u salt uad W ps|u uad W q ps|u|u]; cbn [step].
  - destruct (cstep (w_clients w i) e) as [c l]. exists (map (LC i) l). split; [reflexivity|]. intros x Hx.
    apply in_map_iff in Hx. now destruct Hx as (y & <- & _).
  - destruct (sstep (w_server w) (w_sessions w j) e) as [[sv s] l]. exists (map (LS j) l). split; [reflexivity|]. intros x Hx.
    apply in_map_iff in Hx. destruct Hx as (y & <- & Hy). now split.
  - exists []. split; [now rewrite app_nil_r|intros x []].
  - exists []. split; [now rewrite app_nil_r|intros x []].
  - destruct (generate_long_term_keypair R Ts _) as [[x X] sv]. exists []. split; [now rewrite app_nil_r|intros y []].
  - destruct (generate_long_term_keypair R Ts _) as [[x X] sv]. exists []. split; [now rewrite app_nil_r|intros y []].
Qed.
Lemma log_origin j m es : forall w, In (LS j m) (w_log (wrun w es)) -> In (LS j m) (w_log w) \/
  exists es1 e es2, es = es1 ++ EServer _ _ _ _ j e :: es2 /\
    In m (snd (sstep (w_server (wrun w es1)) (w_sessions (wrun w es1) j) e)).
Proof.
  induction es as [|e es IH]; intros w H; [now left|]. change (wrun w (e :: es)) with (wrun (wstep w e) es) in H. apply IH in H.
  destruct H as [H|(es1 & e' & es2 & -> & H)].
  - destruct (step_log w e) as (l & E & Hl). rewrite E in H. apply in_app_or in H. destruct H as [H|H]; [now left|]. right.
    specialize (Hl _ H). destruct e as [i e|k e|u salt uad W ps|u uad W q ps|u|u]; try now elim Hl.
    destruct Hl as [<- Hm]. exists [], e, es. now split.
  - right. exists (e :: es1), e', es2. now split.
Qed.

(** What the databases must have to serve a request for a user. *)
Definition served (e : sevent R Ts) (u : bytes) (U : option (pt R)) (v : state) : Prop :=
  match e with
  | SE_Info _ _ u' _ => u' = u /\ U = None /\ lookup_verifier DB (sv_db v) u <> None
  | SE_InfoPartial _ _ u' _ =>
      u' = u /\ U = None /\ lookup_verifier DB (sv_db v) u <> None /\ lookup_long_term_keypair PDB (sv_db v) u <> None
  | SE_InfoStrong _ _ u' U' _ => u' = u /\ U = Some U' /\ lookup_verifier_strong SDB (sv_sdb v) u <> None
  | SE_InfoPartialStrong _ _ u' U' _ =>
      u' = u /\ U = Some U' /\ lookup_verifier_strong SDB (sv_sdb v) u <> None /\ lookup_long_term_keypair PSDB (sv_sdb v) u <> None
  | _ => False
  end.
Lemma isSome_spec {A} (o : option A) : isSome o = true <-> o <> None.
Proof. destruct o; cbn; split; congruence. Qed.
(** A reply is logged as one for a known user exactly if the databases had the user at that time. *)
Theorem C93_known w es j u U known msg : In (LS j (SL_Reply u U known msg)) (w_log (wrun w es)) ->
  In (LS j (SL_Reply u U known msg)) (w_log w) \/
  exists es1 e es2, es = es1 ++ EServer _ _ _ _ j e :: es2 /\ (known = true <-> served e u U (w_server (wrun w es1))).
Proof.
  intros H. apply log_origin in H. destruct H as [H|(es1 & e & es2 & -> & H)]; [now left|]. right. exists es1, e, es2. split; [reflexivity|].
  revert H. generalize (w_server (wrun w es1)) (w_sessions (wrun w es1) j). intros v s H.
  assert (G : forall u' U' known' r s' l, reply_of R Ts u' U' known' r = (s', l) -> In (SL_Reply u U known msg) l ->
    u' = u /\ U' = U /\ known' = known).
  { intros u' U' known' [[s' m]|e'|] s2 l E Hr; cbn [reply_of] in E; injection E as <- <-; [|now elim Hr|now elim Hr].
    destruct Hr as [Hr|[]]. now injection Hr as -> -> -> _. }
  destruct s as [|s|s|s|s|s|], e as [K1|ssid|n|u' st|u' st|u' U' st|u' U' st|ci|Y|Y|a]; cbn [server_step snd] in H; try now elim H.
  - destruct (server_begin R Ts K1 (sv_server v)) as [[s m] sv]. now elim H.
  - destruct (server_begin_prestablished_ssid D Ts (sv_server v) ssid); now elim H.
  - destruct (Nat.eqb _ _); [|now elim H]. destruct H as [H|[]]. discriminate H.
  - destruct (reply_of _ _ _ _ _ _) as [s' l] eqn:E in H. cbn [snd] in H. apply (G _ _ _ _ _ _ E) in H.
    destruct H as (-> & <- & <-). cbn [served]. rewrite isSome_spec. tauto.
  - destruct (reply_of _ _ _ _ _ _) as [s' l] eqn:E in H. cbn [snd] in H. apply (G _ _ _ _ _ _ E) in H.
    destruct H as (-> & <- & <-). cbn [served]. rewrite Bool.andb_true_iff, !isSome_spec. tauto.
  - destruct (reply_of _ _ _ _ _ _) as [s' l] eqn:E in H. cbn [snd] in H. apply (G _ _ _ _ _ _ E) in H.
    destruct H as (-> & <- & <-). cbn [served]. rewrite isSome_spec. tauto.
  - destruct (reply_of _ _ _ _ _ _) as [s' l] eqn:E in H. cbn [snd] in H. apply (G _ _ _ _ _ _ E) in H.
    destruct H as (-> & <- & <-). cbn [served]. rewrite Bool.andb_true_iff, !isSome_spec. tauto.
  - destruct (server_generate_public_key R D Ts s ci) as [s' m]. now elim H.
  - destruct (receive_client_pubkey R D s Y); now elim H.
  - destruct (server_implicit_auth R D s Y); cbn [snd] in H; [|now elim H|now elim H]. destruct H as [H|[]]. discriminate H.
  - destruct (receive_client_authenticator R D s a) as [[k [n|g X salt ps|g X bs ps|Y|b]]| |]; now elim H.
Qed.

(** ** A login among everything else *)
Lemma client_alone_app es es' : forall c, client_alone c (es ++ es') =
  let '(c1, l) := client_alone c es in let '(c2, l') := client_alone c1 es' in (c2, l ++ l').
Proof.
  induction es as [|e es IH]; intros c; cbn [app client_alone]; [now destruct (client_alone c es')|].
  destruct (cstep c e) as [c1 l]. rewrite IH. destruct (client_alone c1 es) as [c2 l2]. destruct (client_alone c2 es') as [c3 l3].
  now rewrite app_assoc.
Qed.
Lemma server_alone_app es es' : forall s, server_alone s (es ++ es') =
  let '(s1, l) := server_alone s es in let '(s2, l') := server_alone s1 es' in (s2, l ++ l').
Proof.
  induction es as [|[v e] es IH]; intros s; cbn [app server_alone]; [now destruct (server_alone s es')|].
  destruct (sstep v s e) as [[sv s1] l]. rewrite IH. destruct (server_alone s1 es) as [s2 l2]. destruct (server_alone s2 es') as [s3 l3].
  now rewrite app_assoc.
Qed.
Lemma nonce_length (T : Rng) K st n st' : generate_nonce T K st = (n, st') -> length n = K.
Proof. intros E. apply (f_equal fst) in E. cbn [fst] in E. rewrite <- E. apply rng_fill_length. Qed.
(** The four requests for a user's record, with the variant of the server's function (as in C29, C31, C32). *)
Inductive variant := Plain | Partially.
Definition asks (x : variant) (user : bytes) (sts : rng_state Ts) : sevent R Ts :=
  match x with Plain => SE_Info _ _ user sts | Partially => SE_InfoPartial _ _ user sts end.
Definition answer (x : variant) (d : db DB) (sts : rng_state Ts) (s : AuCPaceServerAugLayer) (user : bytes) :=
  match x with
  | Plain => generate_client_info R D DB Ts s user d sts
  | Partially => generate_client_info_partial_aug R D DB PDB Ts s user d sts
  end.
Definition asks_strong (x : variant) (user : bytes) (U : pt R) (sts : rng_state Ts) : sevent R Ts :=
  match x with Plain => SE_InfoStrong _ _ user U sts | Partially => SE_InfoPartialStrong _ _ user U sts end.
Definition answer_strong (x : variant) (d : sdb SDB) (sts : rng_state Ts) (s : AuCPaceServerAugLayer) (user : bytes) (U : pt R) :=
  match x with
  | Plain => generate_client_info_strong R D SDB Ts s user U d sts
  | Partially => generate_client_info_partial_strong R D SDB PSDB Ts s user U d sts
  end.
Lemma asks_step x v s user sts : exists known, sstep v (S_Aug s) (asks x user sts) =
  let '(s', l) := reply_of R Ts user None known (answer x (sv_db v) sts s user) in (sv_server v, s', l).
Proof. destruct x; eexists; reflexivity. Qed.
Lemma asks_strong_step x v s user U sts : exists known, sstep v (S_Aug s) (asks_strong x user U sts) =
  let '(s', l) := reply_of R Ts user (Some U) known (answer_strong x (sv_sdb v) sts s user U) in (sv_server v, s', l).
Proof. destruct x; eexists; reflexivity. Qed.

Definition ssid_client (sm : ssid_mode) (stn : rng_state Tc) (ns : bytes) : list (cevent R Params Tc) :=
  match sm with ByNonces K1 => [CE_Begin _ _ _ K1 stn; CE_Agree _ _ _ ns] | PreEstablished ssid => [CE_BeginPre _ _ _ ssid] end.
Definition ssid_server (sm : ssid_mode) (nc : bytes) : list (sevent R Ts) :=
  match sm with ByNonces K1 => [SE_Begin _ _ K1; SE_Agree _ _ nc] | PreEstablished ssid => [SE_BeginPre _ _ ssid] end.
(** The server as it was when the session began and the databases as they were when it was asked for the user. *)
Definition as_of (s0 : AuCPaceServer Ts) (d : option (db DB)) (sd : option (sdb SDB)) (evs : list (state * sevent R Ts)) : Prop :=
  forall v e, In (v, e) evs -> match e with
    | SE_Begin _ _ _ | SE_BeginPre _ _ _ => sv_server v = s0
    | SE_Info _ _ _ _ | SE_InfoPartial _ _ _ _ => d = Some (sv_db v)
    | SE_InfoStrong _ _ _ _ _ | SE_InfoPartialStrong _ _ _ _ _ => sd = Some (sv_sdb v)
    | _ => True end.

Lemma ssid_stage sm stn s0 c s : run_ssid R D Tc Ts sm {| c_rng := stn |} s0 = Ok (c, s) -> exists ns nc,
  (exists l, client_alone C_None (ssid_client sm stn ns) = (C_PreAug c, l)) /\
  (forall evs rest, map snd evs = ssid_server sm nc ++ rest -> (forall v e, In (v, e) evs -> match e with
     | SE_Begin _ _ _ | SE_BeginPre _ _ _ => sv_server v = s0 | _ => True end) ->
   exists evs1 evs2 l, evs = evs1 ++ evs2 /\ map snd evs2 = rest /\ server_alone S_None evs1 = (S_Aug s, l)).
Proof.
  destruct sm as [K1|ssid]; cbn [run_ssid]; intros Es.
  - unfold server_begin, client_begin in Es. cbn [c_rng] in Es.
    destruct (generate_nonce Ts K1 (s_rng Ts s0)) as [n n'] eqn:En, (generate_nonce Tc K1 stn) as [t t'] eqn:Et. injection Es as <- <-.
    exists n, t. split.
    + cbn [ssid_client client_alone client_step]. unfold client_begin. cbn [c_rng]. rewrite Et. cbn [client_step cse_nonce].
      rewrite (nonce_length _ _ _ _ _ En), (nonce_length _ _ _ _ _ Et), Nat.eqb_refl. eexists. reflexivity.
    + intros evs rest H Hv. cbn [ssid_server app] in H. destruct evs as [|[v e1] [|[v' e2] evs]]; try discriminate H.
      cbn [map snd] in H. injection H as -> -> H. exists [(v, SE_Begin R Ts K1); (v', SE_Agree R Ts t)], evs. eexists. split; [reflexivity|].
      split; [exact H|]. pose proof (Hv v _ (or_introl eq_refl)) as E0. cbn beta iota in E0.
      cbn [server_alone server_step]. rewrite E0. unfold server_begin. rewrite En. cbn [server_step sse_nonce].
      rewrite (nonce_length _ _ _ _ _ En), (nonce_length _ _ _ _ _ Et), Nat.eqb_refl. reflexivity.
  - destruct (server_begin_prestablished_ssid D Ts s0 ssid) as [x| |] eqn:E1; cbn [obind] in Es; try discriminate Es.
    destruct (client_begin_prestablished_ssid D ssid) as [y| |] eqn:E2; cbn [obind] in Es; try discriminate Es. injection Es as <- <-.
    exists [], []. split.
    + cbn [ssid_client client_alone client_step]. rewrite E2. eexists. reflexivity.
    + intros evs rest H Hv. cbn [ssid_server app] in H. destruct evs as [|[v e1] evs]; try discriminate H.
      cbn [map snd] in H. injection H as -> H. exists [(v, SE_BeginPre R Ts ssid)], evs. eexists. split; [reflexivity|].
      split; [exact H|]. pose proof (Hv v _ (or_introl eq_refl)) as E0. cbn beta iota in E0.
      cbn [server_alone server_step]. rewrite E0, E1. reflexivity.
Qed.

(** From the CPace substep on. *)
Lemma cpace_stage c1 (s1 : AuCPaceServerCPaceSubstep Ts) ci stc ck sk : run_explicit R D Tc Ts c1 s1 ci ci stc = Ok (ck, sk) ->
  exists ya yb a b ssid sk1 ssid' sk1',
  client_alone (C_CPace c1) [CE_Key _ _ _ ci stc; CE_RecvKey _ _ _ ya; CE_RecvAuth _ _ _ b] =
    (C_End, [CL_Auth ssid sk1 a; CL_Accept ssid sk1 b ck]) /\
  forall evs, map snd evs = [SE_Key _ _ ci; SE_RecvKey _ _ yb; SE_RecvAuth _ _ a] ->
    server_alone (S_CPace s1) evs = (S_End, [SL_Accept ssid' sk1' a sk b]).
Proof.
  intros H. unfold run_explicit, run_keys in H.
  destruct (server_generate_public_key R D Ts s1 ci) as [s2 ms] eqn:Eks.
  destruct (client_generate_public_key R D Tc c1 ci stc) as [[c2 mc] stc'] eqn:Ekc.
  destruct mc as [n|u|u U|yb|a|u sa ps' W|u q ps' W]; cbn [obind] in H; try discriminate H.
  destruct ms as [n|g' X' sa ps'|g' X' bs ps'|ya|b]; cbn [obind] in H; try discriminate H.
  destruct (receive_client_pubkey R D s2 yb) as [s3| |] eqn:Ers; cbn [obind] in H; try discriminate H.
  destruct (receive_server_pubkey R D c2 ya) as [[c3 mc]| |] eqn:Erc; cbn [obind] in H; try discriminate H.
  destruct mc as [n|u|u U|yb'|a|u sa ps' W|u q ps' W]; cbn [obind] in H; try discriminate H.
  destruct (receive_client_authenticator R D s3 a) as [[k ms]| |] eqn:Eas; cbn [obind] in H; try discriminate H.
  destruct ms as [n|g' X' sa ps'|g' X' bs ps'|ya'|b]; cbn [obind] in H; try discriminate H.
  destruct (receive_server_authenticator D c3 b) as [k'| |] eqn:Eac; cbn [obind] in H; try discriminate H.
  injection H as -> ->. exists ya, yb, a, b, (cem_ssid c3), (cem_sk1 c3), (sem_ssid s3), (sem_sk1 s3). split.
  - cbn [client_alone client_step]. rewrite Ekc. cbn [client_step]. rewrite Erc. cbn [client_step]. rewrite Eac. reflexivity.
  - intros evs He. destruct evs as [|[v2 e2] [|[v3 e3] [|[v4 e4] [|? ?]]]]; try discriminate He. injection He as -> -> ->.
    cbn [server_alone server_step]. rewrite Eks. cbn [server_step]. rewrite Ers. cbn [server_step]. rewrite Eas. reflexivity.
Qed.

Lemma some_inj {A} (x y : A) : Some x = Some y -> x = y.
Proof. intros H. now injection H. Qed.
Lemma server_stage es es' s s1 l1 (P Q : slog R) : server_alone s es = (s1, l1) ->
  In P (snd (server_alone s1 es')) /\ In Q (snd (server_alone s1 es')) ->
  In P (snd (server_alone s (es ++ es'))) /\ In Q (snd (server_alone s (es ++ es'))).
Proof. intros E. rewrite server_alone_app, E. destruct (server_alone s1 es') as [s2 l2]. cbn [snd]. rewrite !in_app_iff. tauto. Qed.
Lemma client_stage es es' c c1 l1 (P Q : clog) : client_alone c es = (c1, l1) ->
  In P (snd (client_alone c1 es')) /\ In Q (snd (client_alone c1 es')) ->
  In P (snd (client_alone c (es ++ es'))) /\ In Q (snd (client_alone c (es ++ es'))).
Proof. intros E. rewrite client_alone_app, E. destruct (client_alone c1 es') as [s2 l2]. cbn [snd]. rewrite !in_app_iff. tauto. Qed.
Lemma client_stage2 e1 e2 es' c c2 (P Q : clog) : client_alone c [e1; e2] = (c2, []) ->
  In P (snd (client_alone c2 es')) /\ In Q (snd (client_alone c2 es')) ->
  In P (snd (client_alone c (e1 :: e2 :: es'))) /\ In Q (snd (client_alone c (e1 :: e2 :: es'))).
Proof. exact (client_stage [e1; e2] es' c c2 [] P Q). Qed.
Lemma server_logged j w es m : In m (snd (server_alone (w_sessions w j) (server_events j w es))) -> In (LS j m) (w_log (wrun w es)).
Proof.
  intros H. pose proof (C93_server j es w) as A. destruct (server_alone _ _) as [s l]. destruct A as [_ A]. cbn [snd] in H.
  apply in_slogs. rewrite A. apply in_or_app. now right.
Qed.
Lemma client_logged i w es m : In m (snd (client_alone (w_clients w i) (client_events i es))) -> In (LC i m) (w_log (wrun w es)).
Proof.
  intros H. pose proof (C93_client i es w) as A. destruct (client_alone _ _) as [s l]. destruct A as [_ A]. cbn [snd] in H.
  apply in_clogs. rewrite A. apply in_or_app. now right.
Qed.

(** If a login alone (run_login of C29 and C31), from the server as it was when session [j] began and the database as
    it was when it was asked for the user, returns two keys, then in every history in which session [i] of the clients
    and session [j] of the server get the messages of that login, in whatever order with anything else, they accept
    with these keys; the messages are those the log has. *)
Theorem C93_login x params_of sm m user pass (h : hasher Params) ci stn sts stc (s0 : AuCPaceServer Ts) (d : db DB) ck sk :
  run_login R D Params params_of Explicit Tc Ts sm m {| c_rng := stn |} s0 (answer x d sts) user pass h ci stc = Ok (ck, sk) ->
  exists ns nc g X salt ps params ya yb a b, params_of ps = Ok params /\
  forall w es i j, w_clients w i = C_None -> w_sessions w j = S_None ->
  client_events i es = ssid_client sm stn ns ++ [CE_Start _ _ _ user pass; CE_Generate _ _ _ m X salt params h; CE_Key _ _ _ ci stc;
                                                 CE_RecvKey _ _ _ ya; CE_RecvAuth _ _ _ b] ->
  map snd (server_events j w es) = ssid_server sm nc ++ [asks x user sts; SE_Key _ _ ci; SE_RecvKey _ _ yb; SE_RecvAuth _ _ a] ->
  as_of s0 (Some d) None (server_events j w es) ->
  let log := w_log (wrun w es) in
  exists ssid sk1 ssid' sk1' known,
    In (LS j (SL_Reply user None known (SAugmentationInfo g X salt ps))) log /\ In (LC i (CL_Auth ssid sk1 a)) log /\
    In (LS j (SL_Accept ssid' sk1' a sk b)) log /\ In (LC i (CL_Accept ssid sk1 b ck)) log.
Proof.
  intros H. unfold run_login in H. destruct (run_ssid R D Tc Ts sm _ _) as [[c s]| |] eqn:Es; cbn [obind] in H; try discriminate H.
  unfold run_aug, start_augmentation in H.
  destruct (answer x d sts s user) as [[s1 [n|g X salt ps|g X bs ps|Y|b]]| |] eqn:Ei; cbn [obind] in H; try discriminate H.
  destruct (params_of ps) as [params| |] eqn:Ep; cbn [obind] in H; try discriminate H.
  destruct (do_generate_cpace R Params m _ X salt params h) as [c1| |] eqn:Eg; cbn [obind] in H; try discriminate H.
  cbn [run_cpace] in H. apply cpace_stage in H. destruct H as (ya & yb & a & b & si & k & si' & k' & HC & HS).
  apply ssid_stage in Es. destruct Es as (ns & nc & GC & GS).
  exists ns, nc, g, X, salt, ps, params, ya, yb, a, b. split; [exact Ep|]. intros w es i j Hc Hs Hec Hes Hv log.
  apply GS in Hes; [|intros v e Hve; specialize (Hv v e Hve); destruct e; try exact I; exact Hv].
  destruct Hes as (evs1 & evs2 & l1 & E12 & He2 & G1). destruct evs2 as [|[v e] evs2]; [discriminate He2|].
  cbn [map snd] in He2. injection He2 as -> He2. specialize (HS _ He2).
  assert (Ev : sv_db v = d).
  { specialize (Hv v (asks x user sts)). rewrite E12 in Hv. specialize (Hv (in_elt _ _ _)).
    destruct x; cbn [asks] in Hv; now injection Hv. }
  destruct (asks_step x v s user sts) as [known Est]. rewrite Ev, Ei in Est. cbn [reply_of] in Est.
  exists si, k, si', k', known.
  assert (SA : In (SL_Reply user None known (SAugmentationInfo g X salt ps)) (snd (server_alone S_None (server_events j w es))) /\
               In (SL_Accept si' k' a sk b) (snd (server_alone S_None (server_events j w es)))).
  { rewrite E12. apply server_stage with (s1 := S_Aug s) (l1 := l1); [exact G1|]. cbn [server_alone]. rewrite Est, HS. cbn [snd app In]. tauto. }
  assert (CA : In (CL_Auth si k a) (snd (client_alone C_None (client_events i es))) /\
               In (CL_Accept si k b ck) (snd (client_alone C_None (client_events i es)))).
  { rewrite Hec. destruct GC as [l0 GC]. apply client_stage with (c1 := C_PreAug c) (l1 := l0); [exact GC|].
    apply client_stage2 with (e1 := CE_Start R Params Tc user pass) (e2 := CE_Generate R Params Tc m X salt params h) (c2 := C_CPace c1).
    - cbn [client_alone client_step start_augmentation]. rewrite Eg. reflexivity.
    - rewrite HC. cbn [snd In]. tauto. }
  destruct SA as [S1 S2], CA as [C1 C2]. rewrite <- Hs in S1, S2. rewrite <- Hc in C1, C2.
  split; [exact (server_logged _ _ _ _ S1)|]. split; [exact (client_logged _ _ _ _ C1)|].
  split; [exact (server_logged _ _ _ _ S2)|exact (client_logged _ _ _ _ C2)].
Qed.

(** The same for the strong variants, where the client's blinding exponent is drawn within [fuel] attempts. *)
Theorem C93_login_strong x params_of sm m user pass (h : hasher Params) ci fuel stn sts stb stc (s0 : AuCPaceServer Ts) (d : sdb SDB) ck sk :
  run_login_strong R D Params params_of Explicit Tc Ts sm m {| c_rng := stn |} s0 (answer_strong x d sts) fuel user pass h ci stb stc = Some (Ok (ck, sk)) ->
  exists ns nc U g X bs ps params ya yb a b, params_of ps = Ok params /\
  forall w es i j, w_clients w i = C_None -> w_sessions w j = S_None ->
  client_events i es = ssid_client sm stn ns ++ [CE_StartStrong _ _ _ fuel user pass stb; CE_GenerateStrong _ _ _ m X bs params h; CE_Key _ _ _ ci stc;
                                                 CE_RecvKey _ _ _ ya; CE_RecvAuth _ _ _ b] ->
  map snd (server_events j w es) = ssid_server sm nc ++ [asks_strong x user U sts; SE_Key _ _ ci; SE_RecvKey _ _ yb; SE_RecvAuth _ _ a] ->
  as_of s0 None (Some d) (server_events j w es) ->
  let log := w_log (wrun w es) in
  exists ssid sk1 ssid' sk1' known,
    In (LS j (SL_Reply user (Some U) known (SStrongAugmentationInfo g X bs ps))) log /\ In (LC i (CL_Auth ssid sk1 a)) log /\
    In (LS j (SL_Accept ssid' sk1' a sk b)) log /\ In (LC i (CL_Accept ssid sk1 b ck)) log.
Proof.
  intros H. unfold run_login_strong in H. destruct (run_ssid R D Tc Ts sm _ _) as [[c s]| |] eqn:Es; try discriminate H.
  destruct (start_augmentation_strong R D Tc fuel c user pass stb) as [[[c0 msg] stb']|] eqn:Eb; [|discriminate H].
  apply some_inj in H.
  assert (Hu : exists U, msg = CStrongUsername user U).
  { unfold start_augmentation_strong in Eb. destruct (draw_blinding_value Tc fuel stb) as [[q st']|]; [|discriminate Eb].
    injection Eb as _ <- _. now eexists. }
  destruct Hu as [U ->]. unfold run_aug_strong in H. cbn [obind] in H.
  destruct (answer_strong x d sts s user U) as [[s1 [n|g X salt ps|g X bs ps|Y|b]]| |] eqn:Ei; cbn [obind] in H; try discriminate H.
  destruct (params_of ps) as [params| |] eqn:Ep; cbn [obind] in H; try discriminate H.
  destruct (do_strong_generate_cpace R Params m c0 X bs params h) as [c1| |] eqn:Eg; cbn [obind] in H; try discriminate H.
  cbn [run_cpace] in H. apply cpace_stage in H. destruct H as (ya & yb & a & b & si & k & si' & k' & HC & HS).
  apply ssid_stage in Es. destruct Es as (ns & nc & GC & GS).
  exists ns, nc, U, g, X, bs, ps, params, ya, yb, a, b. split; [exact Ep|]. intros w es i j Hc Hs Hec Hes Hv log.
  apply GS in Hes; [|intros v e Hve; specialize (Hv v e Hve); destruct e; try exact I; exact Hv].
  destruct Hes as (evs1 & evs2 & l1 & E12 & He2 & G1). destruct evs2 as [|[v e] evs2]; [discriminate He2|].
  cbn [map snd] in He2. injection He2 as -> He2. specialize (HS _ He2).
  assert (Ev : sv_sdb v = d).
  { specialize (Hv v (asks_strong x user U sts)). rewrite E12 in Hv. specialize (Hv (in_elt _ _ _)).
    destruct x; cbn [asks_strong] in Hv; now injection Hv. }
  destruct (asks_strong_step x v s user U sts) as [known Est]. rewrite Ev, Ei in Est. cbn [reply_of] in Est.
  exists si, k, si', k', known.
  assert (SA : In (SL_Reply user (Some U) known (SStrongAugmentationInfo g X bs ps)) (snd (server_alone S_None (server_events j w es))) /\
               In (SL_Accept si' k' a sk b) (snd (server_alone S_None (server_events j w es)))).
  { rewrite E12. apply server_stage with (s1 := S_Aug s) (l1 := l1); [exact G1|]. cbn [server_alone]. rewrite Est, HS. cbn [snd app In]. tauto. }
  assert (CA : In (CL_Auth si k a) (snd (client_alone C_None (client_events i es))) /\
               In (CL_Accept si k b ck) (snd (client_alone C_None (client_events i es)))).
  { rewrite Hec. destruct GC as [l0 GC]. apply client_stage with (c1 := C_PreAug c) (l1 := l0); [exact GC|].
    apply client_stage2 with (e1 := CE_StartStrong R Params Tc fuel user pass stb) (e2 := CE_GenerateStrong R Params Tc m X bs params h) (c2 := C_CPace c1).
    - cbn [client_alone client_step]. rewrite Eb. cbn [client_step]. rewrite Eg. reflexivity.
    - rewrite HC. cbn [snd In]. tauto. }
  destruct SA as [S1 S2], CA as [C1 C2]. rewrite <- Hs in S1, S2. rewrite <- Hc in C1, C2.
  split; [exact (server_logged _ _ _ _ S1)|]. split; [exact (client_logged _ _ _ _ C1)|].
  split; [exact (server_logged _ _ _ _ S2)|exact (client_logged _ _ _ _ C2)].
Qed.

(** ** Every call consumes the session

    The methods take [self] (client.rs:379, 441, 524, 572, 654, 709, 783, 833, 862, 906 and server.rs:166, 201, 245, 294, 339, 552, 599, 622, 664): the
    stages of a session, the calls its type has at each stage, the stages at which it logs. *)
Definition client_stage_of (c : csess) : nat :=
  match c with C_None => 0 | C_Ssid _ => 1 | C_PreAug _ => 2 | C_Aug _ | C_StrongAug _ => 3 | C_CPace _ => 4 | C_Recv _ => 5 | C_Exp _ => 6 | C_End => 7 end.
Definition server_stage_of (s : ssess Ts) : nat :=
  match s with S_None => 0 | S_Ssid _ => 1 | S_Aug _ => 2 | S_CPace _ => 3 | S_Recv _ => 4 | S_Exp _ => 5 | S_End => 6 end.
Definition client_call (c : csess) (e : cevent R Params Tc) : bool :=
  match c, e with
  | C_None, (CE_Begin _ _ _ _ _ | CE_BeginPre _ _ _ _) | C_PreAug _, (CE_Start _ _ _ _ _ | CE_StartStrong _ _ _ _ _ _ _)
  | C_Aug _, CE_Generate _ _ _ _ _ _ _ _ | C_StrongAug _, CE_GenerateStrong _ _ _ _ _ _ _ _ | C_CPace _, CE_Key _ _ _ _ _
  | C_Recv _, (CE_RecvKey _ _ _ _ | CE_Implicit _ _ _ _) | C_Exp _, CE_RecvAuth _ _ _ _ => true
  | C_Ssid c, CE_Agree _ _ _ n => Nat.eqb (length n) (length (cse_nonce c))
  | _, _ => false
  end.
Definition server_call (s : ssess Ts) (e : sevent R Ts) : bool :=
  match s, e with
  | S_None, (SE_Begin _ _ _ | SE_BeginPre _ _ _) | S_CPace _, SE_Key _ _ _ | S_Exp _, SE_RecvAuth _ _ _
  | S_Aug _, (SE_Info _ _ _ _ | SE_InfoPartial _ _ _ _ | SE_InfoStrong _ _ _ _ _ | SE_InfoPartialStrong _ _ _ _ _)
  | S_Recv _, (SE_RecvKey _ _ _ | SE_Implicit _ _ _) => true
  | S_Ssid s, SE_Agree _ _ n => Nat.eqb (length n) (length (sse_nonce s))
  | _, _ => false
  end.
Definition client_log_stage (l : clog) : nat := match l with CL_Nonces _ _ _ => 2 | CL_Auth _ _ _ => 6 | CL_Accept _ _ _ _ | CL_Implicit _ _ => 7 end.
Definition server_log_stage (l : slog R) : nat :=
  match l with SL_Nonces _ _ _ => 2 | SL_Reply _ _ _ _ => 3 | SL_Accept _ _ _ _ _ | SL_Implicit _ _ => 6 end.

Ltac later := cbn [client_stage_of server_stage_of reply_of]; split; [lia|]; first [now left | right; eexists; split; reflexivity].
(** A call takes the session to a later stage, whether it fails or not; anything else does nothing. *)
Theorem C93_consumed_client c e : let '(c', l) := cstep c e in
  if client_call c e then client_stage_of c < client_stage_of c' /\ (l = [] \/ exists m, l = [m] /\ client_log_stage m = client_stage_of c')
  else c' = c /\ l = [].
Proof.
  destruct c as [|c|c|c|c|c|c|c|], e as [K1 st|ssid|n|u p|fuel u p st|m X salt ps h|m X bs ps h|ci st|Y|Y|a]; cbn [client_step client_call];
    try (now split).
  - destruct (client_begin R Tc K1 _) as [[c m] cl]. later.
  - destruct (client_begin_prestablished_ssid D ssid); later.
  - destruct (Nat.eqb _ _); [|now split]. later.
  - destruct (start_augmentation R c u p). later.
  - destruct (start_augmentation_strong R D Tc fuel c u p st) as [[[c' m] st']|]; later.
  - destruct (do_generate_cpace R Params m c X salt ps h); later.
  - destruct (do_strong_generate_cpace R Params m c X bs ps h); later.
  - destruct (client_generate_public_key R D Tc c ci st) as [[c' m] st']. later.
  - destruct (receive_server_pubkey R D c Y) as [[c' [| | | | | |]]| |]; later.
  - destruct (client_implicit_auth R D c Y); later.
  - destruct (receive_server_authenticator D c a); later.
Qed.
Theorem C93_consumed_server v s e : let '(_, s', l) := sstep v s e in
  if server_call s e then server_stage_of s < server_stage_of s' /\ (l = [] \/ exists m, l = [m] /\ server_log_stage m = server_stage_of s')
  else s' = s /\ l = [].
Proof.
  destruct s as [|s|s|s|s|s|], e as [K1|ssid|n|u st|u st|u U st|u U st|ci|Y|Y|a]; cbn [server_step server_call];
    try (now split).
  - destruct (server_begin R Ts K1 _) as [[s m] sv]. later.
  - destruct (server_begin_prestablished_ssid D Ts _ ssid); later.
  - destruct (Nat.eqb _ _); [|now split]. later.
  - destruct (generate_client_info R D DB Ts s u (sv_db v) st) as [[s' m]| |]; later.
  - destruct (generate_client_info_partial_aug R D DB PDB Ts s u (sv_db v) st) as [[s' m]| |]; later.
  - destruct (generate_client_info_strong R D SDB Ts s u U (sv_sdb v) st) as [[s' m]| |]; later.
  - destruct (generate_client_info_partial_strong R D SDB PSDB Ts s u U (sv_sdb v) st) as [[s' m]| |]; later.
  - destruct (server_generate_public_key R D Ts s ci) as [s' m]. later.
  - destruct (receive_client_pubkey R D s Y); later.
  - destruct (server_implicit_auth R D s Y); later.
  - destruct (receive_client_authenticator R D s a) as [[k [| | | |]]| |]; later.
Qed.
(** So in every history a session agrees on an SSID, replies, sends an authenticator and returns a key at most once
    each, in this order: one session, one guess. *)
Inductive increasing : nat -> list nat -> Prop :=
| inc_nil n : increasing n []
| inc_cons n m l : n < m -> increasing m l -> increasing n (m :: l).
Lemma increasing_weak n m l : n <= m -> increasing m l -> increasing n l.
Proof. intros H I. destruct I as [|m k l Hk I]; constructor; [lia|exact I]. Qed.
Lemma increasing_client es : forall c, increasing (client_stage_of c) (map client_log_stage (snd (client_alone c es))).
Proof.
  induction es as [|e es IH]; intros c; [constructor|]. cbn [client_alone]. pose proof (C93_consumed_client c e) as X.
  destruct (cstep c e) as [c' l]. specialize (IH c'). destruct (client_alone c' es) as [c2 l2]. cbn [snd] in *.
  destruct (client_call c e); [destruct X as [Hl [->|(m & -> & Em)]]|destruct X as [-> ->]]; cbn [app map].
  - now apply (increasing_weak _ (client_stage_of c')); [lia|].
  - constructor; rewrite Em; assumption.
  - exact IH.
Qed.
Lemma increasing_server es : forall s, increasing (server_stage_of s) (map server_log_stage (snd (server_alone s es))).
Proof.
  induction es as [|[v e] es IH]; intros s; [constructor|]. cbn [server_alone]. pose proof (C93_consumed_server v s e) as X.
  destruct (sstep v s e) as [[sv s'] l]. specialize (IH s'). destruct (server_alone s' es) as [s2 l2]. cbn [snd] in *.
  destruct (server_call s e); [destruct X as [Hl [->|(m & -> & Em)]]|destruct X as [-> ->]]; cbn [app map].
  - now apply (increasing_weak _ (server_stage_of s')); [lia|].
  - constructor; rewrite Em; assumption.
  - exact IH.
Qed.
Theorem C93_once rng d sd es :
  let w := wrun (init R Ts DB SDB rng d sd) es in
  (forall i, increasing 0 (map client_log_stage (clogs R Ts DB SDB w i))) /\
  (forall j, increasing 0 (map server_log_stage (slogs R Ts DB SDB w j))).
Proof.
  intros w. split; intros i.
  - pose proof (C93_client i es (init R Ts DB SDB rng d sd)) as A. pose proof (increasing_client (client_events i es) C_None) as B.
    change (w_clients (init R Ts DB SDB rng d sd) i) with C_None in A. destruct (client_alone _ _) as [c l]. destruct A as [_ A]. exact (eq_ind_r (fun l => increasing 0 (map client_log_stage l)) B A).
  - pose proof (C93_server i es (init R Ts DB SDB rng d sd)) as A. pose proof (increasing_server (server_events i (init R Ts DB SDB rng d sd) es) S_None) as B.
    change (w_sessions (init R Ts DB SDB rng d sd) i) with (@S_None Ts) in A. destruct (server_alone _ _) as [c l]. destruct A as [_ A]. exact (eq_ind_r (fun l => increasing 0 (map server_log_stage l)) B A).
Qed.

(** ** The blinding exponent of the strong variants (C31)

    The client draws scalars until one is not zero (client.rs:455-460); the model stops after [fuel] of them. *)
Lemma iter_shift {A} (g : A -> A) k x : Nat.iter (S k) g x = Nat.iter k g (g x).
Proof. induction k as [|k IH]; [reflexivity|]. cbn [Nat.iter nat_rect] in *. change (g (Nat.iter (S k) g x) = g (Nat.iter k g (g x))). now rewrite <- IH. Qed.
Lemma draw_none fuel : forall st, draw_blinding_value Tc fuel st = None <->
  forall k, k < fuel -> drawn Tc (Nat.iter k (after Tc 64) st) = szero.
Proof.
  induction fuel as [|fuel IH]; intros st; cbn [draw_blinding_value]; [split; [intros _ k Hk; lia|reflexivity]|].
  rewrite scalar_random_eq. destruct (seqb (drawn Tc st) szero) eqn:E; cbn [negb].
  - apply seqb_eq in E. rewrite IH. split; intros H k Hk.
    + destruct k as [|k]; [exact E|]. rewrite iter_shift. apply H. lia.
    + rewrite <- iter_shift. apply H. lia.
  - apply seqb_neq in E. split; [discriminate|]. intros H. elim E. apply (H 0). lia.
Qed.
(** A strong login is undecided exactly if all [fuel] scalars the client draws are zero... *)
Theorem C31_undecided am params_of sm m c (s : AuCPaceServer Ts) info fuel user pass (h : hasher Params) ci stb stc :
  ssid_mode_ok sm ->
  (run_login_strong R D Params params_of am Tc Ts sm m c s info fuel user pass h ci stb stc = None <->
   forall k, k < fuel -> drawn Tc (Nat.iter k (after Tc 64) stb) = szero).
Proof.
  intros Hm. rewrite <- draw_none. unfold run_login_strong. rewrite run_ssid_eq by assumption. unfold start_augmentation_strong.
  destruct (draw_blinding_value Tc fuel stb) as [[r st']|]; split; (discriminate || reflexivity).
Qed.
(** ... and what it decides does not depend on [fuel]. *)
Theorem C31_fuel am params_of sm m c (s : AuCPaceServer Ts) info fuel fuel' user pass (h : hasher Params) ci stb stc r : fuel <= fuel' ->
  run_login_strong R D Params params_of am Tc Ts sm m c s info fuel user pass h ci stb stc = Some r ->
  run_login_strong R D Params params_of am Tc Ts sm m c s info fuel' user pass h ci stb stc = Some r.
Proof.
  intros Hf. unfold run_login_strong. destruct (run_ssid R D Tc Ts sm c s) as [[c1 s1]| |]; try (intros H; exact H).
  unfold start_augmentation_strong. destruct (draw_blinding_value Tc fuel stb) as [[q st']|] eqn:E; [|discriminate].
  rewrite (draw_blinding_value_mono _ _ _ _ _ E Hf). intros H. exact H.
Qed.

(** The honest case, from a new server: a registered user whose record is in the database when session [j] is asked for
    it.  The two sessions return one key of 64 bytes, unless one of the three points exchanged is the identity. *)
Theorem C93_honest (L : rgroup_laws R) (params_try_into : Params -> outcome pherror bytes) (params_of : bytes -> res Params)
  Treg (creg : AuCPaceClient Treg) mreg sm m user pass params (h : hasher Params) u salt ps W creg' ci stn sts stc
  (s0 : AuCPaceServer Ts) (d : db DB) :
  ssid_mode_ok sm -> fits mreg user pass -> fits m user pass ->
  do_register R Params params_try_into mreg Treg creg user pass params h = (Ok (CRegistration u salt ps W), creg') ->
  params_of ps = Ok params -> lookup_verifier DB d user = Some (W, salt, ps) ->
  (forall pw, spec_w h user pass salt params = Ok pw ->
     forall P, In P (honest_points R D (agreed_ssid D Tc Ts sm {| c_rng := stn |} s0) pw (drawn Ts sts) ci (drawn Ts (after Ts 64 sts)) (drawn Tc stc)) ->
     P <> rzero R) ->
  exists key ns nc X salt' params' ya yb a b, length key = 64 /\
  forall rng d0 sd0 es i j,
  let w := init R Ts DB SDB rng d0 sd0 in
  client_events i es = ssid_client sm stn ns ++ [CE_Start _ _ _ user pass; CE_Generate _ _ _ m X salt' params' h; CE_Key _ _ _ ci stc;
                                                 CE_RecvKey _ _ _ ya; CE_RecvAuth _ _ _ b] ->
  map snd (server_events j w es) = ssid_server sm nc ++ [SE_Info _ _ user sts; SE_Key _ _ ci; SE_RecvKey _ _ yb; SE_RecvAuth _ _ a] ->
  as_of s0 (Some d) None (server_events j w es) ->
  exists ssid sk1 ssid' sk1',
    In (LS j (SL_Accept ssid' sk1' a key b)) (w_log (wrun w es)) /\ In (LC i (CL_Accept ssid sk1 b key)) (w_log (wrun w es)).
Proof.
  intros Hm HFr HF Hreg Hpo Hl Hpts. apply do_register_ok in Hreg; [|exact HFr]. destruct Hreg as (-> & Hs & Ht & pw & Hw & ->).
  set (ssid := agreed_ssid D Tc Ts sm {| c_rng := stn |} s0) in *. set (x := drawn Ts sts) in *. set (y := drawn Ts (after Ts 64 sts)) in *.
  set (z := drawn Tc stc) in *.
  assert (E : run_login R D Params params_of Explicit Tc Ts sm m {| c_rng := stn |} s0
    (answer Plain d sts) user pass h ci stc = Ok (honest_key R D ssid pw x ci y z, honest_key R D ssid pw x ci y z)).
  { etransitivity; [|apply honest_outcome_ok; [exact L|exact (Hpts pw Hw)]].
    apply (honest_login_generic R L D Dlen Params params_of DB Tc Ts Explicit sm m {| c_rng := stn |} s0
             (answer Plain d sts) user pass params h d pw salt ps x (after Ts 64 sts) ci stc); try assumption.
    - rewrite Hs. apply salt_generate_eq.
    - intros sess. apply generate_client_info_eq. }
  apply (C93_login Plain) in E. destruct E as (ns & nc & g & X & salt' & ps' & params' & ya & yb & a & b & Hp' & H).
  exists (honest_key R D ssid pw x ci y z), ns, nc, X, salt', params', ya, yb, a, b. split; [apply Dlen|].
  intros rng d0 sd0 es i j w Hc Hs' Hv. destruct (H w es i j eq_refl eq_refl Hc Hs' Hv) as (si & k & si' & k' & kn & _ & _ & A & B).
  exists si, k, si', k'. now split.
Qed.
End World.

(** ** The server's nonces

    Over a generator that goes through a stream: any two sessions of a server have nonces from parts of the stream
    that do not overlap, whatever was done in between. *)
Section Nonces.
Context (R : RGroup) (D : bytes -> bytes) (Params : Type) (Tc : Rng) (f : nat -> byte).
Notation Ts := (stream_rng f).
Context (DB : Database R) (SDB : StrongDatabase R).
Context (PDB : PartialAugDatabase R (db DB)) (PSDB : PartialAugDatabase R (sdb SDB)).
Notation wstep := (step R D Params Tc Ts DB SDB PDB PSDB).
Notation wrun := (run R D Params Tc Ts DB SDB PDB PSDB).
Definition position (w : world R Ts DB SDB) : nat := s_rng Ts (sv_server (w_server w)).

(** Which session owns which part. *)
Definition owns (p : nat) (w : world R Ts DB SDB) : Prop := exists l : list (nat * (nat * nat)),
  in_order p (map snd l) (position w) /\ NoDup (map fst l) /\
  (forall j, In j (map fst l) -> w_sessions w j <> S_None) /\
  (forall j s, w_sessions w j = S_Ssid s -> exists a n, In (j, (a, n)) l /\ sse_nonce s = segment f a n) /\
  (forall j ns nc ssid, In (LS j (SL_Nonces ns nc ssid)) (w_log w) -> exists a n, In (j, (a, n)) l /\ ns = segment f a n).
Lemma in_order_end p segs q q' : in_order p segs q -> q <= q' -> in_order p segs q'.
Proof. revert p. induction segs as [|[a n] segs IH]; intros p H Hq; cbn in *; [lia|]. destruct H. split; [assumption|now apply IH]. Qed.
Lemma in_order_snoc p segs q n : in_order p segs q -> in_order p (segs ++ [(q, n)]) (q + n).
Proof. revert p. induction segs as [|[a m] segs IH]; intros p H; cbn in *; [lia|]. destruct H. split; [assumption|now apply IH]. Qed.
Lemma NoDup_app_snoc {A} (l : list A) x : NoDup l -> ~ In x l -> NoDup (l ++ [x]).
Proof.
  intros H N. induction H as [|y l Hy H IH]; cbn [app]; [constructor; [intros []|constructor]|]. constructor.
  - rewrite in_app_iff. cbn [In]. intros [X|[X|[]]]; [now apply Hy|]. apply N. now left.
  - apply IH. intros X. apply N. now right.
Qed.
Lemma step_cases v (s : ssess Ts) e sv s' l : server_step R D Ts DB SDB PDB PSDB v s e = (sv, s', l) ->
  (s = S_None /\ l = [] /\ exists n x, s' = S_Ssid x /\ sse_nonce x = segment f (s_rng Ts (sv_server v)) n /\
     s_rng Ts sv = s_rng Ts (sv_server v) + n) \/
  (sv = sv_server v /\ (forall x, s' = S_Ssid x -> s = s') /\ (s' = S_None -> s = S_None) /\
   forall ns nc ssid, In (SL_Nonces ns nc ssid) l -> exists x, s = S_Ssid x /\ ns = sse_nonce x).
Proof.
  intros E. assert (G : forall u U known r, let '(s', l) := reply_of R Ts u U known r in
    (forall x, s' <> S_Ssid x) /\ s' <> S_None /\ forall ns nc ssid, ~ In (SL_Nonces ns nc ssid) l).
  { intros u U known [[s2 m]|e'|]; cbn [reply_of]; (split; [discriminate|]; split; [discriminate|]); intros ns nc ssid; cbn [In];
      [intros [X|[]]; discriminate X|intros []|intros []]. }
  destruct s as [|s|s|s|s|s|], e as [K1|ssid|n|u st|u st|u U st|u U st|ci|Y|Y|a]; cbn [server_step] in E;
    try (injection E as <- <- <-; right; split; [reflexivity|]; split; [intros ? ?; reflexivity|]; split; [intros H; exact H|]; intros ? ? ? []).
  - unfold server_begin in E. cbn [generate_nonce rng_fill] in E. injection E as <- <- <-. left. split; [reflexivity|]. split; [reflexivity|].
    exists K1, {| sse_secret := s_secret Ts (sv_server v); sse_nonce := segment f (s_rng Ts (sv_server v)) K1 |}. now repeat split.
  - right. destruct (server_begin_prestablished_ssid D Ts (sv_server v) ssid); injection E as <- <- <-;
      (split; [reflexivity|]; split; [discriminate|]; split; [discriminate|now intros]).
  - right. destruct (Nat.eqb _ _); injection E as <- <- <-; (split; [reflexivity|]).
    + split; [discriminate|]. split; [discriminate|]. intros ns nc ssid [X|[]]. injection X as <- _ _. now exists s.
    + split; [reflexivity|]. split; [discriminate|now intros].
  - right. match type of E with context [reply_of R Ts ?u ?U ?k ?r] => specialize (G u U k r) end. destruct (reply_of _ _ _ _ _ _) as [s2 l2].
    injection E as <- <- <-. destruct G as (G1 & G2 & G3). split; [reflexivity|]. split; [intros x X; now elim (G1 x)|]. split; [intros X; now elim G2|].
    intros ns nc ssid X. now elim (G3 ns nc ssid).
  - right. match type of E with context [reply_of R Ts ?u ?U ?k ?r] => specialize (G u U k r) end. destruct (reply_of _ _ _ _ _ _) as [s2 l2].
    injection E as <- <- <-. destruct G as (G1 & G2 & G3). split; [reflexivity|]. split; [intros x X; now elim (G1 x)|]. split; [intros X; now elim G2|].
    intros ns nc ssid X. now elim (G3 ns nc ssid).
  - right. match type of E with context [reply_of R Ts ?u ?U ?k ?r] => specialize (G u U k r) end. destruct (reply_of _ _ _ _ _ _) as [s2 l2].
    injection E as <- <- <-. destruct G as (G1 & G2 & G3). split; [reflexivity|]. split; [intros x X; now elim (G1 x)|]. split; [intros X; now elim G2|].
    intros ns nc ssid X. now elim (G3 ns nc ssid).
  - right. match type of E with context [reply_of R Ts ?u ?U ?k ?r] => specialize (G u U k r) end. destruct (reply_of _ _ _ _ _ _) as [s2 l2].
    injection E as <- <- <-. destruct G as (G1 & G2 & G3). split; [reflexivity|]. split; [intros x X; now elim (G1 x)|]. split; [intros X; now elim G2|].
    intros ns nc ssid X. now elim (G3 ns nc ssid).
  - right. destruct (server_generate_public_key R D Ts s ci) as [s2 m]. injection E as <- <- <-.
    split; [reflexivity|]; split; [discriminate|]; split; [discriminate|now intros].
  - right. destruct (receive_client_pubkey R D s Y); injection E as <- <- <-; (split; [reflexivity|]; split; [discriminate|]; split; [discriminate|now intros]).
  - right. destruct (server_implicit_auth R D s Y); injection E as <- <- <-; (split; [reflexivity|]; split; [discriminate|]; split; [discriminate|]);
      [intros ns nc ssid [X|[]]; discriminate X|now intros|now intros].
  - right. destruct (receive_client_authenticator R D s a) as [[k [n|g X salt ps|g X bs ps|Y|b]]| |]; injection E as <- <- <-;
      (split; [reflexivity|]; split; [discriminate|]; split; [discriminate|]); try now intros.
    intros ns nc ssid [X|[]]. discriminate X.
Qed.
Lemma owns_step p w e : owns p w -> owns p (wstep w e).
Proof.
  intros (l & O & ND & HN & HS & HL). destruct e as [i e|j e|u salt uad W ps|u uad W q ps|u|u]; cbn [step].
  - destruct (client_step R D Params Tc (w_clients w i) e) as [c lc]. exists l. split; [exact O|]. split; [exact ND|]. split; [exact HN|]. split; [exact HS|].
    intros j ns nc ssid H. cbn [w_log] in H. apply in_app_or in H. destruct H as [H|H]; [now apply (HL j ns nc ssid)|].
    apply in_map_iff in H. destruct H as (x & X & _). discriminate X.
  - destruct (server_step R D Ts DB SDB PDB PSDB (w_server w) (w_sessions w j) e) as [[sv s'] ls] eqn:E. apply step_cases in E.
    destruct E as [(Ej & -> & n & x & -> & Ex & Ep)|(-> & E1 & E2 & E3)].
    + exists (l ++ [(j, (position w, n))]). unfold position in *. cbn [w_server sv_server w_sessions w_log]. rewrite Ep.
      split; [rewrite map_app; now apply in_order_snoc|]. split.
      { rewrite map_app. cbn [map fst]. apply NoDup_app_snoc; [exact ND|]. intros Hj. now apply (HN j). }
      split.
      { intros k Hk. unfold set. destruct (Nat.eqb_spec k j) as [->|Nk]; [discriminate|]. rewrite map_app, in_app_iff in Hk. cbn [map fst In] in Hk.
        destruct Hk as [Hk|[Hk|[]]]; [now apply HN|congruence]. }
      split.
      { intros k s. unfold set. destruct (Nat.eqb_spec k j) as [->|Nk]; intros Hs.
        - injection Hs as <-. exists (s_rng Ts (sv_server (w_server w))), n. split; [apply in_or_app; right; now left|exact Ex].
        - destruct (HS k s Hs) as (a & m & H1 & H2). exists a, m. split; [apply in_or_app; now left|exact H2]. }
      intros k ns nc ssid H. cbn [map] in H. rewrite app_nil_r in H. destruct (HL k ns nc ssid H) as (a & m & H1 & H2). exists a, m.
      split; [apply in_or_app; now left|exact H2].
    + exists l. unfold position in *. cbn [w_server sv_server w_sessions w_log]. split; [exact O|]. split; [exact ND|]. split.
      { intros k Hk. unfold set. destruct (Nat.eqb_spec k j) as [->|Nk]; [|now apply HN]. intros C. apply (HN j Hk). now apply E2. }
      split.
      { intros k s. unfold set. destruct (Nat.eqb_spec k j) as [->|Nk]; [|apply HS]. intros Hs. apply HS. rewrite (E1 s Hs). exact Hs. }
      intros k ns nc ssid H. apply in_app_or in H. destruct H as [H|H]; [now apply (HL k ns nc ssid)|].
      apply in_map_iff in H. destruct H as (y & Y & Hy). injection Y as -> ->. destruct (E3 _ _ _ Hy) as (x & Hx & ->). now apply HS.
  - exists l. repeat (split; [assumption|]). assumption.
  - exists l. repeat (split; [assumption|]). assumption.
  - unfold generate_long_term_keypair. rewrite generate_server_keypair_eq. exists l. split; [|repeat (split; [assumption|]); assumption].
    apply (in_order_end _ _ _ _ O). unfold position. cbn [with_server w_server sv_server s_rng]. rewrite after_stream. lia.
  - unfold generate_long_term_keypair. rewrite generate_server_keypair_eq. exists l. split; [|repeat (split; [assumption|]); assumption].
    apply (in_order_end _ _ _ _ O). unfold position. cbn [with_server w_server sv_server s_rng]. rewrite after_stream. lia.
Qed.
Lemma owns_run p es : forall w, owns p w -> owns p (wrun w es).
Proof. induction es as [|e es IH]; intros w H; [exact H|]. change (wrun w (e :: es)) with (wrun (wstep w e) es). now apply IH, owns_step. Qed.
Lemma in_order_apart p segs q : in_order p segs q -> forall i j a n b m, nth_error segs i = Some (a, n) -> nth_error segs j = Some (b, m) -> i < j ->
  p <= a /\ a + n <= b /\ b + m <= q.
Proof.
  revert p. induction segs as [|[c k] segs IH]; intros p H i j a n b m Hi Hj Hij; [now destruct i|]. cbn [in_order] in H. destruct H as [H1 H2].
  assert (B : forall segs p j b m, in_order p segs q -> nth_error segs j = Some (b, m) -> p <= b /\ b + m <= q).
  { clear. induction segs as [|[c k] segs IH]; intros p j b m H Hj; [now destruct j|]. cbn [in_order] in H. destruct H as [H1 H2].
    destruct j as [|j]; [injection Hj as <- <-; apply (in_order_le (fun _ => x00)) in H2; lia|]. destruct (IH _ _ _ _ H2 Hj). lia. }
  destruct j as [|j]; [lia|]. cbn [nth_error] in Hj. destruct i as [|i].
  - injection Hi as <- <-. destruct (B _ _ _ _ _ H2 Hj). lia.
  - destruct (IH _ H2 i j a n b m Hi Hj ltac:(lia)). lia.
Qed.

Theorem C93_nonces p d sd es j j' ns nc ssid ns' nc' ssid' :
  let w := wrun (init R Ts DB SDB p d sd) es in
  In (LS j (SL_Nonces ns nc ssid)) (w_log w) -> In (LS j' (SL_Nonces ns' nc' ssid')) (w_log w) -> j <> j' ->
  exists a b, ns = segment f a (length ns) /\ ns' = segment f b (length ns') /\
    p <= a /\ p <= b /\ a + length ns <= position w /\ b + length ns' <= position w /\ (a + length ns <= b \/ b + length ns' <= a).
Proof.
  intros w H H' Hj. assert (O : owns p w).
  { apply owns_run. exists []. cbn [map]. split.
    - change (p <= p + 8). lia.
    - split; [constructor|]. split; [intros k []|]. split; [intros k s X; discriminate X|intros k ? ? ? []]. }
  destruct O as (l & O & ND & _ & _ & HL). destruct (HL _ _ _ _ H) as (a & n & I & ->). destruct (HL _ _ _ _ H') as (b & m & I' & ->).
  rewrite !segment_length. exists a, b. split; [reflexivity|]. split; [reflexivity|].
  apply In_nth_error in I. destruct I as [i I]. apply In_nth_error in I'. destruct I' as [i' I'].
  assert (Hi : i <> i') by (intros ->; rewrite I in I'; injection I'; congruence).
  pose proof (map_nth_error snd _ _ I) as M. pose proof (map_nth_error snd _ _ I') as M'. cbn [snd] in M, M'.
  destruct (Nat.lt_gt_cases i i') as [X _]. destruct (X Hi) as [Lt|Gt].
  - destruct (in_order_apart _ _ _ O _ _ _ _ _ _ M M' Lt). lia.
  - destruct (in_order_apart _ _ _ O _ _ _ _ _ _ M' M Gt). lia.
Qed.
End Nonces.

(** ** Concrete cases: the history of AucpaceProps2.v, where alice logs in with client session 0 and server session 0
    while sessions 1 and 2 are asked for bob. *)
Section Cases.
Notation EV := (event ToyGroup bytes tape_rng tape_rng).
Definition start : world ToyGroup tape_rng DBt SDBt :=
  init ToyGroup tape_rng DBt SDBt (le_bytes 64 77 ++ le_bytes 64 88 ++ le_bytes 64 99) empty_db empty_db.
Notation sevents j := (server_events ToyGroup toyD bytes tape_rng tape_rng DBt SDBt PDBt PSDBt j start es6).
(* C93_login, C93_honest: the events of the two sessions of alice's login are those of a login *)
Check (test (match client_events ToyGroup bytes tape_rng tape_rng 0 es6 with
  | [CE_Begin _ _ _ 16 _; CE_Agree _ _ _ _; CE_Start _ _ _ u _; CE_Generate _ _ _ _ _ _ _ _; CE_Key _ _ _ _ _; CE_RecvKey _ _ _ _; CE_RecvAuth _ _ _ _] => bytes_eqb u alice
  | _ => false end) true).
Check (test (match map snd (sevents 0) with
  | [SE_Begin _ _ 16; SE_Agree _ _ _; SE_Info _ _ u _; SE_Key _ _ _; SE_RecvKey _ _ _; SE_RecvAuth _ _ _] => bytes_eqb u alice
  | _ => false end) true).
(* C93_client, C93_server: alone they log a key each, the same *)
Check (test (match snd (client_alone ToyGroup toyD bytes tape_rng C_None (client_events ToyGroup bytes tape_rng tape_rng 0 es6)),
                   snd (server_alone ToyGroup toyD tape_rng DBt SDBt PDBt PSDBt S_None (sevents 0)) with
  | [CL_Nonces _ _ _; CL_Auth _ _ a; CL_Accept _ _ b k], [SL_Nonces _ _ _; SL_Reply _ _ known _; SL_Accept _ _ a' k' b'] =>
      known && bytes_eqb a a' && bytes_eqb b b' && bytes_eqb k k'
  | _, _ => false end)%bool true).
(* C93_once: the stages at which session 0 logs *)
Check (test (map client_log_stage (clogs ToyGroup tape_rng DBt SDBt (after_ es6) 0), map (server_log_stage ToyGroup) (slogs ToyGroup tape_rng DBt SDBt (after_ es6) 0))
  ([2; 6; 7], [2; 3; 6])).
(* C93_same_view: session 1 does the same without sessions 0 and 2 *)
Check (test (match map snd (sevents 1) with [SE_BeginPre _ _ _; SE_Info _ _ u _] => bytes_eqb u bob | _ => false end) true).
(* C93_known: the replies for bob are not logged as known *)
Check (test (flat_map (fun l => match l with LS j (SL_Reply _ _ known _) => [(j, known)] | _ => [] end) (w_log (after_ es6)))
  [(1, false); (2, false); (0, true)]).
(* C93_nonces: two sessions with nonces, from bytes 8-23 and 24-39 of the stream *)
Definition counting := stream_rng (fun i => n2b (N.of_nat i)).
Definition two : world ToyGroup counting DBt SDBt :=
  run ToyGroup toyD bytes tape_rng counting DBt SDBt PDBt PSDBt (init ToyGroup counting DBt SDBt 0 empty_db empty_db)
    [EServer _ _ _ _ 0 (SE_Begin _ _ 16); EServer _ _ _ _ 1 (SE_Begin _ _ 16); EServer _ _ _ _ 1 (SE_Agree _ _ (repeat x41 16));
     EServer _ _ _ _ 0 (SE_Agree _ _ (repeat x42 16))].
Check (test (flat_map (fun l => match l with LS j (SL_Nonces ns _ _) => [(j, le_val (firstn 1 ns), length ns)] | _ => [] end) (w_log two))
  [(1, 24%N, 16); (0, 8%N, 16)]).
(* C31_undecided: a tape that starts with 64 zero bytes decides nothing with one attempt and a scalar with two *)
Check (test (match draw_blinding_value tape_rng 1 (repeat x00 64 ++ le_bytes 64 5), draw_blinding_value tape_rng 2 (repeat x00 64 ++ le_bytes 64 5) with
  | None, Some (r, _) => Z.eqb (sval r) 5 | _, _ => false end) true).
End Cases.
