(** * The TCP examples of the aucpace crate: how they fail (C62). *)
From Coq Require Import ZArith Lia List.
From Verif Require Import Base.Bytes Base.Outcome Base.Rng Base.Kat.
From Verif Require Import Curve.Scalar25519.
From Verif Require Import Aucpace.RistrettoGroup Aucpace.PwHash Aucpace.AucpaceModel Aucpace.AucpaceSpec
  Aucpace.AucpaceRun Aucpace.AucpaceDb Aucpace.AucpaceToy Aucpace.AucpaceProofs Aucpace.AucpaceProps
  Aucpace.Wire Aucpace.WireProofs Aucpace.AucpaceProps3 Aucpace.Net Aucpace.TcpExample Aucpace.TcpProofs Aucpace.AucpaceProps6.
Import ListNotations.
Local Open Scope nat_scope.

(** ** Where a thread is after its reads *)
Section After.
Context {Er A : Type}.
Notation thread := (proc Er A).
(** just after the last of the reads, before it writes anything more *)
Fixpoint after_reads (rs : list bytes) (p : thread) : thread :=
  match rs with
  | [] => p
  | r :: rs => match snd (flush p) with PRecv k => after_reads rs (k r) | q => q end
  end.
Inductive sends_to : thread -> thread -> Prop :=
| st_nil p : sends_to p p
| st_send p m k : sends_to p (PSend m k) -> sends_to p k
| st_part p m1 m2 k : sends_to p (PSend (m1 ++ m2) k) -> sends_to p (PSend m2 k).
Definition busy (p : thread) : Prop := match p with PSend _ _ | PRecv _ => True | _ => False end.
Definition placed (p0 : thread) (rs : list bytes) (p : thread) : Prop :=
  sends_to (after_reads rs p0) p \/ (p = PDone Panic /\ exists q, sends_to (after_reads rs p0) q /\ busy q).
Lemma sends_flush p q : sends_to p q -> snd (flush q) = snd (flush p).
Proof.
  induction 1 as [p|p m k H IH|p m1 m2 k H IH]; [reflexivity| |].
  - cbn [flush] in IH. destruct (flush k). exact IH.
  - cbn [flush] in *. destruct (flush k). exact IH.
Qed.
Lemma after_snoc rs : forall p0 k r, snd (flush (after_reads rs p0)) = PRecv k -> after_reads (rs ++ [r]) p0 = k r.
Proof.
  induction rs as [|r0 rs IH]; intros p0 k r H; cbn [after_reads app] in *; [now rewrite H|].
  destruct (snd (flush p0)) as [x|m k'|k'|] eqn:E; try discriminate H; [|now apply IH].
  exfalso. revert E. clear. induction p0 as [x|m0 p0 IH|f IHf|]; cbn [flush snd]; try discriminate.
  destruct (flush p0). exact IH.
Qed.
Lemma placed_done p0 rs p r : placed p0 rs p -> after_reads rs p0 = PDone r -> p = PDone r.
Proof.
  assert (G : forall q q', sends_to q q' -> q = PDone r -> q' = PDone r).
  { induction 1 as [q|q m k H IH|q m1 m2 k H IH]; auto; intros E; specialize (IH E); discriminate IH. }
  intros [H|[-> (q & H & Hb)]] E; [exact (G _ _ H E)|]. rewrite (G _ _ H E) in Hb. destruct Hb.
Qed.
Lemma placed_recv p0 rs k r : placed p0 rs (PRecv k) -> placed p0 (rs ++ [r]) (k r).
Proof.
  intros [H|[H _]]; [|discriminate H]. left. apply sends_flush in H. cbn [flush snd] in H.
  rewrite (after_snoc rs p0 k r) by now symmetry. apply st_nil.
Qed.
Lemma placed_send p0 rs m k : placed p0 rs (PSend m k) -> placed p0 rs k.
Proof. intros [H|[H _]]; [|discriminate H]. left. exact (st_send _ _ _ H). Qed.
Lemma placed_part p0 rs m1 m2 k : placed p0 rs (PSend (m1 ++ m2) k) -> placed p0 rs (PSend m2 k).
Proof. intros [H|[H _]]; [|discriminate H]. left. exact (st_part _ _ _ _ H). Qed.
Lemma placed_fails p0 rs p : placed p0 rs p -> busy p -> placed p0 rs (PDone Panic).
Proof. intros [H|[-> _]] Hb; [|destruct Hb]. right. split; [reflexivity|]. now exists p. Qed.
Lemma placed_exec c0 s0 (n : net Er A) : exec (start c0 s0) n -> placed c0 (c_reads n) (cl n) /\ placed s0 (s_reads n) (sv n).
Proof.
  intros H. refine (exec_inv (fun n => placed c0 (c_reads n) (cl n) /\ placed s0 (s_reads n) (sv n)) _ _ _ H _).
  - intros n1 n2 Hs. destruct Hs; cbn [cl sv c_reads s_reads]; intros [Hc Hs]; split; try assumption;
      try (eapply placed_part; eassumption); try (eapply placed_send; eassumption); try (apply placed_recv; assumption);
      try (eapply placed_fails; [eassumption|exact I]).
  - cbn. split; left; apply st_nil.
Qed.
End After.

Section Failures.
Context (R : RGroup) (L : rgroup_laws R) (D : bytes -> bytes) (Dlen : forall m, length (D m) = 64).
Context (Tc Ts : Rng) (strong : bool) (X : example R Ts).
Context (c : AuCPaceClient Tc) (s : AuCPaceServer Ts) (ci_c ci_s : bytes) (rng : rng_state Tc).
Notation gc := (get_client R bincode strong K1).
Notation gs := (get_server R bincode strong K1).
Notation c0 := (client_thread R D Tc Ts strong X c ci_c rng).
Notation s0 := (server_thread R D Ts strong X s ci_s).

(** C62: in every execution, a server that ends with an error ends with the one that its messages call for: that of the
    augmentation layer, or the identity as public key, or the wrong authenticator for the keys exchanged. *)
Theorem C62_server_errors :
  forall n e, exec (start c0 s0) n -> sv n = PDone (Err e) ->
  exists q1 q2 rs cn j1 m j2,
    s_reads n = q1 :: q2 :: rs /\ gc q1 = Some (CNonce cn, j1) /\ gc q2 = Some (m, j2) /\
    (ex_info R Ts X (sal D Ts s cn) m = Err e \/
     exists ss M q3 rs' Y j3, ex_info R Ts X (sal D Ts s cn) m = Ok (ss, M) /\ rs = q3 :: rs' /\ gc q3 = Some (CPublicKey Y, j3) /\
       (Y = rzero R /\ e = IllegalPointError \/
        exists q4 rs'' a j4, Y <> rzero R /\ rs' = q4 :: rs'' /\ gc q4 = Some (CAuthenticator a, j4) /\
          a <> spec_Tb D (scs_ssid Ts ss) (D (word x02 ++ scs_ssid Ts ss ++ rcompress R (rmul Y (drawn Ts (scs_rng Ts ss))))) /\
          e = MutualAuthFail)).
Proof.
  intros n e He Hs.
  assert (G : good c0 s0 n) by (apply good_exec; [apply talks_client|apply talks_server|exact He]).
  assert (F : feed (s_reads n) s0 = (s_out n, PDone (Err e))).
  { apply follows_done; [discriminate|]. rewrite <- Hs. exact (g_s _ _ _ G). }
  apply (f_equal snd) in F. cbn [snd] in F. revert F. generalize (s_reads n). clear - L Dlen. intros rs.
  unfold server_thread. destruct (server_begin R Ts K1 s) as [[sess m0] s'] eqn:Eb.
  pose proof (server_begin_nonce R Ts s) as En. rewrite Eb in En. injection En as -> ->.
  rewrite feed_send_s. cbn [snd].
  destruct rs as [|q1 rs]; [discriminate|]. rewrite feed_recv_c.
  destruct (gc q1) as [[M1 j1]|] eqn:E1; [|rewrite feed_done; discriminate].
  destruct M1 as [cn| | | | | | ]; try (rewrite feed_done; discriminate).
  unfold server_agree_ssid. rewrite compute_ssid_eq. cbn [sse_nonce sse_secret]. fold (sal D Ts s cn).
  destruct rs as [|q2 rs]; [discriminate|]. rewrite feed_recv_c.
  destruct (gc q2) as [[m j2]|] eqn:E2; [|rewrite feed_done; discriminate].
  intros F. exists q1, q2, rs, cn, j1, m, j2. split; [reflexivity|]. split; [exact E1|]. split; [exact E2|]. revert F.
  destruct (ex_info R Ts X (sal D Ts s cn) m) as [[ss M]|e'|] eqn:Ei; cbn [try]; [|rewrite feed_done; intros F; injection F as ->; now left|rewrite feed_done; discriminate].
  rewrite feed_send_s. cbn [snd]. unfold server_generate_public_key. rewrite generate_keypair_eq. rewrite feed_send_s. cbn [snd].
  destruct rs as [|q3 rs]; [discriminate|]. rewrite feed_recv_c.
  destruct (gc q3) as [[M3 j3]|] eqn:E3; [|rewrite feed_done; discriminate].
  destruct M3 as [| | |Y| | | ]; try (rewrite feed_done; discriminate).
  intros F. right. exists ss, M, q3, rs, Y, j3. split; [reflexivity|]. split; [reflexivity|]. split; [exact E3|]. revert F.
  unfold receive_client_pubkey. destruct (is_identity Y) eqn:EY; cbn [try].
  { rewrite feed_done. intros F. injection F as <-. left. split; [now apply (is_identity_eq L)|reflexivity]. }
  cbn [src_ssid src_priv_key]. rewrite first_key_of. unfold sk1_of.
  destruct rs as [|q4 rs]; [discriminate|]. rewrite feed_recv_c.
  destruct (gc q4) as [[M4 j4]|] eqn:E4; [|rewrite feed_done; discriminate].
  destruct M4 as [| | | |a| | ]; try (rewrite feed_done; discriminate).
  intros F. right. exists q4, rs, a, j4. split; [now apply (is_identity_neq L)|]. split; [reflexivity|]. split; [exact E4|]. revert F.
  unfold receive_client_authenticator. rewrite authenticators_eq. cbn [sem_ssid sem_sk1].
  rewrite slice_ct_eqb. destruct (bytes_eqb _ a) eqn:Ea.
  - unfold spec_Ta. rewrite expect64_D by exact Dlen. cbn [obind try]. rewrite feed_send_s, feed_done. discriminate.
  - cbn [try]. rewrite feed_done. intros F. injection F as <-. split; [|reflexivity].
    intros ->. pose proof (proj2 (bytes_eqb_eq _ _) (eq_refl (spec_Tb D (scs_ssid Ts ss) (D (word x02 ++ scs_ssid Ts ss ++ rcompress R (rmul Y (drawn Ts (scs_rng Ts ss)))))))) as Hc.
    rewrite Hc in Ea. discriminate Ea.
Qed.

(** The same of a client. *)
Theorem C62_client_errors :
  forall n e, exec (start c0 s0) n -> cl n = PDone (Err e) ->
  exists r1 r2 rs n1 j1 st m2 M2 j2,
    c_reads n = r1 :: r2 :: rs /\ gs r1 = Some (SNonce n1, j1) /\
    ex_start R Ts X {| cpa_ssid := spec_ssid D n1 (nonce Tc (c_rng Tc c)) |} = Some (st, m2) /\ gs r2 = Some (M2, j2) /\
    (ex_finish R Ts X st M2 = Err e \/
     exists cs r3 rs' Y j3, ex_finish R Ts X st M2 = Ok cs /\ rs = r3 :: rs' /\ gs r3 = Some (SPublicKey Y, j3) /\
       (Y = rzero R /\ e = IllegalPointError \/
        exists r4 rs'' a j4, Y <> rzero R /\ rs' = r4 :: rs'' /\ gs r4 = Some (SAuthenticator a, j4) /\
          a <> spec_Ta D (ccs_ssid cs) (D (word x02 ++ ccs_ssid cs ++ rcompress R (rmul Y (drawn Tc rng)))) /\
          e = MutualAuthFail)).
Proof.
  intros n e He Hs.
  assert (G : good c0 s0 n) by (apply good_exec; [apply talks_client|apply talks_server|exact He]).
  assert (F : feed (c_reads n) c0 = (c_out n, PDone (Err e))).
  { apply follows_done; [discriminate|]. rewrite <- Hs. exact (g_c _ _ _ G). }
  apply (f_equal snd) in F. cbn [snd] in F. revert F. generalize (c_reads n). clear - L Dlen. intros rs.
  unfold client_thread. destruct (client_begin R Tc K1 c) as [[sess m] c'] eqn:Eb.
  pose proof (client_begin_nonce R Tc c) as En. rewrite Eb in En. injection En as -> ->.
  rewrite feed_send_c. cbn [snd].
  destruct rs as [|r1 rs]; [discriminate|]. rewrite feed_recv_s.
  destruct (gs r1) as [[M1 j1]|] eqn:E1; [|rewrite feed_done; discriminate].
  destruct M1 as [n1| | | | ]; try (rewrite feed_done; discriminate).
  unfold client_agree_ssid. rewrite compute_ssid_eq. cbn [cse_nonce].
  destruct (ex_start R Ts X _) as [[st m2]|] eqn:Est; [|rewrite feed_hang; discriminate].
  rewrite feed_send_c. cbn [snd]. destruct rs as [|r2 rs]; [discriminate|]. rewrite feed_recv_s.
  destruct (gs r2) as [[M2 j2]|] eqn:E2; [|rewrite feed_done; discriminate].
  intros F. exists r1, r2, rs, n1, j1, st, m2, M2, j2. split; [reflexivity|]. split; [exact E1|]. split; [exact Est|].
  split; [exact E2|]. revert F.
  destruct (ex_finish R Ts X st M2) as [cs|e'|] eqn:Ef; cbn [try]; [|rewrite feed_done; intros F; injection F as ->; now left|rewrite feed_done; discriminate].
  unfold client_generate_public_key. rewrite generate_keypair_eq.
  rewrite feed_send_c. cbn [snd]. destruct rs as [|r3 rs]; [discriminate|]. rewrite feed_recv_s.
  destruct (gs r3) as [[M3 j3]|] eqn:E3; [|rewrite feed_done; discriminate].
  destruct M3 as [| | |Y| ]; try (rewrite feed_done; discriminate).
  intros F. right. exists cs, r3, rs, Y, j3. split; [reflexivity|]. split; [reflexivity|]. split; [exact E3|]. revert F.
  unfold receive_server_pubkey. destruct (is_identity Y) eqn:EY; cbn [try].
  { rewrite feed_done. intros F. injection F as <-. left. split; [now apply (is_identity_eq L)|reflexivity]. }
  rewrite authenticators_eq. unfold spec_Tb at 1. rewrite expect64_D by exact Dlen. cbn [obind try].
  rewrite feed_send_c. cbn [snd]. destruct rs as [|r4 rs]; [discriminate|]. rewrite feed_recv_s.
  destruct (gs r4) as [[M4 j4]|] eqn:E4; [|rewrite feed_done; discriminate].
  destruct M4 as [| | | |a]; try (rewrite feed_done; discriminate).
  rewrite feed_done. cbn [snd]. unfold receive_server_authenticator. cbn [cem_server_authenticator cem_ssid cem_sk1 crs_ssid crs_priv_key].
  rewrite slice_ct_eqb, first_key_of. unfold sk1_of.
  destruct (bytes_eqb _ a) eqn:Ea; [discriminate|]. intros F. injection F as <-.
  right. exists r4, rs, a, j4. split; [now apply (is_identity_neq L)|]. split; [reflexivity|]. split; [exact E4|]. split; [|reflexivity].
  intros ->. pose proof (proj2 (bytes_eqb_eq _ _) (eq_refl (spec_Ta D (ccs_ssid cs) (D (word x02 ++ ccs_ssid cs ++ rcompress R (rmul Y (drawn Tc rng))))))) as Hc.
  rewrite Hc in Ea. discriminate Ea.
Qed.

(** The converse: a thread that has read messages that call for an error has ended with it. *)
Lemma after_send (m : bytes) k (rs : list bytes) : rs <> [] -> after_reads rs (PSend m k : proc Error bytes) = after_reads rs k.
Proof. destruct rs; [now intros []|]. intros _. cbn [after_reads flush]. now destruct (flush k). Qed.
Lemma after_recv_c q rs k : after_reads (q :: rs) (recv_client R strong k)
  = match gc q with Some (m, _) => after_reads rs (k m) | None => after_reads rs (PDone Panic) end.
Proof. unfold recv_client. cbn [after_reads flush snd]. now destruct (gc q) as [[m r]|]. Qed.
Lemma after_recv_s q rs k : after_reads (q :: rs) (recv_server R strong k)
  = match gs q with Some (m, _) => after_reads rs (k m) | None => after_reads rs (PDone Panic) end.
Proof. unfold recv_server. cbn [after_reads flush snd]. now destruct (gs q) as [[m r]|]. Qed.

Theorem C62_server_reports :
  forall n q1 q2 cn j1 m j2, exec (start c0 s0) n ->
  gc q1 = Some (CNonce cn, j1) -> gc q2 = Some (m, j2) ->
  (forall e, s_reads n = [q1; q2] -> ex_info R Ts X (sal D Ts s cn) m = Err e -> sv n = PDone (Err e)) /\
  (forall ss M q3 Y j3, ex_info R Ts X (sal D Ts s cn) m = Ok (ss, M) -> gc q3 = Some (CPublicKey Y, j3) ->
     (s_reads n = [q1; q2; q3] -> Y = rzero R -> sv n = PDone (Err IllegalPointError)) /\
     (forall q4 a j4, s_reads n = [q1; q2; q3; q4] -> Y <> rzero R -> gc q4 = Some (CAuthenticator a, j4) ->
        a <> spec_Tb D (scs_ssid Ts ss) (D (word x02 ++ scs_ssid Ts ss ++ rcompress R (rmul Y (drawn Ts (scs_rng Ts ss))))) ->
        sv n = PDone (Err MutualAuthFail))).
Proof.
  intros n q1 q2 cn j1 m j2 He E1 E2. destruct (placed_exec _ _ _ He) as [_ P].
  assert (A : forall rs, after_reads (q1 :: q2 :: rs) s0 = after_reads rs
    (try (ex_info R Ts X (sal D Ts s cn) m) (fun '(server, message) =>
      send_server R strong message (
      let '(server, message) := server_generate_public_key R D Ts server ci_s in
      send_server R strong message (
      recv_client R strong (fun client_message =>
      match client_message with
      | CPublicKey client_pubkey =>
          try (receive_client_pubkey R D server client_pubkey) (fun server =>
          recv_client R strong (fun client_message =>
          match client_message with
          | CAuthenticator client_authenticator =>
              try (receive_client_authenticator R D server client_authenticator) (fun '(key, message) =>
              send_server R strong message (PDone (Ok key)))
          | _ => PDone Panic
          end))
      | _ => PDone Panic
      end)))))).
  { intros rs. unfold server_thread. destruct (server_begin R Ts K1 s) as [[sess m0] s'] eqn:Eb.
    pose proof (server_begin_nonce R Ts s) as En. rewrite Eb in En. injection En as -> ->.
    unfold send_server at 1. rewrite after_send by discriminate. rewrite after_recv_c, E1.
    unfold server_agree_ssid. rewrite compute_ssid_eq. cbn [sse_nonce sse_secret]. fold (sal D Ts s cn).
    rewrite after_recv_c, E2. reflexivity. }
  split.
  - intros e Er Ei. rewrite Er in P. apply (placed_done _ _ _ _ P). rewrite A, Ei. reflexivity.
  - intros ss M q3 Y j3 Ei E3. unfold server_generate_public_key in A. rewrite Ei in A. cbn [try] in A.
    rewrite generate_keypair_eq in A. split.
    + intros Er ->. rewrite Er in P. apply (placed_done _ _ _ _ P). rewrite A.
      unfold send_server. rewrite !after_send by discriminate. rewrite after_recv_c, E3.
      unfold receive_client_pubkey. assert (is_identity (rzero R) = true) as -> by now apply (is_identity_eq L). reflexivity.
    + intros q4 a j4 Er HY E4 Ha. rewrite Er in P. apply (placed_done _ _ _ _ P). rewrite A.
      unfold send_server. rewrite !after_send by discriminate. rewrite after_recv_c, E3.
      unfold receive_client_pubkey. apply (is_identity_neq L) in HY. rewrite HY. cbn [try src_ssid src_priv_key].
      rewrite first_key_of. unfold sk1_of. rewrite after_recv_c, E4.
      unfold receive_client_authenticator. rewrite authenticators_eq. cbn [sem_ssid sem_sk1].
      rewrite slice_ct_eqb. destruct (bytes_eqb _ a) eqn:Ea; [|reflexivity].
      apply bytes_eqb_eq in Ea. now rewrite Ea in Ha.
Qed.

Theorem C62_client_reports :
  forall n r1 r2 n1 j1 st m2 M2 j2, exec (start c0 s0) n ->
  gs r1 = Some (SNonce n1, j1) ->
  ex_start R Ts X {| cpa_ssid := spec_ssid D n1 (nonce Tc (c_rng Tc c)) |} = Some (st, m2) -> gs r2 = Some (M2, j2) ->
  (forall e, c_reads n = [r1; r2] -> ex_finish R Ts X st M2 = Err e -> cl n = PDone (Err e)) /\
  (forall cs r3 Y j3, ex_finish R Ts X st M2 = Ok cs -> gs r3 = Some (SPublicKey Y, j3) ->
     (c_reads n = [r1; r2; r3] -> Y = rzero R -> cl n = PDone (Err IllegalPointError)) /\
     (forall r4 a j4, c_reads n = [r1; r2; r3; r4] -> Y <> rzero R -> gs r4 = Some (SAuthenticator a, j4) ->
        a <> spec_Ta D (ccs_ssid cs) (D (word x02 ++ ccs_ssid cs ++ rcompress R (rmul Y (drawn Tc rng)))) ->
        cl n = PDone (Err MutualAuthFail))).
Proof.
  intros n r1 r2 n1 j1 st m2 M2 j2 He E1 Est E2. destruct (placed_exec _ _ _ He) as [P _].
  assert (A : forall rs, after_reads (r1 :: r2 :: rs) c0 = after_reads rs
    (try (ex_finish R Ts X st M2) (fun client =>
          let '((client, message), _) := client_generate_public_key R D Tc client ci_c rng in
          send_client R strong message (
          recv_server R strong (fun server_message =>
          match server_message with
          | SPublicKey server_pubkey =>
              try (receive_server_pubkey R D client server_pubkey) (fun '(client, message) =>
              send_client R strong message (
              recv_server R strong (fun server_message =>
              match server_message with
              | SAuthenticator server_authenticator =>
                  PDone (receive_server_authenticator D client server_authenticator)
              | _ => PDone Panic
              end)))
          | _ => PDone Panic
          end))))).
  { intros rs. unfold client_thread. destruct (client_begin R Tc K1 c) as [[sess m] c'] eqn:Eb.
    pose proof (client_begin_nonce R Tc c) as En. rewrite Eb in En. injection En as -> ->.
    unfold send_client at 1. rewrite after_send by discriminate. rewrite after_recv_s, E1.
    unfold client_agree_ssid. rewrite compute_ssid_eq. cbn [cse_nonce]. rewrite Est.
    unfold send_client at 1. rewrite after_send by discriminate. rewrite after_recv_s, E2. reflexivity. }
  split.
  - intros e Er Ei. rewrite Er in P. apply (placed_done _ _ _ _ P). rewrite A, Ei. reflexivity.
  - intros cs r3 Y j3 Ei E3. unfold client_generate_public_key in A. rewrite Ei in A. cbn [try] in A.
    rewrite generate_keypair_eq in A. split.
    + intros Er ->. rewrite Er in P. apply (placed_done _ _ _ _ P). rewrite A.
      unfold send_client at 1. rewrite after_send by discriminate. rewrite after_recv_s, E3.
      unfold receive_server_pubkey. assert (is_identity (rzero R) = true) as -> by now apply (is_identity_eq L). reflexivity.
    + intros r4 a j4 Er HY E4 Ha. rewrite Er in P. apply (placed_done _ _ _ _ P). rewrite A.
      unfold send_client at 1. rewrite after_send by discriminate. rewrite after_recv_s, E3.
      unfold receive_server_pubkey. apply (is_identity_neq L) in HY. rewrite HY.
      rewrite authenticators_eq. unfold spec_Tb at 1. rewrite expect64_D by exact Dlen. cbn [obind try].
      unfold send_client. rewrite after_send by discriminate. rewrite after_recv_s, E4.
      cbn [after_reads]. f_equal. unfold receive_server_authenticator. cbn [cem_server_authenticator cem_ssid cem_sk1 crs_ssid crs_priv_key].
      rewrite slice_ct_eqb, first_key_of. unfold sk1_of.
      destruct (bytes_eqb _ a) eqn:Ea; [|reflexivity]. apply bytes_eqb_eq in Ea. now rewrite Ea in Ha.
Qed.

(** An execution that is refused, with one message in each read. *)
Lemma tcp_refused st m ss M cs : example_laws R Ts strong X ->
  ex_start R Ts X {| cpa_ssid := the_ssid D Tc Ts c s |} = Some (st, m) ->
  ex_info R Ts X (sal D Ts s (nonce Tc (c_rng Tc c))) m = Ok (ss, M) -> ex_finish R Ts X st M = Ok cs ->
  run_explicit R D Tc Ts cs ss ci_c ci_s rng = Err MutualAuthFail ->
  length (put_client R bincode strong m) <= BUF -> length (put_server R bincode strong M) <= BUF ->
  exists n, exec (start c0 s0) n /\
    (sv n = PDone (Err MutualAuthFail) /\ cl n = PDone Panic \/
     cl n = PDone (Err MutualAuthFail) /\ exists key, sv n = PDone (Ok key)).
Proof.
  intros EL Est Ei Ef Hrun Bm BM.
  destruct (el_client_valid _ _ _ _ EL _ _ _ Est) as [mh mv]. destruct (el_server_valid _ _ _ _ EL _ _ _ _ Ei) as [Mh Mv].
  unfold run_explicit, run_keys in Hrun. unfold server_generate_public_key, client_generate_public_key in Hrun.
  rewrite !generate_keypair_eq in Hrun. cbn [obind] in Hrun.
  set (Yc := rmul (spec_G R D (ccs_ssid cs) _ _) _) in Hrun. set (Ys := rmul (spec_G R D (scs_ssid Ts ss) _ _) _) in Hrun.
  destruct (receive_client_pubkey R D _ Yc) as [se|e|] eqn:Ese; [|exfalso|discriminate Hrun].
  2: { unfold receive_client_pubkey in Ese. destruct (is_identity Yc); [|discriminate Ese]. injection Ese as <-. discriminate Hrun. }
  cbn [obind] in Hrun.
  destruct (receive_server_pubkey R D _ Ys) as [[ce mc]|e|] eqn:Ece; [|exfalso|discriminate Hrun].
  2: { unfold receive_server_pubkey in Ece. destruct (is_identity Ys); [injection Ece as <-; discriminate Hrun|].
       rewrite authenticators_eq in Ece. unfold spec_Tb at 1 in Ece. rewrite expect64_D in Ece by exact Dlen. discriminate Ece. }
  cbn [obind] in Hrun.
  pose proof (C48_client_authenticator_valid R D Dlen K1 _ _ _ _ Ece) as Vc.
  destruct mc as [ | | | |ca| | ]; try discriminate Hrun.
  assert (P : exists co so cr sr, exec (start c0 s0)
    (Build_net (recv_server R strong (fun server_message => match server_message with
        | SAuthenticator a => PDone (receive_server_authenticator D ce a) | _ => PDone Panic end))
      (try (receive_client_authenticator R D se ca) (fun '(key, message) => send_server R strong message (PDone (Ok key))))
      [] [] co so cr sr)).
  { do 4 eexists. unfold start, client_thread, server_thread.
    destruct (client_begin R Tc K1 c) as [[sess m0] c'] eqn:Eb.
    pose proof (client_begin_nonce R Tc c) as En. rewrite Eb in En. injection En as -> ->.
    destruct (server_begin R Ts K1 s) as [[ses' m1] s'] eqn:Eb'.
    pose proof (server_begin_nonce R Ts s) as En. rewrite Eb' in En. injection En as -> ->.
    unfold send_client, send_server, recv_client, recv_server.
    eapply ex_step; [apply c_send|]. eapply ex_step; [apply s_send|]. cbn [app].
    eapply ex_step; [apply c_read_all; rewrite ps_nonce_length by apply nonce_length; unfold BUF; lia|].
    cbv beta. rewrite (gs_put R L strong) by (reflexivity || apply nonce_s_valid).
    eapply ex_step; [apply s_read_all; rewrite pc_nonce_length by apply nonce_length; unfold BUF; lia|].
    cbv beta. rewrite (gc_put R L strong) by (reflexivity || apply nonce_c_valid). cbv zeta.
    unfold client_agree_ssid, server_agree_ssid. rewrite !compute_ssid_eq. cbn [cse_nonce sse_nonce sse_secret].
    fold (the_ssid D Tc Ts c s). rewrite Est.
    eapply ex_step; [apply c_send|]. rewrite app_nil_l.
    eapply ex_step; [apply s_read_all; pose proof (pc_nonempty R strong m); lia|].
    cbv beta. rewrite (gc_put R L strong m mh mv), compute_ssid_eq. fold (sal D Ts s (nonce Tc (c_rng Tc c))). rewrite Ei. cbn [try].
    eapply ex_step; [apply s_send|]. rewrite app_nil_l.
    unfold server_generate_public_key at 1. rewrite generate_keypair_eq. fold Ys.
    eapply ex_step; [apply s_send|].
    eapply ex_step; [apply c_recv; pose proof (ps_nonempty R strong M); lia|].
    cbv beta. rewrite (gs_put R L strong M Mh Mv), Ef. cbn [try].
    unfold client_generate_public_key at 1. rewrite generate_keypair_eq. fold Yc.
    eapply ex_step; [apply c_send|]. rewrite app_nil_l.
    eapply ex_step; [apply s_read_all; rewrite (pc_key_length R L strong); unfold BUF; lia|].
    cbv beta. rewrite (gc_put R L strong) by (reflexivity || exact I). rewrite Ese. cbn [try].
    eapply ex_step; [apply c_read_all; rewrite (ps_key_length R L strong); unfold BUF; lia|].
    cbv beta. rewrite (gs_put R L strong) by (reflexivity || exact I). rewrite Ece. cbn [try].
    eapply ex_step; [apply c_send|]. rewrite app_nil_l.
    eapply ex_step; [apply s_read_all; rewrite (pc_auth_length R strong ca Vc); unfold BUF; lia|].
    cbv beta. rewrite (gc_put R L strong) by (reflexivity || exact Vc). apply ex_nil. }
  destruct P as (co & so & cr & sr & P).
  destruct (receive_client_authenticator R D se ca) as [[ks msg_s]|e|] eqn:Eca; cbn [obind] in Hrun; [| |discriminate Hrun].
  - pose proof (C48_server_authenticator_valid R D Dlen K1 _ _ _ _ Eca) as Vs.
    destruct msg_s as [ | | | |sa]; try discriminate Hrun.
    destruct (receive_server_authenticator D ce sa) as [kc|e|] eqn:Esa; cbn [obind] in Hrun; try discriminate Hrun.
    injection Hrun as ->.
    eexists. split.
    { eapply exec_trans; [exact P|]. cbn [try]. unfold send_server, recv_server.
      eapply ex_step; [apply s_send|]. rewrite app_nil_l.
      eapply ex_step; [apply c_read_all; rewrite (ps_auth_length R strong sa Vs); unfold BUF; lia|].
      cbv beta. rewrite (gs_put R L strong) by (reflexivity || exact Vs). rewrite Esa. apply ex_nil. }
    right. cbn [cl sv]. split; [reflexivity|]. now exists ks.
  - injection Hrun as ->. eexists. split.
    { eapply exec_trans; [exact P|]. cbn [try]. unfold recv_server. eapply ex_step; [apply c_recv_fails|]. apply ex_nil. }
    left. cbn [cl sv]. auto.
Qed.
End Failures.

(** C62: if the protocol run with whole messages is refused (as it is for a wrong password), there is an execution of the
    threads that is refused: the server reports the failure and closes the connection, which the client reports by a
    panic.  (The other case: the server accepted by a collision, and the client reports the failure.) *)
Theorem C62_refused :
  forall (R : RGroup) (L : rgroup_laws R) (D : bytes -> bytes) (Dlen : forall m, length (D m) = 64)
    (Params : Type) (params_of : bytes -> res Params) (Tc Ts : Rng) (user pass : bytes) (h : hasher Params) (rngs : rng_state Ts)
    strong X (c : AuCPaceClient Tc) (s : AuCPaceServer Ts) ci_c ci_s (rng : rng_state Tc) st m ss M cs,
  tcp_example R D Params params_of Tc Ts user pass h rngs strong X -> small user ->
  ex_start R Ts X {| cpa_ssid := the_ssid D Tc Ts c s |} = Some (st, m) ->
  ex_info R Ts X (sal D Ts s (nonce Tc (c_rng Tc c))) m = Ok (ss, M) -> ex_finish R Ts X st M = Ok cs ->
  run_explicit R D Tc Ts cs ss ci_c ci_s rng = Err MutualAuthFail ->
  length (put_client R bincode strong m) <= BUF ->
  exists n, exec (start (client_thread R D Tc Ts strong X c ci_c rng) (server_thread R D Ts strong X s ci_s)) n /\
    (sv n = PDone (Err MutualAuthFail) /\ cl n = PDone Panic \/
     cl n = PDone (Err MutualAuthFail) /\ exists key, sv n = PDone (Ok key)).
Proof.
  intros R L D Dlen Params params_of Tc Ts user pass h rngs strong X c s ci_c ci_s rng st m ss M cs HX Hu E1 E2 E3 E4 Hm.
  destruct (tcp_example_laws R D Dlen Params params_of Tc Ts user pass h rngs strong X HX Hu) as [EL Hs].
  apply (tcp_refused R L D Dlen Tc Ts strong X c s ci_c ci_s rng st m ss M cs EL E1 E2 E3 E4 Hm).
  exact (short_reply_fits R L D Dlen Params params_of strong M (Hs _ _ _ _ E2)).
Qed.

(** Case: alice with the wrong password. *)
Definition wrong_example : example ToyGroup tape_rng :=
  key_agreement ToyGroup toyD tape_rng bytes toy_params_of alice wrong toy_hash (toy_tape 3001 3002) (AssocDb ToyGroup) toy_db.
Definition wrong_run : bool :=
  match ex_start ToyGroup tape_rng wrong_example {| cpa_ssid := the_ssid toyD tape_rng tape_rng toy_client toy_server |} with
  | Some (st, m) =>
      match ex_info ToyGroup tape_rng wrong_example (sal toyD tape_rng toy_server (nonce tape_rng (c_rng tape_rng toy_client))) m with
      | Ok (ss, M) =>
          match ex_finish ToyGroup tape_rng wrong_example st M with
          | Ok cs => auth_failed (run_explicit ToyGroup toyD tape_rng tape_rng cs ss channel channel (toy_tape 4001 4002))
              && (length (put_client ToyGroup bincode false m) <=? BUF)
          | _ => false
          end
      | _ => false
      end
  | None => false
  end.
Check (test wrong_run true).
(** A server that reads an authenticator of zeros, and one that reads the identity. *)
Definition reads_of (last : list (ClientMessage ToyGroup)) : list bytes :=
  map (put_client ToyGroup bincode false)
    ([CNonce (repeat x05 16); CUsername alice] ++ last).
Definition ended {A} (p : proc Error A) : res A := match p with PDone r => r | _ => Panic end.
Check (test (auth_failed (ended (snd (feed (reads_of [CPublicKey (rbase ToyGroup); CAuthenticator (repeat x00 64)]) toy_sv)))) true).
Check (test (illegal_point (ended (snd (feed (reads_of [CPublicKey (rzero ToyGroup)]) toy_sv)))) true).
