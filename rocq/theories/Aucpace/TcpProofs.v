(** * What the two threads of the TCP examples can do *)
From Coq Require Import ZArith Lia.
From Verif Require Import Base.Bytes Base.Outcome Base.Rng.
From Verif Require Import Curve.Scalar25519 Aucpace.RistrettoGroup Aucpace.PwHash Aucpace.AucpaceModel
  Aucpace.AucpaceSpec Aucpace.AucpaceProofs Aucpace.AucpaceRun Aucpace.Wire Aucpace.WireProofs Aucpace.AucpaceProps3
  Aucpace.Net Aucpace.TcpExample.
Local Open Scope nat_scope.

Section Feed.
Context {Er A : Type}.
Implicit Types (p : proc Er A) (rs : list bytes).

Lemma feed_send rs m p : feed rs (PSend m p) = (m ++ fst (feed rs p), snd (feed rs p)).
Proof.
  destruct rs as [|r rs]; cbn.
  - now destruct (flush p).
  - destruct (flush p) as [o q]. destruct q; try reflexivity. destruct (feed rs (k r)). cbn. now rewrite app_assoc.
Qed.
Lemma feed_recv r rs (k : bytes -> proc Er A) : feed (r :: rs) (PRecv k) = feed rs (k r).
Proof. cbn. now destruct (feed rs (k r)). Qed.
Lemma feed_recv0 (k : bytes -> proc Er A) : feed [] (PRecv k) = ([], PRecv k).
Proof. reflexivity. Qed.
Lemma feed_done rs r : feed rs (PDone r) = ([], @PDone Er A r).
Proof. now destruct rs. Qed.
Lemma feed_hang rs : feed rs PHang = ([], @PHang Er A).
Proof. now destruct rs. Qed.
Lemma feed_begins rs p : exists w, fst (feed rs p) = fst (feed [] p) ++ w.
Proof.
  destruct rs as [|r rs]; cbn.
  - exists []. now rewrite app_nil_r.
  - destruct (flush p) as [o q]. destruct q; try (exists []; cbn; now rewrite app_nil_r).
    destruct (feed rs (k r)) as [o' q']. cbn. now exists o'.
Qed.
End Feed.

Section Threads.
Context (R : RGroup) (L : rgroup_laws R) (D : bytes -> bytes) (Dlen : forall m, length (D m) = 64).
Context (Tc Ts : Rng) (strong : bool) (X : example R Ts).
Notation thread := (proc Error bytes).
Notation pc := (put_client R bincode strong).
Notation ps := (put_server R bincode strong).
Notation gc := (get_client R bincode strong K1).
Notation gs := (get_server R bincode strong K1).

Lemma pc_nonempty m : 4 <= length (pc m).
Proof. unfold put_client. rewrite app_length. cbn [bincode put_tag]. rewrite le_bytes_length. lia. Qed.
Lemma ps_nonempty m : 4 <= length (ps m).
Proof. unfold put_server. rewrite app_length. cbn [bincode put_tag]. rewrite le_bytes_length. lia. Qed.
Lemma pb_length b : length (put_bytes bincode b) = 8 + length b.
Proof. unfold put_bytes. rewrite app_length. cbn [bincode put_len]. now rewrite le_bytes_length. Qed.
Lemma pc_nonce_length n : length n = K1 -> length (pc (CNonce n)) = 28.
Proof. intros H. unfold put_client. rewrite app_length, pb_length, H. cbn [bincode put_tag]. now rewrite le_bytes_length. Qed.
Lemma ps_nonce_length n : length n = K1 -> length (ps (SNonce n)) = 28.
Proof. intros H. unfold put_server. rewrite app_length, pb_length, H. cbn [bincode put_tag]. now rewrite le_bytes_length. Qed.
Lemma pc_key_length P : length (pc (CPublicKey P)) = 36.
Proof. unfold put_client, put_point. rewrite app_length, (rl_length R L). cbn [bincode put_tag]. now rewrite le_bytes_length. Qed.
Lemma ps_key_length P : length (ps (SPublicKey P)) = 36.
Proof. unfold put_server, put_point. rewrite app_length, (rl_length R L). cbn [bincode put_tag]. now rewrite le_bytes_length. Qed.
Lemma pc_auth_length a : length a = 64 -> length (pc (CAuthenticator a)) = 76.
Proof. intros H. unfold put_client. rewrite app_length, pb_length, H. cbn [bincode put_tag]. now rewrite le_bytes_length. Qed.
Lemma ps_auth_length a : length a = 64 -> length (ps (SAuthenticator a)) = 76.
Proof. intros H. unfold put_server. rewrite app_length, pb_length, H. cbn [bincode put_tag]. now rewrite le_bytes_length. Qed.

Lemma pc_ne m : pc m <> [].
Proof. intros E. pose proof (pc_nonempty m) as H. rewrite E in H. cbn in H. lia. Qed.
Lemma ps_ne m : ps m <> [].
Proof. intros E. pose proof (ps_nonempty m) as H. rewrite E in H. cbn in H. lia. Qed.

Lemma feed_recv_c q rs k : feed (q :: rs) (recv_client R strong k)
  = match gc q with Some (m, _) => feed rs (k m) | None => feed rs (PDone Panic) end.
Proof. unfold recv_client. rewrite feed_recv. now destruct (gc q) as [[m r]|]. Qed.
Lemma feed_recv_s q rs k : feed (q :: rs) (recv_server R strong k)
  = match gs q with Some (m, _) => feed rs (k m) | None => feed rs (PDone Panic) end.
Proof. unfold recv_server. rewrite feed_recv. now destruct (gs q) as [[m r]|]. Qed.
Lemma feed0_recv_c k : exists k', feed [] (recv_client R strong k) = ([], PRecv k').
Proof. eexists. reflexivity. Qed.
Lemma feed0_recv_s k : exists k', feed [] (recv_server R strong k) = ([], PRecv k').
Proof. eexists. reflexivity. Qed.
Lemma feed_send_c rs m p : feed rs (send_client R strong m p) = (pc m ++ fst (feed rs p), snd (feed rs p)).
Proof. apply feed_send. Qed.
Lemma feed_send_s rs m p : feed rs (send_server R strong m p) = (ps m ++ fst (feed rs p), snd (feed rs p)).
Proof. apply feed_send. Qed.

(** *** The threads write no empty message *)
Lemma talks_recv_c k : (forall m, talks (k m)) -> talks (recv_client R strong k).
Proof. intros H b. cbn. destruct (gc b) as [[m r]|]; [apply H|exact I]. Qed.
Lemma talks_recv_s k : (forall m, talks (k m)) -> talks (recv_server R strong k).
Proof. intros H b. cbn. destruct (gs b) as [[m r]|]; [apply H|exact I]. Qed.
Lemma talks_try {A} (r : res A) k : (forall a, r = Ok a -> talks (k a)) -> talks (try r k).
Proof. intros H. destruct r; cbn; auto. Qed.

Lemma talks_server s ci : talks (server_thread R D Ts strong X s ci).
Proof.
  unfold server_thread. destruct (server_begin R Ts K1 s) as [[sess m] s'].
  split; [apply ps_ne|]. apply talks_recv_c. intros [n| | | | | | ]; try exact I.
  apply talks_recv_c. intros m2. apply talks_try. intros [ss aug] _. split; [apply ps_ne|].
  destruct (server_generate_public_key R D Ts ss ci) as [sk mk]. split; [apply ps_ne|].
  apply talks_recv_c. intros [| | |P| | | ]; try exact I. apply talks_try. intros se _.
  apply talks_recv_c. intros [| | | |a| | ]; try exact I. apply talks_try. intros [key m3] _. split; [apply ps_ne|exact I].
Qed.
Lemma talks_client c ci rng : talks (client_thread R D Tc Ts strong X c ci rng).
Proof.
  unfold client_thread. destruct (client_begin R Tc K1 c) as [[sess m] c'].
  split; [apply pc_ne|]. apply talks_recv_s. intros [n| | | | ]; try exact I.
  destruct (ex_start R Ts X _) as [[st m2]|]; [|exact I]. split; [apply pc_ne|].
  apply talks_recv_s. intros m3. apply talks_try. intros cs _.
  destruct (client_generate_public_key R D Tc cs ci rng) as [[ck mk] r']. split; [apply pc_ne|].
  apply talks_recv_s. intros [| | |P| ]; try exact I. apply talks_try. intros [ce m4] _. split; [apply pc_ne|].
  apply talks_recv_s. intros [| | | |a]; exact I.
Qed.

(** *** Values *)
Definition nonce (T : Rng) (st : rng_state T) : bytes := fst (rng_fill T K1 st).
Lemma nonce_length T st : length (nonce T st) = K1.
Proof. apply rng_fill_length. Qed.
Lemma nonce_small T st : small (nonce T st).
Proof. apply short_small. rewrite nonce_length. unfold K1. lia. Qed.

Lemma server_begin_nonce s : fst (server_begin R Ts K1 s)
  = ({| sse_secret := s_secret Ts s; sse_nonce := nonce Ts (s_rng Ts s) |}, SNonce (nonce Ts (s_rng Ts s))).
Proof. unfold server_begin, generate_nonce, nonce. now destruct (rng_fill Ts K1 (s_rng Ts s)). Qed.
Lemma client_begin_nonce c : fst (client_begin R Tc K1 c)
  = ({| cse_nonce := nonce Tc (c_rng Tc c) |}, CNonce (nonce Tc (c_rng Tc c))).
Proof. unfold client_begin, generate_nonce, nonce. now destruct (rng_fill Tc K1 (c_rng Tc c)). Qed.

(** The first session key of a party from its private key and the public key it received. *)
Definition sk1_of (ssid : bytes) (y : scalar) (Y : pt R) : bytes := D (word x02 ++ ssid ++ rcompress R (rmul Y y)).

Lemma first_key_of ssid y Y : compute_first_session_key R D ssid y Y = sk1_of ssid y Y.
Proof. unfold compute_first_session_key, sk1_of, finalize, update. now rewrite <- app_assoc. Qed.

Definition sal (s : AuCPaceServer Ts) (cn : bytes) : AuCPaceServerAugLayer :=
  {| sal_secret := s_secret Ts s; sal_ssid := spec_ssid D (nonce Ts (s_rng Ts s)) cn |}.

(** *** A client that has ended with a key *)
Lemma client_ended c ci rng rs kc :
  snd (feed rs (client_thread R D Tc Ts strong X c ci rng)) = PDone (Ok kc) ->
  exists r1 r2 r3 r4 rs' n1 j1 st m2 M2 j2 cs Y j3 j4,
    rs = r1 :: r2 :: r3 :: r4 :: rs' /\
    gs r1 = Some (SNonce n1, j1) /\
    ex_start R Ts X {| cpa_ssid := spec_ssid D n1 (nonce Tc (c_rng Tc c)) |} = Some (st, m2) /\
    gs r2 = Some (M2, j2) /\ ex_finish R Ts X st M2 = Ok cs /\
    gs r3 = Some (SPublicKey Y, j3) /\ is_identity Y = false /\
    gs r4 = Some (SAuthenticator (spec_Ta D (ccs_ssid cs) (sk1_of (ccs_ssid cs) (drawn Tc rng) Y)), j4) /\
    kc = spec_sk D (ccs_ssid cs) (sk1_of (ccs_ssid cs) (drawn Tc rng) Y).
Proof.
  unfold client_thread. destruct (client_begin R Tc K1 c) as [[sess m] c'] eqn:Eb.
  pose proof (client_begin_nonce c) as En. rewrite Eb in En. injection En as -> ->.
  rewrite feed_send_c. cbn [snd].
  destruct rs as [|r1 rs]; [discriminate|]. rewrite feed_recv_s.
  destruct (gs r1) as [[M1 j1]|] eqn:E1; [|rewrite feed_done; discriminate].
  destruct M1 as [n1| | | | ]; try (rewrite feed_done; discriminate).
  unfold client_agree_ssid. rewrite compute_ssid_eq. cbn [cse_nonce].
  destruct (ex_start R Ts X _) as [[st m2]|] eqn:Est; [|rewrite feed_hang; discriminate].
  rewrite feed_send_c. cbn [snd]. destruct rs as [|r2 rs]; [discriminate|]. rewrite feed_recv_s.
  destruct (gs r2) as [[M2 j2]|] eqn:E2; [|rewrite feed_done; discriminate].
  destruct (ex_finish R Ts X st M2) as [cs|e|] eqn:Ef; cbn [try]; try (rewrite feed_done; discriminate).
  unfold client_generate_public_key. rewrite generate_keypair_eq.
  rewrite feed_send_c. cbn [snd]. destruct rs as [|r3 rs]; [discriminate|]. rewrite feed_recv_s.
  destruct (gs r3) as [[M3 j3]|] eqn:E3; [|rewrite feed_done; discriminate].
  destruct M3 as [| | |Y| ]; try (rewrite feed_done; discriminate).
  unfold receive_server_pubkey. destruct (is_identity Y) eqn:EY; [cbn [try]; rewrite feed_done; discriminate|].
  rewrite authenticators_eq. unfold spec_Tb at 1. rewrite expect64_D by exact Dlen. cbn [obind try].
  rewrite feed_send_c. cbn [snd]. destruct rs as [|r4 rs]; [discriminate|]. rewrite feed_recv_s.
  destruct (gs r4) as [[M4 j4]|] eqn:E4; [|rewrite feed_done; discriminate].
  destruct M4 as [| | | |a]; try (rewrite feed_done; discriminate).
  rewrite feed_done. cbn [snd]. unfold receive_server_authenticator. cbn [cem_server_authenticator cem_ssid cem_sk1 crs_ssid crs_priv_key].
  rewrite slice_ct_eqb, first_key_of.
  destruct (bytes_eqb _ a) eqn:Ea; [|discriminate]. apply bytes_eqb_eq in Ea. rewrite session_key_eq.
  intros E. injection E as <-. subst a.
  exists r1, r2, r3, r4, rs, n1, j1, st, m2, M2, j2, cs, Y, j3, j4. auto 20.
Qed.

(** *** What a server has written *)
Lemma server_wrote s ci rs :
  let p := server_thread R D Ts strong X s ci in
  let N := ps (SNonce (nonce Ts (s_rng Ts s))) in
  fst (feed rs p) = N \/
  exists q1 q2 rs' n j1 u j2 ss aug,
    rs = q1 :: q2 :: rs' /\ gc q1 = Some (CNonce n, j1) /\ gc q2 = Some (u, j2) /\
    ex_info R Ts X (sal s n) u = Ok (ss, aug) /\
    (fst (feed rs p) = N ++ ps aug ++ ps (snd (server_generate_public_key R D Ts ss ci)) \/
     exists q3 q4 rs'' Y j3 ca j4,
       let sk1 := sk1_of (scs_ssid Ts ss) (drawn Ts (scs_rng Ts ss)) Y in
       rs' = q3 :: q4 :: rs'' /\ gc q3 = Some (CPublicKey Y, j3) /\ is_identity Y = false /\
       gc q4 = Some (CAuthenticator ca, j4) /\ ca = spec_Tb D (scs_ssid Ts ss) sk1 /\
       feed rs p = (N ++ ps aug ++ ps (snd (server_generate_public_key R D Ts ss ci)) ++
                    ps (SAuthenticator (spec_Ta D (scs_ssid Ts ss) sk1)),
                    PDone (Ok (spec_sk D (scs_ssid Ts ss) sk1)))).
Proof.
  cbv zeta. unfold server_thread. destruct (server_begin R Ts K1 s) as [[sess m] s'] eqn:Eb.
  pose proof (server_begin_nonce s) as En. rewrite Eb in En. injection En as -> ->.
  rewrite feed_send_s. cbn [fst].
  set (N := ps _). assert (EN : N = N ++ []) by now rewrite app_nil_r.
  destruct rs as [|q1 rs]; [left; now rewrite EN at 2|]. rewrite feed_recv_c.
  destruct (gc q1) as [[M1 j1]|] eqn:E1; [|left; rewrite feed_done; now rewrite EN at 2].
  destruct M1 as [n| | | | | | ]; try (left; rewrite feed_done; now rewrite EN at 2).
  unfold server_agree_ssid. rewrite compute_ssid_eq. cbn [sse_nonce sse_secret]. fold (sal s n).
  destruct rs as [|q2 rs]; [left; now rewrite EN at 2|]. rewrite feed_recv_c.
  destruct (gc q2) as [[u j2]|] eqn:E2; [|left; rewrite feed_done; now rewrite EN at 2].
  destruct (ex_info R Ts X (sal s n) u) as [[ss aug]|e|] eqn:Ei; cbn [try]; try (left; rewrite feed_done; now rewrite EN at 2).
  right. exists q1, q2, rs, n, j1, u, j2, ss, aug. split; [reflexivity|]. split; [exact E1|]. split; [exact E2|].
  split; [exact Ei|]. rewrite feed_send_s. cbn [fst snd].
  unfold server_generate_public_key. rewrite generate_keypair_eq. cbn [snd].
  rewrite feed_send_s. cbn [fst snd]. set (K := ps (SPublicKey _)).
  assert (EK : K = K ++ []) by now rewrite app_nil_r.
  destruct rs as [|q3 rs]; [left; now rewrite EK at 2|]. rewrite feed_recv_c.
  destruct (gc q3) as [[M3 j3]|] eqn:E3; [|left; rewrite feed_done; now rewrite EK at 2].
  destruct M3 as [| | |Y| | | ]; try (left; rewrite feed_done; now rewrite EK at 2).
  unfold receive_client_pubkey. destruct (is_identity Y) eqn:EY; [left; cbn [try]; rewrite feed_done; now rewrite EK at 2|].
  cbn [try src_ssid src_priv_key]. rewrite first_key_of.
  destruct rs as [|q4 rs]; [left; now rewrite EK at 2|]. rewrite feed_recv_c.
  destruct (gc q4) as [[M4 j4]|] eqn:E4; [|left; rewrite feed_done; now rewrite EK at 2].
  destruct M4 as [| | | |ca| | ]; try (left; rewrite feed_done; now rewrite EK at 2).
  unfold receive_client_authenticator. rewrite authenticators_eq. cbn [sem_ssid sem_sk1].
  rewrite slice_ct_eqb. destruct (bytes_eqb _ ca) eqn:Ea; [|left; cbn [try]; rewrite feed_done; now rewrite EK at 2].
  apply bytes_eqb_eq in Ea. 
  assert (E64 : forall a b, @expect64 Error (spec_Ta D a b) = Ok (spec_Ta D a b)) by (intros; exact (expect64_D D Dlen _)).
  rewrite !E64. cbn [obind try]. rewrite !session_key_eq.
  right. exists q3, q4, rs, Y, j3, ca, j4. cbv zeta. split; [reflexivity|]. split; [exact E3|]. split; [exact EY|].
  split; [exact E4|]. split; [now symmetry|].
  rewrite feed_send_s, feed_done. cbn [fst snd]. now rewrite app_nil_r.
Qed.

(** *** Facts of the three programs *)
Record example_laws : Prop := {
  el_client_ssid : forall c st m M cs,
    ex_start R Ts X c = Some (st, m) -> ex_finish R Ts X st M = Ok cs -> ccs_ssid cs = cpa_ssid c;
  el_server_ssid : forall s m ss M, ex_info R Ts X s m = Ok (ss, M) -> scs_ssid Ts ss = sal_ssid s;
  el_client_valid : forall c st m,
    ex_start R Ts X c = Some (st, m) -> client_has R strong m = true /\ client_valid R K1 m;
  el_server_valid : forall s m ss M,
    ex_info R Ts X s m = Ok (ss, M) -> server_has R strong M = true /\ server_valid R K1 M
}.
Context (EL : example_laws).
Context (c : AuCPaceClient Tc) (s : AuCPaceServer Ts) (ci_c ci_s : bytes) (rng : rng_state Tc).
Notation c0 := (client_thread R D Tc Ts strong X c ci_c rng).
Notation s0 := (server_thread R D Ts strong X s ci_s).
Notation Nc := (nonce Tc (c_rng Tc c)).
Notation Ns := (nonce Ts (s_rng Ts s)).

Definition starts_with (a b : bytes) : Prop := exists r, b = a ++ r.

Lemma client_before_first_read : exists k, feed [] c0 = (pc (CNonce Nc), PRecv k).
Proof.
  unfold client_thread. destruct (client_begin R Tc K1 c) as [[sess m] c'] eqn:Eb.
  pose proof (client_begin_nonce c) as En. rewrite Eb in En. injection En as -> ->.
  rewrite feed_send_c. match goal with |- context [feed [] (recv_server R strong ?k)] => destruct (feed0_recv_s k) as [k' Ek]; rewrite Ek end.
  cbn [fst snd]. rewrite app_nil_r. now exists k'.
Qed.
Lemma server_before_first_read : exists k, feed [] s0 = (ps (SNonce Ns), PRecv k).
Proof.
  unfold server_thread. destruct (server_begin R Ts K1 s) as [[sess m] s'] eqn:Eb.
  pose proof (server_begin_nonce s) as En. rewrite Eb in En. injection En as -> ->.
  rewrite feed_send_s. match goal with |- context [feed [] (recv_client R strong ?k)] => destruct (feed0_recv_c k) as [k' Ek]; rewrite Ek end.
  cbn [fst snd]. rewrite app_nil_r. now exists k'.
Qed.

(** Until the client has read something the server has written no more than its nonce, so the client's
    first read is not longer. *)
Definition first_read (n : net Error bytes) : Prop :=
  cl n = PDone Panic \/
  match c_reads n with
  | [] => starts_with (s_out n) (ps (SNonce Ns))
  | r :: _ => starts_with r (ps (SNonce Ns))
  end.

Lemma gc_length b m r : gc b = Some (m, r) -> length b = length (pc m) + length r.
Proof. intros E. apply (C48_client_bincode_canonical R L) in E. rewrite E at 1. apply app_length. Qed.
Lemma gs_length b m r : gs b = Some (m, r) -> length b = length (ps m) + length r.
Proof. intros E. apply (C48_server_bincode_canonical R L) in E. rewrite E at 1. apply app_length. Qed.
Lemma buf_small (b : bytes) : length b <= BUF -> small b.
Proof. unfold small, BUF. intros H. assert (N.of_nat (length b) <= 1024)%N by lia. lia. Qed.

Lemma server_silent n : good c0 s0 n -> c_reads n = [] -> cl n <> PDone Panic ->
  starts_with (s_out n) (ps (SNonce Ns)).
Proof.
  intros G Hr Hp. destruct (server_wrote s ci_s (s_reads n)) as [H|H].
  - destruct (follows_prefix _ _ _ _ (g_s _ _ _ G)) as [more E]. rewrite H in E. now exists more.
  - exfalso. destruct H as (q1 & q2 & rs' & n1 & j1 & u & j2 & ss & aug & Er & E1 & _).
    destruct client_before_first_read as [k Ek].
    pose proof (g_c _ _ _ G) as Fc. rewrite Hr in Fc.
    destruct (follows_at _ _ _ _ _ _ Fc Ek) as [Ep|(more & Ep & Eo)]; [exact (Hp Ep)|].
    pose proof (g_c2s _ _ _ G) as Eq. rewrite Er in Eq. cbn [concat] in Eq.
    pose proof (Forall_inv (Forall_inv_tail (eq_rect _ (Forall _) (g_sr _ _ _ G) _ Er))) as [_ Hq2].
    pose proof (Forall_inv (eq_rect _ (Forall _) (g_sr _ _ _ G) _ Er)) as [Hb1 _].
    destruct (C48_client_only_valid R bincode strong K1 q1 _ _ (or_introl eq_refl) (buf_small _ Hb1) E1) as [_ [Hn1 _]].
    apply gc_length in E1. rewrite pc_nonce_length in E1 by exact Hn1.
    apply (f_equal (@length _)) in Eo. rewrite pc_nonce_length, app_length, Eq, !app_length in Eo by apply nonce_length.
    destruct q2; [|cbn in Eo; lia]. destruct (Hq2 eq_refl) as [x Ex]. rewrite Ex in Ep. discriminate Ep.
Qed.

Lemma starts_with_trans a b d : starts_with a b -> starts_with b d -> starts_with a d.
Proof. intros [r ->] [r' ->]. exists (r ++ r'). now rewrite app_assoc. Qed.

Lemma step_reads (n n' : net Error bytes) : step n n' ->
  c_reads n' = c_reads n \/ exists k d1 d2, cl n = PRecv k /\ s2c n = d1 ++ d2 /\ c_reads n' = c_reads n ++ [d1].
Proof.
  intros Hs. inversion Hs; subst; cbn [c_reads s2c cl]; try (left; reflexivity).
  - right. exists k, d1, d2. auto.
  - right. exists k, [], []. auto.
Qed.
Lemma step_panicked (n n' : net Error bytes) r : step n n' -> cl n = PDone r -> cl n' = PDone r.
Proof. intros Hs. inversion Hs; subst; cbn [cl]; intros E; try discriminate E; exact E. Qed.

Lemma first_read_step n n' : step n n' -> good c0 s0 n -> first_read n -> first_read n'.
Proof.
  intros Hs G [H|H]; [left; exact (step_panicked n n' _ Hs H)|].
  pose proof (good_step c0 s0 n n' Hs G) as G'.
  assert (Hd : cl n' = PDone Panic \/ cl n' <> PDone Panic).
  { destruct (cl n') as [[ | | ]| | | ]; try (right; discriminate). now left. }
  destruct Hd as [Hd|Hd]; [now left|right].
  destruct (step_reads n n' Hs) as [E|(k & d1 & d2 & Ec & Ed & E)].
  - rewrite E. destruct (c_reads n) as [|r l] eqn:Er; [|exact H]. now apply server_silent.
  - rewrite E. destruct (c_reads n) as [|r l] eqn:Er; [|exact H]. cbn [app].
    apply starts_with_trans with (2 := H). rewrite (g_s2c _ _ _ G), Er, Ed. cbn [concat app]. now exists d2.
Qed.

Lemma reached n : exec (start c0 s0) n -> good c0 s0 n /\ first_read n.
Proof.
  intros He. apply (exec_inv (fun n => good c0 s0 n /\ first_read n)) with (2 := He).
  - intros n1 n2 Hs [G F]. split; [exact (good_step c0 s0 n1 n2 Hs G)|exact (first_read_step n1 n2 Hs G F)].
  - split; [apply good_start; [apply talks_client|apply talks_server]|].
    right. cbn. now exists (ps (SNonce Ns)).
Qed.

(** *** The values of an execution, from what the threads have read *)
Definition the_ssid : bytes := spec_ssid D Ns Nc.
(** the client's first session key, from the public key it read *)
Definition client_sk1 (n : net Error bytes) : option bytes :=
  match c_reads n with
  | _ :: _ :: r3 :: _ =>
      match gs r3 with Some (SPublicKey Y, _) => Some (sk1_of the_ssid (drawn Tc rng) Y) | _ => None end
  | _ => None
  end.
(** the server's, from the user name and the public key it read *)
Definition server_sk1 (n : net Error bytes) : option bytes :=
  match s_reads n with
  | _ :: q2 :: q3 :: _ =>
      match gc q2, gc q3 with
      | Some (u, _), Some (CPublicKey Y, _) =>
          match ex_info R Ts X (sal s Nc) u with
          | Ok (ss, _) => Some (sk1_of the_ssid (drawn Ts (scs_rng Ts ss)) Y)
          | _ => None
          end
      | _, _ => None
      end
  | _ => None
  end.

Lemma nil_len {B} (l : list B) : length l = 0 -> l = [].
Proof. now destruct l. Qed.

Lemma tcp_agree n kc : exec (start c0 s0) n -> cl n = PDone (Ok kc) ->
  exists ks a b, sv n = PDone (Ok ks) /\ client_sk1 n = Some a /\ server_sk1 n = Some b /\
    kc = spec_sk D the_ssid a /\ ks = spec_sk D the_ssid b /\ spec_Ta D the_ssid a = spec_Ta D the_ssid b /\
    s2c n = [] /\ s_out n = concat (c_reads n).
Proof.
  intros He Hk. destruct (reached n He) as [G F].
  assert (Fk : feed (c_reads n) c0 = (c_out n, PDone (Ok kc))).
  { apply follows_done; [discriminate|]. rewrite <- Hk. exact (g_c _ _ _ G). }
  pose proof (client_ended c ci_c rng (c_reads n) kc) as Hc. rewrite Fk in Hc. cbn [snd] in Hc. specialize (Hc eq_refl).
  destruct Hc as (r1 & r2 & r3 & r4 & rs' & n1 & j1 & st & m2 & M2 & j2 & cs & Y & j3 & j4 & Er & E1 & Est & E2 & Ef & E3 & _ & E4 & Ek).
  unfold first_read in F. rewrite Hk, Er in F. destruct F as [F|F]; [discriminate F|].
  pose proof (g_cr _ _ _ G) as Hcr. rewrite Er in Hcr.
  pose proof (proj1 (Forall_inv Hcr)) as B1. pose proof (proj1 (Forall_inv (Forall_inv_tail Hcr))) as B2.
  (* the first read is the server's nonce *)
  assert (Hn1 : n1 = Ns /\ j1 = [] /\ r1 = ps (SNonce Ns)).
  { destruct F as [r F]. pose proof (C48_server_only_valid R L bincode strong K1 r1 _ _ (or_introl eq_refl) (buf_small _ B1) E1) as [Hh Hv].
    apply (C48_server_bincode_canonical R L) in E1. rewrite E1, <- app_assoc in F.
    assert (F' : ps (SNonce n1) ++ (j1 ++ r) = ps (SNonce Ns) ++ []) by now rewrite app_nil_r.
    apply (C48_server_prefix_free R L bincode strong K1) in F'; [|now left|exact Hh|exact Hv|reflexivity|].
    - destruct F' as [Fa Fb]. injection Fa as ->. apply app_eq_nil in Fb. destruct Fb as [-> _].
      rewrite app_nil_r in E1. auto.
    - split; [apply nonce_length|apply nonce_small]. }
  destruct Hn1 as (-> & -> & ->).
  pose proof (el_client_ssid EL _ _ _ _ _ Est Ef) as Essid. cbn [cpa_ssid] in Essid. fold the_ssid in Essid.
  rewrite Essid in E4, Ek.
  pose proof (g_s2c _ _ _ G) as Es. rewrite Er in Es. cbn [concat] in Es.
  destruct (follows_prefix _ _ _ _ (g_s _ _ _ G)) as [more Em].
  pose proof (gs_length _ _ _ E2) as L2. pose proof (gs_length _ _ _ E3) as L3. pose proof (gs_length _ _ _ E4) as L4.
  rewrite ps_key_length in L3. rewrite ps_auth_length in L4 by apply Dlen.
  destruct (server_wrote s ci_s (s_reads n)) as [H|H].
  { (* the server wrote only its nonce *)
    exfalso. rewrite Em, Es in H. apply (f_equal (@length _)) in H. rewrite !app_length in H. lia. }
  destruct H as (q1 & q2 & qs & nc & i1 & u & i2 & ss & aug & Eq & D1 & D2 & Ei & H).
  pose proof (g_sr _ _ _ G) as Hsr. rewrite Eq in Hsr. pose proof (proj1 (Forall_inv Hsr)) as BQ1.
  pose proof (el_server_valid EL _ _ _ _ Ei) as [Ah Av].
  (* the server's first read begins with the client's nonce *)
  assert (nc = Nc) as ->.
  { destruct client_before_first_read as [k Ek0].
    pose proof (C48_client_only_valid R bincode strong K1 q1 _ _ (or_introl eq_refl) (buf_small _ BQ1) D1) as [Hh Hv].
    assert (Hpre : exists w, fst (feed (c_reads n) c0) = pc (CNonce Nc) ++ w).
    { destruct (feed_begins (c_reads n) c0) as [w Hw]. rewrite Ek0 in Hw. now exists w. }
    destruct Hpre as [w Hw]. rewrite Fk in Hw. cbn [fst] in Hw.
    pose proof (g_c2s _ _ _ G) as Ec. rewrite Eq in Ec. cbn [concat] in Ec. rewrite Hw in Ec.
    apply (C48_client_bincode_canonical R L) in D1. rewrite D1, <- !app_assoc in Ec.
    apply (C48_client_prefix_free R L bincode strong K1) in Ec; [|now left|reflexivity| |exact Hh|exact Hv].
    - destruct Ec as [Ec _]. now injection Ec as ->.
    - split; [apply nonce_length|apply nonce_small]. }
  pose proof (el_server_ssid EL _ _ _ _ Ei) as Ess. cbn [sal sal_ssid] in Ess. fold the_ssid in Ess.
  assert (EP : exists P, snd (server_generate_public_key R D Ts ss ci_s) = SPublicKey P).
  { unfold server_generate_public_key. rewrite generate_keypair_eq. eexists. reflexivity. }
  destruct EP as [P EP].
  pose proof (C48_server_only_valid R L bincode strong K1 r2 _ _ (or_introl eq_refl) (buf_small _ B2) E2) as [Mh Mv].
  pose proof (C48_server_bincode_canonical R L _ _ _ _ _ E2) as C2.
  pose proof (C48_server_bincode_canonical R L _ _ _ _ _ E3) as C3.
  pose proof (C48_server_bincode_canonical R L _ _ _ _ _ E4) as C4.
  destruct H as [H|H].
  { exfalso. rewrite Em, Es, EP, <- !app_assoc in H. apply app_inv_head in H. rewrite C2, <- app_assoc in H.
    apply (C48_server_prefix_free R L bincode strong K1) in H; [|now left|exact Mh|exact Mv|exact Ah|exact Av].
    destruct H as [_ H]. apply (f_equal (@length _)) in H. rewrite !app_length, ps_key_length in H. lia. }
  destruct H as (q3 & q4 & qs' & Yc & i3 & ca & i4 & Eqs & D3 & _ & D4 & _ & Ed). cbv zeta in Ed.
  rewrite Ess, EP in Ed. rewrite Ed in Em. cbn [fst] in Em.
  rewrite Es, <- !app_assoc in Em. apply app_inv_head in Em. rewrite C2, <- app_assoc in Em.
  apply (C48_server_prefix_free R L bincode strong K1) in Em; [|now left|exact Ah|exact Av|exact Mh|exact Mv].
  destruct Em as [Ea Em]. subst M2.
  assert (Z0 : j2 = [] /\ j3 = [] /\ j4 = [] /\ concat rs' = [] /\ s2c n = [] /\ more = []).
  { apply (f_equal (@length _)) in Em. rewrite !app_length, ps_key_length, ps_auth_length in Em by apply Dlen.
    repeat apply conj; apply nil_len; lia. }
  destruct Z0 as (-> & -> & -> & Z1 & Z2 & ->). cbn [app] in Em. rewrite Z1, Z2, C3, C4, !app_nil_r in Em.
  apply (C48_server_prefix_free R L bincode strong K1) in Em; [|now left|reflexivity|exact I|reflexivity|exact I].
  destruct Em as [EY Em]. injection EY as ->.
  assert (Em' : ps (SAuthenticator (spec_Ta D the_ssid (sk1_of the_ssid (drawn Ts (scs_rng Ts ss)) Yc))) ++ []
              = ps (SAuthenticator (spec_Ta D the_ssid (sk1_of the_ssid (drawn Tc rng) Y))) ++ []) by now rewrite Em.
  apply (C48_server_prefix_free R L bincode strong K1) in Em'; [|now left|reflexivity|apply Dlen|reflexivity|apply Dlen].
  destruct Em' as [ET _]. injection ET as ET.
  exists (spec_sk D the_ssid (sk1_of the_ssid (drawn Ts (scs_rng Ts ss)) Yc)),
    (sk1_of the_ssid (drawn Tc rng) Y), (sk1_of the_ssid (drawn Ts (scs_rng Ts ss)) Yc).
  split; [|split; [|split; [|split; [|split; [|split; [|split]]]]]].
  - apply (follows_ended s0 (s_reads n) (s_out n)); [exact (g_st _ _ _ G)|exact (g_s _ _ _ G)|].
    rewrite Ed. f_equal. rewrite Es, Z1, Z2, C2, C3, C4, !app_nil_r, Em. reflexivity.
  - unfold client_sk1. rewrite Er, E3. reflexivity.
  - unfold server_sk1. rewrite Eq, Eqs, D2, D3, Ei. reflexivity.
  - exact Ek.
  - reflexivity.
  - now symmetry.
  - exact Z2.
  - rewrite Es, Z2, app_nil_r, Er. cbn [concat]. reflexivity.
Qed.

(** *** Executions that go well *)
Lemma c_read_all (k : bytes -> thread) sv u d co so cr sr : 1 <= length d <= BUF ->
  step (Build_net (PRecv k) sv u d co so cr sr) (Build_net (k d) sv u [] co so (cr ++ [d]) sr).
Proof. intros H. pose proof (c_recv k sv u d [] co so cr sr H) as S. now rewrite app_nil_r in S. Qed.
Lemma s_read_all (k : bytes -> thread) cl u d co so cr sr : 1 <= length u <= BUF ->
  step (Build_net cl (PRecv k) u d co so cr sr) (Build_net cl (k u) [] d co so cr (sr ++ [u])).
Proof. intros H. pose proof (s_recv k cl u [] d co so cr sr H) as S. now rewrite app_nil_r in S. Qed.

Lemma gc_put m : client_has R strong m = true -> client_valid R K1 m -> gc (pc m) = Some (m, []).
Proof.
  intros H1 H2. pose proof (C48_client_roundtrip R L bincode strong K1 m [] (or_introl eq_refl) H1 H2) as E.
  now rewrite app_nil_r in E.
Qed.
Lemma gs_put m : server_has R strong m = true -> server_valid R K1 m -> gs (ps m) = Some (m, []).
Proof.
  intros H1 H2. pose proof (C48_server_roundtrip R L bincode strong K1 m [] (or_introl eq_refl) H1 H2) as E.
  now rewrite app_nil_r in E.
Qed.

Lemma nonce_c_valid T st : client_valid R K1 (CNonce (nonce T st)).
Proof. split; [apply nonce_length|apply nonce_small]. Qed.
Lemma nonce_s_valid T st : server_valid R K1 (SNonce (nonce T st)).
Proof. split; [apply nonce_length|apply nonce_small]. Qed.

(** The reads deliver one message each. *)
Lemma tcp_completes st m ss M cs kc ks :
  ex_start R Ts X {| cpa_ssid := the_ssid |} = Some (st, m) ->
  ex_info R Ts X (sal s Nc) m = Ok (ss, M) -> ex_finish R Ts X st M = Ok cs ->
  run_explicit R D Tc Ts cs ss ci_c ci_s rng = Ok (kc, ks) ->
  length (pc m) <= BUF -> length (ps M) <= BUF ->
  exists n, exec (start c0 s0) n /\ cl n = PDone (Ok kc) /\ sv n = PDone (Ok ks) /\ c2s n = [] /\ s2c n = [].
Proof.
  intros Est Ei Ef Hrun Bm BM.
  destruct (el_client_valid EL _ _ _ Est) as [mh mv]. destruct (el_server_valid EL _ _ _ _ Ei) as [Mh Mv].
  unfold run_explicit, run_keys in Hrun. unfold server_generate_public_key, client_generate_public_key in Hrun.
  rewrite !generate_keypair_eq in Hrun. cbn [obind] in Hrun.
  set (Yc := rmul (spec_G R D (ccs_ssid cs) _ _) _) in Hrun. set (Ys := rmul (spec_G R D (scs_ssid Ts ss) _ _) _) in Hrun.
  apply obind_ok in Hrun. destruct Hrun as (se & Ese & Hrun). apply obind_ok in Hrun. destruct Hrun as ([ce mc] & Ece & Hrun).
  pose proof (C48_client_authenticator_valid R D Dlen K1 _ _ _ _ Ece) as Vc.
  destruct mc as [ | | | |ca| | ]; try discriminate Hrun.
  apply obind_ok in Hrun. destruct Hrun as ([ks' msg_s] & Eca & Hrun).
  pose proof (C48_server_authenticator_valid R D Dlen K1 _ _ _ _ Eca) as Vs.
  destruct msg_s as [ | | | |sa]; try discriminate Hrun.
  apply obind_ok in Hrun. destruct Hrun as (kc' & Esa & Hrun). injection Hrun as -> ->.
  eexists. split.
  { unfold start, client_thread, server_thread.
    destruct (client_begin R Tc K1 c) as [[sess m0] c'] eqn:Eb.
    pose proof (client_begin_nonce c) as En. rewrite Eb in En. injection En as -> ->.
    destruct (server_begin R Ts K1 s) as [[ses' m1] s'] eqn:Eb'.
    pose proof (server_begin_nonce s) as En. rewrite Eb' in En. injection En as -> ->.
    unfold send_client, send_server, recv_client, recv_server.
    eapply ex_step; [apply c_send|]. eapply ex_step; [apply s_send|]. cbn [app].
    eapply ex_step; [apply c_read_all; rewrite ps_nonce_length by apply nonce_length; unfold BUF; lia|].
    cbv beta. rewrite gs_put by (reflexivity || apply nonce_s_valid).
    eapply ex_step; [apply s_read_all; rewrite pc_nonce_length by apply nonce_length; unfold BUF; lia|].
    cbv beta. rewrite gc_put by (reflexivity || apply nonce_c_valid). cbv zeta.
    unfold client_agree_ssid, server_agree_ssid. rewrite !compute_ssid_eq. cbn [cse_nonce sse_nonce sse_secret].
    fold the_ssid. rewrite Est.
    eapply ex_step; [apply c_send|]. rewrite app_nil_l.
    eapply ex_step; [apply s_read_all; pose proof (pc_nonempty m); lia|].
    cbv beta. rewrite (gc_put m mh mv), compute_ssid_eq. fold (sal s Nc). rewrite Ei. cbn [try].
    eapply ex_step; [apply s_send|]. rewrite app_nil_l.
    unfold server_generate_public_key at 1. rewrite generate_keypair_eq. fold Ys.
    eapply ex_step; [apply s_send|].
    eapply ex_step; [apply c_recv; pose proof (ps_nonempty M); lia|].
    cbv beta. rewrite (gs_put M Mh Mv), Ef. cbn [try].
    unfold client_generate_public_key at 1. rewrite generate_keypair_eq. fold Yc.
    eapply ex_step; [apply c_send|]. rewrite app_nil_l.
    eapply ex_step; [apply s_read_all; rewrite pc_key_length; unfold BUF; lia|].
    cbv beta. rewrite gc_put by (reflexivity || exact I). rewrite Ese. cbn [try].
    eapply ex_step; [apply c_read_all; rewrite ps_key_length; unfold BUF; lia|].
    cbv beta. rewrite gs_put by (reflexivity || exact I). rewrite Ece. cbn [try].
    eapply ex_step; [apply c_send|]. rewrite app_nil_l.
    eapply ex_step; [apply s_read_all; rewrite (pc_auth_length ca Vc); unfold BUF; lia|].
    cbv beta. rewrite gc_put by (reflexivity || exact Vc). rewrite Eca. cbn [try].
    eapply ex_step; [apply s_send|]. rewrite app_nil_l.
    eapply ex_step; [apply c_read_all; rewrite (ps_auth_length sa Vs); unfold BUF; lia|].
    cbv beta. rewrite gs_put by (reflexivity || exact Vs). rewrite Esa.
    apply ex_nil. }
  cbn [cl sv c2s s2c]. auto.
Qed.

(** The server's first read takes the client's first two messages: both threads wait. *)
Lemma tcp_deadlocks st m :
  ex_start R Ts X {| cpa_ssid := the_ssid |} = Some (st, m) -> 28 + length (pc m) <= BUF ->
  exists n, exec (start c0 s0) n /\ (exists k, cl n = PRecv k) /\ (exists k, sv n = PRecv k) /\ forall n', ~ step n n'.
Proof.
  intros Est Bm.
  eexists. split.
  { unfold start, client_thread, server_thread.
    destruct (client_begin R Tc K1 c) as [[sess m0] c'] eqn:Eb.
    pose proof (client_begin_nonce c) as En. rewrite Eb in En. injection En as -> ->.
    destruct (server_begin R Ts K1 s) as [[ses' m1] s'] eqn:Eb'.
    pose proof (server_begin_nonce s) as En. rewrite Eb' in En. injection En as -> ->.
    unfold send_client, send_server, recv_client, recv_server.
    eapply ex_step; [apply c_send|]. eapply ex_step; [apply s_send|]. cbn [app].
    eapply ex_step; [apply c_read_all; rewrite ps_nonce_length by apply nonce_length; unfold BUF; lia|].
    cbv beta. rewrite gs_put by (reflexivity || apply nonce_s_valid).
    unfold client_agree_ssid. rewrite compute_ssid_eq. cbn [cse_nonce]. fold the_ssid. rewrite Est.
    eapply ex_step; [apply c_send|].
    eapply ex_step; [apply s_read_all; rewrite app_length, pc_nonce_length by apply nonce_length; lia|].
    cbv beta. rewrite (C48_client_roundtrip R L bincode strong K1) by (now left || reflexivity || apply nonce_c_valid).
    apply ex_nil. }
  cbn [cl sv]. split; [now eexists|]. split; [now eexists|]. intros n'. apply both_wait.
Qed.

(** The server's first read takes the first byte of the client's nonce. *)
Lemma tcp_splits : exists n, exec (start c0 s0) n /\ sv n = PDone Panic.
Proof.
  destruct (pc (CNonce Nc)) as [|x r] eqn:Ex; [now elim (pc_ne _ Ex)|].
  eexists. split.
  { unfold start, client_thread, server_thread.
    destruct (client_begin R Tc K1 c) as [[sess m0] c'] eqn:Eb.
    pose proof (client_begin_nonce c) as En. rewrite Eb in En. injection En as -> ->.
    destruct (server_begin R Ts K1 s) as [[ses' m1] s'] eqn:Eb'.
    pose proof (server_begin_nonce s) as En. rewrite Eb' in En. injection En as -> ->.
    unfold send_client, send_server, recv_client, recv_server.
    eapply ex_step; [apply c_send|]. eapply ex_step; [apply s_send|]. cbn [app].
    rewrite Ex. change (x :: r) with ([x] ++ r).
    eapply ex_step; [apply s_recv; cbn; unfold BUF; lia|]. cbv beta.
    assert (gc [x] = None) as ->; [|apply ex_nil].
    destruct (gc [x]) as [[M j]|] eqn:E; [|reflexivity]. exfalso.
    apply gc_length in E. pose proof (pc_nonempty M). cbn in E. lia. }
  reflexivity.
Qed.
End Threads.
