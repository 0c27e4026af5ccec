(** * AuCPace: replayed messages (C77); agreement on the user name (C78). *)
From Coq Require Import ZArith Lia.
From Verif Require Import Base.Bytes Base.Outcome Base.CtEq Base.Rng Base.Kat.
From Verif Require Import Curve.Primes Curve.Scalar25519.
From Verif Require Import Aucpace.RistrettoGroup Aucpace.PwHash Aucpace.AucpaceModel Aucpace.AucpaceSpec
  Aucpace.AucpaceRun Aucpace.AucpaceDb Aucpace.AucpaceToy Aucpace.PwHashProofs Aucpace.AucpaceProofs Aucpace.AucpaceProps Aucpace.AucpaceProps9.
Local Open Scope nat_scope.

Section Sessions.
Context (R : RGroup) (L : rgroup_laws R) (D : bytes -> bytes).
Context (Dlen : forall m, length (D m) = 64).
Context (Params : Type) (params_try_into : Params -> outcome pherror bytes).
Context (params_of : bytes -> res Params).

(** ** C77: replays *)

(** A session of the server accepts a client's public key and authenticator. *)
Definition server_accepts (T : Rng) (ss : AuCPaceServerCPaceSubstep T) (ci : bytes) (P : pt R) (t : bytes) : Prop :=
  exists r msg e key reply, server_generate_public_key R D T ss ci = (r, msg) /\
    receive_client_pubkey R D r P = Ok e /\ receive_client_authenticator R D e t = Ok (key, reply).
(** A session of the client accepts a server's public key and authenticator. *)
Definition client_accepts (T : Rng) (cs : AuCPaceClientCPaceSubstep) (ci : bytes) (st : rng_state T) (P : pt R) (t : bytes)
  : Prop :=
  exists r msg st' e msg' key, client_generate_public_key R D T cs ci st = ((r, msg), st') /\
    receive_server_pubkey R D r P = Ok (e, msg') /\ receive_server_authenticator D e t = Ok key.

(** What is hashed with index 2 for the first session key, and then with index [n]. *)
Definition first_msg (ssid : bytes) (P : pt R) (y : scalar) : bytes := word x02 ++ ssid ++ rcompress R (rmul P y).
Definition last_msg (n : byte) (ssid : bytes) (P : pt R) (y : scalar) : bytes := word n ++ ssid ++ D (first_msg ssid P y).

Lemma server_accepts_iff T ss ci P t :
  server_accepts T ss ci P t <->
  is_identity P = false /\ t = D (last_msg x04 (scs_ssid T ss) P (drawn T (scs_rng T ss))).
Proof.
  unfold server_accepts, server_generate_public_key. rewrite generate_keypair_eq. cbv zeta.
  unfold receive_client_pubkey. destruct (is_identity P).
  { split; [intros (r & msg & e & key & reply & _ & H & _); discriminate H|intros [H _]; discriminate H]. }
  unfold receive_client_authenticator, last_msg, first_msg.
  assert (K : compute_first_session_key R D (scs_ssid T ss) (drawn T (scs_rng T ss)) P
    = D (word x02 ++ scs_ssid T ss ++ rcompress R (rmul P (drawn T (scs_rng T ss))))).
  { unfold compute_first_session_key, finalize, update. now rewrite <- app_assoc. }
  split.
  - intros (r & msg & e & key & reply & H1 & H2 & H3). injection H1 as <- <-. injection H2 as <-.
    cbn [src_ssid src_priv_key sem_ssid sem_sk1] in H3. rewrite K, authenticators_eq, slice_ct_eqb in H3.
    destruct (bytes_eqb _ t) eqn:E in H3; [|discriminate H3]. split; [reflexivity|].
    apply bytes_eqb_eq in E. exact (eq_sym E).
  - intros [_ ->]. do 5 eexists. split; [reflexivity|]. split; [reflexivity|].
    cbn [src_ssid src_priv_key sem_ssid sem_sk1]. rewrite K, authenticators_eq, slice_ct_eqb.
    unfold spec_Tb. rewrite bytes_eqb_refl.
    unfold spec_Ta. rewrite (expect64_D D Dlen). reflexivity.
Qed.

Lemma client_accepts_iff T cs ci st P t :
  client_accepts T cs ci st P t <->
  is_identity P = false /\ t = D (last_msg x03 (ccs_ssid cs) P (drawn T st)).
Proof.
  unfold client_accepts, client_generate_public_key. rewrite generate_keypair_eq. cbv zeta.
  unfold receive_server_pubkey. destruct (is_identity P).
  { split; [intros (r & msg & st' & e & msg' & key & _ & H & _); discriminate H|intros [H _]; discriminate H]. }
  unfold receive_server_authenticator, last_msg, first_msg.
  assert (K : compute_first_session_key R D (ccs_ssid cs) (drawn T st) P
    = D (word x02 ++ ccs_ssid cs ++ rcompress R (rmul P (drawn T st)))).
  { unfold compute_first_session_key, finalize, update. now rewrite <- app_assoc. }
  split.
  - intros (r & msg & st' & e & msg' & key & H1 & H2 & H3). injection H1 as <- <- <-.
    cbn [crs_ssid crs_priv_key] in H2. rewrite K, authenticators_eq in H2.
    unfold spec_Tb in H2. rewrite (expect64_D D Dlen) in H2. cbn [obind] in H2. injection H2 as <- <-.
    cbn [cem_ssid cem_sk1 cem_server_authenticator] in H3. rewrite slice_ct_eqb in H3.
    destruct (bytes_eqb _ t) eqn:E in H3; [|discriminate H3]. split; [reflexivity|].
    apply bytes_eqb_eq in E. exact (eq_sym E).
  - intros [_ ->]. do 6 eexists. split; [reflexivity|].
    cbn [crs_ssid crs_priv_key]. rewrite K, authenticators_eq.
    unfold spec_Tb. rewrite (expect64_D D Dlen). cbn [obind]. split; [reflexivity|].
    cbn [cem_ssid cem_sk1 cem_server_authenticator]. rewrite slice_ct_eqb. unfold spec_Ta. now rewrite bytes_eqb_refl.
Qed.

Lemma last_msg_inj n ssid ssid' P y y' : length ssid = length ssid' -> is_identity P = false ->
  D (last_msg n ssid P y) = D (last_msg n ssid' P y') ->
  (ssid = ssid' /\ y = y') \/ collision D (last_msg n ssid P y) (last_msg n ssid' P y') \/
  collision D (first_msg ssid P y) (first_msg ssid' P y').
Proof.
  intros Hl HP E. apply (is_identity_neq L) in HP.
  destruct (list_eq_dec byte_eq_dec (last_msg n ssid P y) (last_msg n ssid' P y')) as [E1|N1];
    [|right; left; split; [exact N1|exact E]].
  destruct (list_eq_dec byte_eq_dec (first_msg ssid P y) (first_msg ssid' P y')) as [E2|N2].
  2:{ right; right. split; [exact N2|]. unfold last_msg in E1. apply app_inv_head in E1.
      apply app_inj_length in E1; [|exact Hl]. exact (proj2 E1). }
  left. unfold first_msg in E2. apply app_inv_head in E2. apply app_inj_length in E2; [|exact Hl].
  destruct E2 as [-> E2]. split; [reflexivity|]. apply (rcompress_inj L) in E2.
  exact (rmul_inj L P y y' HP E2).
Qed.

(** C77: a recorded public key and authenticator of a client are accepted by another session of the server
    (or of another server) exactly if that session has the same SSID and the same private key, or a
    collision is exhibited. *)
Theorem C77_server :
  forall T1 T2 ss1 ss2 ci1 ci2 P t,
  length (scs_ssid T1 ss1) = 64 -> length (scs_ssid T2 ss2) = 64 ->
  server_accepts T1 ss1 ci1 P t ->
  let y1 := drawn T1 (scs_rng T1 ss1) in
  let y2 := drawn T2 (scs_rng T2 ss2) in
  (scs_ssid T1 ss1 = scs_ssid T2 ss2 /\ y1 = y2 -> server_accepts T2 ss2 ci2 P t) /\
  (server_accepts T2 ss2 ci2 P t ->
   (scs_ssid T1 ss1 = scs_ssid T2 ss2 /\ y1 = y2) \/
   collision D (last_msg x04 (scs_ssid T1 ss1) P y1) (last_msg x04 (scs_ssid T2 ss2) P y2) \/
   collision D (first_msg (scs_ssid T1 ss1) P y1) (first_msg (scs_ssid T2 ss2) P y2)).
Proof.
  intros T1 T2 ss1 ss2 ci1 ci2 P t L1 L2 H y1 y2. rewrite server_accepts_iff in H. destruct H as [HP Ht].
  rewrite (server_accepts_iff T2). split.
  - intros [Es Ey]. split; [exact HP|]. rewrite Ht. fold y1 y2. now rewrite Es, Ey.
  - intros [_ Ht']. apply last_msg_inj; [congruence|exact HP|]. transitivity t; [exact (eq_sym Ht)|exact Ht'].
Qed.

Theorem C77_client :
  forall T1 T2 cs1 cs2 ci1 ci2 (st1 : rng_state T1) (st2 : rng_state T2) P t,
  length (ccs_ssid cs1) = 64 -> length (ccs_ssid cs2) = 64 ->
  client_accepts T1 cs1 ci1 st1 P t ->
  let y1 := drawn T1 st1 in
  let y2 := drawn T2 st2 in
  (ccs_ssid cs1 = ccs_ssid cs2 /\ y1 = y2 -> client_accepts T2 cs2 ci2 st2 P t) /\
  (client_accepts T2 cs2 ci2 st2 P t ->
   (ccs_ssid cs1 = ccs_ssid cs2 /\ y1 = y2) \/
   collision D (last_msg x03 (ccs_ssid cs1) P y1) (last_msg x03 (ccs_ssid cs2) P y2) \/
   collision D (first_msg (ccs_ssid cs1) P y1) (first_msg (ccs_ssid cs2) P y2)).
Proof.
  intros T1 T2 cs1 cs2 ci1 ci2 st1 st2 P t L1 L2 H y1 y2. rewrite client_accepts_iff in H. destruct H as [HP Ht].
  rewrite (client_accepts_iff T2). split.
  - intros [Es Ey]. split; [exact HP|]. rewrite Ht. fold y1 y2. now rewrite Es, Ey.
  - intros [_ Ht']. apply last_msg_inj; [congruence|exact HP|]. transitivity t; [exact (eq_sym Ht)|exact Ht'].
Qed.

(** ** C78: the user name *)

(** The scalar of a string "name:password" and a salt. *)
Definition scalar_of (h : hasher Params) (params : Params) (i : bytes * bytes) : res scalar :=
  let! hash := omap_err PasswordHashing (h (fst i) params (snd i)) in spec_scalar hash.

Definition colons (n : nat) : bytes := repeat x3a n.

Lemma colon_period t : [x3a] ++ t = t ++ [x3a] -> t = colons (length t).
Proof.
  induction t as [|b t IH]; [reflexivity|]. intros E. cbn [app] in E. injection E as <- E.
  cbn [length colons repeat]. f_equal. apply IH. exact E.
Qed.

(** Two pairs with one string "name:password". *)
Lemma same_string u p u' p' : u ++ str ":" ++ p = u' ++ str ":" ++ p' ->
  (u = u' /\ p = p') \/ (exists t, u = u' ++ str ":" ++ t /\ p' = t ++ str ":" ++ p) \/
  (exists t, u' = u ++ str ":" ++ t /\ p = t ++ str ":" ++ p').
Proof.
  change (str ":") with [x3a].
  revert u'. induction u as [|b u IH]; intros [|b' u'] E; cbn [app] in E.
  - injection E as E. left. now split.
  - injection E as <- E. right. right. exists u'. now split.
  - injection E as -> E. right. left. exists u. now split.
  - injection E as -> E. destruct (IH u' E) as [[-> ->]|[(t & -> & ->)|(t & -> & ->)]].
    + left. now split.
    + right. left. now exists t.
    + right. right. now exists t.
Qed.

Lemma no_colon_same u p u' p' : ~ In x3a u -> ~ In x3a u' -> u ++ str ":" ++ p = u' ++ str ":" ++ p' -> u = u' /\ p = p'.
Proof.
  intros Hu Hu' E. destruct (same_string _ _ _ _ E) as [H|[(t & -> & _)|(t & -> & _)]]; [exact H|exfalso|exfalso].
  - apply Hu. apply in_or_app. right. now left.
  - apply Hu'. apply in_or_app. right. now left.
Qed.

(** ... and one concatenation: names differ by colons at their ends. *)
Lemma same_both u p u' p' : u ++ str ":" ++ p = u' ++ str ":" ++ p' -> u ++ p = u' ++ p' ->
  exists n, (u = u' ++ colons n /\ p' = colons n ++ p) \/ (u' = u ++ colons n /\ p = colons n ++ p').
Proof.
  intros E1 E2.
  assert (G : forall t v q, (v ++ [x3a] ++ t) ++ q = v ++ t ++ [x3a] ++ q -> [x3a] ++ t = colons (S (length t)) /\ t ++ [x3a] = colons (S (length t))).
  { intros t v q E. rewrite <- !app_assoc in E. apply app_inv_head in E. rewrite !app_assoc in E. apply app_inv_tail in E.
    pose proof (colon_period t E) as Et. split; [cbn [app colons repeat]; f_equal; exact Et|].
    rewrite <- E. cbn [app colons repeat]. f_equal. exact Et. }
  destruct (same_string _ _ _ _ E1) as [[-> ->]|[(t & -> & ->)|(t & -> & ->)]].
  - exists 0. left. split; [now rewrite app_nil_r|reflexivity].
  - destruct (G t u' p E2) as [G1 G2]. exists (S (length t)). left.
    change (str ":") with [x3a]. rewrite <- G1. split; [reflexivity|]. rewrite G1, <- G2, <- app_assoc. reflexivity.
  - destruct (G t u p' (eq_sym E2)) as [G1 G2]. exists (S (length t)). right.
    change (str ":") with [x3a]. rewrite <- G1. split; [reflexivity|]. rewrite G1, <- G2, <- app_assoc. reflexivity.
Qed.

(** C78: the client logs in as [user]; on the way to the server the name becomes [user'], a registered user.
    If the login succeeds, "user:password" is the same string for both, or a collision is exhibited: of the
    password scalar or one of the three of CPace.  With names without colons they are the same user. *)
Theorem C78_user :
  forall (DB : Database R) Treg Tc Ts am (creg : AuCPaceClient Treg) (c : AuCPaceClient Tc)
    (s : AuCPaceServer Ts) sm mreg m user user' pass pass' params (h : hasher Params) u salt ps W creg' d uad ci
    (sts : rng_state Ts) (stc : rng_state Tc) kc ks,
  ssid_mode_ok sm -> fits mreg user' pass' -> fits m user pass ->
  do_register R Params params_try_into mreg Treg creg user' pass' params h
    = (Ok (CRegistration u salt ps W), creg') ->
  params_of ps = Ok params ->
  let d' := store_verifier DB d u salt uad W ps in
  lookup_verifier DB d' user' = Some (W, salt, ps) ->
  run_login R D Params params_of am Tc Ts sm m c s
    (fun sess _ => generate_client_info R D DB Ts sess user' d' sts) user pass h ci stc = Ok (kc, ks) ->
  am = Explicit \/ kc = ks ->
  (user ++ str ":" ++ pass = user' ++ str ":" ++ pass' /\
   (~ In x3a user -> ~ In x3a user' -> user = user' /\ pass = pass')) \/
  collision (scalar_of h params) (user ++ str ":" ++ pass, salt) (user' ++ str ":" ++ pass', salt) \/
  exists w w', spec_w h user pass salt params = Ok w /\ spec_w h user' pass' salt params = Ok w' /\
    let ssid := agreed_ssid D Tc Ts sm c s in
    let x := drawn Ts sts in
    lucky R D (deciding am) (login_input R ssid (rmul (rbase R) (smult w x)) ci)
      (login_input R ssid (rmul (rbase R) (smult w' x)) ci) (drawn Ts (after Ts 64 sts)) (drawn Tc stc).
Proof.
  intros DB Treg Tc Ts am creg c s sm mreg m user user' pass pass' params h u salt ps W creg' d uad ci sts stc kc ks
    Hm HFr HF Hreg Hp d' Hl Hr Hk.
  apply do_register_ok in Hreg; [|exact HFr]. destruct Hreg as (-> & Hs & Ht & w' & Hw' & ->).
  destruct (list_eq_dec byte_eq_dec (user ++ str ":" ++ pass) (user' ++ str ":" ++ pass')) as [Ep|Np].
  { left. split; [exact Ep|]. intros Hc Hc'. exact (no_colon_same _ _ _ _ Hc Hc' Ep). }
  right. assert (V : salt_valid salt) by (rewrite Hs; apply salt_generate_eq).
  destruct (login_generic R L D Dlen Params params_of DB Tc Ts am sm m c s _ user user' pass h d' _ salt ps (drawn Ts sts)
    (after Ts 64 sts) ci stc kc ks Hm HF V Hl (fun sess => generate_client_info_eq R D DB Ts sess user' d' sts) Hr Hk)
    as (params' & w & Hp' & Hw & H).
  assert (Epp : params' = params) by congruence. subst params'.
  destruct H as [E|H].
  - left. split; [intros EE; apply Np; exact (f_equal fst EE)|].
    transitivity (@Ok Error _ w); [exact Hw|]. transitivity (@Ok Error _ w'); [|symmetry; exact Hw'].
    f_equal. symmetry. exact (rmul_inj L (rbase R) w' w (rl_base R L) E).
  - right. exists w, w'. split; [exact Hw|]. split; [exact Hw'|]. cbv zeta in *.
    rewrite (prs_client_eq R L) in H. unfold spec_W in H. rewrite (rmul_mul L) in H. exact H.
Qed.

(** C78, strong variant: the concatenation of name and password is the same too, so that the names differ
    at most by colons at their ends. *)
Theorem C78_user_strong :
  forall (DB : StrongDatabase R) Treg Tc Ts am (creg : AuCPaceClient Treg) (c : AuCPaceClient Tc)
    (s : AuCPaceServer Ts) sm mreg m user user' pass pass' params (h : hasher Params) u q ps W creg' d uad ci
    (sts : rng_state Ts) (stb stc : rng_state Tc) fuel kc ks,
  ssid_mode_ok sm -> fits mreg user' pass' -> fits m user pass ->
  do_register_strong R D Params params_try_into mreg Treg creg user' pass' params h
    = (Ok (CStrongRegistration u q ps W), creg') ->
  params_of ps = Ok params ->
  let d' := store_verifier_strong DB d u uad W q ps in
  lookup_verifier_strong DB d' user' = Some (W, q, ps) ->
  run_login_strong R D Params params_of am Tc Ts sm m c s
    (fun sess _ U => generate_client_info_strong R D DB Ts sess user' U d' sts) fuel user pass h ci stb stc
    = Some (Ok (kc, ks)) ->
  am = Explicit \/ kc = ks ->
  let salt_of u p := b64_encode (rcompress R (rmul (spec_Z R D u p) q)) in
  (exists n, (user = user' ++ colons n /\ pass' = colons n ++ pass) \/ (user' = user ++ colons n /\ pass = colons n ++ pass')) \/
  collision (scalar_of h params) (user ++ str ":" ++ pass, salt_of user pass) (user' ++ str ":" ++ pass', salt_of user' pass') \/
  collision (fun m => rfrom_uniform R (D m)) (word x01 ++ user ++ pass) (word x01 ++ user' ++ pass') \/
  exists w w', spec_w h user pass (salt_of user pass) params = Ok w /\
    spec_w h user' pass' (salt_of user' pass') params = Ok w' /\
    let ssid := agreed_ssid D Tc Ts sm c s in
    let x := drawn Ts sts in
    lucky R D (deciding am) (login_input R ssid (rmul (rbase R) (smult w x)) ci)
      (login_input R ssid (rmul (rbase R) (smult w' x)) ci) (drawn Ts (after Ts 64 sts)) (drawn Tc stc).
Proof.
  intros DB Treg Tc Ts am creg c s sm mreg m user user' pass pass' params h u q ps W creg' d uad ci sts stb stc fuel kc ks
    Hm HFr HF Hreg Hp d' Hl Hr Hk salt_of.
  apply do_register_strong_ok in Hreg; [|exact L|exact HFr]. destruct Hreg as (-> & Ht & w' & Hw' & ->).
  destruct (login_strong_generic R L D Dlen Params params_of DB Tc Ts am sm m c s _ fuel user user' pass h d' _ q ps
    (drawn Ts sts) (after Ts 64 sts) ci stb stc kc ks Hm HF Hl
    (fun sess U => generate_client_info_strong_eq R D DB Ts sess user' U d' sts) Hr Hk)
    as (Hq & params' & w & Hp' & Hw & H).
  assert (Epp : params' = params) by congruence. subst params'.
  destruct H as [E|H].
  2:{ do 3 right. exists w, w'. split; [exact Hw|]. split; [exact Hw'|]. cbv zeta in *.
      rewrite (prs_client_eq R L) in H. unfold spec_W in H. rewrite (rmul_mul L) in H. exact H. }
  assert (ES : scalar_of h params (user ++ str ":" ++ pass, salt_of user pass)
             = scalar_of h params (user' ++ str ":" ++ pass', salt_of user' pass')).
  { transitivity (@Ok Error _ w); [exact Hw|]. transitivity (@Ok Error _ w'); [|symmetry; exact Hw'].
    f_equal. symmetry. exact (rmul_inj L (rbase R) w' w (rl_base R L) E). }
  destruct (list_eq_dec byte_eq_dec (user ++ str ":" ++ pass) (user' ++ str ":" ++ pass')) as [Ep|Np];
    [|right; left; split; [intros EE; apply Np; exact (f_equal fst EE)|exact ES]].
  destruct (list_eq_dec byte_eq_dec (salt_of user pass) (salt_of user' pass')) as [Esalt|Nsalt];
    [|right; left; split; [intros EE; apply Nsalt; exact (f_equal snd EE)|exact ES]].
  destruct (list_eq_dec byte_eq_dec (user ++ pass) (user' ++ pass')) as [Ec|Nc];
    [left; exact (same_both _ _ _ _ Ep Ec)|].
  right; right; left. split; [intros EE; apply Nc; now apply app_inv_head in EE|].
  unfold salt_of in Esalt. apply b64_encode_inj in Esalt; [|now rewrite !(rl_length R L)]. apply (rcompress_inj L) in Esalt.
  exact (rmul_cancel R L _ _ q Hq Esalt).
Qed.

(** C78 is false for names with colons, whatever the group, hasher and generators: a client called "u:t" with
    password "p", whose name is cut to "u" on the way, logs in as the user "u" if that user's password is
    "t:p". *)
Theorem C78_user_refuted :
  forall (DB : Database R) Treg Tc Ts (creg : AuCPaceClient Treg) (c : AuCPaceClient Tc)
    (s : AuCPaceServer Ts) sm mreg m user t pass params (h : hasher Params) u salt ps W creg' d uad ci
    (sts : rng_state Ts) (stc : rng_state Tc),
  let name := user ++ str ":" ++ t in
  let pass' := t ++ str ":" ++ pass in
  ssid_mode_ok sm -> fits mreg user pass' -> fits m name pass ->
  do_register R Params params_try_into mreg Treg creg user pass' params h
    = (Ok (CRegistration u salt ps W), creg') ->
  params_of ps = Ok params ->
  let d' := store_verifier DB d u salt uad W ps in
  lookup_verifier DB d' user = Some (W, salt, ps) ->
  name <> user /\ exists w, spec_w h user pass' salt params = Ok w /\
  let ssid := agreed_ssid D Tc Ts sm c s in
  let x := drawn Ts sts in
  let ya := drawn Ts (after Ts 64 sts) in
  let yb := drawn Tc stc in
  run_login R D Params params_of Explicit Tc Ts sm m c s
    (fun sess _ => generate_client_info R D DB Ts sess user d' sts) name pass h ci stc
  = honest_outcome R (honest_points R D ssid w x ci ya yb) (honest_key R D ssid w x ci ya yb).
Proof.
  intros DB Treg Tc Ts creg c s sm mreg m user t pass params h u salt ps W creg' d uad ci sts stc name pass'
    Hm HFr HF Hreg Hp d' Hl. split.
  { unfold name. intros E. apply (f_equal (@length _)) in E. rewrite !app_length in E. cbn [length str] in E.
    change (length (str ":")) with 1 in E. lia. }
  assert (HF' : fits m user pass').
  { unfold fits, name, pass' in *. destruct m as [n|]; [|exact I]. rewrite !app_length in *.
    change (length (str ":")) with 1 in *. lia. }
  destruct (C29_honest_login R L D Dlen Params params_try_into params_of DB Treg Tc Ts creg c s sm mreg m user pass' params h
    u salt ps W creg' d uad ci sts stc Hm HFr HF' Hreg Hp Hl) as (w & Hw & HR).
  exists w. split; [exact Hw|]. cbv zeta in *. rewrite <- HR.
  apply do_register_ok in Hreg; [|exact HFr]. destruct Hreg as (_ & Hs & _).
  assert (V : salt_valid salt) by (rewrite Hs; apply salt_generate_eq).
  unfold run_login. rewrite run_ssid_eq by assumption. cbn [obind].
  unfold run_aug, start_augmentation. cbn [cpa_ssid]. cbv beta iota. rewrite !generate_client_info_eq.
  unfold generate_prs. fold d'. rewrite !Hl. cbn [cpace_substep obind sal_ssid]. rewrite !Hp. cbn [obind].
  rewrite !do_generate_cpace_eq by assumption.
  replace (spec_w h name pass salt params) with (spec_w h user pass' salt params); [reflexivity|].
  unfold spec_w, userpass, name, pass'. now rewrite <- !app_assoc.
Qed.

(** In the strong variant only colons can move. *)
Theorem C78_user_strong_refuted :
  forall (DB : StrongDatabase R) Treg Tc Ts am (creg : AuCPaceClient Treg) (c : AuCPaceClient Tc)
    (s : AuCPaceServer Ts) sm mreg m user n pass params (h : hasher Params) u q ps W creg' d uad ci
    (sts : rng_state Ts) (stb stc : rng_state Tc) fuel r stb',
  let name := user ++ colons n in
  let pass' := colons n ++ pass in
  ssid_mode_ok sm -> fits mreg user pass' -> fits m name pass ->
  do_register_strong R D Params params_try_into mreg Treg creg user pass' params h
    = (Ok (CStrongRegistration u q ps W), creg') ->
  params_of ps = Ok params ->
  let d' := store_verifier_strong DB d u uad W q ps in
  lookup_verifier_strong DB d' user = Some (W, q, ps) ->
  draw_blinding_value Tc fuel stb = Some (r, stb') ->
  exists w, spec_w h user pass' (b64_encode (rcompress R (rmul (spec_Z R D user pass') q))) params = Ok w /\
  let ssid := agreed_ssid D Tc Ts sm c s in
  let x := drawn Ts sts in
  let ya := drawn Ts (after Ts 64 sts) in
  let yb := drawn Tc stc in
  run_login_strong R D Params params_of am Tc Ts sm m c s
    (fun sess _ U => generate_client_info_strong R D DB Ts sess user U d' sts) fuel name pass h ci stb stc
  = Some (honest_outcome R (honest_points_strong R D ssid user pass' q w x ci ya yb)
                         (honest_key R D ssid w x ci ya yb)).
Proof.
  intros DB Treg Tc Ts am creg c s sm mreg m user n pass params h u q ps W creg' d uad ci sts stb stc fuel r stb' name pass'
    Hm HFr HF Hreg Hp d' Hl Hb.
  assert (HF' : fits m user pass').
  { unfold fits, name, pass' in *. destruct m as [k|]; [|exact I]. rewrite !app_length in *. lia. }
  destruct (C31_honest_login R L D Dlen Params params_try_into params_of DB Treg Tc Ts am creg c s sm mreg m user pass'
    params h u q ps W creg' d uad ci sts stb stc fuel r stb' Hm HFr HF' Hreg Hp Hl Hb) as (w & Hw & HR).
  exists w. split; [exact Hw|]. cbv zeta in *. rewrite <- HR.
  unfold run_login_strong. rewrite run_ssid_eq by assumption.
  rewrite !start_augmentation_strong_eq. rewrite Hb. cbn [cpa_ssid].
  assert (EZ : spec_Z R D name pass = spec_Z R D user pass').
  { unfold spec_Z, name, pass'. now rewrite <- app_assoc. }
  rewrite EZ. unfold run_aug_strong. cbv beta iota. fold d'.
  set (info := generate_client_info_strong R D DB Ts _ user _ d' sts).
  assert (EW : forall salt p, spec_w h name pass salt p = spec_w h user pass' salt p).
  2:{ clearbody info. f_equal. destruct info as [[ss msg]|e|]; [|reflexivity|reflexivity].
      cbn [obind]. destruct msg; try reflexivity.
      match goal with |- context [params_of ?x] => destruct (params_of x) as [params'|e|] end; [|reflexivity|reflexivity]. cbn [obind].
      rewrite !do_strong_generate_cpace_eq by assumption. now rewrite EW. }
  intros salt p.
  unfold spec_w, userpass, name, pass', colons. change (str ":") with [x3a].
  replace (user ++ [x3a] ++ repeat x3a n ++ pass) with ((user ++ repeat x3a n) ++ [x3a] ++ pass); [reflexivity|].
  rewrite <- app_assoc. f_equal. rewrite !app_assoc. f_equal. clear. induction n as [|n IH]; [reflexivity|].
  cbn [repeat app]. f_equal. exact IH.
Qed.
End Sessions.

(** ** Cases *)

(** C77: a session of the server accepts the messages of a client; one with the same SSID and private key
    accepts them too; one with another SSID or private key does not. *)
Definition case_ssid (b : byte) : bytes := repeat b 64.
Definition case_session (b : byte) (k : N) : AuCPaceServerCPaceSubstep tape_rng :=
  Build_AuCPaceServerCPaceSubstep tape_rng (case_ssid b) (repeat x08 32) (toy_tape k 1).
Definition case_point : pt ToyGroup := rmul (rbase ToyGroup) (sof 77).
Definition case_auth (b : byte) (k : N) : bytes :=
  toyD (last_msg ToyGroup toyD x04 (case_ssid b) case_point (drawn tape_rng (toy_tape k 1))).
Definition case_accepts (b : byte) (k : N) (t : bytes) : bool :=
  let (r, _) := server_generate_public_key ToyGroup toyD tape_rng (case_session b k) channel in
  match receive_client_pubkey ToyGroup toyD r case_point with
  | Ok e => is_ok (receive_client_authenticator ToyGroup toyD e t)
  | _ => false
  end.
Check (test (map (fun i => case_accepts (fst i) (snd i) (case_auth x07 5)) [(x07, 5%N); (x07, 6%N); (x06, 5%N)])
  [true; false; false]).

Definition case_client_accepts (b : byte) (k : N) (t : bytes) : bool :=
  let '((r, _), _) := client_generate_public_key ToyGroup toyD tape_rng
    {| ccs_ssid := case_ssid b; ccs_prs := repeat x08 32 |} channel (toy_tape k 1) in
  match receive_server_pubkey ToyGroup toyD r case_point with
  | Ok (e, _) => is_ok (receive_server_authenticator toyD e t)
  | _ => false
  end.
Check (test (map (fun i => case_client_accepts (fst i) (snd i)
    (toyD (last_msg ToyGroup toyD x03 (case_ssid x07) case_point (drawn tape_rng (toy_tape 5 1)))))
  [(x07, 5%N); (x07, 6%N); (x06, 5%N)]) [true; false; false]).

Lemma case_point_ok : is_identity case_point = false.
Proof. vm_compute. reflexivity. Qed.
Example C77_case : exists ss P t, server_accepts ToyGroup toyD tape_rng ss channel P t.
Proof.
  exists (case_session x07 5), case_point, (case_auth x07 5).
  apply (server_accepts_iff ToyGroup toyD toyD_length). split; [exact case_point_ok|reflexivity].
Qed.
Example C77_client_case : exists cs st P t, client_accepts ToyGroup toyD tape_rng cs channel st P t.
Proof.
  exists {| ccs_ssid := case_ssid x07; ccs_prs := repeat x08 32 |}, (toy_tape 5 1), case_point. eexists.
  apply (client_accepts_iff ToyGroup toyD toyD_length). split; [exact case_point_ok|reflexivity].
Qed.

(** C78: "alice" has the password "t:p"; somebody called "alice:t" with the password "p" types both in, the
    name becomes "alice" on the way, and the login succeeds; with the names "alice" and "bob" it fails.  In
    the strong variant the first fails as well, but "alice:" with "p" is "alice" with ":p". *)
Definition redirected (name pass name' pass' : bytes) : res (bytes * bytes) :=
  match fst (do_register ToyGroup bytes toy_params_try_into AllocBuf tape_rng toy_client name' pass' toy_params toy_hash) with
  | Ok (CRegistration u salt ps W) =>
      let d := store_verifier (AssocDb ToyGroup) empty_db u salt None W ps in
      run_login ToyGroup toyD bytes toy_params_of Explicit tape_rng tape_rng (ByNonces 16) AllocBuf toy_client toy_server
        (fun sess _ => generate_client_info ToyGroup toyD (AssocDb ToyGroup) tape_rng sess name' d (toy_tape 3001 3002))
        name pass toy_hash channel (toy_tape 4001 4002)
  | _ => Panic
  end.
Check (test (agreed (redirected (str "alice:") (str "p") (str "alice") (str ":p"))) true).
Check (test (auth_failed (redirected (str "bob") (str "p") (str "alice") (str "p"))) true).
Check (test (auth_failed (redirected (str "alice:t") (str "q") (str "alice") (str "t:p"))) true).

Definition redirected_strong (name pass name' pass' : bytes) : option (res (bytes * bytes)) :=
  match fst (do_register_strong ToyGroup toyD bytes toy_params_try_into AllocBuf tape_rng toy_client name' pass' toy_params
    toy_hash) with
  | Ok (CStrongRegistration u q ps W) =>
      let d := store_verifier_strong (AssocStrongDb ToyGroup) empty_db u None W q ps in
      run_login_strong ToyGroup toyD bytes toy_params_of Explicit tape_rng tape_rng (ByNonces 16) AllocBuf toy_client
        toy_server
        (fun sess _ U => generate_client_info_strong ToyGroup toyD (AssocStrongDb ToyGroup) tape_rng sess name' U d
          (toy_tape 3001 3002))
        3 name pass toy_hash channel (toy_tape 0 5002) (toy_tape 4001 4002)
  | _ => None
  end.
Check (test (option_map auth_failed (redirected_strong (str "alice:t") (str "p") (str "alice") (str "t:p"))) (Some true)).
Check (test (option_map agreed (redirected_strong (str "alice:") (str "p") (str "alice") (str ":p"))) (Some true)).
Check (test (option_map agreed (redirected_strong (str "alice") (str "p") (str "alice") (str "p"))) (Some true)).

Example C78_case : agreed (redirected (str "alice:t") (str "p") (str "alice") (str "t:p")) = true.
Proof. vm_cast_no_check (eq_refl true). Qed.
