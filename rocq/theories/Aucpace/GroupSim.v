(** * Two implementations of the group give the same protocol

    [rel P P'] says that [P'] represents [P].  If the operations respect it, the whole crate computes the
    same bytes, errors and panics with either implementation, and sends messages that represent one
    another.  No law is asked of either group. *)
From Coq Require Import ZArith Lia List.
From Verif Require Import Base.Bytes Base.Outcome Base.Rng.
From Verif Require Import Curve.Abelian Curve.Scalar25519.
From Verif Require Import Aucpace.RistrettoGroup Aucpace.PwHash Aucpace.AucpaceModel Aucpace.AucpaceRun
  Aucpace.AucpaceDb Aucpace.Wire Aucpace.AucpaceWorld.
Local Open Scope nat_scope.

(** ** Relations *)
Definition optrel {A B} (r : A -> B -> Prop) (a : option A) (b : option B) : Prop :=
  match a, b with
  | Some a, Some b => r a b
  | None, None => True
  | _, _ => False
  end.
Definition outrel {E A B} (r : A -> B -> Prop) (a : outcome E A) (b : outcome E B) : Prop :=
  match a, b with
  | Ok a, Ok b => r a b
  | Err e, Err e' => e = e'
  | Panic, Panic => True
  | _, _ => False
  end.
Definition pairrel {A A' B B'} (r : A -> A' -> Prop) (s : B -> B' -> Prop) (a : A * B) (b : A' * B') : Prop :=
  r (fst a) (fst b) /\ s (snd a) (snd b).

Lemma outrel_bind {E A A' B B'} (r : A -> A' -> Prop) (s : B -> B' -> Prop) (m : outcome E A) m' f f' :
  outrel r m m' -> (forall a a', r a a' -> outrel s (f a) (f' a')) -> outrel s (obind m f) (obind m' f').
Proof. destruct m, m'; cbn; try tauto. intros H K. now apply K. Qed.
Lemma outrel_refl {E A} (m : outcome E A) : outrel eq m m.
Proof. destruct m; cbn; auto. Qed.
Lemma outrel_eq {E A} (m m' : outcome E A) : outrel eq m m' -> m = m'.
Proof. destruct m, m'; cbn; try tauto; congruence. Qed.
(** The same computation on both sides *)
Lemma outrel_same {E A B B'} (s : B -> B' -> Prop) (m : outcome E A) f f' :
  (forall a, outrel s (f a) (f' a)) -> outrel s (obind m f) (obind m f').
Proof. intros H. destruct m; cbn; auto. Qed.

(** ** Representation of one group by another *)
Record simulation (R R' : RGroup) (rel : pt R -> pt R' -> Prop) : Prop := {
  sim_add : forall P P' Q Q', rel P P' -> rel Q Q' -> rel (radd R P Q) (radd R' P' Q');
  sim_zero : rel (rzero R) (rzero R');
  sim_base : rel (rbase R) (rbase R');
  sim_eqb : forall P P' Q Q', rel P P' -> rel Q Q' -> reqb R P Q = reqb R' P' Q';
  sim_compress : forall P P', rel P P' -> rcompress R P = rcompress R' P';
  sim_decompress : forall b, optrel rel (rdecompress R b) (rdecompress R' b);
  sim_uniform : forall b, rel (rfrom_uniform R b) (rfrom_uniform R' b)
}.

Section Messages.
Context {R R' : RGroup} (rel : pt R -> pt R' -> Prop).

Definition crel (m : ClientMessage R) (m' : ClientMessage R') : Prop :=
  match m, m' with
  | CNonce n, CNonce n' => n = n'
  | CUsername u, CUsername u' => u = u'
  | CStrongUsername u P, CStrongUsername u' P' => u = u' /\ rel P P'
  | CPublicKey P, CPublicKey P' => rel P P'
  | CAuthenticator a, CAuthenticator a' => a = a'
  | CRegistration u s p P, CRegistration u' s' p' P' => u = u' /\ s = s' /\ p = p' /\ rel P P'
  | CStrongRegistration u q p P, CStrongRegistration u' q' p' P' => u = u' /\ q = q' /\ p = p' /\ rel P P'
  | _, _ => False
  end.
Definition srel (m : ServerMessage R) (m' : ServerMessage R') : Prop :=
  match m, m' with
  | SNonce n, SNonce n' => n = n'
  | SAugmentationInfo g X s p, SAugmentationInfo g' X' s' p' => g = g' /\ rel X X' /\ s = s' /\ p = p'
  | SStrongAugmentationInfo g X Y p, SStrongAugmentationInfo g' X' Y' p' =>
      g = g' /\ rel X X' /\ rel Y Y' /\ p = p'
  | SPublicKey P, SPublicKey P' => rel P P'
  | SAuthenticator a, SAuthenticator a' => a = a'
  | _, _ => False
  end.

(** ** Databases that hold the same verifiers and keys *)
Definition vrel (a : pt R * bytes * bytes) (b : pt R' * bytes * bytes) : Prop :=
  let '(W, s, p) := a in let '(W', s', p') := b in rel W W' /\ s = s' /\ p = p'.
Definition svrel (a : pt R * scalar * bytes) (b : pt R' * scalar * bytes) : Prop :=
  let '(W, s, p) := a in let '(W', s', p') := b in rel W W' /\ s = s' /\ p = p'.
Definition krel (a : scalar * pt R) (b : scalar * pt R') : Prop := fst a = fst b /\ rel (snd a) (snd b).

Record db_sim (DB : Database R) (DB' : Database R') (PDB : PartialAugDatabase R (db DB))
  (PDB' : PartialAugDatabase R' (db DB')) (rd : db DB -> db DB' -> Prop) : Prop := {
  ds_lookup : forall d d' u, rd d d' -> optrel vrel (lookup_verifier DB d u) (lookup_verifier DB' d' u);
  ds_store : forall d d' u s uad W W' p, rd d d' -> rel W W' ->
    rd (store_verifier DB d u s uad W p) (store_verifier DB' d' u s uad W' p);
  ds_keys : forall d d' u, rd d d' ->
    optrel krel (lookup_long_term_keypair PDB d u) (lookup_long_term_keypair PDB' d' u);
  ds_store_keys : forall d d' u x X X', rd d d' -> rel X X' ->
    outrel rd (store_long_term_keypair PDB d u x X) (store_long_term_keypair PDB' d' u x X')
}.
Record sdb_sim (DB : StrongDatabase R) (DB' : StrongDatabase R') (PDB : PartialAugDatabase R (sdb DB))
  (PDB' : PartialAugDatabase R' (sdb DB')) (rd : sdb DB -> sdb DB' -> Prop) : Prop := {
  sds_lookup : forall d d' u, rd d d' ->
    optrel svrel (lookup_verifier_strong DB d u) (lookup_verifier_strong DB' d' u);
  sds_store : forall d d' u uad W W' q p, rd d d' -> rel W W' ->
    rd (store_verifier_strong DB d u uad W q p) (store_verifier_strong DB' d' u uad W' q p);
  sds_keys : forall d d' u, rd d d' ->
    optrel krel (lookup_long_term_keypair PDB d u) (lookup_long_term_keypair PDB' d' u);
  sds_store_keys : forall d d' u x X X', rd d d' -> rel X X' ->
    outrel rd (store_long_term_keypair PDB d u x X) (store_long_term_keypair PDB' d' u x X')
}.

(** Association lists *)
Definition listrel {A B} (r : A -> B -> Prop) : list (bytes * A) -> list (bytes * B) -> Prop :=
  Forall2 (fun a b => fst a = fst b /\ r (snd a) (snd b)).
Definition adbrel {V V'} (r : V -> V' -> Prop) (d : adb V (scalar * pt R)) (d' : adb V' (scalar * pt R')) : Prop :=
  listrel r (a_verifiers d) (a_verifiers d') /\ listrel krel (a_keys d) (a_keys d').
Lemma assoc_rel {A B} (r : A -> B -> Prop) l l' u : listrel r l l' -> optrel r (assoc l u) (assoc l' u).
Proof.
  induction 1 as [|[v a] [v' b] l l' [E H] _ IH]; [exact I|].
  cbn [fst snd] in *. subst v'. cbn [assoc]. destruct (bytes_eqb v u); auto.
Qed.
Lemma assoc_store_rel {V V'} (r : V -> V' -> Prop) d d' u x X X' : adbrel r d d' -> rel X X' ->
  outrel (adbrel r) (store_long_term_keypair (AssocPartial R) d u x X)
                    (store_long_term_keypair (AssocPartial R') d' u x X').
Proof.
  intros [Hv Hk] HX. cbn [AssocPartial store_long_term_keypair].
  pose proof (assoc_rel _ _ _ u Hv) as H.
  destruct (assoc (a_verifiers d) u), (assoc (a_verifiers d') u); cbn [optrel] in H; try tauto; [|reflexivity].
  split; [exact Hv|]. constructor; [|exact Hk]. repeat split. exact HX.
Qed.
Lemma assoc_db_sim : db_sim (AssocDb R) (AssocDb R') (AssocPartial R) (AssocPartial R') (adbrel vrel).
Proof.
  split.
  - intros d d' u [Hv _]. apply assoc_rel, Hv.
  - intros d d' u s uad W W' p [Hv Hk] HW. split; [|exact Hk]. constructor; [|exact Hv]. repeat split. exact HW.
  - intros d d' u [_ Hk]. apply assoc_rel, Hk.
  - intros. now apply assoc_store_rel.
Qed.
Lemma assoc_sdb_sim :
  sdb_sim (AssocStrongDb R) (AssocStrongDb R') (AssocPartial R) (AssocPartial R') (adbrel svrel).
Proof.
  split.
  - intros d d' u [Hv _]. apply assoc_rel, Hv.
  - intros d d' u uad W W' q p [Hv Hk] HW. split; [|exact Hk]. constructor; [|exact Hv]. repeat split. exact HW.
  - intros d d' u [_ Hk]. apply assoc_rel, Hk.
  - intros. now apply assoc_store_rel.
Qed.
End Messages.

Section Sim.
Context {R R' : RGroup} {rel : pt R -> pt R' -> Prop} (S : simulation R R' rel).
Context (D D' : bytes -> bytes) (HD : forall m, D m = D' m).
Context (Params : Type) (params_try_into : Params -> outcome pherror bytes).
Context (params_of : bytes -> res Params).
Notation crel := (crel rel).
Notation srel := (srel rel).

Lemma pmul_sim P P' n : rel P P' -> rel (pmul (radd R) n P) (pmul (radd R') n P').
Proof.
  revert P P'. induction n as [n IH|n IH|]; intros P P' H; cbn [pmul]; auto using (sim_add _ _ _ S).
Qed.
Lemma rmul_sim P P' s : rel P P' -> rel (rmul P s) (rmul P' s).
Proof.
  intros H. unfold rmul. pose proof (proj1 (sval_range s)) as Hs. generalize dependent (sval s).
  intros z Hz. destruct z; cbn [smul]; [apply (sim_zero _ _ _ S)|now apply pmul_sim|lia].
Qed.
Lemma identity_sim P P' : rel P P' -> is_identity P = is_identity P'.
Proof. intros H. apply (sim_eqb _ _ _ S); [exact H|apply (sim_zero _ _ _ S)]. Qed.
Lemma compress_mul_sim P P' s : rel P P' -> rcompress R (rmul P s) = rcompress R' (rmul P' s).
Proof. intros H. now apply (sim_compress _ _ _ S), rmul_sim. Qed.
Lemma from_hash_sim h : rel (point_from_hash R D h) (point_from_hash R' D' h).
Proof. unfold point_from_hash, finalize. rewrite HD. apply (sim_uniform _ _ _ S). Qed.
Lemma wide_sim h : scalar_from_digest D h = scalar_from_digest D' h.
Proof. unfold scalar_from_digest, finalize. now rewrite HD. Qed.
Lemma ssid_sim s t : compute_ssid D s t = compute_ssid D' s t.
Proof. apply HD. Qed.
Lemma auth_sim ssid sk1 : compute_authenticator_messages D ssid sk1 = compute_authenticator_messages D' ssid sk1.
Proof. unfold compute_authenticator_messages, finalize. now rewrite !HD. Qed.
Lemma session_key_sim ssid sk1 : compute_session_key D ssid sk1 = compute_session_key D' ssid sk1.
Proof. apply HD. Qed.
Lemma client_agree_sim c n : client_agree_ssid D c n = client_agree_ssid D' c n.
Proof. unfold client_agree_ssid. now rewrite ssid_sim. Qed.
Lemma server_agree_sim s n : server_agree_ssid D s n = server_agree_ssid D' s n.
Proof. unfold server_agree_ssid. now rewrite ssid_sim. Qed.
Lemma client_pre_sim ssid : client_begin_prestablished_ssid D ssid = client_begin_prestablished_ssid D' ssid.
Proof. unfold client_begin_prestablished_ssid, finalize. now rewrite HD. Qed.
Lemma server_pre_sim T s ssid : server_begin_prestablished_ssid D T s ssid = server_begin_prestablished_ssid D' T s ssid.
Proof. unfold server_begin_prestablished_ssid, finalize. now rewrite HD. Qed.
Lemma receive_server_auth_sim c a : receive_server_authenticator D c a = receive_server_authenticator D' c a.
Proof. unfold receive_server_authenticator. now rewrite session_key_sim. Qed.

(** ** Function by function *)
Lemma generate_keypair_sim T st ssid prs ci : exists x P P' st',
  generate_keypair R D T st ssid prs ci = ((x, P), st') /\
  generate_keypair R' D' T st ssid prs ci = ((x, P'), st') /\ rel P P'.
Proof.
  unfold generate_keypair. destruct (scalar_random T st) as [x st'].
  do 4 eexists. split; [reflexivity|]. split; [reflexivity|]. apply rmul_sim, from_hash_sim.
Qed.
Lemma generate_server_keypair_sim T st : exists x P P' st',
  generate_server_keypair R T st = ((x, P), st') /\
  generate_server_keypair R' T st = ((x, P'), st') /\ rel P P'.
Proof.
  unfold generate_server_keypair. destruct (scalar_random T st) as [x st'].
  do 4 eexists. split; [reflexivity|]. split; [reflexivity|]. apply rmul_sim, (sim_base _ _ _ S).
Qed.
Lemma long_term_sim T s : exists x P P' s',
  generate_long_term_keypair R T s = ((x, P), s') /\
  generate_long_term_keypair R' T s = ((x, P'), s') /\ rel P P'.
Proof.
  unfold generate_long_term_keypair.
  destruct (generate_server_keypair_sim T (s_rng T s)) as (x & P & P' & st & -> & -> & H).
  do 4 eexists. split; [reflexivity|]. split; [reflexivity|]. exact H.
Qed.
Lemma first_key_sim ssid x P P' : rel P P' ->
  compute_first_session_key R D ssid x P = compute_first_session_key R' D' ssid x P'.
Proof. intros H. unfold compute_first_session_key, finalize. now rewrite (compress_mul_sim P P' x H), HD. Qed.

Lemma client_begin_sim T K1 c :
  pairrel (pairrel eq crel) eq (client_begin R T K1 c) (client_begin R' T K1 c).
Proof. unfold client_begin. destruct (generate_nonce T K1 (c_rng T c)). repeat split. Qed.
Lemma server_begin_sim T K1 s :
  pairrel (pairrel eq srel) eq (server_begin R T K1 s) (server_begin R' T K1 s).
Proof. unfold server_begin. destruct (generate_nonce T K1 (s_rng T s)). repeat split. Qed.
Lemma start_sim c u p : pairrel eq crel (start_augmentation R c u p) (start_augmentation R' c u p).
Proof. repeat split. Qed.
Lemma start_strong_sim T fuel c u p st :
  optrel (pairrel (pairrel eq crel) eq)
    (start_augmentation_strong R D T fuel c u p st) (start_augmentation_strong R' D' T fuel c u p st).
Proof.
  unfold start_augmentation_strong. destruct (draw_blinding_value T fuel st) as [[v st']|]; [|exact I].
  repeat split. apply rmul_sim, from_hash_sim.
Qed.

Lemma salt_strong_sim T u p st : generate_salt_strong R D T u p st = generate_salt_strong R' D' T u p st.
Proof.
  unfold generate_salt_strong. destruct (scalar_random T st) as [q st'].
  now rewrite (compress_mul_sim _ _ (smult q sone) (from_hash_sim (update (update H1 u) p))).
Qed.
Lemma verifier_sim w : rel (rmul (rbase R) (smult w sone)) (rmul (rbase R') (smult w sone)).
Proof. apply rmul_sim, (sim_base _ _ _ S). Qed.
Lemma register_sim m T c u p ps h :
  pairrel (outrel crel) eq (do_register R Params params_try_into m T c u p ps h)
                           (do_register R' Params params_try_into m T c u p ps h).
Proof.
  destruct m; cbn [do_register]; unfold register, register_alloc;
    destruct (salt_generate T (c_rng T c)) as [salt st]; (split; [|reflexivity]); cbn [fst];
    repeat (apply outrel_same; intros ?); repeat split; apply verifier_sim.
Qed.
Lemma register_strong_sim m T c u p ps h :
  pairrel (outrel crel) eq (do_register_strong R D Params params_try_into m T c u p ps h)
                           (do_register_strong R' D' Params params_try_into m T c u p ps h).
Proof.
  destruct m; cbn [do_register_strong]; unfold register_strong, register_alloc_strong;
    rewrite salt_strong_sim; destruct (generate_salt_strong R' D' T u p (c_rng T c)) as [qs st];
    (split; [|reflexivity]); cbn [fst]; apply outrel_same; intros [q salt];
    repeat (apply outrel_same; intros ?); repeat split; apply verifier_sim.
Qed.

Lemma generate_cpace_sim m c X X' salt ps h : rel X X' ->
  do_generate_cpace R Params m c X salt ps h = do_generate_cpace R' Params m c X' salt ps h.
Proof.
  intros H. apply outrel_eq. destruct m; cbn [do_generate_cpace]; unfold generate_cpace, generate_cpace_alloc;
    rewrite (identity_sim X X' H); (destruct (is_identity X'); [reflexivity|]);
    repeat (apply outrel_same; intros ?); cbn [outrel]; now rewrite (compress_mul_sim X X' _ H).
Qed.
Lemma strong_generate_cpace_sim m c X X' Y Y' ps h : rel X X' -> rel Y Y' ->
  do_strong_generate_cpace R Params m c X Y ps h = do_strong_generate_cpace R' Params m c X' Y' ps h.
Proof.
  intros H K. apply outrel_eq.
  destruct m; cbn [do_strong_generate_cpace]; unfold strong_generate_cpace, strong_generate_cpace_alloc;
    rewrite (identity_sim X X' H); (destruct (is_identity X'); [reflexivity|]).
  - rewrite (compress_mul_sim Y Y' _ K).
    repeat (apply outrel_same; intros ?); cbn [outrel]; now rewrite (compress_mul_sim X X' _ H).
  - rewrite (identity_sim _ _ (rmul_sim _ _ _ K)).
    match goal with |- outrel _ (if ?b then _ else _) _ => destruct b; [reflexivity|] end.
    rewrite (compress_mul_sim Y Y' _ K).
    repeat (apply outrel_same; intros ?); cbn [outrel]; now rewrite (compress_mul_sim X X' _ H).
Qed.
Lemma client_key_sim T c ci st :
  pairrel (pairrel eq crel) eq (client_generate_public_key R D T c ci st)
                               (client_generate_public_key R' D' T c ci st).
Proof.
  unfold client_generate_public_key.
  destruct (generate_keypair_sim T st (ccs_ssid c) (ccs_prs c) ci) as (x & P & P' & st' & -> & -> & H).
  repeat split. exact H.
Qed.
Lemma receive_server_pubkey_sim c Y Y' : rel Y Y' ->
  outrel (pairrel eq crel) (receive_server_pubkey R D c Y) (receive_server_pubkey R' D' c Y').
Proof.
  intros H. unfold receive_server_pubkey. rewrite (identity_sim Y Y' H), (first_key_sim _ _ Y Y' H), auth_sim.
  destruct (is_identity Y'); [reflexivity|].
  destruct (compute_authenticator_messages D' (crs_ssid c) _) as [ta tb].
  apply outrel_same. intros b. repeat split.
Qed.
Lemma client_implicit_sim c Y Y' : rel Y Y' -> client_implicit_auth R D c Y = client_implicit_auth R' D' c Y'.
Proof.
  intros H. unfold client_implicit_auth. now rewrite (identity_sim Y Y' H), (first_key_sim _ _ Y Y' H), session_key_sim.
Qed.

Lemma server_key_sim T s ci :
  pairrel eq srel (server_generate_public_key R D T s ci) (server_generate_public_key R' D' T s ci).
Proof.
  unfold server_generate_public_key.
  destruct (generate_keypair_sim T (scs_rng T s) (scs_ssid T s) (scs_prs T s) ci)
    as (x & P & P' & st' & -> & -> & H).
  repeat split. exact H.
Qed.
Lemma receive_client_pubkey_sim s Y Y' : rel Y Y' -> receive_client_pubkey R D s Y = receive_client_pubkey R' D' s Y'.
Proof.
  intros H. unfold receive_client_pubkey. now rewrite (identity_sim Y Y' H), (first_key_sim _ _ Y Y' H).
Qed.
Lemma server_implicit_sim s Y Y' : rel Y Y' -> server_implicit_auth R D s Y = server_implicit_auth R' D' s Y'.
Proof.
  intros H. unfold server_implicit_auth. now rewrite (identity_sim Y Y' H), (first_key_sim _ _ Y Y' H), session_key_sim.
Qed.
Lemma receive_client_auth_sim s a :
  outrel (pairrel eq srel) (receive_client_authenticator R D s a) (receive_client_authenticator R' D' s a).
Proof.
  unfold receive_client_authenticator. rewrite auth_sim, session_key_sim.
  destruct (compute_authenticator_messages D' (sem_ssid s) (sem_sk1 s)) as [ta tb].
  destruct (N.eqb (CtEq.slice_ct_eq tb a) 1); [|reflexivity].
  apply outrel_same. intros b. repeat split.
Qed.

(** The server's replies *)
Lemma lookup_failed_sim T s u X X' st : rel X X' ->
  pairrel (outrel (pairrel eq srel)) eq (lookup_failed R D T s u X st) (lookup_failed R' D' T s u X' st).
Proof.
  intros H. unfold lookup_failed. destruct (rng_fill T 32 st) as [prs st']. split; [|reflexivity]. cbn [fst].
  unfold finalize. rewrite HD. repeat (apply outrel_same; intros ?). repeat split. exact H.
Qed.
Lemma lookup_failed_strong_sim T s u U U' X X' st : rel U U' -> rel X X' ->
  pairrel (outrel (pairrel eq srel)) eq
    (lookup_failed_strong R D T s u U X st) (lookup_failed_strong R' D' T s u U' X' st).
Proof.
  intros K H. unfold lookup_failed_strong. destruct (rng_fill T 32 st) as [prs st'].
  split; [|reflexivity]. cbn [fst]. rewrite wide_sim, (identity_sim _ _ (rmul_sim _ _ _ K)).
  match goal with |- outrel _ (if ?b then _ else _) _ => destruct b; [reflexivity|] end.
  repeat split; [exact H|now apply rmul_sim].
Qed.
Lemma cpace_substep_sim T s r r' : pairrel (outrel (pairrel eq srel)) eq r r' ->
  outrel (pairrel eq srel) (cpace_substep R T s r) (cpace_substep R' T s r').
Proof.
  destruct r as [r st], r' as [r' st']. intros [H E]. cbn [fst snd] in H, E. subst st'.
  unfold cpace_substep. refine (outrel_bind _ _ _ _ _ _ H _).
  intros [prs m] [prs' m'] [E K]. cbn [fst snd] in E, K. subst prs'. split; [reflexivity|exact K].
Qed.
Lemma point_random_sim T st : pairrel rel eq (point_random R T st) (point_random R' T st).
Proof.
  unfold point_random. destruct (rng_fill T 64 st) as [b st']. split; [apply (sim_uniform _ _ _ S)|reflexivity].
Qed.

Section Db.
Context (DB : Database R) (DB' : Database R').
Context (PDB : PartialAugDatabase R (db DB)) (PDB' : PartialAugDatabase R' (db DB')).
Context (rd : db DB -> db DB' -> Prop) (HDB : db_sim rel DB DB' PDB PDB' rd).

Lemma generate_prs_sim T s u d d' st x X X' : rd d d' -> rel X X' ->
  pairrel (outrel (pairrel eq srel)) eq
    (generate_prs R D DB T s u d st x X) (generate_prs R' D' DB' T s u d' st x X').
Proof.
  intros Hd H. unfold generate_prs. pose proof (ds_lookup _ _ _ _ _ _ HDB d d' u Hd) as L.
  destruct (lookup_verifier DB d u) as [[[W salt] ps]|], (lookup_verifier DB' d' u) as [[[W' salt'] ps']|];
    cbn [optrel] in L; try tauto; [|now apply lookup_failed_sim].
  destruct L as (HW & <- & <-). repeat split; [|exact H].
  now apply compress_mul_sim, rmul_sim.
Qed.
Lemma client_info_sim T s u d d' st : rd d d' ->
  outrel (pairrel eq srel) (generate_client_info R D DB T s u d st) (generate_client_info R' D' DB' T s u d' st).
Proof.
  intros Hd. unfold generate_client_info.
  destruct (generate_server_keypair_sim T st) as (x & P & P' & st' & -> & -> & H).
  now apply cpace_substep_sim, generate_prs_sim.
Qed.
Lemma client_info_partial_sim T s u d d' st : rd d d' ->
  outrel (pairrel eq srel) (generate_client_info_partial_aug R D DB PDB T s u d st)
                           (generate_client_info_partial_aug R' D' DB' PDB' T s u d' st).
Proof.
  intros Hd. unfold generate_client_info_partial_aug. apply cpace_substep_sim.
  pose proof (ds_keys _ _ _ _ _ _ HDB d d' u Hd) as L.
  destruct (lookup_long_term_keypair PDB d u) as [[x X]|], (lookup_long_term_keypair PDB' d' u) as [[x' X']|];
    cbn [optrel] in L; try tauto.
  - destruct L as [E H]. cbn [fst snd] in E, H. subst x'. now apply generate_prs_sim.
  - pose proof (point_random_sim T st) as H.
    destruct (point_random R T st) as [X r], (point_random R' T st) as [X' r'].
    destruct H as [H E]. cbn [fst snd] in H, E. subst r'. now apply lookup_failed_sim.
Qed.
End Db.

Section StrongDb.
Context (DB : StrongDatabase R) (DB' : StrongDatabase R').
Context (PDB : PartialAugDatabase R (sdb DB)) (PDB' : PartialAugDatabase R' (sdb DB')).
Context (rd : sdb DB -> sdb DB' -> Prop) (HDB : sdb_sim rel DB DB' PDB PDB' rd).

Lemma generate_prs_strong_sim T s u U U' d d' st x X X' : rd d d' -> rel U U' -> rel X X' ->
  pairrel (outrel (pairrel eq srel)) eq
    (generate_prs_strong R D DB T s u U d st x X) (generate_prs_strong R' D' DB' T s u U' d' st x X').
Proof.
  intros Hd K H. unfold generate_prs_strong. pose proof (sds_lookup _ _ _ _ _ _ HDB d d' u Hd) as L.
  destruct (lookup_verifier_strong DB d u) as [[[W q] ps]|], (lookup_verifier_strong DB' d' u) as [[[W' q'] ps']|];
    cbn [optrel] in L; try tauto; [|now apply lookup_failed_strong_sim].
  destruct L as (HW & <- & <-). rewrite (identity_sim _ _ (rmul_sim _ _ _ K)).
  match goal with |- pairrel _ _ (if ?b then _ else _) _ => destruct b; [repeat split|] end.
  repeat split; [|exact H|now apply rmul_sim]. now apply compress_mul_sim.
Qed.
Lemma client_info_strong_sim T s u U U' d d' st : rd d d' -> rel U U' ->
  outrel (pairrel eq srel) (generate_client_info_strong R D DB T s u U d st)
                           (generate_client_info_strong R' D' DB' T s u U' d' st).
Proof.
  intros Hd K. unfold generate_client_info_strong.
  destruct (generate_server_keypair_sim T st) as (x & P & P' & st' & -> & -> & H).
  now apply cpace_substep_sim, generate_prs_strong_sim.
Qed.
Lemma client_info_partial_strong_sim T s u U U' d d' st : rd d d' -> rel U U' ->
  outrel (pairrel eq srel) (generate_client_info_partial_strong R D DB PDB T s u U d st)
                           (generate_client_info_partial_strong R' D' DB' PDB' T s u U' d' st).
Proof.
  intros Hd K. unfold generate_client_info_partial_strong. apply cpace_substep_sim.
  pose proof (sds_keys _ _ _ _ _ _ HDB d d' u Hd) as L.
  destruct (lookup_long_term_keypair PDB d u) as [[x X]|], (lookup_long_term_keypair PDB' d' u) as [[x' X']|];
    cbn [optrel] in L; try tauto.
  - destruct L as [E H]. cbn [fst snd] in E, H. subst x'. now apply generate_prs_strong_sim.
  - pose proof (point_random_sim T st) as H.
    destruct (point_random R T st) as [X r], (point_random R' T st) as [X' r'].
    destruct H as [H E]. cbn [fst snd] in H, E. subst r'. now apply lookup_failed_strong_sim.
Qed.
End StrongDb.

(** ** Complete logins *)
Lemma run_ssid_sim Tc Ts m c s : run_ssid R D Tc Ts m c s = run_ssid R' D' Tc Ts m c s.
Proof.
  destruct m as [K1|ssid]; cbn [run_ssid]; [|now rewrite server_pre_sim, client_pre_sim].
  unfold server_begin, client_begin.
  destruct (generate_nonce Ts K1 (s_rng Ts s)), (generate_nonce Tc K1 (c_rng Tc c)).
  now rewrite client_agree_sim, server_agree_sim.
Qed.
Lemma run_aug_sim T info info' m c s user pass h :
  (forall s u, outrel (pairrel eq srel) (info s u) (info' s u)) ->
  run_aug R Params params_of T info m c s user pass h = run_aug R' Params params_of T info' m c s user pass h.
Proof.
  intros H. apply outrel_eq. unfold run_aug, start_augmentation.
  refine (outrel_bind _ _ _ _ _ _ (H s user) _).
  intros [s1 m1] [s2 m2] [E K]. cbn [fst snd] in E, K. subst s2.
  destruct m1, m2; cbn [GroupSim.srel] in K; try tauto; try reflexivity.
  destruct K as (_ & K & <- & <-). apply outrel_same. intros ps.
  rewrite (generate_cpace_sim m _ _ _ salt ps h K). apply outrel_refl.
Qed.
Lemma run_aug_strong_sim T info info' m start start' s h :
  (forall s u U U', rel U U' -> outrel (pairrel eq srel) (info s u U) (info' s u U')) ->
  pairrel eq crel start start' ->
  run_aug_strong R Params params_of T info m start s h = run_aug_strong R' Params params_of T info' m start' s h.
Proof.
  intros H. destruct start as [c1 m1], start' as [c2 m2]. intros [E K]. cbn [fst snd] in E, K. subst c2.
  apply outrel_eq. unfold run_aug_strong.
  destruct m1, m2; cbn [GroupSim.crel] in K; try tauto; try reflexivity.
  destruct K as [<- K]. refine (outrel_bind _ _ _ _ _ _ (H s username _ _ K) _).
  intros [s1 m1] [s2 m2] [E J]. cbn [fst snd] in E, J. subst s2.
  destruct m1, m2; cbn [GroupSim.srel] in J; try tauto; try reflexivity.
  destruct J as (_ & J1 & J2 & <-). apply outrel_same. intros ps.
  rewrite (strong_generate_cpace_sim m _ _ _ _ _ ps h J1 J2). apply outrel_refl.
Qed.
Lemma run_keys_sim Tc Ts c s ci_c ci_s st :
  outrel (pairrel (pairrel eq rel) rel)
    (run_keys R D Tc Ts c s ci_c ci_s st) (run_keys R' D' Tc Ts c s ci_c ci_s st).
Proof.
  unfold run_keys.
  pose proof (server_key_sim Ts s ci_s) as H. pose proof (client_key_sim Tc c ci_c st) as K.
  destruct (server_generate_public_key R D Ts s ci_s) as [s1 m1],
    (server_generate_public_key R' D' Ts s ci_s) as [s2 m2],
    (client_generate_public_key R D Tc c ci_c st) as [[c1 n1] t1],
    (client_generate_public_key R' D' Tc c ci_c st) as [[c2 n2] t2].
  destruct H as [E H], K as [[E1 K] E2]. cbn [fst snd] in *. subst.
  destruct n1, n2; cbn [GroupSim.crel] in K; try tauto; try exact I.
  destruct m1, m2; cbn [GroupSim.srel] in H; try tauto; try exact I.
  repeat split; assumption.
Qed.
Lemma run_cpace_sim a Tc Ts c s ci_c ci_s st :
  run_cpace R D a Tc Ts c s ci_c ci_s st = run_cpace R' D' a Tc Ts c s ci_c ci_s st.
Proof.
  apply outrel_eq. destruct a; cbn [run_cpace]; unfold run_explicit, run_implicit;
    refine (outrel_bind _ _ _ _ _ _ (run_keys_sim Tc Ts c s ci_c ci_s st) _);
    intros [[[c1 s1] yb] ya] [[[c2 s2] yb'] ya'] [[E K] J]; cbn [fst snd] in *;
    injection E as <- <-.
  - rewrite (receive_client_pubkey_sim s1 yb yb' K). apply outrel_same. intros s3.
    refine (outrel_bind _ _ _ _ _ _ (receive_server_pubkey_sim c1 ya ya' J) _).
    intros [c3 m3] [c4 m4] [E H]. cbn [fst snd] in *. subst c4.
    destruct m3, m4; cbn [GroupSim.crel] in H; try tauto; try exact I. subst auth0.
    refine (outrel_bind _ _ _ _ _ _ (receive_client_auth_sim s3 auth) _).
    intros [k m5] [k' m6] [E H]. cbn [fst snd] in *. subst k'.
    destruct m5, m6; cbn [GroupSim.srel] in H; try tauto; try exact I. subst auth1.
    rewrite receive_server_auth_sim. apply outrel_refl.
  - rewrite (server_implicit_sim s1 yb yb' K), (client_implicit_sim c1 ya ya' J). apply outrel_refl.
Qed.
Lemma run_login_sim a Tc Ts sm m c s info info' user pass h ci st :
  (forall s u, outrel (pairrel eq srel) (info s u) (info' s u)) ->
  run_login R D Params params_of a Tc Ts sm m c s info user pass h ci st =
  run_login R' D' Params params_of a Tc Ts sm m c s info' user pass h ci st.
Proof.
  intros H. unfold run_login. rewrite run_ssid_sim. apply outrel_eq.
  apply outrel_same. intros [c1 s1]. rewrite (run_aug_sim Ts info info' m c1 s1 user pass h H).
  apply outrel_same. intros [c2 s2]. rewrite run_cpace_sim. apply outrel_refl.
Qed.
Lemma run_login_strong_sim a Tc Ts sm m c s info info' fuel user pass h ci stb stc :
  (forall s u U U', rel U U' -> outrel (pairrel eq srel) (info s u U) (info' s u U')) ->
  run_login_strong R D Params params_of a Tc Ts sm m c s info fuel user pass h ci stb stc =
  run_login_strong R' D' Params params_of a Tc Ts sm m c s info' fuel user pass h ci stb stc.
Proof.
  intros H. unfold run_login_strong. rewrite run_ssid_sim.
  destruct (run_ssid R' D' Tc Ts sm c s) as [[c1 s1]| |]; [|reflexivity|reflexivity].
  pose proof (start_strong_sim Tc fuel c1 user pass stb) as K.
  destruct (start_augmentation_strong R D Tc fuel c1 user pass stb) as [[start st]|],
    (start_augmentation_strong R' D' Tc fuel c1 user pass stb) as [[start' st']|];
    cbn [optrel] in K; try tauto.
  destruct K as [K _]. cbn [fst] in K. f_equal.
  rewrite (run_aug_strong_sim Ts info info' m start start' s1 h H K). apply outrel_eq.
  apply outrel_same. intros [c2 s2]. rewrite run_cpace_sim. apply outrel_refl.
Qed.

(** ** The wire *)
Section Wire.
Context (F : format) (strong : bool) (K1 : nat).
Lemma put_client_sim m m' : crel m m' -> put_client R F strong m = put_client R' F strong m'.
Proof.
  unfold put_client, put_point.
  destruct m, m'; cbn [GroupSim.crel]; try tauto; intros H; cbn [client_tag]; try (subst; reflexivity).
  - destruct H as [-> H]. now rewrite (sim_compress _ _ _ S _ _ H).
  - now rewrite (sim_compress _ _ _ S _ _ H).
  - destruct H as (-> & -> & -> & H). now rewrite (sim_compress _ _ _ S _ _ H).
  - destruct H as (-> & -> & -> & H). now rewrite (sim_compress _ _ _ S _ _ H).
Qed.
Lemma put_server_sim m m' : srel m m' -> put_server R F strong m = put_server R' F strong m'.
Proof.
  unfold put_server, put_point.
  destruct m, m'; cbn [GroupSim.srel]; try tauto; intros H; cbn [server_tag];
    try (subst; reflexivity).
  - destruct H as (-> & H & -> & ->). now rewrite (sim_compress _ _ _ S _ _ H).
  - destruct H as (-> & H & K & ->). now rewrite (sim_compress _ _ _ S _ _ H), (sim_compress _ _ _ S _ _ K).
  - now rewrite (sim_compress _ _ _ S _ _ H).
Qed.
Definition drel {A B} (r : A -> B -> Prop) (d : decoder A) (d' : decoder B) : Prop :=
  forall b, optrel (pairrel r eq) (d b) (d' b).
Lemma drel_bind {A A' B B'} (r : A -> A' -> Prop) (s : B -> B' -> Prop) d d' f f' :
  drel r d d' -> (forall a a', r a a' -> drel s (f a) (f' a')) -> drel s (dbind d f) (dbind d' f').
Proof.
  intros H K b. unfold dbind. specialize (H b).
  destruct (d b) as [[a x]|], (d' b) as [[a' x']|]; cbn [optrel] in H; try tauto.
  destruct H as [H E]. cbn [fst snd] in *. subst x'. now apply K.
Qed.
Lemma drel_refl {A} (d : decoder A) : drel eq d d.
Proof. intros b. destruct (d b) as [[a x]|]; cbn; [split; reflexivity|exact I]. Qed.
Lemma drel_same {A B B'} (s : B -> B' -> Prop) (d : decoder A) f f' :
  (forall a, drel s (f a) (f' a)) -> drel s (dbind d f) (dbind d f').
Proof. intros H. apply (drel_bind eq s); [apply drel_refl|]. intros a a' <-. apply H. Qed.
Lemma drel_ret {A B} (r : A -> B -> Prop) a b : r a b -> drel r (dret a) (dret b).
Proof. intros H x. cbn. split; [exact H|reflexivity]. Qed.
Lemma drel_fail {A B} (r : A -> B -> Prop) : drel r dfail dfail.
Proof. intros b. exact I. Qed.
Lemma get_point_sim : drel rel (get_point R) (get_point R').
Proof.
  unfold get_point. apply drel_same. intros b x. unfold dopt.
  pose proof (sim_decompress _ _ _ S b) as H.
  destruct (rdecompress R b), (rdecompress R' b); cbn [optrel] in H; try tauto.
  split; [exact H|reflexivity].
Qed.
Ltac dsim := repeat first
  [ apply drel_same; intros ?
  | refine (drel_bind _ _ _ _ _ _ get_point_sim _); intros ? ? ?
  | apply drel_ret; repeat split; assumption
  | apply drel_fail ].
Lemma get_client_sim : drel crel (get_client R F strong K1) (get_client R' F strong K1).
Proof.
  unfold get_client. apply drel_same. intros t.
  unfold get_cnonce, get_cusername, get_cstrong_username, get_cpublic_key, get_cauthenticator,
    get_cregistration, get_cstrong_registration.
  destruct strong; (destruct t as [|[[[]|[]|]|[[]|[]|]|]]; dsim).
Qed.
Lemma get_server_sim : drel srel (get_server R F strong K1) (get_server R' F strong K1).
Proof.
  unfold get_server. apply drel_same. intros t.
  unfold get_snonce, get_saug, get_sstrong_aug, get_spublic_key, get_sauthenticator.
  destruct strong; (destruct t as [|[[[]|[]|]|[[]|[]|]|]]; dsim).
Qed.
End Wire.

(** ** Worlds: any interleaving of any number of sessions, under any network *)
Section World.
Context (Tc Ts : Rng).
Context (DB : Database R) (DB' : Database R') (SDB : StrongDatabase R) (SDB' : StrongDatabase R').
Context (PDB : PartialAugDatabase R (db DB)) (PDB' : PartialAugDatabase R' (db DB')).
Context (PSDB : PartialAugDatabase R (sdb SDB)) (PSDB' : PartialAugDatabase R' (sdb SDB')).
Context (rd : db DB -> db DB' -> Prop) (HDB : db_sim rel DB DB' PDB PDB' rd).
Context (rs : sdb SDB -> sdb SDB' -> Prop) (HSDB : sdb_sim rel SDB SDB' PSDB PSDB' rs).
Notation world := (world R Ts DB SDB).
Notation world' := (AucpaceWorld.world R' Ts DB' SDB').

(** The same event, with represented points *)
Definition cerel (e : cevent R Params Tc) (e' : cevent R' Params Tc) : Prop :=
  match e, e' with
  | CE_Begin _ _ _ K st, CE_Begin _ _ _ K' st' => K = K' /\ st = st'
  | CE_BeginPre _ _ _ s, CE_BeginPre _ _ _ s' => s = s'
  | CE_Agree _ _ _ n, CE_Agree _ _ _ n' => n = n'
  | CE_Start _ _ _ u p, CE_Start _ _ _ u' p' => u = u' /\ p = p'
  | CE_StartStrong _ _ _ f u p st, CE_StartStrong _ _ _ f' u' p' st' => f = f' /\ u = u' /\ p = p' /\ st = st'
  | CE_Generate _ _ _ m X s p h, CE_Generate _ _ _ m' X' s' p' h' =>
      m = m' /\ rel X X' /\ s = s' /\ p = p' /\ h = h'
  | CE_GenerateStrong _ _ _ m X Y p h, CE_GenerateStrong _ _ _ m' X' Y' p' h' =>
      m = m' /\ rel X X' /\ rel Y Y' /\ p = p' /\ h = h'
  | CE_Key _ _ _ ci st, CE_Key _ _ _ ci' st' => ci = ci' /\ st = st'
  | CE_RecvKey _ _ _ Y, CE_RecvKey _ _ _ Y' => rel Y Y'
  | CE_Implicit _ _ _ Y, CE_Implicit _ _ _ Y' => rel Y Y'
  | CE_RecvAuth _ _ _ a, CE_RecvAuth _ _ _ a' => a = a'
  | _, _ => False
  end.
Definition serel (e : sevent R Ts) (e' : sevent R' Ts) : Prop :=
  match e, e' with
  | SE_Begin _ _ K, SE_Begin _ _ K' => K = K'
  | SE_BeginPre _ _ s, SE_BeginPre _ _ s' => s = s'
  | SE_Agree _ _ n, SE_Agree _ _ n' => n = n'
  | SE_Info _ _ u st, SE_Info _ _ u' st' => u = u' /\ st = st'
  | SE_InfoPartial _ _ u st, SE_InfoPartial _ _ u' st' => u = u' /\ st = st'
  | SE_InfoStrong _ _ u U st, SE_InfoStrong _ _ u' U' st' => u = u' /\ rel U U' /\ st = st'
  | SE_InfoPartialStrong _ _ u U st, SE_InfoPartialStrong _ _ u' U' st' => u = u' /\ rel U U' /\ st = st'
  | SE_Key _ _ ci, SE_Key _ _ ci' => ci = ci'
  | SE_RecvKey _ _ Y, SE_RecvKey _ _ Y' => rel Y Y'
  | SE_Implicit _ _ Y, SE_Implicit _ _ Y' => rel Y Y'
  | SE_RecvAuth _ _ a, SE_RecvAuth _ _ a' => a = a'
  | _, _ => False
  end.
Definition erel (e : event R Params Tc Ts) (e' : event R' Params Tc Ts) : Prop :=
  match e, e' with
  | EClient _ _ _ _ i e, EClient _ _ _ _ i' e' => i = i' /\ cerel e e'
  | EServer _ _ _ _ j e, EServer _ _ _ _ j' e' => j = j' /\ serel e e'
  | EStore _ _ _ _ u s a W p, EStore _ _ _ _ u' s' a' W' p' =>
      u = u' /\ s = s' /\ a = a' /\ rel W W' /\ p = p'
  | EStoreStrong _ _ _ _ u a W q p, EStoreStrong _ _ _ _ u' a' W' q' p' =>
      u = u' /\ a = a' /\ rel W W' /\ q = q' /\ p = p'
  | ELongTerm _ _ _ _ u, ELongTerm _ _ _ _ u' => u = u'
  | ELongTermStrong _ _ _ _ u, ELongTermStrong _ _ _ _ u' => u = u'
  | _, _ => False
  end.
(** The same entry of the log, with represented points *)
Definition slrel (l : slog R) (l' : slog R') : Prop :=
  match l, l' with
  | SL_Nonces a b c, SL_Nonces a' b' c' => a = a' /\ b = b' /\ c = c'
  | SL_Reply u U k m, SL_Reply u' U' k' m' => u = u' /\ optrel rel U U' /\ k = k' /\ srel m m'
  | SL_Accept a b c d e, SL_Accept a' b' c' d' e' => a = a' /\ b = b' /\ c = c' /\ d = d' /\ e = e'
  | SL_Implicit a b, SL_Implicit a' b' => a = a' /\ b = b'
  | _, _ => False
  end.
Definition lrel (l : entry R) (l' : entry R') : Prop :=
  match l, l' with
  | LC i l, LC i' l' => i = i' /\ l = l'
  | LS j l, LS j' l' => j = j' /\ slrel l l'
  | _, _ => False
  end.
Record wrel (w : world) (w' : world') : Prop := {
  wr_server : sv_server (w_server w) = sv_server (w_server w');
  wr_db : rd (sv_db (w_server w)) (sv_db (w_server w'));
  wr_sdb : rs (sv_sdb (w_server w)) (sv_sdb (w_server w'));
  wr_clients : forall i, w_clients w i = w_clients w' i;
  wr_sessions : forall j, w_sessions w j = w_sessions w' j;
  wr_log : Forall2 lrel (w_log w) (w_log w')
}.

Lemma client_step_sim c e e' : cerel e e' ->
  client_step R D Params Tc c e = client_step R' D' Params Tc c e'.
Proof.
  destruct e, e'; cbn [cerel]; try tauto; intros H.
  - destruct H as [<- <-]. destruct c; try reflexivity. cbn [client_step]. unfold client_begin.
    destruct (generate_nonce _ _ _). reflexivity.
  - subst. destruct c; cbn [client_step]; rewrite ?client_pre_sim; reflexivity.
  - subst. destruct c; cbn [client_step]; rewrite ?client_agree_sim; reflexivity.
  - destruct H as [<- <-]. destruct c; reflexivity.
  - destruct H as (<- & <- & <- & <-). destruct c; try reflexivity. cbn [client_step].
    pose proof (start_strong_sim Tc fuel c user pass st) as K.
    destruct (start_augmentation_strong R D Tc fuel c user pass st) as [[[c1 m1] t1]|],
      (start_augmentation_strong R' D' Tc fuel c user pass st) as [[[c2 m2] t2]|];
      cbn [optrel] in K; try tauto.
    destruct K as [[E _] _]. cbn [fst] in E. now subst.
  - destruct H as (<- & H & <- & <- & <-). destruct c; try reflexivity. cbn [client_step].
    now rewrite (generate_cpace_sim m _ _ _ salt params h H).
  - destruct H as (<- & H & K & <- & <-). destruct c; try reflexivity. cbn [client_step].
    now rewrite (strong_generate_cpace_sim m _ _ _ _ _ params h H K).
  - destruct H as [<- <-]. destruct c; try reflexivity. cbn [client_step].
    pose proof (client_key_sim Tc c ci st) as K.
    destruct (client_generate_public_key R D Tc c ci st) as [[c1 m1] t1],
      (client_generate_public_key R' D' Tc c ci st) as [[c2 m2] t2].
    destruct K as [[E _] _]. cbn [fst] in E. now subst.
  - destruct c; try reflexivity. cbn [client_step].
    pose proof (receive_server_pubkey_sim c _ _ H) as K.
    destruct (receive_server_pubkey R D c Y) as [[c1 m1]| |],
      (receive_server_pubkey R' D' c Y0) as [[c2 m2]| |]; cbn [outrel] in K; try tauto.
    destruct K as [E K]. cbn [fst snd] in *. subst c2.
    destruct m1, m2; cbn [GroupSim.crel] in K; try tauto; now subst.
  - destruct c; try reflexivity. cbn [client_step]. now rewrite (client_implicit_sim c _ _ H).
  - subst. destruct c; cbn [client_step]; rewrite ?receive_server_auth_sim; reflexivity.
Qed.

Definition stepped (a : AuCPaceServer Ts * ssess Ts * list (slog R))
  (b : AuCPaceServer Ts * ssess Ts * list (slog R')) : Prop :=
  fst a = fst b /\ Forall2 slrel (snd a) (snd b).
Lemma stepped_same sv s : stepped (sv, s, []) (sv, s, []).
Proof. split; [reflexivity|constructor]. Qed.
Lemma isSome_sim {A B} (r : A -> B -> Prop) a b : optrel r a b -> isSome a = isSome b.
Proof. destruct a, b; cbn; tauto. Qed.
Lemma reply_sim sv u U U' k k' r r' : k = k' -> optrel rel U U' -> outrel (pairrel eq srel) r r' ->
  stepped (let '(s, l) := reply_of R Ts u U k r in (sv, s, l))
          (let '(s, l) := reply_of R' Ts u U' k' r' in (sv, s, l)).
Proof.
  intros <- HU H. destruct r as [[s m]| |], r' as [[s' m']| |]; cbn [outrel] in H; try tauto;
    try apply stepped_same.
  destruct H as [E K]. cbn [fst snd] in E, K. subst s'. split; [reflexivity|].
  constructor; [|constructor]. repeat split; assumption.
Qed.
Lemma server_step_sim v v' s e e' : sv_server v = sv_server v' -> rd (sv_db v) (sv_db v') ->
  rs (sv_sdb v) (sv_sdb v') -> serel e e' ->
  stepped (server_step R D Ts DB SDB PDB PSDB v s e) (server_step R' D' Ts DB' SDB' PDB' PSDB' v' s e').
Proof.
  intros Hv Hd Hs.
  destruct e, e'; cbn [serel]; try tauto; intros H.
  - subst. destruct s; cbn [server_step]; rewrite Hv; try apply stepped_same. unfold server_begin.
    destruct (generate_nonce _ _ _). apply stepped_same.
  - subst. destruct s; cbn [server_step]; rewrite Hv; try apply stepped_same.
    rewrite server_pre_sim. destruct (server_begin_prestablished_ssid _ _ _ _); apply stepped_same.
  - subst. destruct s; cbn [server_step]; rewrite Hv; try apply stepped_same.
    rewrite server_agree_sim. destruct (Nat.eqb _ _); [|apply stepped_same]. split; [reflexivity|].
    constructor; [|constructor]. repeat split.
  - destruct H as [<- <-]. destruct s; cbn [server_step]; rewrite Hv; try apply stepped_same.
    apply reply_sim; [|exact I|].
    + apply (isSome_sim _ _ _ (ds_lookup _ _ _ _ _ _ HDB _ _ user Hd)).
    + apply (client_info_sim DB DB' PDB PDB' rd HDB Ts s user _ _ st Hd).
  - destruct H as [<- <-]. destruct s; cbn [server_step]; rewrite Hv; try apply stepped_same.
    apply reply_sim; [|exact I|].
    + f_equal; [apply (isSome_sim _ _ _ (ds_lookup _ _ _ _ _ _ HDB _ _ user Hd))|].
      apply (isSome_sim _ _ _ (ds_keys _ _ _ _ _ _ HDB _ _ user Hd)).
    + apply (client_info_partial_sim DB DB' PDB PDB' rd HDB Ts s user _ _ st Hd).
  - destruct H as (<- & H & <-). destruct s; cbn [server_step]; rewrite Hv; try apply stepped_same.
    apply reply_sim; [|exact H|].
    + apply (isSome_sim _ _ _ (sds_lookup _ _ _ _ _ _ HSDB _ _ user Hs)).
    + apply (client_info_strong_sim SDB SDB' PSDB PSDB' rs HSDB Ts s user _ _ _ _ st Hs H).
  - destruct H as (<- & H & <-). destruct s; cbn [server_step]; rewrite Hv; try apply stepped_same.
    apply reply_sim; [|exact H|].
    + f_equal; [apply (isSome_sim _ _ _ (sds_lookup _ _ _ _ _ _ HSDB _ _ user Hs))|].
      apply (isSome_sim _ _ _ (sds_keys _ _ _ _ _ _ HSDB _ _ user Hs)).
    + apply (client_info_partial_strong_sim SDB SDB' PSDB PSDB' rs HSDB Ts s user _ _ _ _ st Hs H).
  - subst. destruct s; cbn [server_step]; rewrite Hv; try apply stepped_same.
    pose proof (server_key_sim Ts s ci0) as K.
    destruct (server_generate_public_key R D Ts s ci0), (server_generate_public_key R' D' Ts s ci0).
    destruct K as [E _]. cbn [fst] in E. subst. apply stepped_same.
  - destruct s; cbn [server_step]; rewrite Hv; try apply stepped_same.
    rewrite (receive_client_pubkey_sim s _ _ H). destruct (receive_client_pubkey R' D' s Y0); apply stepped_same.
  - destruct s; cbn [server_step]; rewrite Hv; try apply stepped_same.
    rewrite (server_implicit_sim s _ _ H). destruct (server_implicit_auth R' D' s Y0); try apply stepped_same.
    split; [reflexivity|]. constructor; [|constructor]. repeat split.
  - subst. destruct s; cbn [server_step]; rewrite Hv; try apply stepped_same.
    pose proof (receive_client_auth_sim s a0) as K.
    destruct (receive_client_authenticator R D s a0) as [[k m]| |],
      (receive_client_authenticator R' D' s a0) as [[k' m']| |]; cbn [outrel] in K; try tauto;
      try apply stepped_same.
    destruct K as [E K]. cbn [fst snd] in E, K. subst k'.
    destruct m, m'; cbn [GroupSim.srel] in K; try tauto; try apply stepped_same. subst.
    split; [reflexivity|]. constructor; [|constructor]. repeat split.
Qed.

Lemma set_sim {A} (f g : nat -> A) i a : (forall k, f k = g k) -> forall k, set f i a k = set g i a k.
Proof. intros H k. unfold set. destruct (Nat.eqb k i); auto. Qed.
Lemma log_client_sim i l : Forall2 lrel (map (@LC R i) l) (map (@LC R' i) l).
Proof. induction l; cbn; constructor; auto. now split. Qed.
Lemma log_server_sim j l l' : Forall2 slrel l l' -> Forall2 lrel (map (LS j) l) (map (LS j) l').
Proof. induction 1; cbn; constructor; auto. now split. Qed.

Lemma step_sim w w' e e' : wrel w w' -> erel e e' ->
  wrel (step R D Params Tc Ts DB SDB PDB PSDB w e) (step R' D' Params Tc Ts DB' SDB' PDB' PSDB' w' e').
Proof.
  intros [Hv Hd Hs Hc Hss Hl].
  destruct e, e'; cbn [erel]; try tauto; intros H.
  - destruct H as [<- H]. cbn [step]. rewrite (Hc i), (client_step_sim _ _ _ H).
    destruct (client_step R' D' Params Tc (w_clients w' i) e0) as [c l].
    split; cbn [w_server w_clients w_sessions w_log]; auto using set_sim.
    apply Forall2_app; [exact Hl|apply log_client_sim].
  - destruct H as [<- H]. cbn [step]. rewrite (Hss j).
    pose proof (server_step_sim (w_server w) (w_server w') (w_sessions w' j) _ _ Hv Hd Hs H) as K.
    destruct (server_step R D Ts DB SDB PDB PSDB (w_server w) (w_sessions w' j) e) as [[sv s] l],
      (server_step R' D' Ts DB' SDB' PDB' PSDB' (w_server w') (w_sessions w' j) e0) as [[sv' s'] l'].
    destruct K as [E K]. cbn [fst snd] in E, K. injection E as <- <-.
    split; cbn [w_server w_clients w_sessions w_log sv_server sv_db sv_sdb]; auto using set_sim.
    apply Forall2_app; [exact Hl|now apply log_server_sim].
  - destruct H as (<- & <- & <- & H & <-). cbn [step with_server].
    split; cbn [w_server w_clients w_sessions w_log sv_server sv_db sv_sdb]; auto.
    now apply (ds_store _ _ _ _ _ _ HDB).
  - destruct H as (<- & <- & H & <- & <-). cbn [step with_server].
    split; cbn [w_server w_clients w_sessions w_log sv_server sv_db sv_sdb]; auto.
    now apply (sds_store _ _ _ _ _ _ HSDB).
  - subst. cbn [step]. rewrite Hv.
    destruct (long_term_sim Ts (sv_server (w_server w'))) as (x & X & X' & sv & -> & -> & H).
    split; cbn [w_server w_clients w_sessions w_log sv_server sv_db sv_sdb with_server]; auto.
    pose proof (ds_store_keys _ _ _ _ _ _ HDB _ _ user0 x X X' Hd H) as K.
    destruct (store_long_term_keypair PDB _ _ _ _), (store_long_term_keypair PDB' _ _ _ _);
      cbn [outrel] in K; tauto.
  - subst. cbn [step]. rewrite Hv.
    destruct (long_term_sim Ts (sv_server (w_server w'))) as (x & X & X' & sv & -> & -> & H).
    split; cbn [w_server w_clients w_sessions w_log sv_server sv_db sv_sdb with_server]; auto.
    pose proof (sds_store_keys _ _ _ _ _ _ HSDB _ _ user0 x X X' Hs H) as K.
    destruct (store_long_term_keypair PSDB _ _ _ _), (store_long_term_keypair PSDB' _ _ _ _);
      cbn [outrel] in K; tauto.
Qed.
Lemma run_sim w w' es es' : wrel w w' -> Forall2 erel es es' ->
  wrel (run R D Params Tc Ts DB SDB PDB PSDB w es) (run R' D' Params Tc Ts DB' SDB' PDB' PSDB' w' es').
Proof.
  intros H K. revert w w' H. induction K as [|e e' es es' He _ IH]; intros w w' H; [exact H|].
  apply IH. now apply step_sim.
Qed.
Lemma init_sim rng d d' sd sd' : rd d d' -> rs sd sd' ->
  wrel (init R Ts DB SDB rng d sd) (init R' Ts DB' SDB' rng d' sd').
Proof. intros. split; auto. constructor. Qed.
End World.
End Sim.
