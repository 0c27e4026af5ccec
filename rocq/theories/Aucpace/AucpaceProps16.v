(** * AuCPace: a dictionary of passwords tried online (C81). *)
From Coq Require Import ZArith Lia.
From Verif Require Import Base.Bytes Base.Outcome Base.CtEq Base.Rng Base.Count Base.Guess Base.Dictionary.
From Verif Require Import Curve.Primes Curve.Scalar25519 Curve.NearUniform Curve.Strings64.
From Verif Require Import Aucpace.RistrettoGroup Aucpace.PwHash Aucpace.AucpaceModel Aucpace.AucpaceSpec
  Aucpace.AucpaceRun Aucpace.AucpaceDb Aucpace.AucpaceToy Aucpace.AucpaceProofs Aucpace.AucpaceProps Aucpace.AucpaceProps4
  Aucpace.AucpaceProps10 Aucpace.AucpaceProps11 Aucpace.AucpaceProps15.
Local Open Scope nat_scope.

Section Dictionary.
Context (R : RGroup) (L : rgroup_laws R) (D : bytes -> bytes) (Dlen : forall m, length (D m) = 64).

(** A session of the server for one user: its state, the exponent of its first public key, the channel, the
    reply, and where the augmentation step leaves it for a verifier and the random bytes still to come. *)
Record setup := { su_server : AuCPaceServerAugLayer; su_x : scalar; su_ci : bytes; su_reply : ServerMessage R;
  su_start : pt R -> bytes -> AuCPaceServerCPaceSubstep tape_rng }.
Definition su_generator (u : setup) (W : pt R) : pt R :=
  spec_G R D (sal_ssid (su_server u)) (rcompress R (rmul W (su_x u))) (su_ci u).
(** The same reply whatever verifier of the dictionary is stored. *)
Definition proper (dict : list (pt R)) (u : setup) : Prop :=
  x_pub_of R (su_reply u) = Some (rmul (rbase R) (su_x u)) /\ su_x u <> szero /\
  forall W, In W dict -> su_generator u W <> rzero R /\
    forall tape, length tape = 64 ->
      serves R D W tape_rng (su_server u) (su_start u W tape) (su_reply u) /\ scs_rng tape_rng (su_start u W tape) = tape.

Definition su_key (W : pt R) (u : setup) (tape : bytes) : AuCPaceServerRecvClientKey * ServerMessage R :=
  server_generate_public_key R D tape_rng (su_start u W tape) (su_ci u).
(** The server after it has sent its public key in every session, and those messages. *)
Definition world_of (us : list setup) (W : pt R) (tapes : list bytes) : world R :=
  {| wd_verifier := W; wd_sessions := map2 (fun u t => fst (su_key W u t)) us tapes |}.
Definition messages (us : list setup) (W : pt R) (tapes : list bytes) : list (ServerMessage R) :=
  map2 (fun u t => snd (su_key W u t)) us tapes.
(** An attacker sees the messages (the replies are fixed), then makes its attempts one after the other. *)
Definition attacker : Type := list (ServerMessage R) -> list (attempt R * bool) -> attempt R.
Definition win (us : list setup) (a : attacker) (m : nat) (W : pt R) (tapes : list bytes) : bool :=
  wins (attempt_accepted R D) (a (messages us W tapes)) (world_of us W tapes) [] m.

(** Two verifiers, and random bytes with which they lead to the same messages, collide at an attempt. *)
Definition collides (us : list setup) (a : attacker) (m : nat) (dict : list (pt R)) : Prop :=
  exists W W' tapes tapes' i u v rk rk' Yc t, In W dict /\ In W' dict /\ W <> W' /\
    messages us W tapes = messages us W' tapes' /\
    In (i, Yc, t) (refused (a (messages us W tapes)) [] m) /\ nth_error us i = Some u /\
    v = {| v_ssid := sal_ssid (su_server u); v_x := su_x u; v_ci := su_ci u; v_Y := rmul (su_generator u W) (src_priv_key rk) |} /\
    nth_error (wd_sessions R (world_of us W tapes)) i = Some rk /\
    nth_error (wd_sessions R (world_of us W' tapes')) i = Some rk' /\
    guess_collision R D v Yc W W' (src_priv_key rk) (src_priv_key rk').

Lemma su_key_eq dict u W t : proper dict u -> In W dict -> length t = 64 ->
  su_key W u t = ({| src_ssid := sal_ssid (su_server u); src_priv_key := random t |},
                  SPublicKey (rmul (su_generator u W) (random t))).
Proof.
  intros (HX & Hx & H) HW Ht. destruct (H W HW) as [HG HS]. destruct (HS t Ht) as [S Et].
  destruct (serves_prs R D W tape_rng _ _ _ S) as (x & EX & Ep & Es).
  rewrite HX in EX. injection EX as EX. apply (rmul_inj L) in EX; [|exact (rl_base R L)]. subst x.
  unfold su_key. destruct (su_start u W t) as [i p g]. cbn [scs_prs scs_ssid scs_rng] in Ep, Es, Et. subst i p g.
  rewrite server_key_eq. reflexivity.
Qed.

Lemma su_session dict u W t : proper dict u -> In W dict -> length t = 64 ->
  session_of R D W {| v_ssid := sal_ssid (su_server u); v_x := su_x u; v_ci := su_ci u; v_Y := rmul (su_generator u W) (random t) |}
    (fst (su_key W u t)).
Proof.
  intros HP HW Ht. pose proof (su_key_eq dict u W t HP HW Ht) as EK.
  destruct HP as (HX & Hx & H). destruct (H W HW) as [HG HS]. destruct (HS t Ht) as [S Et].
  exists tape_rng, (su_server u), (su_start u W t), (su_reply u). cbn [v_ssid v_x v_ci v_Y].
  split; [exact S|]. split; [reflexivity|]. split; [exact HX|]. fold (su_key W u t). rewrite EK. reflexivity.
Qed.

Definition pk_of (m : ServerMessage R) : pt R := match m with SPublicKey Y => Y | _ => rzero R end.
Definition pt_eq_dec (P Q : pt R) : {P = Q} + {P <> Q}.
Proof. destruct (reqb R P Q) eqn:E; [left; now apply (rl_eqb R L)|right; intros H; apply (rl_eqb R L) in H; congruence]. Defined.

Lemma dictionary_arith (K T M c S n m d : Z) P :
  (0 <= d -> 0 <= n -> 0 < T -> 0 <= P -> 0 <= K -> K * M <= T -> T * c <= n * M * P -> S <= m * P + d * c ->
   K * S <= (K * m + d * n) * P)%Z.
Proof.
  intros Hd Hn HT HP HK H1 H2 H3.
  assert (K * c <= n * P)%Z as H4.
  { apply (Z.mul_le_mono_pos_l _ _ T HT).
    apply Z.le_trans with (K * (n * M * P))%Z; [replace (T * (K * c))%Z with (K * (T * c))%Z by ring; now apply Z.mul_le_mono_nonneg_l|].
    replace (K * (n * M * P))%Z with ((K * M) * (n * P))%Z by ring. apply Z.mul_le_mono_nonneg_r; [now apply Z.mul_nonneg_nonneg|exact H1]. }
  apply Z.le_trans with (K * (m * P + d * c))%Z; [now apply Z.mul_le_mono_nonneg_l|].
  replace (K * (m * P + d * c))%Z with (K * m * P + d * (K * c))%Z by ring.
  replace ((K * m + d * n) * P)%Z with (K * m * P + d * (n * P))%Z by ring.
  apply Z.add_le_mono_l. now apply Z.mul_le_mono_nonneg_l.
Qed.


Local Opaque strings.
Section Count.
Context (us : list setup) (dict : list (pt R)) (NDdict : NoDup dict) (Hus : Forall (proper dict) us) (a : attacker) (m : nat).
Let msg (W : pt R) (u : setup) (t : bytes) : pt R := pk_of (snd (su_key W u t)).
Let tapes := all_tapes (strings 64) us.

Lemma msg_eq W u t : In W dict -> In u us -> In t (strings 64) -> msg W u t = rmul (su_generator u W) (random t).
Proof.
  intros HW Hu Ht. apply in_strings in Ht. rewrite Forall_forall in Hus. unfold msg.
  now rewrite (su_key_eq dict u W t (Hus u Hu) HW Ht).
Qed.

Lemma few_strings W u c : In W dict -> In u us ->
  length (filter (fun t => if pt_eq_dec (msg W u t) c then true else false) (strings 64)) <= most.
Proof.
  intros HW Hu. set (p := fun t => if pt_eq_dec (msg W u t) c then true else false).
  assert (forall t, In t (filter p (strings 64)) -> In t (strings 64) /\ rmul (su_generator u W) (random t) = c) as H.
  { intros t Ht. apply filter_In in Ht. destruct Ht as [Ht E]. unfold p in E. rewrite (msg_eq W u t HW Hu Ht) in E.
    destruct (pt_eq_dec _ c) as [E'|_]; [now split|discriminate E]. }
  destruct (filter p (strings 64)) as [|t0 l] eqn:E; [apply Nat.le_0_l|]. destruct (H t0 (or_introl eq_refl)) as [_ E0].
  rewrite <- E. eapply Nat.le_trans; [|exact (most_spec (random t0))].
  apply filter_le. intros t Ht Hp. apply seqb_eq.
  assert (In t (t0 :: l)) as Hi by (rewrite <- E; apply filter_In; now split).
  destruct (H t Hi) as [_ Et]. rewrite <- E0 in Et.
  rewrite Forall_forall in Hus. destruct (Hus u Hu) as (_ & _ & HS).
  exact (rmul_inj L _ _ _ (proj1 (HS W HW)) Et).
Qed.

Lemma public_keys W u t : In W dict -> In u us -> In t (strings 64) -> seqb (random t) szero = false ->
  In (msg W u t) (map (rmul (rbase R)) nonzero_scalars).
Proof.
  intros HW Hu Ht Hz. rewrite (msg_eq W u t HW Hu Ht). apply seqb_neq in Hz.
  destruct (rmul_onto L (rbase R) (rmul (su_generator u W) (random t)) (rl_base R L)) as [y Hy]. rewrite <- Hy.
  apply in_map. apply nonzero_scalars_spec. intros ->.
  rewrite (rmul_szero (R:=R)) in Hy. symmetry in Hy. apply (rmul_identity L) in Hy.
  rewrite Forall_forall in Hus. destruct (Hus u Hu) as (_ & _ & HS). destruct Hy as [Hy|Hy]; [exact (Hz Hy)|exact (proj1 (HS W HW) Hy)].
Qed.

Lemma messages_seen W ts : In W dict -> In ts tapes -> messages us W ts = map SPublicKey (seen us msg W ts).
Proof.
  intros HW Hts. destruct (in_all_tapes _ _ _ Hts) as [Lts Hi]. apply nth_error_ext. intros i.
  rewrite nth_error_map. unfold messages, seen.
  destruct (nth_error us i) as [u|] eqn:Eu.
  - destruct (nth_error ts i) as [t|] eqn:Et.
    + assert (nth_error (map2 (msg W) us ts) i = Some (msg W u t)) as -> by (apply map2_nth; eauto).
      cbn [option_map]. apply map2_nth. exists u, t. split; [exact Eu|]. split; [exact Et|].
      apply nth_error_In in Eu, Et. rewrite (msg_eq W u t HW Eu (Hi t Et)).
      rewrite Forall_forall in Hus. rewrite (su_key_eq dict u W t (Hus u Eu) HW (proj1 (in_strings 64 t) (Hi t Et))). reflexivity.
    + exfalso. apply nth_error_None in Et. assert (nth_error us i <> None) as Q by now rewrite Eu. apply nth_error_Some in Q. lia.
  - assert (forall C (f : setup -> bytes -> C), nth_error (map2 f us ts) i = None) as HN.
    { intros C f. destruct (nth_error (map2 f us ts) i) as [x|] eqn:Ex; [|reflexivity].
      apply map2_nth in Ex. destruct Ex as (u & t & Eu' & _). rewrite Eu in Eu'. discriminate Eu'. }
    now rewrite !HN.
Qed.

Let ask (ys : list (pt R)) := a (map SPublicKey ys).
Let accept (W : pt R) (ts : list bytes) (q : attempt R) : bool := attempt_accepted R D (world_of us W ts) q.

Lemma won W ts : In W dict -> In ts tapes -> win us a m W ts = run_won us msg ask accept m W ts.
Proof.
  intros HW Hts. unfold win, run_won, ask. rewrite <- (messages_seen W ts HW Hts). apply wins_ext. intros q. reflexivity.
Qed.

Lemma two_accept_collides :
  two_accept (strings 64) us dict msg (fun t => seqb (random t) szero) ask accept m -> collides us a m dict.
Proof.
  intros (W & W' & ts & ts' & [[i Yc] t] & HW & HW' & Hne & Hts & Hts' & HZ & HZ' & ES & Hq & A & A').
  destruct (in_all_tapes _ _ _ Hts) as [Lts Hi]. destruct (in_all_tapes _ _ _ Hts') as [Lts' Hi'].
  unfold accept, attempt_accepted in A, A'.
  destruct (nth_error (wd_sessions R (world_of us W ts)) i) as [rk|] eqn:Ek; [|discriminate A].
  destruct (nth_error (wd_sessions R (world_of us W' ts')) i) as [rk'|] eqn:Ek'; [|discriminate A'].
  pose proof Ek as E1. pose proof Ek' as E1'. apply map2_nth in E1, E1'.
  destruct E1 as (u & b & Eu & Eb & ->). destruct E1' as (u' & b' & Eu' & Eb' & ->).
  rewrite Eu in Eu'. injection Eu' as <-.
  assert (msg W u b = msg W' u b') as EY.
  { assert (nth_error (seen us msg W ts) i = Some (msg W u b)) as Q by (apply map2_nth; eauto).
    assert (nth_error (seen us msg W' ts') i = Some (msg W' u b')) as Q' by (apply map2_nth; eauto).
    rewrite ES in Q. rewrite Q in Q'. now injection Q'. }
  pose proof (nth_error_In _ _ Eu) as Hu. pose proof (Hi b (nth_error_In _ _ Eb)) as Hb. pose proof (Hi' b' (nth_error_In _ _ Eb')) as Hb'.
  pose proof (proj1 (Forall_forall _ _) Hus u Hu) as HP.
  rewrite (msg_eq W u b HW Hu Hb), (msg_eq W' u b' HW' Hu Hb') in EY.
  pose proof (su_session dict u W b HP HW (proj1 (in_strings 64 b) Hb)) as S.
  pose proof (su_session dict u W' b' HP HW' (proj1 (in_strings 64 b') Hb')) as S'. rewrite <- EY in S'.
  assert (Hz : random b <> szero).
  { intros E. assert (existsb (fun t => seqb (random t) szero) ts = true) as Q; [|rewrite Q in HZ; discriminate HZ].
    apply existsb_exists. exists b. split; [exact (nth_error_In _ _ Eb)|]. now apply seqb_eq. }
  destruct HP as (HX & Hx & HS).
  destruct (C81_one_verifier_per_session R L D Dlen W W' _ _ _ Yc t S S') as [Q|Q]; [exact Hx| |exact A|exact A'|contradiction|].
  { cbn [v_Y]. intros E. apply (rmul_identity L) in E. destruct E as [E|E]; [exact (Hz E)|exact (proj1 (HS W HW) E)]. }
  eexists W, W', ts, ts', i, u, _, _, _, Yc, t.
  split; [exact HW|]. split; [exact HW'|]. split; [exact Hne|].
  split; [rewrite (messages_seen W ts HW Hts), (messages_seen W' ts' HW' Hts'), ES; reflexivity|].
  split; [rewrite (messages_seen W ts HW Hts); exact Hq|]. split; [exact Eu|]. split; [|split; [exact Ek|split; [exact Ek'|exact Q]]].
  f_equal. f_equal. pose proof (proj1 (Forall_forall _ _) Hus u Hu) as HP.
  now rewrite (su_key_eq dict u W b HP HW (proj1 (in_strings 64 b) Hb)).
Qed.
End Count.

(** ** C81.  The server serves a user in [n] sessions; its verifier comes from a dictionary.  Of all the random
    bytes of the [n] sessions, for all the verifiers of the dictionary taken together, at most those of [m]
    verifiers and a 2^-252 part for each session let one of an attacker's [m] attempts succeed: a password
    drawn from the dictionary is found with probability at most [m / length dict + n / 2^252].  Or there is
    a collision. *)
Theorem C81_dictionary :
  forall us dict (a : attacker) m, NoDup dict -> Forall (proper dict) us ->
  let n := length us in
  let winning W := length (filter (win us a m W) (choices (repeat (strings 64) n))) in
  (2 ^ 252 * Z.of_nat (sum_over winning dict)
   <= (2 ^ 252 * Z.of_nat m + Z.of_nat (length dict) * Z.of_nat n) * (256 ^ 64) ^ Z.of_nat n)%Z
  \/ collides us a m dict.
Proof.
  intros us dict a m ND Hus n winning. unfold winning.
  destruct (dictionary_count pt_eq_dec pt_eq_dec (strings 64) (nodup_strings 64) most us dict ND _ (fun t => seqb (random t) szero)
    (map (rmul (rbase R)) nonzero_scalars) (few_strings us dict Hus) (public_keys us dict Hus) (fun ys => a (map SPublicKey ys))
    (fun W ts q => attempt_accepted R D (world_of us W ts) q) m) as [H|H]; [left|right; exact (two_accept_collides us dict Hus a m H)].
  rewrite (sum_over_ext _ (fun W => length (filter (win us a m W) (all_tapes (strings 64) us)))) in H.
  2:{ intros W HW. f_equal. apply filter_ext_in. intros ts Hts. symmetry. exact (won us dict Hus a m W ts HW Hts). }
  pose proof (one_bad (fun t => seqb (random t) szero) (strings 64) most n (most_spec szero)) as H0.
  unfold all_tapes in H. fold n in H. rewrite map_length in H.
  pose proof nonzero_most as HN. rewrite Nat.mul_comm in HN. apply (Nat.pow_le_mono_l _ _ n) in HN.
  apply (Nat.mul_le_mono_l _ _ m) in HN.
  pose proof (Nat.le_trans _ _ _ H (proj1 (Nat.add_le_mono_r _ _ _) HN)) as H'. clear H HN. rename H' into H.
  pose proof most_small as H1. pose proof strings_64 as H2. revert H H0 H1 H2.
  generalize (sum_over (fun W => length (filter (win us a m W) (choices (repeat (strings 64) n)))) dict) as S.
  generalize (length (filter (existsb (fun t => seqb (random t) szero)) (choices (repeat (strings 64) n)))) as c.
  generalize most as M. generalize (length (strings 64)) as s. generalize (length dict) as d.
  assert (0 < 256 ^ 64)%Z as HT by (apply Z.ltb_lt; vm_compute; reflexivity).
  assert (0 <= 2 ^ 252)%Z as HK by (apply Z.leb_le; vm_compute; reflexivity).
  revert HT HK. generalize (256 ^ 64)%Z as T. generalize (2 ^ 252)%Z as K. clear.
  intros K T HT HK d s M c S H H0 H1 H2.
  apply Nat2Z.inj_le in H, H0. rewrite Nat2Z.inj_add, !Nat2Z.inj_mul, Nat2Z.inj_pow, H2 in H.
  rewrite !Nat2Z.inj_mul, Nat2Z.inj_pow, H2 in H0.
  apply (dictionary_arith K T (Z.of_nat M) (Z.of_nat c)); try assumption; try apply Nat2Z.is_nonneg.
  apply Z.pow_nonneg, Z.lt_le_incl. exact HT.
Qed.

(** ** The four kinds of session *)
Definition stopped (T : Rng) (st : rng_state T) (r : res (AuCPaceServerCPaceSubstep T * ServerMessage R)) : AuCPaceServerCPaceSubstep T :=
  match r with Ok (ss, _) => ss | _ => Build_AuCPaceServerCPaceSubstep T [] [] st end.
(** The verifier [W] is stored in [d W]; the server draws its first exponent from [xtape], or has stored it. *)
Definition plain_session (DB : Database R) user (d : pt R -> db DB) salt ps s xtape ci : setup := {|
  su_server := s; su_x := random xtape; su_ci := ci;
  su_reply := SAugmentationInfo group_name (rmul (rbase R) (random xtape)) salt ps;
  su_start := fun W t => stopped tape_rng t (generate_client_info R D DB tape_rng s user (d W) (xtape ++ t)) |}.
Definition partial_session (DB : Database R) PDB user (d : pt R -> db DB) salt ps s x ci : setup := {|
  su_server := s; su_x := x; su_ci := ci; su_reply := SAugmentationInfo group_name (rmul (rbase R) x) salt ps;
  su_start := fun W t => stopped tape_rng t (generate_client_info_partial_aug R D DB PDB tape_rng s user (d W) t) |}.
Definition strong_session (DB : StrongDatabase R) user U (d : pt R -> sdb DB) q ps s xtape ci : setup := {|
  su_server := s; su_x := random xtape; su_ci := ci;
  su_reply := SStrongAugmentationInfo group_name (rmul (rbase R) (random xtape)) (rmul U q) ps;
  su_start := fun W t => stopped tape_rng t (generate_client_info_strong R D DB tape_rng s user U (d W) (xtape ++ t)) |}.
Definition partial_strong_session (DB : StrongDatabase R) PDB user U (d : pt R -> sdb DB) q ps s x ci : setup := {|
  su_server := s; su_x := x; su_ci := ci; su_reply := SStrongAugmentationInfo group_name (rmul (rbase R) x) (rmul U q) ps;
  su_start := fun W t => stopped tape_rng t (generate_client_info_partial_strong R D DB PDB tape_rng s user U (d W) t) |}.

Definition no_identity (dict : list (pt R)) (u : setup) : Prop :=
  su_x u <> szero /\ forall W, In W dict -> su_generator u W <> rzero R.

Theorem C81_plain_sessions :
  forall DB user d salt ps s xtape ci dict,
  let u := plain_session DB user d salt ps s xtape ci in
  (forall W, In W dict -> lookup_verifier DB (d W) user = Some (W, salt, ps)) ->
  length xtape = 64 -> no_identity dict u -> proper dict u.
Proof.
  intros DB user d salt ps s xtape ci dict u HL Lx [Hx HG]. split; [reflexivity|]. split; [exact Hx|].
  intros W HW. split; [exact (HG W HW)|]. intros t Lt.
  assert (exists ss, generate_client_info R D DB tape_rng s user (d W) (xtape ++ t) = Ok (ss, su_reply u) /\ scs_rng tape_rng ss = t)
    as (ss & E & Er).
  { rewrite generate_client_info_eq. unfold generate_prs. rewrite (HL W HW). destruct (tape_split D xtape t Lx) as [-> ->].
    cbn [cpace_substep obind]. eexists. split; reflexivity. }
  cbn [u plain_session su_start su_server]. rewrite E. cbn [stopped]. split; [|exact Er].
  exact (sv_plain R D W tape_rng s DB user (d W) (xtape ++ t) salt ps ss _ (HL W HW) E).
Qed.

Theorem C81_partial_sessions :
  forall DB PDB user d salt ps s x ci dict,
  let u := partial_session DB PDB user d salt ps s x ci in
  (forall W, In W dict -> lookup_verifier DB (d W) user = Some (W, salt, ps) /\
     lookup_long_term_keypair PDB (d W) user = Some (x, rmul (rbase R) x)) ->
  no_identity dict u -> proper dict u.
Proof.
  intros DB PDB user d salt ps s x ci dict u HL [Hx HG]. split; [reflexivity|]. split; [exact Hx|].
  intros W HW. split; [exact (HG W HW)|]. intros t Lt. destruct (HL W HW) as [H1 H2].
  assert (exists ss, generate_client_info_partial_aug R D DB PDB tape_rng s user (d W) t = Ok (ss, su_reply u) /\ scs_rng tape_rng ss = t)
    as (ss & E & Er).
  { unfold generate_client_info_partial_aug, generate_prs. rewrite H2, H1. cbn [cpace_substep obind]. eexists. split; reflexivity. }
  cbn [u partial_session su_start su_server]. rewrite E. cbn [stopped]. split; [|exact Er].
  exact (sv_partial R D W tape_rng s DB PDB user (d W) t salt ps x ss _ H1 H2 E).
Qed.

Theorem C81_strong_sessions :
  forall DB user U d q ps s xtape ci dict,
  let u := strong_session DB user U d q ps s xtape ci in
  (forall W, In W dict -> lookup_verifier_strong DB (d W) user = Some (W, q, ps)) ->
  length xtape = 64 -> rmul U q <> rzero R -> no_identity dict u -> proper dict u.
Proof.
  intros DB user U d q ps s xtape ci dict u HL Lx HU [Hx HG]. split; [reflexivity|]. split; [exact Hx|].
  intros W HW. split; [exact (HG W HW)|]. intros t Lt. apply (is_identity_neq L) in HU.
  assert (exists ss, generate_client_info_strong R D DB tape_rng s user U (d W) (xtape ++ t) = Ok (ss, su_reply u) /\ scs_rng tape_rng ss = t)
    as (ss & E & Er).
  { rewrite generate_client_info_strong_eq. unfold generate_prs_strong. rewrite (HL W HW).
    destruct (tape_split D xtape t Lx) as [-> ->]. rewrite smult_one_r, HU.
    cbn [cpace_substep obind]. eexists. split; reflexivity. }
  cbn [u strong_session su_start su_server]. rewrite E. cbn [stopped]. split; [|exact Er].
  exact (sv_strong R D W tape_rng s DB user U (d W) (xtape ++ t) q ps ss _ (HL W HW) E).
Qed.

Theorem C81_partial_strong_sessions :
  forall DB PDB user U d q ps s x ci dict,
  let u := partial_strong_session DB PDB user U d q ps s x ci in
  (forall W, In W dict -> lookup_verifier_strong DB (d W) user = Some (W, q, ps) /\
     lookup_long_term_keypair PDB (d W) user = Some (x, rmul (rbase R) x)) ->
  rmul U q <> rzero R -> no_identity dict u -> proper dict u.
Proof.
  intros DB PDB user U d q ps s x ci dict u HL HU [Hx HG]. split; [reflexivity|]. split; [exact Hx|].
  intros W HW. split; [exact (HG W HW)|]. intros t Lt. destruct (HL W HW) as [H1 H2]. apply (is_identity_neq L) in HU.
  assert (exists ss, generate_client_info_partial_strong R D DB PDB tape_rng s user U (d W) t = Ok (ss, su_reply u) /\ scs_rng tape_rng ss = t)
    as (ss & E & Er).
  { unfold generate_client_info_partial_strong, generate_prs_strong. rewrite H2, H1.
    rewrite smult_one_r, HU. cbn [cpace_substep obind]. eexists. split; reflexivity. }
  cbn [u partial_strong_session su_start su_server]. rewrite E. cbn [stopped]. split; [|exact Er].
  exact (sv_partial_strong R D W tape_rng s DB PDB user U (d W) t q ps x ss _ H1 H2 E).
Qed.
End Dictionary.

Print Assumptions C81_dictionary.
Print Assumptions C81_plain_sessions.
Print Assumptions C81_partial_sessions.
Print Assumptions C81_strong_sessions.
Print Assumptions C81_partial_strong_sessions.

(** ** Case: no collisions.  A digest that keeps the last 64 bytes, over the toy group: with channels of no
    bytes two verifiers never collide, so the bound of C81_dictionary holds outright. *)
Definition last64 (m : bytes) : bytes := skipn (length m) (repeat x00 64 ++ m).
Lemma last64_length m : length (last64 m) = 64.
Proof. unfold last64. rewrite skipn_length, app_length, repeat_length. lia. Qed.
Lemma last64_tail p a : length a <= 64 -> exists q, length q + length a = 64 /\
  last64 (p ++ a) = q ++ a /\ forall b, length b = length a -> last64 (p ++ b) = q ++ b.
Proof.
  intros La. exists (skipn (length p + length a) (repeat x00 64 ++ p)).
  assert (forall b, length b = length a -> last64 (p ++ b) = skipn (length p + length a) (repeat x00 64 ++ p) ++ b) as H.
  { intros b Lb. unfold last64. rewrite app_length, Lb, app_assoc, skipn_app, app_length, repeat_length.
    replace (length p + length a - (64 + length p)) with 0 by lia. now rewrite skipn_O. }
  split; [rewrite skipn_length, app_length, repeat_length; lia|]. split; [now apply H|exact H].
Qed.
Lemma last64_inj p a b : length a <= 64 -> length b = length a -> last64 (p ++ a) = last64 (p ++ b) -> a = b.
Proof.
  intros La Lb E. destruct (last64_tail p a La) as (q & _ & Ea & H). rewrite Ea, (H b Lb) in E. now apply app_inv_head in E.
Qed.

Lemma wide_inj q (s s' : scalar) : length q = 32 -> scalar_wide (q ++ scalar_bytes s) = scalar_wide (q ++ scalar_bytes s') -> s = s'.
Proof.
  intros Lq E. unfold scalar_wide in E. rewrite !le_val_app, !N2Z.inj_add, !N2Z.inj_mul, !le_val_scalar_bytes, Lq in E.
  apply (f_equal sval) in E. rewrite !sval_sof in E. revert E. generalize (Z.of_N (le_val q)) as z. intros z E.
  apply (smult_cancel_l (sof (Z.of_N (256 ^ N.of_nat 32)))).
  - intros H. apply (f_equal sval) in H. rewrite sval_sof, sval_szero in H. revert H. vm_compute. discriminate.
  - apply sval_inj. rewrite !sval_smult, !sval_sof, !Zmult_mod_idemp_l. revert E.
    generalize (Z.of_N (256 ^ N.of_nat 32)) (sval s) (sval s'). intros k a b E.
    pose proof ell_gt_1 as He. revert E He. generalize ell. intros e E He.
    replace (k * a)%Z with ((z + k * a) - z)%Z by lia. replace (k * b)%Z with ((z + k * b) - z)%Z by lia.
    rewrite Zminus_mod, E, <- Zminus_mod. reflexivity.
Qed.

Lemma last64_no_collision (v : view ToyGroup) (Yc W W' : pt ToyGroup) y y' :
  v_ci ToyGroup v = [] -> ~ guess_collision ToyGroup last64 v Yc W W' y y'.
Proof.
  intros Hci [[Hne E]|[[Hne E]|[Hne E]]]; apply Hne; clear Hne.
  - rewrite Hci, !app_nil_r in *. cbv beta in E. rewrite !app_assoc in *.
    set (p := word x01 ++ v_ssid ToyGroup v) in *. f_equal. cbn [rcompress rfrom_uniform ToyGroup] in *.
    set (s := rmul W (v_x ToyGroup v)) in *. set (s' := rmul W' (v_x ToyGroup v)) in *.
    destruct (last64_tail p (scalar_bytes s)) as (q & Lq & Ea & H); [rewrite scalar_bytes_length; lia|].
    rewrite Ea, (H (scalar_bytes s')) in E by now rewrite !scalar_bytes_length.
    rewrite scalar_bytes_length in Lq. f_equal. apply (wide_inj q); [lia|exact E].
  - rewrite !app_assoc in *. f_equal. apply last64_inj in E; [exact E| |]; cbn [rcompress ToyGroup]; rewrite ?scalar_bytes_length; lia.
  - rewrite !app_assoc in *. f_equal. apply last64_inj in E; [exact E| |]; rewrite ?last64_length; lia.
Qed.

Definition dict0 : list (pt ToyGroup) := [sof 600; sof 601].
Definition sdb_with (W : pt ToyGroup) : sdb (AssocStrongDb ToyGroup) :=
  store_verifier_strong (AssocStrongDb ToyGroup) empty_db alice None W (sof 77) toy_params.
Definition server0 (b : byte) : AuCPaceServerAugLayer := {| sal_secret := 9; sal_ssid := repeat b 64 |}.
Definition session0 : setup ToyGroup :=
  plain_session ToyGroup last64 (AssocDb ToyGroup) alice db_with (str "c29tZSBzYWx0") toy_params (server0 x05) xtape0 [].
Definition session1 : setup ToyGroup :=
  strong_session ToyGroup last64 (AssocStrongDb ToyGroup) alice (sof 12) sdb_with (sof 77) toy_params (server0 x06) xtape0 [].
Definition no_identity_b (u : setup ToyGroup) : bool :=
  negb (seqb (su_x ToyGroup u) szero) && forallb (fun W => negb (seqb (su_generator ToyGroup last64 u W) szero)) dict0.
Lemma no_identity_b_ok u : no_identity_b u = true -> no_identity ToyGroup last64 dict0 u.
Proof.
  intros H. apply andb_prop in H. destruct H as [H1 H2]. split.
  - apply negb_true_iff, seqb_neq in H1. exact H1.
  - intros W HW. rewrite forallb_forall in H2. specialize (H2 W HW). apply negb_true_iff, seqb_neq in H2. exact H2.
Qed.
Lemma session0_ok : no_identity_b session0 = true.
Proof. vm_cast_no_check (eq_refl true). Qed.
Lemma session1_ok : no_identity_b session1 = true.
Proof. vm_cast_no_check (eq_refl true). Qed.
Lemma sdb_lookup W : lookup_verifier_strong (AssocStrongDb ToyGroup) (sdb_with W) alice = Some (W, sof 77, toy_params).
Proof. reflexivity. Qed.
Lemma blinded_ok : seqb (smult (sof 12) (sof 77)) szero = false.
Proof. vm_cast_no_check (eq_refl false). Qed.
Lemma toy_mult_nonzero (a b : scalar) : seqb (smult a b) szero = false -> @rmul ToyGroup a b <> rzero ToyGroup.
Proof. intros H E. apply (rmul_identity toy_laws) in E. apply seqb_neq in H. apply H. destruct E as [->|E].
  - apply sval_inj. now rewrite sval_smult, sval_szero, Z.mul_0_r.
  - change (a = szero) in E. rewrite E. apply sval_inj. now rewrite sval_smult, sval_szero.
Qed.

Lemma sessions_proper : Forall (proper ToyGroup last64 dict0) [session0; session1].
Proof.
  constructor; [|constructor; [|constructor]].
  - apply (C81_plain_sessions ToyGroup last64); [intros W _; exact (toy_lookup W)|reflexivity|].
    exact (no_identity_b_ok _ session0_ok).
  - apply (C81_strong_sessions ToyGroup toy_laws last64); [intros W _; exact (sdb_lookup W)|reflexivity| |].
    + exact (toy_mult_nonzero _ _ blinded_ok).
    + exact (no_identity_b_ok _ session1_ok).
Qed.
Lemma dict0_nodup : NoDup dict0.
Proof.
  constructor; [|constructor; [intros []|constructor]]. intros [E|[]]. apply (f_equal sval) in E. revert E. rewrite !sval_sof.
  vm_compute. discriminate.
Qed.

Example C81_dictionary_case : forall a m,
  (2 ^ 252 * Z.of_nat (sum_over (fun W => length (filter (win ToyGroup last64 [session0; session1] a m W)
                                   (choices (repeat (strings 64) 2)))) dict0)
   <= (2 ^ 252 * Z.of_nat m + 2 * 2) * (256 ^ 64) ^ 2)%Z.
Proof.
  intros a m.
  destruct (C81_dictionary ToyGroup toy_laws last64 last64_length [session0; session1] dict0 a m dict0_nodup sessions_proper) as [H|H].
  - exact H.
  - exfalso. destruct H as (W & W' & ts & ts' & i & u & v & rk & rk' & Yc & t & _ & _ & _ & _ & _ & Eu & Ev & _ & _ & HC).
    apply (last64_no_collision v Yc W W' (src_priv_key rk) (src_priv_key rk')); [|exact HC].
    rewrite Ev. cbn [v_ci]. apply nth_error_In in Eu. destruct Eu as [<-|[<-|[]]]; reflexivity.
Qed.
