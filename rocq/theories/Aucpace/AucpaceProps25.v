(** * AuCPace: no randomness is used twice (C91). *)
From Coq Require Import ZArith Lia List.
From Verif Require Import Base.Bytes Base.Outcome Base.Rng Base.Kat.
From Verif Require Import Curve.Scalar25519 Aucpace.RistrettoGroup Aucpace.PwHash Aucpace.Base64Spec Aucpace.AucpaceModel Aucpace.AucpaceSpec
  Aucpace.AucpaceRun Aucpace.AucpaceDb Aucpace.AucpaceToy Aucpace.AucpaceProofs Aucpace.AucpaceProps14 Aucpace.AucpaceRng.
Import ListNotations.
Local Open Scope nat_scope.

Section Fresh.
Context (R : RGroup) (L : rgroup_laws R) (D : bytes -> bytes) (Dlen : forall m, length (D m) = 64).
Context (Params : Type) (params_try_into : Params -> outcome pherror bytes).
Context (f : nat -> byte).
Notation T := (stream_rng f).
Notation exec := (exec R D Params params_try_into).
Notation exec_all := (exec_all R D Params params_try_into).

(** The values come from segments in order. *)
Definition from_stream (ms : list (made R)) (segs : list (nat * nat)) : Prop :=
  Forall2 (fun m seg => made_of m (segment f (fst seg) (snd seg))) ms segs.

Lemma in_order_le p segs p' : in_order p segs p' -> p <= p'.
Proof. revert p. induction segs as [|[a n] segs IH]; intros p H; cbn in H; [exact H|]. destruct H as [H1 H2]. apply IH in H2. lia. Qed.
Lemma in_order_weaken q p segs p' : q <= p -> in_order p segs p' -> in_order q segs p'.
Proof. intros Hq H. destruct segs as [|[a n] segs]; cbn in *; [lia|]. destruct H. split; [lia|assumption]. Qed.
Lemma in_order_app p s1 q s2 r : in_order p s1 q -> in_order q s2 r -> in_order p (s1 ++ s2) r.
Proof.
  revert p. induction s1 as [|[a n] s1 IH]; intros p H1 H2; cbn [app in_order] in *; [now apply (in_order_weaken _ q)|].
  destruct H1 as [H H1]. split; [exact H|now apply IH].
Qed.
Definition good_use (p : nat) (r : list (made R) * nat) : Prop :=
  exists segs, from_stream (fst r) segs /\ in_order p segs (snd r).
Lemma use_one p m n : made_of m (segment f p n) -> good_use p ([m], p + n).
Proof. intros H. exists [(p, n)]. split; [constructor; [exact H|constructor]|]. cbn. split; [apply le_n|lia]. Qed.
Lemma use_none p n : good_use p ([], p + n).
Proof. exists []. split; [constructor|]. cbn. lia. Qed.
Lemma use_skip p n r : good_use (p + n) r -> good_use p r.
Proof. intros (s & H1 & H2). exists s. split; [exact H1|]. apply (in_order_weaken _ (p + n)); [lia|exact H2]. Qed.
Lemma use_app p ms q ms' r : good_use p (ms, q) -> good_use q (ms', r) -> good_use p (ms ++ ms', r).
Proof.
  intros (s1 & F1 & O1) (s2 & F2 & O2). exists (s1 ++ s2). split; [now apply Forall2_app|]. cbn [snd] in *. now apply (in_order_app _ _ q).
Qed.

Lemma ok_is {E A} (a b : A) : @Ok E A a = Ok b -> a = b.
Proof. intros H. now injection H. Qed.
Lemma drawn_stream p : drawn T p = wide (segment f p 64).
Proof. reflexivity. Qed.
Lemma after_stream n p : after T n p = p + n.
Proof. reflexivity. Qed.
Lemma blinding_use fuel p r p' : draw_blinding_value T fuel p = Some (r, p') -> good_use p ([MBlinding r], p').
Proof.
  revert p. induction fuel as [|fuel IH]; intros p E; [discriminate E|]. cbn [draw_blinding_value] in E. rewrite scalar_random_eq in E.
  destruct (seqb (drawn T p) szero) eqn:Z; cbn [negb] in E.
  - apply (use_skip p 64). now apply IH.
  - injection E as <- <-. apply (use_one p (MBlinding (drawn T p)) 64). split; [apply segment_length|]. split; [reflexivity|].
    apply seqb_neq in Z. exact Z.
Qed.
Lemma strong_register_use m user pass params (h : hasher Params) p r c :
  do_register_strong R D Params params_try_into m T (client_new T p) user pass params h = (r, c) ->
  c_rng T c = p + 64 /\ forall u q ps W, r = Ok (CStrongRegistration u q ps W) -> q = wide (segment f p 64).
Proof.
  intros E. destruct m as [n|]; cbn [do_register_strong] in E;
    unfold register_strong, register_alloc_strong in E; rewrite (generate_salt_strong_eq R L D) in E; cbn [obind client_new c_rng] in E.
  - injection E as E <-. split; [reflexivity|]. intros u q ps W ->.
    destruct (hash_password _ _ _ _ _ _ _) as [o|e|]; cbn [obind] in E; try discriminate E.
    destruct (scalar_from_hash o) as [w|e|]; cbn [obind] in E; try discriminate E.
    destruct (omap_err _ _) as [s|e|]; cbn [obind] in E; try discriminate E.
    apply ok_is in E. injection E as _ <- _ _. reflexivity.
  - injection E as E <-. split; [reflexivity|]. intros u q ps W ->.
    destruct (hash_password_alloc _ _ _ _ _ _) as [o|e|]; cbn [obind] in E; try discriminate E.
    destruct (scalar_from_hash o) as [w|e|]; cbn [obind] in E; try discriminate E.
    destruct (omap_err _ _) as [s|e|]; cbn [obind] in E; try discriminate E.
    apply ok_is in E. injection E as _ <- _ _. reflexivity.
Qed.

Lemma exec_use o p r : exec T o p = Some r -> good_use p r.
Proof.
  destruct o as [K1|m user pass params h|m user pass params h| |K1 secret|secret|fuel c user pass|c ci
    |DB s user d|DB PDB s user d|DB s user U d|DB PDB s user U d|ssid prs ci]; cbn [AucpaceRng.exec]; intros E.
  - injection E as <-. apply (use_one p (MNonce (segment f p K1) (segment f p K1)) K1). now split.
  - destruct (do_register _ _ _ _ _ _ _ _ _ _) as [r0 c0] eqn:Er. injection E as <-.
    apply C80_registration_salt in Er. destruct Er as [Ec Es]. rewrite Ec. change (snd (rng_fill T 16 (c_rng T (client_new T p)))) with (p + 16).
    destruct r0 as [[n|u|u U|P|a|u salt ps W|u q ps W]|e|]; try apply use_none.
    apply (use_one p (MSalt salt) 16). destruct (Es u salt ps W eq_refl) as [H _]. split; [apply segment_length|exact H].
  - destruct (do_register_strong _ _ _ _ _ _ _ _ _ _ _) as [r0 c0] eqn:Er. injection E as <-.
    apply strong_register_use in Er. destruct Er as [Ec Es]. rewrite Ec.
    destruct r0 as [[n|u|u U|P|a|u salt ps W|u q ps W]|e|]; try apply use_none.
    apply (use_one p (MExponent q) 64). split; [apply segment_length|exact (Es u q ps W eq_refl)].
  - injection E as <-. apply (use_one p (MSecret (le_val (segment f p 8))) 8). split; [apply segment_length|reflexivity].
  - injection E as <-. apply (use_one p (MNonce (segment f p K1) (segment f p K1)) K1). now split.
  - unfold generate_long_term_keypair in E. rewrite generate_server_keypair_eq in E. injection E as <-. cbn [s_rng].
    apply (use_one p (MKeyPair (drawn T p) (spec_X R (drawn T p))) 64). split; [apply segment_length|]. now split.
  - unfold start_augmentation_strong in E. destruct (draw_blinding_value T fuel p) as [[v p']|] eqn:Eb; [|discriminate E].
    cbv zeta in E. apply (f_equal (fun o => match o with Some x => x | None => ([], p) end)) in E. rewrite <- E.
    cbn [scal_blinding_value]. now apply (blinding_use fuel).
  - unfold client_generate_public_key in E. rewrite generate_keypair_eq in E. cbn [crs_priv_key] in E. injection E as <-.
    apply (use_one p (MPrivate (drawn T p)) 64). split; [apply segment_length|reflexivity].
  - unfold generate_client_info in E. rewrite generate_server_keypair_eq in E. unfold generate_prs in E.
    assert (H1 : good_use p ([MXPub (spec_X R (drawn T p))], p + 64)) by (apply use_one; split; [apply segment_length|reflexivity]).
    destruct (lookup_verifier DB d user) as [[[w salt] sigma]|].
    + cbn [cpace_substep obind] in E. injection E as <-. exact H1.
    + rewrite (lookup_failed_eq R D Dlen) in E. cbn [cpace_substep obind] in E. injection E as <-.
      apply (use_app p [MXPub (spec_X R (drawn T p))] (p + 64)); [exact H1|].
      apply use_one. split; [apply segment_length|reflexivity].
  - unfold generate_client_info_partial_aug in E. unfold generate_prs in E.
    destruct (lookup_long_term_keypair PDB d user) as [[x X]|].
    + destruct (lookup_verifier DB d user) as [[[w salt] sigma]|].
      * cbn [cpace_substep obind info_made app] in E. injection E as <-. cbn [scs_rng].
        rewrite <- (Nat.add_0_r p) at 2. apply use_none.
      * rewrite (lookup_failed_eq R D Dlen) in E. cbn [cpace_substep obind info_made app] in E. injection E as <-.
        apply use_one. split; [apply segment_length|reflexivity].
    + change (point_random R T p) with (rfrom_uniform R (segment f p 64), p + 64) in E. cbv iota beta in E.
      rewrite (lookup_failed_eq R D Dlen) in E. cbn [cpace_substep obind] in E.
      assert (E' : r = ([MXRandom (rfrom_uniform R (segment f p 64))] ++ [MPrs (segment f (p + 64) 32)], p + 64 + 32))
        by (destruct (lookup_verifier DB d user); injection E as <-; reflexivity).
      rewrite E'. apply (use_app p _ (p + 64)); apply use_one; split; (apply segment_length || reflexivity).
  - unfold generate_client_info_strong in E. rewrite generate_server_keypair_eq in E. unfold generate_prs_strong in E.
    assert (H1 : good_use p ([MXPub (spec_X R (drawn T p))], p + 64)) by (apply use_one; split; [apply segment_length|reflexivity]).
    destruct (lookup_verifier_strong DB d user) as [[[w q] sigma]|].
    + cbv zeta in E. destruct (is_identity _); cbn [cpace_substep obind] in E; [discriminate E|]. injection E as <-. exact H1.
    + rewrite (lookup_failed_strong_eq R D) in E. cbv zeta in E. destruct (is_identity _); cbn [cpace_substep obind] in E; [discriminate E|].
      injection E as <-. apply (use_app p [MXPub (spec_X R (drawn T p))] (p + 64)); [exact H1|].
      apply use_one. split; [apply segment_length|reflexivity].
  - unfold generate_client_info_partial_strong in E. unfold generate_prs_strong in E.
    destruct (lookup_long_term_keypair PDB d user) as [[x X]|].
    + destruct (lookup_verifier_strong DB d user) as [[[w q] sigma]|].
      * cbv zeta in E. destruct (is_identity _); cbn [cpace_substep obind info_made app] in E; [discriminate E|]. injection E as <-. cbn [scs_rng].
        rewrite <- (Nat.add_0_r p) at 2. apply use_none.
      * rewrite (lookup_failed_strong_eq R D) in E. cbv zeta in E. destruct (is_identity _); cbn [cpace_substep obind info_made app] in E; [discriminate E|].
        injection E as <-. apply use_one. split; [apply segment_length|reflexivity].
    + change (point_random R T p) with (rfrom_uniform R (segment f p 64), p + 64) in E. cbv iota beta in E.
      rewrite (lookup_failed_strong_eq R D) in E. cbv zeta in E. destruct (is_identity _); cbn [cpace_substep obind] in E; [discriminate E|].
      assert (E' : r = ([MXRandom (rfrom_uniform R (segment f p 64))] ++ [MPrs (segment f (p + 64) 32)], p + 64 + 32))
        by (destruct (lookup_verifier_strong DB d user); injection E as <-; reflexivity).
      rewrite E'. apply (use_app p _ (p + 64)); apply use_one; split; (apply segment_length || reflexivity).
  - unfold server_generate_public_key, server_key_rng in E. rewrite generate_keypair_eq in E. cbn [scs_rng scs_ssid scs_prs src_priv_key snd] in E.
    injection E as <-. apply use_one. split; [apply segment_length|reflexivity].
Qed.

(** Whatever the history, each random value is made, in the documented way, of a part of the generator's stream of
    its own: the parts follow one another without overlap, up to where the generator stands at the end. *)
Theorem C91_disjoint ops p ms p' : exec_all T ops p = Some (ms, p') ->
  exists segs, Forall2 (fun m seg => made_of m (segment f (fst seg) (snd seg))) ms segs /\ in_order p segs p'.
Proof.
  revert p ms p'. induction ops as [|o ops IH]; intros p ms p' E; cbn [AucpaceRng.exec_all] in E.
  - injection E as <- <-. exists []. split; [constructor|apply le_n].
  - destruct (exec T o p) as [[m1 p1]|] eqn:Eo; [|discriminate E]. apply exec_use in Eo.
    destruct (exec_all T ops p1) as [[m2 p2]|] eqn:Ea; [|discriminate E]. apply IH in Ea. injection E as <- <-.
    exact (use_app p m1 p1 m2 p2 Eo Ea).
Qed.

(** So no nonce is sent twice, by whichever ends share the generator, unless the generator repeats itself. *)
Theorem C91_nonces ops p ms p' n : exec_all T ops p = Some (ms, p') ->
  (forall a b, p <= a -> a + n <= b -> b + n <= p' -> segment f a n <> segment f b n) ->
  forall i j k x k' y, i < j -> nth_error ms i = Some (MNonce k x) -> nth_error ms j = Some (MNonce k' y) ->
  length x = n -> length y = n -> x <> y.
Proof.
  intros E. apply C91_disjoint in E. destruct E as (segs & F & O). intros Fresh i j k x k' y Hij Hi Hj Lx Ly.
  assert (G : forall i m, nth_error ms i = Some m -> exists seg, nth_error segs i = Some seg /\ made_of m (segment f (fst seg) (snd seg))).
  { clear -F. induction F as [|m seg ms segs H F IH]; intros i m' E; [now destruct i|].
    destruct i as [|i]; [injection E as <-; exists seg; now split|now apply IH]. }
  destruct (G _ _ Hi) as ((a & na) & Sa & Ka & Xa). destruct (G _ _ Hj) as ((b & nb) & Sb & Kb & Xb). cbn [fst snd] in *.
  rewrite Xa in Lx. rewrite Xb in Ly. rewrite segment_length in Lx, Ly. subst na nb. rewrite Xa, Xb.
  assert (B : forall segs p i a n, in_order p segs p' -> nth_error segs i = Some (a, n) -> p <= a /\ a + n <= p').
  { clear. induction segs as [|[c m] segs IH]; intros p i a n O E; [now destruct i|]. cbn [in_order] in O. destruct O as [O1 O2].
    destruct i as [|i]; [injection E as <- <-; split; [exact O1|now apply in_order_le in O2]|].
    destruct (IH _ _ _ _ O2 E). split; [lia|assumption]. }
  assert (W : forall segs p i j a b n n', in_order p segs p' -> i < j -> nth_error segs i = Some (a, n) -> nth_error segs j = Some (b, n') -> a + n <= b).
  { clear -B. induction segs as [|[c m] segs IH]; intros p i j a b n n' O H Ei Ej; [now destruct i|]. cbn [in_order] in O. destruct O as [O1 O2].
    destruct j as [|j]; [lia|]. destruct i as [|i].
    - injection Ei as <- <-. now apply (B _ _ _ _ _ O2) in Ej.
    - apply (IH (c + m) i j a b n n' O2); [lia|exact Ei|exact Ej]. }
  pose proof (B _ _ _ _ _ O Sa) as [A1 A2]. pose proof (B _ _ _ _ _ O Sb) as [B1 B2].
  apply Fresh; [exact A1|exact (W _ _ _ _ _ _ _ _ O Hij Sa Sb)|exact B2].
Qed.
End Fresh.

(** Case: a server is made and begins two sessions, with a key pair between them; the stream counts. *)
Definition counting (n : nat) : byte := n2b (N.of_nat n).
Example C91_case (R : RGroup) (D : bytes -> bytes) :
  let ops := [OpServerNew R unit; OpServerBegin R unit 16 5; OpKeyPair R unit 5; OpServerBegin R unit 16 5] in
  (exists ms, exec_all R D unit (fun _ => Ok []) (stream_rng counting) ops 0 = Some (ms, 104) /\
     nth_error ms 1 = Some (MNonce (segment counting 8 16) (segment counting 8 16)) /\
     nth_error ms 3 = Some (MNonce (segment counting 88 16) (segment counting 88 16))) /\
  (forall a b, 0 <= a -> a + 16 <= b -> b + 16 <= 104 -> segment counting a 16 <> segment counting b 16).
Proof.
  split.
  - eexists. split; [reflexivity|]. split; reflexivity.
  - intros a b _ H1 H2 E. apply (f_equal (hd x00)) in E. cbn [segment seq map hd] in E.
    apply (f_equal b2n) in E. unfold counting in E. rewrite !b2n_n2b, !N.mod_small in E by lia. lia.
Qed.
