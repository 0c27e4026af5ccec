(** * C75: how much the messages of an AuCPace login tell about the password.

    The parties draw their CPace scalars from 64 uniform bytes each.  A test of the public keys passes for
    nearly as many of these strings with one PRS as with another: the advantage of the best distinguisher,
    however long it computes, is below 2^-259 for one key and 2^-258 for a whole login with implicit
    authentication (2^-257 in the strong variant). *)
From Coq Require Import ZArith Lia Bool.
From Verif Require Import Base.Bytes Base.Outcome Base.Rng Base.Count Base.Kat.
From Verif Require Import Curve.Primes Curve.Scalar25519 Curve.NearUniform.
From Verif Require Import Aucpace.RistrettoGroup Aucpace.PwHash Aucpace.AucpaceModel Aucpace.AucpaceSpec
  Aucpace.AucpaceRun Aucpace.AucpaceDb Aucpace.AucpaceToy Aucpace.AucpaceProofs Aucpace.AucpaceProps
  Aucpace.AucpaceProps4 Aucpace.AucpaceProps9 Aucpace.AucpaceProps10.
Local Open Scope Z_scope.

Section View.
Context (R : RGroup) (L : rgroup_laws R) (D : bytes -> bytes).

Notation server_at ssid prs st := (Build_AuCPaceServerCPaceSubstep tape_rng ssid prs st).
Notation client_at ssid prs := {| ccs_ssid := ssid; ccs_prs := prs |}.

(** The messages for the PRS [prs] when the party's generator yields [tape]. *)
Definition server_sends ssid prs ci tape : ServerMessage R :=
  snd (server_generate_public_key R D tape_rng (server_at ssid prs tape) ci).
Definition client_sends ssid prs ci tape : ClientMessage R :=
  snd (fst (client_generate_public_key R D tape_rng (client_at ssid prs) ci tape)).

Lemma drawn_random tape : drawn tape_rng tape = fst (scalar_random tape_rng tape).
Proof. reflexivity. Qed.

(** Changing the generator is multiplying the scalar by a constant. *)
Lemma change_generator (G G' : pt R) :
  G <> rzero R -> G' <> rzero R -> exists c, c <> szero /\ forall y, rmul G y = rmul G' (smult c y).
Proof.
  intros HG HG'. destruct (rmul_onto L G' G HG') as [c Hc]. exists c. split.
  - intros ->. apply HG. rewrite <- Hc. apply (rmul_szero (R:=R)).
  - intros y. rewrite <- Hc. apply (rmul_mul L).
Qed.
Lemma mult_injective c : c <> szero -> injective (smult c).
Proof. intros Hc a b H. exact (smult_cancel_l c a b Hc H). Qed.

Lemma server_sends_eq ssid prs ci tape :
  server_sends ssid prs ci tape = SPublicKey (rmul (spec_G R D ssid prs ci) (fst (scalar_random tape_rng tape))).
Proof. unfold server_sends. now rewrite server_key_eq. Qed.
Lemma client_sends_eq ssid prs ci tape :
  client_sends ssid prs ci tape = CPublicKey (rmul (spec_G R D ssid prs ci) (fst (scalar_random tape_rng tape))).
Proof. unfold client_sends. now rewrite client_key_eq. Qed.

(** Any map from elements to messages. *)
Lemma key_le (G G' : pt R) (test : pt R -> bool) :
  G <> rzero R -> G' <> rzero R ->
  count 64 (fun t => test (rmul G (fst (scalar_random tape_rng t))))
  <= count 64 (fun t => test (rmul G' (fst (scalar_random tape_rng t)))) + remainder.
Proof.
  intros HG HG'. destruct (change_generator G G' HG HG') as (c & Hc & H).
  apply (one_scalar_le (smult c) (fun s => test (rmul G s)) (fun s => test (rmul G' s)) (mult_injective c Hc)).
  intros s. cbv beta. rewrite (H s). intros T. exact T.
Qed.
Lemma small_difference a b : a <= b + remainder -> b <= a + remainder -> 2 ^ 259 * Z.abs (a - b) < 256 ^ 64.
Proof.
  intros H1 H2. destruct remainder_small as [H3 _]. revert H1 H2 H3.
  generalize remainder (256 ^ 64) (2 ^ 259) (Z.pow_pos_nonneg 2 259).
  intros r M q Hq H1 H2 H3. apply (Z.le_lt_trans _ (q * r)); [|exact H3].
  apply Z.mul_le_mono_nonneg_l; [|lia]. specialize (Hq ltac:(lia) ltac:(lia)). lia.
Qed.

Theorem C75_server_key :
  forall (test : ServerMessage R -> bool) ssid prs ssid' prs' ci ci',
  spec_G R D ssid prs ci <> rzero R -> spec_G R D ssid' prs' ci' <> rzero R ->
  2 ^ 259 * Z.abs (count 64 (fun tape => test (server_sends ssid prs ci tape))
                   - count 64 (fun tape => test (server_sends ssid' prs' ci' tape))) < 256 ^ 64.
Proof.
  intros test ssid prs ssid' prs' ci ci' HG HG'.
  rewrite (count_ext 64 _ (fun t => test (SPublicKey (rmul (spec_G R D ssid prs ci) (fst (scalar_random tape_rng t))))))
    by (intros b _; now rewrite server_sends_eq).
  rewrite (count_ext 64 (fun t => test (server_sends ssid' prs' ci' t))
    (fun t => test (SPublicKey (rmul (spec_G R D ssid' prs' ci') (fst (scalar_random tape_rng t))))))
    by (intros b _; now rewrite server_sends_eq).
  apply small_difference.
  - exact (key_le _ _ (fun P => test (SPublicKey P)) HG HG').
  - exact (key_le _ _ (fun P => test (SPublicKey P)) HG' HG).
Qed.
Theorem C75_client_key :
  forall (test : ClientMessage R -> bool) ssid prs ssid' prs' ci ci',
  spec_G R D ssid prs ci <> rzero R -> spec_G R D ssid' prs' ci' <> rzero R ->
  2 ^ 259 * Z.abs (count 64 (fun tape => test (client_sends ssid prs ci tape))
                   - count 64 (fun tape => test (client_sends ssid' prs' ci' tape))) < 256 ^ 64.
Proof.
  intros test ssid prs ssid' prs' ci ci' HG HG'.
  rewrite (count_ext 64 _ (fun t => test (CPublicKey (rmul (spec_G R D ssid prs ci) (fst (scalar_random tape_rng t))))))
    by (intros b _; now rewrite client_sends_eq).
  rewrite (count_ext 64 (fun t => test (client_sends ssid' prs' ci' t))
    (fun t => test (CPublicKey (rmul (spec_G R D ssid' prs' ci') (fst (scalar_random tape_rng t))))))
    by (intros b _; now rewrite client_sends_eq).
  apply small_difference.
  - exact (key_le _ _ (fun P => test (CPublicKey P)) HG HG').
  - exact (key_le _ _ (fun P => test (CPublicKey P)) HG' HG).
Qed.

(** ** A whole login *)

(** What is seen of a login by [user], the client holding the server's PRS: the reply to the user name
    and the two public keys.  The server's generator yields [xtape] and then the first 64 bytes of
    [tapes]; the client's yields the rest. *)
Definition login_view (DB : Database R) (s : AuCPaceServerAugLayer) (user : bytes) (d : db DB) (ci xtape tapes : bytes)
  : option (ServerMessage R * ServerMessage R * ClientMessage R) :=
  match generate_client_info R D DB tape_rng s user d (xtape ++ firstn 64 tapes) with
  | Ok (ss, reply) =>
      Some (reply, snd (server_generate_public_key R D tape_rng ss ci),
            client_sends (scs_ssid tape_rng ss) (scs_prs tape_rng ss) ci (skipn 64 tapes))
  | _ => None
  end.

(** The server's long-term scalar, and the PRS for the verifier [W]. *)
Definition prs_for (W : pt R) (xtape : bytes) : bytes := rcompress R (rmul W (fst (scalar_random tape_rng xtape))).

Lemma tape_split xtape t :
  length xtape = 64%nat -> drawn tape_rng (xtape ++ t) = fst (scalar_random tape_rng xtape) /\
  after tape_rng 64 (xtape ++ t) = t.
Proof.
  intros Hl. unfold drawn, after, scalar_random. cbn [rng_fill tape_rng]. unfold tape_fill. cbn [fst snd].
  rewrite app_length, Hl, firstn_app, skipn_app, Hl, Nat.sub_diag, firstn_O, skipn_O, app_nil_r.
  rewrite (firstn_all2 xtape), (skipn_all2 xtape) by lia.
  replace (64 - (64 + length t))%nat with 0%nat by lia. cbn [repeat]. now rewrite app_nil_r.
Qed.

Lemma login_view_eq DB s user d ci xtape tapes W salt ps :
  length xtape = 64%nat -> lookup_verifier DB d user = Some (W, salt, ps) ->
  let G := spec_G R D (sal_ssid s) (prs_for W xtape) ci in
  login_view DB s user d ci xtape tapes
  = Some (SAugmentationInfo group_name (spec_X R (fst (scalar_random tape_rng xtape))) salt ps,
          SPublicKey (rmul G (fst (scalar_random tape_rng (firstn 64 tapes)))),
          CPublicKey (rmul G (fst (scalar_random tape_rng (skipn 64 tapes))))).
Proof.
  intros Hx Hl G. unfold login_view. rewrite generate_client_info_eq. unfold generate_prs. rewrite Hl.
  destruct (tape_split xtape (firstn 64 tapes) Hx) as [-> ->]. cbn [cpace_substep obind].
  cbn [scs_ssid scs_prs]. rewrite server_key_eq, client_sends_eq. cbn [snd].
  assert (E : rmul (rmul W (fst (scalar_random tape_rng xtape))) sone = rmul W (fst (scalar_random tape_rng xtape))).
  { rewrite (rmul_mul L), smult_one_r. reflexivity. }
  rewrite E. fold (prs_for W xtape). fold G. rewrite drawn_random. reflexivity.
Qed.

Lemma login_le DB s user d d' ci xtape W W' salt ps (test : option (ServerMessage R * ServerMessage R * ClientMessage R) -> bool) :
  length xtape = 64%nat ->
  lookup_verifier DB d user = Some (W, salt, ps) -> lookup_verifier DB d' user = Some (W', salt, ps) ->
  spec_G R D (sal_ssid s) (prs_for W xtape) ci <> rzero R -> spec_G R D (sal_ssid s) (prs_for W' xtape) ci <> rzero R ->
  count 128 (fun t => test (login_view DB s user d ci xtape t))
  <= count 128 (fun t => test (login_view DB s user d' ci xtape t)) + 2 * 256 ^ 64 * remainder.
Proof.
  intros Hx Hl Hl' HG HG'.
  set (seen := fun P Q : pt R => test (Some (SAugmentationInfo group_name
    (spec_X R (fst (scalar_random tape_rng xtape))) salt ps, SPublicKey P, CPublicKey Q))).
  set (G := spec_G R D (sal_ssid s) (prs_for W xtape) ci) in *.
  set (G' := spec_G R D (sal_ssid s) (prs_for W' xtape) ci) in *.
  rewrite (count_ext 128 _ (pair_test (fun a b => seen (rmul G a) (rmul G b))))
    by (intros b _; now rewrite (login_view_eq DB s user d ci xtape b W salt ps Hx Hl)).
  rewrite (count_ext 128 (fun t => test (login_view DB s user d' ci xtape t))
    (pair_test (fun a b => seen (rmul G' a) (rmul G' b))))
    by (intros b _; now rewrite (login_view_eq DB s user d' ci xtape b W' salt ps Hx Hl')).
  destruct (change_generator G G' HG HG') as (c & Hc & H).
  apply (two_scalars_le _ _ _ (fun a b => seen (rmul G a) (rmul G' b)) _ (mult_injective c Hc) (mult_injective c Hc)).
  - intros a b. cbv beta. rewrite (H b). intros T. exact T.
  - intros a b. cbv beta. rewrite (H a). intros T. exact T.
Qed.

Lemma pair_difference q r M a b : 0 < q -> a <= b + 2 * M * r -> b <= a + 2 * M * r -> 2 * q * r < M -> 0 < M ->
  q * Z.abs (a - b) < M * M.
Proof.
  intros Hq H1 H2 H3 HM. apply (Z.le_lt_trans _ (q * (2 * M * r))).
  - apply Z.mul_le_mono_nonneg_l; lia.
  - replace (q * (2 * M * r)) with (M * (2 * q * r)) by ring. apply Z.mul_lt_mono_pos_l; assumption.
Qed.
Theorem C75_login :
  forall (DB : Database R) (test : option (ServerMessage R * ServerMessage R * ClientMessage R) -> bool) s user d d' ci xtape W W' salt ps,
  length xtape = 64%nat ->
  lookup_verifier DB d user = Some (W, salt, ps) -> lookup_verifier DB d' user = Some (W', salt, ps) ->
  spec_G R D (sal_ssid s) (prs_for W xtape) ci <> rzero R -> spec_G R D (sal_ssid s) (prs_for W' xtape) ci <> rzero R ->
  2 ^ 258 * Z.abs (count 128 (fun t => test (login_view DB s user d ci xtape t))
                   - count 128 (fun t => test (login_view DB s user d' ci xtape t))) < 256 ^ 128.
Proof.
  intros DB test s user d d' ci xtape W W' salt ps Hx Hl Hl' HG HG'.
  change (256 ^ 128) with (256 ^ 64 * 256 ^ 64).
  apply (pair_difference _ remainder (256 ^ 64)).
  - reflexivity.
  - exact (login_le DB s user d d' ci xtape W W' salt ps test Hx Hl Hl' HG HG').
  - exact (login_le DB s user d' d ci xtape W' W salt ps test Hx Hl' Hl HG' HG).
  - change (2 * 2 ^ 258) with (2 ^ 259). exact (proj1 remainder_small).
  - reflexivity.
Qed.

(** ** A whole login of the strong variant *)

(** The client's first message depends on the password: it is blinded.  The client's generator yields the
    first 64 bytes of [tapes] for the blinding value and the last 64 for its CPace scalar; the server's
    yields [xtape] and the 64 bytes between.  [None]: the client's loop did not end within [fuel] draws, or
    the server refused.  The client holds the server's PRS. *)
Definition strong_view (DB : StrongDatabase R) (fuel : nat) (c : AuCPaceClientPreAug) (s : AuCPaceServerAugLayer)
  (user pass : bytes) (d : sdb DB) (ci xtape tapes : bytes)
  : option (ClientMessage R * option (ServerMessage R * ServerMessage R * ClientMessage R)) :=
  match start_augmentation_strong R D tape_rng fuel c user pass (firstn 64 tapes) with
  | Some (_, CStrongUsername name blinded, _) =>
      Some (CStrongUsername name blinded,
        match generate_client_info_strong R D DB tape_rng s name blinded d (xtape ++ firstn 64 (skipn 64 tapes)) with
        | Ok (ss, reply) =>
            Some (reply, snd (server_generate_public_key R D tape_rng ss ci),
                  client_sends (scs_ssid tape_rng ss) (scs_prs tape_rng ss) ci (skipn 64 (skipn 64 tapes)))
        | _ => None
        end)
  | _ => None
  end.

Lemma draw_64 fuel tape :
  length tape = 64%nat ->
  draw_blinding_value tape_rng fuel tape
  = match fuel with
    | O => None
    | S _ => if seqb (fst (scalar_random tape_rng tape)) szero then None
             else Some (fst (scalar_random tape_rng tape), [])
    end.
Proof.
  intros Hl. rewrite draw_blinding_unfold. destruct fuel as [|fuel]; [reflexivity|].
  rewrite drawn_random. assert (Ea : after tape_rng 64 tape = []).
  { unfold after. cbn [rng_fill tape_rng]. unfold tape_fill. cbn [snd]. apply skipn_all2. lia. }
  rewrite Ea. destruct (seqb _ szero); [|reflexivity].
  assert (Z0 : drawn tape_rng [] = szero) by (apply sval_inj; vm_compute; reflexivity).
  assert (A0 : after tape_rng 64 [] = []) by reflexivity.
  induction fuel as [|fuel IH]; [reflexivity|].
  rewrite draw_blinding_unfold, Z0, (proj2 (seqb_eq szero szero) eq_refl), A0. exact IH.
Qed.

(** The view as a function of the blinded point and the two public keys. *)
Definition strong_seen (fuel : nat) (user : bytes) (X : pt R) (q : scalar) (ps : bytes) (r : scalar) (U Ys Yc : pt R)
  : option (ClientMessage R * option (ServerMessage R * ServerMessage R * ClientMessage R)) :=
  if (fuel =? 0)%nat || seqb r szero then None
  else Some (CStrongUsername user U,
    if is_identity (rmul U q) then None
    else Some (SStrongAugmentationInfo group_name X (rmul U q) ps, SPublicKey Ys, CPublicKey Yc)).

Lemma strong_view_eq DB fuel c s user pass d ci xtape tapes W q ps :
  length xtape = 64%nat -> length tapes = 192%nat -> lookup_verifier_strong DB d user = Some (W, q, ps) ->
  let G := spec_G R D (sal_ssid s) (prs_for W xtape) ci in
  let r := fst (scalar_random tape_rng (firstn 64 tapes)) in
  strong_view DB fuel c s user pass d ci xtape tapes
  = strong_seen fuel user (spec_X R (fst (scalar_random tape_rng xtape))) q ps r (rmul (spec_Z R D user pass) r)
      (rmul G (fst (scalar_random tape_rng (firstn 64 (skipn 64 tapes)))))
      (rmul G (fst (scalar_random tape_rng (skipn 64 (skipn 64 tapes))))).
Proof.
  intros Hx Ht Hl G r. unfold strong_view, strong_seen.
  rewrite start_augmentation_strong_eq, draw_64 by (rewrite firstn_length; lia). fold r.
  destruct fuel as [|fuel]; [reflexivity|]. cbn [Nat.eqb orb].
  destruct (seqb r szero); [reflexivity|]. cbv iota beta. f_equal. f_equal.
  rewrite generate_client_info_strong_eq. unfold generate_prs_strong. rewrite Hl.
  destruct (tape_split xtape (firstn 64 (skipn 64 tapes)) Hx) as [-> ->]. rewrite !smult_one_r.
  destruct (is_identity _); [reflexivity|]. cbn [cpace_substep obind].
  cbn [scs_ssid scs_prs]. rewrite server_key_eq, client_sends_eq. cbn [snd].
  fold (prs_for W xtape). fold G. rewrite drawn_random. reflexivity.
Qed.

Lemma strong_le DB fuel c s user pass pass' d d' ci xtape W W' q ps
  (test : option (ClientMessage R * option (ServerMessage R * ServerMessage R * ClientMessage R)) -> bool) :
  length xtape = 64%nat ->
  lookup_verifier_strong DB d user = Some (W, q, ps) -> lookup_verifier_strong DB d' user = Some (W', q, ps) ->
  spec_G R D (sal_ssid s) (prs_for W xtape) ci <> rzero R -> spec_G R D (sal_ssid s) (prs_for W' xtape) ci <> rzero R ->
  spec_Z R D user pass <> rzero R -> spec_Z R D user pass' <> rzero R ->
  count 192 (fun t => test (strong_view DB fuel c s user pass d ci xtape t))
  <= count 192 (fun t => test (strong_view DB fuel c s user pass' d' ci xtape t)) + 3 * 256 ^ 128 * remainder.
Proof.
  intros Hx Hl Hl' HG HG' HZ HZ'.
  set (seen := fun r U P Q => test (strong_seen fuel user (spec_X R (fst (scalar_random tape_rng xtape))) q ps r U P Q)).
  set (G := spec_G R D (sal_ssid s) (prs_for W xtape) ci) in *.
  set (G' := spec_G R D (sal_ssid s) (prs_for W' xtape) ci) in *.
  set (Z := spec_Z R D user pass) in *. set (Z' := spec_Z R D user pass') in *.
  rewrite (count_ext 192 _ (triple_test (fun r a b => seen r (rmul Z r) (rmul G a) (rmul G b))))
    by (intros b Hb; now rewrite (strong_view_eq DB fuel c s user pass d ci xtape b W q ps Hx Hb Hl)).
  rewrite (count_ext 192 (fun t => test (strong_view DB fuel c s user pass' d' ci xtape t))
    (triple_test (fun r a b => seen r (rmul Z' r) (rmul G' a) (rmul G' b))))
    by (intros b Hb; now rewrite (strong_view_eq DB fuel c s user pass' d' ci xtape b W' q ps Hx Hb Hl')).
  destruct (change_generator G G' HG HG') as (k & Hk & H).
  destruct (change_generator Z Z' HZ HZ') as (k2 & Hk2 & H2).
  apply (three_scalars_le _ _ _ _ (fun r a b => seen r (rmul Z r) (rmul G a) (rmul G' b))
    (fun r a b => seen r (rmul Z r) (rmul G' a) (rmul G' b)) _
    (mult_injective k2 Hk2) (mult_injective k Hk) (mult_injective k Hk)).
  - intros r a b. cbv beta. rewrite (H b). intros T. exact T.
  - intros r a b. cbv beta. rewrite (H a). intros T. exact T.
  - intros r a b. cbv beta. rewrite (H2 r). unfold seen, strong_seen.
    assert (E : seqb (smult k2 r) szero = seqb r szero).
    { destruct (seqb r szero) eqn:Er.
      - apply seqb_eq in Er. rewrite Er. apply seqb_eq, sval_inj. rewrite sval_smult, sval_szero, Z.mul_0_r. reflexivity.
      - apply seqb_neq. apply seqb_neq in Er. now apply smult_nonzero. }
    rewrite E. intros T. exact T.
Qed.

Lemma triple_difference q r M a b : 0 < q -> a <= b + 3 * (M * M) * r -> b <= a + 3 * (M * M) * r -> 0 <= r ->
  4 * q * r < M -> 0 < M -> q * Z.abs (a - b) < M * M * M.
Proof.
  intros Hq H1 H2 Hr H3 HM. apply (Z.le_lt_trans _ (q * (3 * (M * M) * r))).
  - apply Z.mul_le_mono_nonneg_l; lia.
  - replace (q * (3 * (M * M) * r)) with (M * M * (3 * q * r)) by ring. apply Z.mul_lt_mono_pos_l.
    + apply Z.mul_pos_pos; assumption.
    + assert (0 <= q * r) by (apply Z.mul_nonneg_nonneg; lia). lia.
Qed.
(** With two passwords, and the verifiers of either stored with the same secret exponent. *)
Theorem C75_login_strong :
  forall (DB : StrongDatabase R) test fuel c s user pass pass' d d' ci xtape W W' q ps,
  length xtape = 64%nat ->
  lookup_verifier_strong DB d user = Some (W, q, ps) -> lookup_verifier_strong DB d' user = Some (W', q, ps) ->
  spec_G R D (sal_ssid s) (prs_for W xtape) ci <> rzero R -> spec_G R D (sal_ssid s) (prs_for W' xtape) ci <> rzero R ->
  spec_Z R D user pass <> rzero R -> spec_Z R D user pass' <> rzero R ->
  2 ^ 257 * Z.abs (count 192 (fun t => test (strong_view DB fuel c s user pass d ci xtape t))
                   - count 192 (fun t => test (strong_view DB fuel c s user pass' d' ci xtape t))) < 256 ^ 192.
Proof.
  intros DB test fuel c s user pass pass' d d' ci xtape W W' q ps Hx Hl Hl' HG HG' HZ HZ'.
  change (256 ^ 192) with (256 ^ 64 * 256 ^ 64 * 256 ^ 64).
  apply (triple_difference _ remainder (256 ^ 64)).
  - reflexivity.
  - exact (strong_le DB fuel c s user pass pass' d d' ci xtape W W' q ps test Hx Hl Hl' HG HG' HZ HZ').
  - exact (strong_le DB fuel c s user pass' pass d' d ci xtape W' W q ps test Hx Hl' Hl HG' HG HZ' HZ).
  - exact (proj1 remainder_bound).
  - change (4 * 2 ^ 257) with (2 ^ 259). exact (proj1 remainder_small).
  - reflexivity.
Qed.

(** The generators must not be the identity: such a session sends the identity whatever it draws, and the
    others hardly ever do. *)
Theorem C75_identity_visible :
  forall ssid prs ssid' prs' ci ci',
  spec_G R D ssid prs ci = rzero R -> spec_G R D ssid' prs' ci' <> rzero R ->
  exists test : ServerMessage R -> bool,
    count 64 (fun tape => test (server_sends ssid prs ci tape)) = 256 ^ 64 /\
    Z.abs (ell * count 64 (fun tape => test (server_sends ssid' prs' ci' tape)) - 256 ^ 64) <= ell.
Proof.
  intros ssid prs ssid' prs' ci ci' HG HG'.
  exists (fun m => match m with SPublicKey Y => is_identity Y | _ => false end). split.
  - rewrite (count_ext 64 _ (fun _ => true)); [exact (count_all 64)|].
    intros t _. rewrite server_sends_eq, HG, (rmul_rzero L). apply (is_identity_eq L). reflexivity.
  - destruct (count_spec 64 (fun tape => match server_sends ssid' prs' ci' tape with SPublicKey Y => is_identity Y | _ => false end))
      as (l & ND & Hl & ->).
    apply (C61_bias 64 szero l ND). intros b. rewrite Hl, server_sends_eq.
    split; intros [Lb H]; (split; [exact Lb|]); rewrite (drawn_tape b Lb) in *.
    + apply (is_identity_eq L) in H. apply (rmul_identity L) in H. destruct H as [H|H]; [exact H|].
      exfalso. exact (HG' H).
    + change (sof (zval b) = szero) in H. rewrite H. apply (is_identity_eq L), (rmul_szero (R:=R)).
Qed.
End View.

(** ** Cases *)

(** C75_login, C75_login_strong: the tape of the server's long-term key, two verifiers with generators that
    are not the identity, two passwords with points that are not, and databases that hold the verifiers. *)
Definition xtape0 : bytes := firstn 64 (toy_tape 3001 3002).
Definition toy_Z (pass : bytes) : scalar := spec_Z ToyGroup toyD alice pass.
Definition c75_case : bool :=
  negb (seqb (toy_Z secret) szero) && negb (seqb (toy_Z wrong) szero) &&
  Nat.eqb (length xtape0) 64 &&
  negb (seqb (toy_G (prs_for ToyGroup (sof 600) xtape0)) szero) &&
  negb (seqb (toy_G (prs_for ToyGroup (sof 601) xtape0)) szero) &&
  negb (bytes_eqb (prs_for ToyGroup (sof 600) xtape0) (prs_for ToyGroup (sof 601) xtape0)).
Example C75_case : c75_case = true.
Proof. vm_cast_no_check (eq_refl true). Qed.
Lemma toy_lookup W : lookup_verifier (AssocDb ToyGroup) (db_with W) alice = Some (W, str "c29tZSBzYWx0", toy_params).
Proof. reflexivity. Qed.
