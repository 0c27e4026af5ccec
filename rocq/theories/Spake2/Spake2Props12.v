(** * SPAKE2: sessions do not interfere, and each is good for one message (C95). *)
From Coq Require Import ZArith Lia.
From Verif Require Import Base.Bytes Base.Outcome Base.Rng Base.Hex Base.Kat Hash.Hash.
From Verif.Curve Require Import Scalar25519 Ed25519 Ed25519Points.
From Verif Require Import Spake2.Spake2Model Spake2.Ed25519Group Spake2.Spake2Spec Spake2.Spake2Proofs
  Spake2.Spake2Generic Spake2.Spake2Proofs2 Spake2.Spake2World.
From Verif Require Import Aucpace.AucpaceRng.
Local Open Scope nat_scope.
Local Notation E := Ed25519Group.

(** ** The specification: what belongs to one session in a history *)

(** The arguments of the [i]-th start, and what happens after it. *)
Fixpoint after_start (i : nat) (es : list event) : option (Side * bytes * list event) :=
  match es with
  | [] => None
  | EFinish _ _ :: es' => after_start i es'
  | EStart sd pw :: es' => match i with 0 => Some (sd, pw, es') | S i' => after_start i' es' end
  end.
(** The first message handed to session [i]. *)
Fixpoint first_message (i : nat) (es : list event) : option bytes :=
  match es with
  | [] => None
  | EStart _ _ :: es' => first_message i es'
  | EFinish j m :: es' => if Nat.eqb j i then Some m else first_message i es'
  end.
(** The generator after [i] scalars have been drawn. *)
Fixpoint after_draws (T : Rng) (i : nat) (st : rng_state T) : rng_state T :=
  match i with 0 => st | S i' => after_draws T i' (snd (rng_fill T 64 st)) end.

(** ** Proofs *)
Section Proofs.
Context (T : Rng).
Notation world := (world E T).
Notation step := (step E T).
Notation run := (run E T).
Notation results := (results E T).

Lemma start_eq sd pw st : start E T sd pw st = start_internal E sd pw (fst (random_scalar E T st)).
Proof. destruct sd; reflexivity. Qed.
Lemma start_is sd pw st :
  start E T sd pw st = Ok (session sd pw (fst (scalar_random T st)),
    tag (role_of sd) :: compress (msg_point (role_of sd) pw (sval (fst (scalar_random T st))))).
Proof. rewrite start_eq. exact (start_ok sd pw (fst (scalar_random T st))). Qed.
Lemma next_is st : snd (random_scalar E T st) = snd (rng_fill T 64 st).
Proof. change (random_scalar E T st) with (scalar_random T st). unfold scalar_random. now destruct (rng_fill T 64 st). Qed.

Lemma step_start (w : world) sd pw s m : start E T sd pw (gen w) = Ok (s, m) ->
  step w (EStart sd pw) =
  {| gen := snd (rng_fill T 64 (gen w)); live := live w ++ [Some s]; sent := sent w ++ [m]; returned := returned w |}.
Proof. intros H. unfold step. now rewrite H, next_is. Qed.

Lemma set_none_length {A} (l : list (option A)) i : length (set_none l i) = length l.
Proof. revert i. induction l as [|x l IH]; intros [|i]; cbn; congruence. Qed.
Lemma set_none_same {A} (l : list (option A)) i : i < length l -> nth_error (set_none l i) i = Some None.
Proof. revert i. induction l as [|x l IH]; intros [|i] H; cbn in *; try lia; [reflexivity|]. apply IH. lia. Qed.
Lemma set_none_other {A} (l : list (option A)) i j : i <> j -> nth_error (set_none l i) j = nth_error l j.
Proof. revert i j. induction l as [|x l IH]; intros [|i] [|j] H; cbn; try reflexivity; [lia|]. apply IH. lia. Qed.

Lemma results_app i (w : world) g l s r :
  results i (Build_world E T g l s (returned w ++ r)) = results i w ++ map snd (filter (fun e => Nat.eqb (fst e) i) r).
Proof. unfold Spake2World.results. cbn [returned]. now rewrite filter_app, map_app. Qed.
Lemma results_same i (w : world) g l s : results i (Build_world E T g l s (returned w)) = results i w.
Proof. reflexivity. Qed.

(** A session that is gone returns nothing more. *)
Lemma gone i es : forall w : world, nth_error (live w) i = Some None -> results i (run w es) = results i w.
Proof.
  induction es as [|e es IH]; intros w H; [reflexivity|]. cbn [Spake2World.run fold_left].
  assert (L : i < length (live w)) by (apply nth_error_Some; congruence).
  change (results i (run (step w e) es) = results i w). destruct e as [sd pw|j m].
  - rewrite (step_start w sd pw _ _ (start_is sd pw (gen w))).
    rewrite IH; [apply results_same|]. cbn [live]. now rewrite nth_error_app1.
  - unfold Spake2World.step. destruct (nth_error (live w) j) as [[s|]|] eqn:Ej; [|now apply IH|now apply IH].
    assert (N : j <> i) by congruence. rewrite IH.
    + rewrite results_app. cbn [filter fst]. destruct (Nat.eqb_spec j i); [contradiction|]. apply app_nil_r.
    + cbn [live]. now rewrite set_none_other.
Qed.

(** A running session returns what [finish] makes of the first message. *)
Lemma running i es : forall (w : world) s, nth_error (live w) i = Some (Some s) ->
  results i (run w es) = results i w ++ match first_message i es with Some m => [finish E s m] | None => [] end.
Proof.
  induction es as [|e es IH]; intros w s H; [symmetry; apply app_nil_r|]. cbn [Spake2World.run fold_left].
  assert (L : i < length (live w)) by (apply nth_error_Some; congruence).
  change (results i (run (step w e) es) = results i w ++ match first_message i (e :: es) with Some m => [finish E s m] | None => [] end).
  destruct e as [sd pw|j m]; cbn [first_message].
  - rewrite (step_start w sd pw _ _ (start_is sd pw (gen w))).
    rewrite (IH _ s); [reflexivity|]. cbn [live]. now rewrite nth_error_app1.
  - unfold Spake2World.step. destruct (Nat.eqb_spec j i) as [->|N].
    + rewrite H. rewrite gone.
      * rewrite results_app. cbn [filter fst]. rewrite Nat.eqb_refl. reflexivity.
      * cbn [live]. now apply set_none_same.
    + destruct (nth_error (live w) j) as [[s'|]|] eqn:Ej; [|now apply IH|now apply IH].
      rewrite (IH _ s).
      * rewrite results_app. cbn [filter fst]. destruct (Nat.eqb_spec j i); [contradiction|]. now rewrite app_nil_r.
      * cbn [live]. now rewrite set_none_other.
Qed.

(** A session that is still to be started. *)
Lemma to_come es : forall (w : world) i, length (live w) <= i ->
  results i (run w es) = results i w ++
    match after_start (i - length (live w)) es with
    | None => []
    | Some (sd, pw, rest) =>
      match first_message i rest with
      | None => []
      | Some m => [match start E T sd pw (after_draws T (i - length (live w)) (gen w)) with Ok (s, _) => finish E s m | _ => Panic end]
      end
    end.
Proof.
  induction es as [|e es IH]; intros w i H; [symmetry; apply app_nil_r|]. cbn [Spake2World.run fold_left].
  change (results i (run (step w e) es) = results i w ++
    match after_start (i - length (live w)) (e :: es) with
    | None => []
    | Some (sd, pw, rest) =>
      match first_message i rest with
      | None => []
      | Some m => [match start E T sd pw (after_draws T (i - length (live w)) (gen w)) with Ok (s, _) => finish E s m | _ => Panic end]
      end
    end).
  destruct e as [sd pw|j m].
  - destruct (start E T sd pw (gen w)) as [[s ms]|e|] eqn:ES.
    + rewrite (step_start w sd pw _ _ ES).
      destruct (Nat.eq_dec i (length (live w))) as [->|N].
      * rewrite (running _ es _ s); [|cbn [live]; rewrite nth_error_app2, Nat.sub_diag by lia; reflexivity].
        rewrite results_same. rewrite Nat.sub_diag. cbn [after_start after_draws]. rewrite ES. reflexivity.
      * rewrite IH by (cbn [live]; rewrite app_length; cbn [length]; lia). rewrite results_same. cbn [live gen].
        rewrite app_length. cbn [length].
        replace (i - length (live w)) with (S (i - (length (live w) + 1))) by lia. reflexivity.
    + destruct e.
    + rewrite start_is in ES. discriminate ES.
  - unfold Spake2World.step. cbn [after_start].
    destruct (nth_error (live w) j) as [[s'|]|] eqn:Ej; [|now apply IH|now apply IH].
    assert (Hj : j < length (live w)) by (apply nth_error_Some; congruence).
    rewrite IH by (cbn [live]; now rewrite set_none_length).
    rewrite results_app. cbn [filter fst live gen]. rewrite set_none_length.
    destruct (Nat.eqb_spec j i); [lia|]. now rewrite app_nil_r.
Qed.

(** The messages sent. *)
Lemma sent_before es : forall (w : world) i m, nth_error (sent w) i = Some m -> nth_error (sent (run w es)) i = Some m.
Proof.
  induction es as [|e es IH]; intros w i m H; [exact H|]. cbn [Spake2World.run fold_left]. apply IH.
  destruct e as [sd pw|j ms].
  - rewrite (step_start w sd pw _ _ (start_is sd pw (gen w))). cbn [sent]. rewrite nth_error_app1; [exact H|].
    apply nth_error_Some. congruence.
  - unfold Spake2World.step. destruct (nth_error (live w) j) as [[s'|]|]; exact H.
Qed.
Lemma sent_then es : forall (w : world) i, length (sent w) = length (live w) -> length (live w) <= i ->
  nth_error (sent (run w es)) i =
    match after_start (i - length (live w)) es with
    | None => None
    | Some (sd, pw, _) => match start E T sd pw (after_draws T (i - length (live w)) (gen w)) with Ok (_, m) => Some m | _ => None end
    end.
Proof.
  induction es as [|e es IH]; intros w i HL H.
  - cbn. apply nth_error_None. lia.
  - cbn [Spake2World.run fold_left].
    change (nth_error (sent (run (step w e) es)) i =
      match after_start (i - length (live w)) (e :: es) with
      | None => None
      | Some (sd, pw, _) => match start E T sd pw (after_draws T (i - length (live w)) (gen w)) with Ok (_, m) => Some m | _ => None end
      end).
    destruct e as [sd pw|j m].
    + destruct (start E T sd pw (gen w)) as [[s ms]|e|] eqn:ES.
      * rewrite (step_start w sd pw _ _ ES).
        destruct (Nat.eq_dec i (length (live w))) as [->|N].
        -- rewrite (sent_before es _ _ ms); [rewrite Nat.sub_diag; cbn [after_start after_draws]; now rewrite ES|].
           cbn [sent]. rewrite nth_error_app2, HL, Nat.sub_diag by lia. reflexivity.
        -- rewrite IH by (cbn [live sent]; rewrite !app_length; cbn [length]; lia). cbn [live gen].
           rewrite app_length. cbn [length].
           replace (i - length (live w)) with (S (i - (length (live w) + 1))) by lia. reflexivity.
      * destruct e.
      * rewrite start_is in ES. discriminate ES.
    + unfold Spake2World.step. cbn [after_start].
      destruct (nth_error (live w) j) as [[s'|]|] eqn:Ej; [|now apply IH|now apply IH].
      rewrite IH; cbn [live sent gen]; rewrite ?set_none_length; auto.
Qed.
End Proofs.

(** ** C95: what the calls on a session return is a function of the arguments of its start, of the 64 random bytes
    that were drawn after those of the sessions before it, and of the first message handed to it: nothing else
    that happens in the history matters, and no second call returns anything. *)
Theorem C95_spake2_session :
  forall (T : Rng) st es i,
  results E T i (run E T (begin E T st) es) =
  match after_start i es with
  | None => []
  | Some (sd, pw, rest) =>
    match first_message i rest with
    | None => []
    | Some m => [match start E T sd pw (after_draws T i st) with Ok (s, _) => finish E s m | _ => Panic end]
    end
  end.
Proof.
  intros T st es i. rewrite (to_come T es (begin E T st) i) by apply Nat.le_0_l.
  cbn [begin live gen length]. rewrite Nat.sub_0_r. reflexivity.
Qed.
Print Assumptions C95_spake2_session.

(** The message of the [i]-th session, likewise. *)
Theorem C95_spake2_message :
  forall (T : Rng) st es i,
  nth_error (sent (run E T (begin E T st) es)) i =
  match after_start i es with
  | None => None
  | Some (sd, pw, _) => match start E T sd pw (after_draws T i st) with Ok (_, m) => Some m | _ => None end
  end.
Proof.
  intros T st es i. rewrite (sent_then T es (begin E T st) i) by (cbn; lia).
  cbn [begin live gen length]. rewrite Nat.sub_0_r. reflexivity.
Qed.
Print Assumptions C95_spake2_message.

(** One session, one result. *)
Theorem C95_spake2_once :
  forall (T : Rng) st es i, length (results E T i (run E T (begin E T st) es)) <= 1.
Proof.
  intros T st es i. rewrite C95_spake2_session. destruct (after_start i es) as [[[sd pw] rest]|]; [|cbn; lia].
  destruct (first_message i rest); cbn; lia.
Qed.
Print Assumptions C95_spake2_once.

(** The sessions' private scalars are made of consecutive parts of the generator's stream. *)
Theorem C95_spake2_draws :
  forall f p es i sd pw rest, after_start i es = Some (sd, pw, rest) ->
  exists s m, start_internal E sd pw (scalar_wide (segment f (p + 64 * i) 64)) = Ok (s, m) /\
    nth_error (sent (run E (stream_rng f) (begin E (stream_rng f) p) es)) i = Some m /\
    results E (stream_rng f) i (run E (stream_rng f) (begin E (stream_rng f) p) es) =
      match first_message i rest with Some m' => [finish E s m'] | None => [] end.
Proof.
  intros f p es i sd pw rest H. rewrite C95_spake2_session, C95_spake2_message, H.
  assert (D : forall k q, after_draws (stream_rng f) k q = q + 64 * k).
  { induction k as [|k IH]; intros q; cbn [after_draws]; [lia|]. rewrite IH. cbn [stream_rng rng_fill snd]. lia. }
  rewrite D. rewrite start_is. unfold scalar_random. cbn [stream_rng rng_fill fst]. rewrite start_ok.
  do 2 eexists. split; [reflexivity|]. split; reflexivity.
Qed.
Print Assumptions C95_spake2_draws.

Definition opposite (sd : Side) : Side :=
  match sd with SideA a b => SideB a b | SideB a b => SideA a b | SideSymmetric i => SideSymmetric i end.

Lemma agree sd pw x y :
  exists s s' m m' key, start_internal E sd pw x = Ok (s, m) /\ start_internal E (opposite sd) pw y = Ok (s', m') /\
    finish E s m' = Ok key /\ finish E s' m = Ok key.
Proof.
  destruct sd as [a b|a b|i]; cbn [opposite].
  - destruct (agreement_ab pw a b x y) as (s & s' & m & m' & key & H1 & H2 & H3 & H4 & _).
    rewrite start_a_eq in H1. rewrite start_b_eq in H2. exists s, s', m, m', key. auto.
  - destruct (agreement_ab pw a b y x) as (s' & s & m' & m & key & H1 & H2 & H3 & H4 & _).
    rewrite start_a_eq in H1. rewrite start_b_eq in H2. exists s, s', m, m', key. auto.
  - destruct (agreement_symmetric pw i x y) as (s & s' & m & m' & key & H1 & H2 & H3 & H4 & _).
    rewrite start_symmetric_eq in H1, H2. exists s, s', m, m', key. auto.
Qed.

(** Two sessions with one password on opposite sides, each of which is first handed the other's message, both return
    one key, whatever else happens before, between and after. *)
Theorem C95_spake2_agreement :
  forall (T : Rng) st es i j sd pw rest rest',
  let w := run E T (begin E T st) es in
  after_start i es = Some (sd, pw, rest) -> after_start j es = Some (opposite sd, pw, rest') ->
  first_message i rest = nth_error (sent w) j -> first_message j rest' = nth_error (sent w) i ->
  exists key, results E T i w = [Ok key] /\ results E T j w = [Ok key].
Proof.
  intros T st es i j sd pw rest rest'. cbv zeta. intros Hi Hj Fi Fj.
  rewrite C95_spake2_message, Hj in Fi. rewrite C95_spake2_message, Hi in Fj.
  rewrite !C95_spake2_session, Hi, Hj.
  rewrite start_eq in Fi. rewrite start_eq in Fj. rewrite !start_eq.
  destruct (agree sd pw (fst (random_scalar E T (after_draws T i st))) (fst (random_scalar E T (after_draws T j st))))
    as (s & s' & m & m' & key & E1 & E2 & E3 & E4).
  rewrite E2 in Fi. rewrite E1 in Fj. rewrite E1, E2, Fi, Fj. exists key. now rewrite E3, E4.
Qed.
Print Assumptions C95_spake2_agreement.

(** The price: a first message of any other length ends the session, whatever comes later. *)
Theorem C95_spake2_denial :
  forall (T : Rng) st es i sd pw rest m,
  after_start i es = Some (sd, pw, rest) -> first_message i rest = Some m -> length m <> 33 ->
  results E T i (run E T (begin E T st) es) = [Err WrongLength].
Proof.
  intros T st es i sd pw rest m H F L. rewrite C95_spake2_session, H, F.
  destruct (start E T sd pw (after_draws T i st)) as [[s ms]|e|] eqn:ES.
  - rewrite start_eq in ES. now rewrite (proj1 (finish_classified _ _ _ _ _ _ ES) L).
  - destruct e.
  - rewrite start_is in ES. discriminate ES.
Qed.
Print Assumptions C95_spake2_denial.

(** Case: three sessions; the second is first handed a short message, the others each other's. *)
Definition case_events (m0 m2 : bytes) : list event :=
  [ EStart (SideA (str "a") (str "b")) (str "pw"); EStart (SideSymmetric (str "s")) (str "other");
    EFinish 1 (str "short"); EStart (SideB (str "a") (str "b")) (str "pw");
    EFinish 2 m0; EFinish 1 m0; EFinish 0 m2; EFinish 0 m0 ].
Example C95_spake2_case : forall m0 m2,
  after_start 0 (case_events m0 m2) = Some (SideA (str "a") (str "b"), str "pw", tl (case_events m0 m2)) /\
  after_start 2 (case_events m0 m2) =
    Some (opposite (SideA (str "a") (str "b")), str "pw", [EFinish 2 m0; EFinish 1 m0; EFinish 0 m2; EFinish 0 m0]) /\
  first_message 0 (tl (case_events m0 m2)) = Some m2 /\
  first_message 2 [EFinish 2 m0; EFinish 1 m0; EFinish 0 m2; EFinish 0 m0] = Some m0 /\
  (exists rest, after_start 1 (case_events m0 m2) = Some (SideSymmetric (str "s"), str "other", rest) /\
    first_message 1 rest = Some (str "short")) /\
  length (str "short") <> 33.
Proof.
  intros m0 m2. split; [reflexivity|]. split; [reflexivity|]. split; [reflexivity|]. split; [reflexivity|].
  split; [eexists; split; reflexivity|]. cbn. lia.
Qed.
