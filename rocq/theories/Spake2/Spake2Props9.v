(** * SPAKE2: who has a session key (C85, C86). *)
From Coq Require Import ZArith Lia Bool.
From Verif Require Import Base.Bytes Base.Outcome Base.Rng Base.Count Base.Guess Base.Dictionary Base.Birthday Hash.Hash.
From Verif.Curve Require Import Scalar25519 Ed25519 Ed25519Points Strings64.
From Verif Require Import Spake2.Spake2Model Spake2.Ed25519Group Spake2.Spake2Spec Spake2.Spake2Proofs
  Spake2.Spake2Generic Spake2.Spake2Proofs2 Spake2.Spake2Props Spake2.Spake2Props3 Spake2.Spake2Props7.
Local Open Scope nat_scope.
Local Notation E := Ed25519Group.

(** A session: side, password, random bytes, the message received. *)
Record attended := { s_side : Side; s_pw : bytes; s_tape : bytes; s_inbound : bytes }.
(** Its key, if it gets one. *)
Definition key_of (s : attended) : option bytes :=
  match started (s_side s) (s_pw s) (s_tape s) with
  | Ok (st, _) => match finish E st (s_inbound s) with Ok key => Some key | _ => None end
  | _ => None
  end.
Definition s_sent (s : attended) : bytes := sent (s_side s) (s_pw s) (s_tape s).

(** The string hashed into its key: [transcript] with the element the session computes from the message received. *)
Definition hashed (s : attended) : bytes :=
  match decompress (tl (s_inbound s)) with
  | Some P => transcript (s_side s) (s_pw s) (tl (s_sent s)) (tl (s_inbound s))
                (shared (role_of (s_side s)) (s_pw s) (sval (random (s_tape s))) P)
  | None => []
  end.
(** Two sessions hash different strings (transcript, password or an identity) to one value. *)
Definition collide (s s' : attended) : Prop :=
  collision sha256 (s_pw s) (s_pw s') \/
  (exists a a', In (a, a') (combine (identities (s_side s)) (identities (s_side s'))) /\ collision sha256 a a') \/
  collision sha256 (hashed s) (hashed s').

Lemma key_of_spec s key : key_of s = Some key <-> finish E (session (s_side s) (s_pw s) (random (s_tape s))) (s_inbound s) = Ok key.
Proof.
  unfold key_of. rewrite started_eq, start_ok. destruct (finish E _ (s_inbound s)) as [k|e|]; try (split; intros H; discriminate H).
  split; intros H; injection H as ->; reflexivity.
Qed.
Lemma s_sent_body s : s_sent s = tag (role_of (s_side s)) :: body (s_pw s) (s_side s) (s_tape s).
Proof. apply sent_body. Qed.

Lemma one_key s s' key : key_of s = Some key -> key_of s' = Some key ->
  exists m m', s_inbound s = tag (peer (role_of (s_side s))) :: m /\ s_inbound s' = tag (peer (role_of (s_side s'))) :: m' /\
  (s_pw s = s_pw s' /\ same_exchange (exchange_of (s_side s) (body (s_pw s) (s_side s) (s_tape s)) m)
    (exchange_of (s_side s') (body (s_pw s') (s_side s') (s_tape s')) m') \/ collide s s').
Proof.
  intros H H'. apply key_of_spec in H, H'.
  destruct (finish_inv _ _ _ _ _ H) as (m & P & Em & _). destruct (finish_inv _ _ _ _ _ H') as (m' & P' & Em' & _).
  exists m, m'. split; [exact Em|]. split; [exact Em'|]. rewrite Em in H. rewrite Em' in H'.
  destruct (key_binds _ _ _ _ _ _ _ _ _ _ m m' key (start_ok _ _ _) (start_ok _ _ _) H H') as (mine & mine' & Q & Q' & E1 & E2 & D1 & D2 & HB).
  assert (mine = body (s_pw s) (s_side s) (s_tape s)) as -> by (rewrite body_eq; exact (f_equal (@tl byte) (eq_sym E1))).
  assert (mine' = body (s_pw s') (s_side s') (s_tape s')) as -> by (rewrite body_eq; exact (f_equal (@tl byte) (eq_sym E2))).
  cbv zeta in HB. destruct HB as [(Hp & HS & _)|[HC|[HC|HC]]]; [left; split; [exact Hp|exact HS]|right..].
  - right. right. unfold hashed. rewrite !s_sent_body, Em, Em'. cbn [tl]. rewrite D1, D2. exact HC.
  - left. exact HC.
  - right. left. exact HC.
Qed.

(** ** C85.  Two sessions have one key only if each received exactly what the other sent, and they have the same
    password and identities; or they are of one role, drew the same number and received the same message; or
    they collide. *)
Theorem C85_spake2 :
  forall s s' key, key_of s = Some key -> key_of s' = Some key ->
  (s_pw s = s_pw s' /\ identities (s_side s) = identities (s_side s') /\
   ((role_of (s_side s') = peer (role_of (s_side s)) /\ s_inbound s = s_sent s' /\ s_inbound s' = s_sent s) \/
    (role_of (s_side s') = role_of (s_side s) /\ random (s_tape s) = random (s_tape s') /\ s_inbound s = s_inbound s'))) \/
  collide s s'.
Proof.
  intros s s' key H H'. destruct (one_key s s' key H H') as (m & m' & Em & Em' & [(Hp & HS)|HC]); [left|right; exact HC].
  split; [exact Hp|]. clear H H'. rewrite !s_sent_body, Em, Em'. clear Em Em'.
  destruct s as [sd pw t i], s' as [sd' pw' t' i']; cbn [s_side s_pw s_tape s_inbound] in *. subst pw'.
  pose proof (body_inj pw sd t t') as BI. revert HS BI. generalize (body pw sd t) as b.
  destruct sd as [a b|a b|k], sd' as [a' b'|a' b'|k']; cbn [exchange_of same_exchange identities role_of peer tag];
    intros mine HS BI; try (exfalso; exact HS).
  - destruct HS as (-> & -> & HM & ->). split; [reflexivity|right]. split; [reflexivity|]. split; [exact (BI HM)|reflexivity].
  - destruct HS as (-> & -> & HM & ->). split; [reflexivity|left]. split; [reflexivity|]. split; [reflexivity|]. rewrite HM. reflexivity.
  - destruct HS as (-> & -> & -> & ->). split; [reflexivity|left]. split; [reflexivity|]. split; reflexivity.
  - destruct HS as (-> & -> & -> & HM). split; [reflexivity|right]. split; [reflexivity|]. split; [exact (BI HM)|reflexivity].
  - destruct HS as (-> & [(HM & ->)|(HM & HM')]); (split; [reflexivity|]).
    + right. split; [reflexivity|]. split; [exact (BI HM)|reflexivity].
    + left. split; [reflexivity|]. split; [rewrite HM'; reflexivity|rewrite HM; reflexivity].
Qed.
Print Assumptions C85_spake2.

Lemma one_side sd sd' : role_of sd = role_of sd' -> identities sd = identities sd' -> sd = sd'.
Proof.
  destruct sd as [a b|a b|k], sd' as [a' b'|a' b'|k']; cbn [role_of identities]; intros HR HI; try discriminate HR;
    injection HI; intros; subst; reflexivity.
Qed.
(** Conversely, such sessions have one key. *)
Theorem C85_spake2_matching :
  forall s s', s_pw s = s_pw s' -> identities (s_side s) = identities (s_side s') ->
  role_of (s_side s') = peer (role_of (s_side s)) -> s_inbound s = s_sent s' -> s_inbound s' = s_sent s ->
  exists key, key_of s = Some key /\ key_of s' = Some key.
Proof.
  intros s s' Hp Hi Hr M M'. assert (HO : s_side s' = opposite (s_side s)).
  { apply one_side; [|rewrite <- Hi]; destruct (s_side s); [exact Hr..|reflexivity|reflexivity|reflexivity]. }
  destruct (opposite_key (s_side s) (s_pw s) (random (s_tape s)) (random (s_tape s'))) as (key & H & H').
  exists key. rewrite !key_of_spec, M, M'. unfold s_sent. rewrite !sent_random, HO, <- Hp. split; [exact H|exact H'].
Qed.
Print Assumptions C85_spake2_matching.

(** A session and the session it talks to, undisturbed. *)
Definition undisturbed (sd sd' : Side) (pw t t' : bytes) : attended :=
  {| s_side := sd; s_pw := pw; s_tape := t; s_inbound := sent sd' pw t' |}.
Lemma undisturbed_key sd sd' pw t t' : identities sd = identities sd' -> role_of sd' = peer (role_of sd) ->
  exists key, key_of (undisturbed sd sd' pw t t') = Some key /\ key_of (undisturbed sd' sd pw t' t) = Some key.
Proof. intros HI HR. exact (C85_spake2_matching (undisturbed sd sd' pw t t') (undisturbed sd' sd pw t' t) eq_refl HI HR eq_refl eq_refl). Qed.
(** Alice and Bob; and two users of the symmetric mode. *)
Example C85_spake2_case :
  forall t t',
  (exists key, key_of (undisturbed (SideA (str "alice") (str "bob")) (SideB (str "alice") (str "bob")) (str "hunter2") t t') = Some key /\
     key_of (undisturbed (SideB (str "alice") (str "bob")) (SideA (str "alice") (str "bob")) (str "hunter2") t' t) = Some key) /\
  (exists key, key_of (undisturbed (SideSymmetric (str "s")) (SideSymmetric (str "s")) (str "hunter2") t t') = Some key /\
     key_of (undisturbed (SideSymmetric (str "s")) (SideSymmetric (str "s")) (str "hunter2") t' t) = Some key).
Proof. intros t t'. split; apply undisturbed_key; reflexivity. Qed.

(** ** C86.  At most two sessions have any one key. *)
Lemma opposite_only s s' key : key_of s = Some key -> key_of s' = Some key -> random (s_tape s) <> random (s_tape s') ->
  (s_pw s = s_pw s' /\ identities (s_side s) = identities (s_side s') /\
   role_of (s_side s') = peer (role_of (s_side s)) /\ s_inbound s = s_sent s') \/ collide s s'.
Proof.
  intros H H' N. destruct (C85_spake2 s s' key H H') as [(Hp & Hi & [(HR & HM & _)|(_ & HE & _)])|HC].
  - left. split; [exact Hp|]. split; [exact Hi|]. split; [exact HR|exact HM].
  - exfalso. exact (N HE).
  - right. exact HC.
Qed.
(** Three sessions that drew three different numbers do not all have one key, or two of them collide. *)
Theorem C86_spake2 :
  forall s1 s2 s3 key, key_of s1 = Some key -> key_of s2 = Some key -> key_of s3 = Some key ->
  random (s_tape s1) <> random (s_tape s2) -> random (s_tape s1) <> random (s_tape s3) ->
  random (s_tape s2) <> random (s_tape s3) ->
  collide s1 s2 \/ collide s1 s3.
Proof.
  intros s1 s2 s3 key H1 H2 H3 N12 N13 N23.
  destruct (opposite_only s1 s2 key H1 H2 N12) as [(P2 & I2 & R2 & M2)|HC]; [|left; exact HC].
  destruct (opposite_only s1 s3 key H1 H3 N13) as [(P3 & I3 & R3 & M3)|HC]; [|right; exact HC].
  exfalso. apply N23. rewrite M2 in M3. rewrite !s_sent_body in M3. apply (f_equal (@tl byte)) in M3. cbn [tl] in M3.
  rewrite <- P2, <- P3 in M3. assert (ES : s_side s2 = s_side s3).
  { apply one_side; [rewrite R2, R3; reflexivity|rewrite <- I2, <- I3; reflexivity]. }
  rewrite ES in M3. exact (body_inj _ _ _ _ M3).
Qed.
Print Assumptions C86_spake2.

(** The sessions of users [us] (side and password) with the given random bytes, where session number i receives
    [nth i inbound]. *)
Definition attendance (us : list (Side * bytes)) (tapes inbound : list bytes) : list attended :=
  map2 (fun u ti => {| s_side := fst u; s_pw := snd u; s_tape := fst ti; s_inbound := snd ti |}) us (combine tapes inbound).
Definition one_number (t t' : bytes) : bool := seqb (random t) (random t').
Lemma attendance_tapes us tapes inbound : length us = length tapes -> length tapes = length inbound ->
  map s_tape (attendance us tapes inbound) = tapes.
Proof.
  unfold attendance. revert tapes inbound. induction us as [|u us IH]; intros [|t tapes] [|m inbound] H1 H2; cbn in *; try lia; [reflexivity|].
  rewrite IH; [reflexivity|lia|lia].
Qed.
Lemma three_repeat l : three_share key_of l = true -> repeats one_number (map s_tape l) = true \/
  exists s s', In s l /\ In s' l /\ collide s s'.
Proof.
  intros H. destruct (three_share_inv _ _ H) as (s1 & s2 & s3 & k & L1 & L2 & L3 & K1 & K2 & K3 & HD).
  destruct (repeats one_number (map s_tape l)) eqn:R; [left; reflexivity|right]. rewrite repeats_map in R.
  destruct (HD _ R) as (R12 & R13 & R23). unfold one_number in R12, R13, R23. apply seqb_neq in R12, R13, R23.
  destruct (C86_spake2 s1 s2 s3 k K1 K2 K3 R12 R13 R23) as [HC|HC].
  - exists s1, s2. split; [exact L1|]. split; [exact L2|exact HC].
  - exists s1, s3. split; [exact L1|]. split; [exact L3|exact HC].
Qed.

(** However the sessions' messages are exchanged, dropped, replaced or invented - even by someone who sees all
    random bytes - three of n sessions have one key with probability at most n (n - 1) / 2^253, or two of them
    collide. *)
Theorem C86_spake2_chance :
  forall us (deliver : list bytes -> list bytes), (forall tapes, length (deliver tapes) = length tapes) ->
  let n := length us in
  (2 ^ 253 * Z.of_nat (length (filter (fun tapes => three_share key_of (attendance us tapes (deliver tapes)))
                                  (choices (repeat (strings 64) n)))) <= Z.of_nat (n * (n - 1)) * (256 ^ 64) ^ Z.of_nat n)%Z \/
  exists tapes s s', Forall (fun t => length t = 64) tapes /\ In s (attendance us tapes (deliver tapes)) /\
    In s' (attendance us tapes (deliver tapes)) /\ collide s s'.
Proof.
  intros us deliver HD. cbv zeta. generalize (eq_refl (length us)). generalize (length us) at 2 3 4 5 6 as n. intros n En.
  destruct (bad_or (fun tapes => three_share key_of (attendance us tapes (deliver tapes))) (repeats one_number) (choices (repeat (strings 64) n)))
    as [H|(tapes & Ht & H3 & HR)].
  - left. pose proof (birthday_part one_number (strings 64) most (fun b => most_spec (random b)) (2 ^ 252) (256 ^ 64) n eq_refl strings_64 most_small) as B.
    change (2 ^ 253)%Z with (2 * 2 ^ 252)%Z. eapply Z.le_trans; [|exact B].
    apply Z.mul_le_mono_nonneg_l; [intros C; discriminate C|]. apply Nat2Z.inj_le, H.
  - right. exists tapes.
    destruct (choices_forall (fun t => length t = 64) _ _ _ (fun t => proj1 (in_strings 64 t)) Ht) as [HL HF].
    destruct (three_repeat _ H3) as [R|(s & s' & Hs & Hs' & HC)].
    + rewrite attendance_tapes in R; [rewrite R in HR; discriminate HR|rewrite HL; exact En|symmetry; apply HD].
    + exists s, s'. split; [exact HF|]. split; [exact Hs|]. split; [exact Hs'|exact HC].
Qed.
Print Assumptions C86_spake2_chance.

(** A bound is needed: of two starts with one number, both share the key of the session that answers. *)
Lemma restarted sd sd' pw t t' : identities sd = identities sd' -> role_of sd' = peer (role_of sd) ->
  three_share key_of (attendance [(sd, pw); (sd', pw); (sd, pw)] [t; t'; t] [sent sd' pw t'; sent sd pw t; sent sd' pw t']) = true.
Proof.
  intros HI HR. destruct (undisturbed_key sd sd' pw t t' HI HR) as (key & K & K').
  change (attendance _ _ _) with [undisturbed sd sd' pw t t'; undisturbed sd' sd pw t' t; undisturbed sd sd' pw t t'].
  revert K K'. generalize (undisturbed sd sd' pw t t') (undisturbed sd' sd pw t' t). intros A B K K'.
  unfold three_share. cbn [existsb filter]. rewrite (same_key_spec key_of A A key K K), (same_key_spec key_of A B key K K'). reflexivity.
Qed.
Example C86_spake2_case :
  forall t t', three_share key_of (attendance
    [(SideA (str "alice") (str "bob"), str "hunter2"); (SideB (str "alice") (str "bob"), str "hunter2");
     (SideA (str "alice") (str "bob"), str "hunter2")] [t; t'; t]
    [sent (SideB (str "alice") (str "bob")) (str "hunter2") t'; sent (SideA (str "alice") (str "bob")) (str "hunter2") t;
     sent (SideB (str "alice") (str "bob")) (str "hunter2") t']) = true.
Proof. intros t t'. exact (restarted (SideA (str "alice") (str "bob")) (SideB (str "alice") (str "bob")) (str "hunter2") t t' eq_refl eq_refl). Qed.
