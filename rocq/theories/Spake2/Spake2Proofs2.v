(** * Proofs of the SPAKE2 properties C15-C28. *)
From Coq Require Import ZArith Znumtheory Lia.
From Verif Require Import Base.Bytes Base.Outcome Base.Rng Base.Utf8 Base.Hex Hash.Hash.
From Verif Require Import Curve.Primes Curve.Zmod Curve.Abelian Curve.Ed25519 Curve.Ed25519Points
  Curve.Ed25519Subgroup.
From Verif Require Import Spake2.Spake2Model Spake2.Ed25519Group Spake2.Spake2Spec Spake2.Spake2Generic
  Spake2.Spake2Proofs.

Local Open Scope nat_scope.
Local Notation E := Ed25519Group.

(** The scalar a generator state yields: 64 bytes, little-endian, modulo the group order. *)
Lemma random_scalar_val (T : Rng) (st : rng_state T) :
  sval (fst (scalar_random T st)) = (Z.of_N (le_val (fst (rng_fill T 64 st))) mod ell)%Z.
Proof.
  unfold scalar_random. destruct (rng_fill T 64 st) as [b st']. cbn [fst].
  unfold scalar_wide. apply sval_sof.
Qed.

(** ** C15, C16 *)

Lemma agreement_ab pw id_a id_b (x y : scalar) :
  exists sa sb ma mb key,
    start_a_internal E pw id_a id_b x = Ok (sa, ma) /\
    start_b_internal E pw id_a id_b y = Ok (sb, mb) /\
    finish E sa mb = Ok key /\ finish E sb ma = Ok key /\ length key = 32.
Proof. exact (generic_agreement_ab E _ _ _ _ _ ed_group_laws eq_refl pw id_a id_b x y). Qed.

Lemma agreement_symmetric pw id_s (x y : scalar) :
  exists sa sb ma mb key,
    start_symmetric_internal E pw id_s x = Ok (sa, ma) /\
    start_symmetric_internal E pw id_s y = Ok (sb, mb) /\
    finish E sa mb = Ok key /\ finish E sb ma = Ok key /\ length key = 32.
Proof. exact (generic_agreement_symmetric E _ _ _ _ _ ed_group_laws eq_refl pw id_s x y). Qed.

(** The agreed group element is x*y*B. *)
Lemma shared_honest r pw x y :
  shared r pw x (msg_point (peer r) pw y) = emul (x * y) ed_B.
Proof.
  unfold shared, msg_point. rewrite eadd_cancel. symmetry. apply emul_mul_scalar.
Qed.

Lemma decompress_enc P : decompress (compress P) = Some P.
Proof. apply decompress_compress. Qed.

Lemma finish_honest sd pw x sd' pw' x' s msg s' msg' :
  role_of sd' = peer (role_of sd) ->
  start_internal E sd pw x = Ok (s, msg) -> start_internal E sd' pw' x' = Ok (s', msg') ->
  finish E s msg' =
  Ok (sha256 (transcript sd pw (compress (msg_point (role_of sd) pw (sval x)))
                (compress (msg_point (peer (role_of sd)) pw' (sval x')))
                (shared (role_of sd) pw (sval x) (msg_point (peer (role_of sd)) pw' (sval x'))))).
Proof.
  intros Hr H H'. rewrite start_ok in H. injection H as <- <-.
  rewrite start_ok in H'. injection H' as <- <-. rewrite Hr.
  rewrite finish_ok. unfold finish_spec. cbn [length]. rewrite compress_length.
  cbn [Nat.eqb]. rewrite byte_eqb_refl, decompress_enc. reflexivity.
Qed.

(** ** C17 *)
Lemma finish_classified sd pw x s msg msg2 :
  start_internal E sd pw x = Ok (s, msg) ->
  (length msg2 <> 33 -> finish E s msg2 = Err WrongLength) /\
  (forall t rest, msg2 = t :: rest -> length msg2 = 33 ->
     (t <> tag (peer (role_of sd)) -> finish E s msg2 = Err BadSide) /\
     (t = tag (peer (role_of sd)) ->
        (~ decodable rest -> finish E s msg2 = Err CorruptMessage) /\
        (decodable rest -> exists key, finish E s msg2 = Ok key /\ length key = 32))).
Proof.
  intros H. rewrite start_ok in H. injection H as <- <-. rewrite finish_ok. unfold finish_spec.
  split.
  - intros HL. apply Nat.eqb_neq in HL. now rewrite HL.
  - intros t rest -> HL. rewrite HL. cbn [Nat.eqb].
    split.
    + intros Ht. destruct (byte_eqb t _) eqn:Et; [|reflexivity].
      apply byte_eqb_eq in Et. contradiction.
    + intros ->. rewrite byte_eqb_refl. split.
      * intros D. destruct (decompress rest) as [P|] eqn:EP; [|reflexivity].
        exfalso. apply D, decompress_decodable. now exists P.
      * intros D. apply decompress_decodable in D. destruct D as [P ->].
        eexists. split; [reflexivity|apply sha256_length].
Qed.

Lemma finish_no_panic sd pw x s msg msg2 :
  start_internal E sd pw x = Ok (s, msg) -> finish E s msg2 <> Panic.
Proof.
  intros H. rewrite start_ok in H. injection H as <- <-. rewrite finish_ok. unfold finish_spec.
  destruct (Nat.eqb _ _); [|discriminate]. destruct msg2 as [|t rest]; [discriminate|].
  destruct (byte_eqb _ _); [|discriminate]. destruct (decompress rest); discriminate.
Qed.

(** A successful finish in terms of the specification. *)
Lemma finish_inv sd pw x msg2 key :
  finish E (session sd pw x) msg2 = Ok key ->
  exists rest P, msg2 = tag (peer (role_of sd)) :: rest /\ length rest = 32 /\
    decompress rest = Some P /\
    key = sha256 (transcript sd pw (compress (msg_point (role_of sd) pw (sval x))) rest
                    (shared (role_of sd) pw (sval x) P)).
Proof.
  rewrite finish_ok. unfold finish_spec.
  destruct (Nat.eqb_spec (length msg2) 33) as [HL|HL]; [|discriminate].
  destruct msg2 as [|t rest]; [discriminate|]. injection HL as HL.
  destruct (byte_eqb t _) eqn:Et; [|discriminate]. apply byte_eqb_eq in Et. subst t.
  destruct (decompress rest) as [P|] eqn:EP; [|discriminate].
  intros H. injection H as <-. exists rest, P. auto.
Qed.

(** ** C18 *)
Lemma wrong_role_refused sd pw x s msg sd' pw' x' s' msg' :
  start_internal E sd pw x = Ok (s, msg) -> start_internal E sd' pw' x' = Ok (s', msg') ->
  role_of sd' <> peer (role_of sd) -> finish E s msg' = Err BadSide.
Proof.
  intros H H' Hr. rewrite start_ok in H'. injection H' as <- <-.
  destruct (finish_classified sd pw x s msg
    (tag (role_of sd') :: compress (msg_point (role_of sd') pw' (sval x'))) H) as [_ C].
  destruct (C _ _ eq_refl) as [B _].
  - cbn [length]. now rewrite compress_length.
  - apply B. destruct (role_of sd'), (role_of sd); cbn [peer tag] in *; congruence.
Qed.

(** ** C19 *)
Lemma reflection_accepted id_s pw x s msg :
  start_symmetric_internal E pw id_s x = Ok (s, msg) ->
  exists key, finish E s msg = Ok key /\ length key = 32.
Proof.
  intros H. rewrite start_symmetric_eq in H.
  rewrite (finish_honest (SideSymmetric id_s) pw x (SideSymmetric id_s) pw x s msg s msg eq_refl H H).
  eexists. split; [reflexivity|apply sha256_length].
Qed.

(** ** C20 *)
Lemma sorted_length u v : length (sorted u v) = length u + length v.
Proof. unfold sorted. destruct (N.leb _ _); rewrite app_length; lia. Qed.

Lemma sorted_inj u v u' v' :
  length u = 32 -> length v = 32 -> length u' = 32 -> length v' = 32 ->
  sorted u v = sorted u' v' -> (u = u' /\ v = v') \/ (u = v' /\ v = u').
Proof.
  intros L1 L2 L3 L4. unfold sorted.
  destruct (N.leb _ _), (N.leb _ _); intros H; apply app_inj_length in H;
    try congruence; destruct H; auto.
Qed.

Lemma transcript_length sd pw mine theirs K :
  length mine = 32 -> length theirs = 32 ->
  length (transcript sd pw mine theirs K) =
  match sd with SideSymmetric _ => 160 | _ => 192 end.
Proof.
  intros H1 H2. destruct sd; cbn [transcript];
    rewrite ?app_length, ?sorted_length, ?sha256_length, ?compress_length, ?H1, ?H2; reflexivity.
Qed.

Lemma app_eq32 (a a' b b' : bytes) :
  length a = 32 -> length a' = 32 -> a ++ b = a' ++ b' -> a = a' /\ b = b'.
Proof. intros. apply app_inj_length; congruence. Qed.

Ltac split32 H :=
  apply app_eq32 in H; [|first [apply sha256_length | apply compress_length | assumption]..];
  let H1 := fresh "Q" in destruct H as [H1 H].

Definition id_collision (sd sd' : Side) : Prop :=
  exists a a', In (a, a') (combine (identities sd) (identities sd')) /\ collision sha256 a a'.

Lemma transcript_inj sd pw mine theirs K sd' pw' mine' theirs' K' :
  length mine = 32 -> length theirs = 32 -> length mine' = 32 -> length theirs' = 32 ->
  transcript sd pw mine theirs K = transcript sd' pw' mine' theirs' K' ->
  (pw = pw' /\ same_exchange (exchange_of sd mine theirs) (exchange_of sd' mine' theirs') /\ K = K') \/
  collision sha256 pw pw' \/ id_collision sd sd'.
Proof.
  intros L1 L2 L3 L4 H.
  assert (HL := f_equal (@length byte) H). rewrite !transcript_length in HL by assumption.
  assert (AB : forall a b a' b' x y x' y',
    identities sd = [a; b] -> identities sd' = [a'; b'] ->
    length x = 32 -> length y = 32 -> length x' = 32 -> length y' = 32 ->
    sha256 pw ++ sha256 a ++ sha256 b ++ x ++ y ++ compress K =
    sha256 pw' ++ sha256 a' ++ sha256 b' ++ x' ++ y' ++ compress K' ->
    (pw = pw' /\ (a = a' /\ b = b' /\ x = x' /\ y = y') /\ K = K') \/
    collision sha256 pw pw' \/ id_collision sd sd').
  { intros a b a' b' x y x' y' I I' Lx Ly Lx' Ly' HE.
    split32 HE. split32 HE. split32 HE. split32 HE. split32 HE. apply compress_inj in HE.
    destruct (bytes_eq_dec pw pw') as [->|Np]; [|right; left; now split].
    destruct (bytes_eq_dec a a') as [->|Na].
    - destruct (bytes_eq_dec b b') as [->|Nb].
      + left. tauto.
      + right. right. exists b, b'. rewrite I, I'. cbn. split; [auto|now split].
    - right. right. exists a, a'. rewrite I, I'. cbn. split; [auto|now split]. }
  destruct sd as [a b|a b|i], sd' as [a' b'|a' b'|i']; try discriminate HL;
    cbn [transcript exchange_of same_exchange] in *.
  - exact (AB a b a' b' mine theirs mine' theirs' eq_refl eq_refl L1 L2 L3 L4 H).
  - exact (AB a b a' b' mine theirs theirs' mine' eq_refl eq_refl L1 L2 L4 L3 H).
  - exact (AB a b a' b' theirs mine mine' theirs' eq_refl eq_refl L2 L1 L3 L4 H).
  - exact (AB a b a' b' theirs mine theirs' mine' eq_refl eq_refl L2 L1 L4 L3 H).
  - clear AB. split32 H. split32 H.
    apply app_inj_length in H; [|rewrite !sorted_length; congruence]. destruct H as [Hs HK].
    apply compress_inj in HK. apply sorted_inj in Hs; [|assumption..].
    destruct (bytes_eq_dec pw pw') as [->|Np]; [|right; left; now split].
    destruct (bytes_eq_dec i i') as [->|Ni]; [left; tauto|].
    right. right. exists i, i'. cbn. split; [auto|now split].
Qed.

(** Two completed sessions with the same key. *)
Lemma key_binds sd pw x s msg sd' pw' x' s' msg' rest rest' key :
  start_internal E sd pw x = Ok (s, msg) -> start_internal E sd' pw' x' = Ok (s', msg') ->
  finish E s (tag (peer (role_of sd)) :: rest) = Ok key ->
  finish E s' (tag (peer (role_of sd')) :: rest') = Ok key ->
  exists mine mine' P P',
    msg = tag (role_of sd) :: mine /\ msg' = tag (role_of sd') :: mine' /\
    decompress rest = Some P /\ decompress rest' = Some P' /\
    let K := shared (role_of sd) pw (sval x) P in
    let K' := shared (role_of sd') pw' (sval x') P' in
    (pw = pw' /\ same_exchange (exchange_of sd mine rest) (exchange_of sd' mine' rest') /\ K = K') \/
    collision sha256 (transcript sd pw mine rest K) (transcript sd' pw' mine' rest' K') \/
    collision sha256 pw pw' \/ id_collision sd sd'.
Proof.
  intros H H' F F'. rewrite start_ok in H, H'. injection H as <- <-. injection H' as <- <-.
  apply finish_inv in F. destruct F as (r & P & Er & Lr & EP & Hk). injection Er as <-.
  apply finish_inv in F'. destruct F' as (r' & P' & Er' & Lr' & EP' & Hk'). injection Er' as <-.
  do 2 eexists. exists P, P'. split; [reflexivity|]. split; [reflexivity|].
  split; [exact EP|]. split; [exact EP'|]. cbv zeta.
  set (T := transcript sd _ _ _ _) in *. set (T' := transcript sd' _ _ _ _) in *.
  destruct (bytes_eq_dec T T') as [ET|NT].
  - apply transcript_inj in ET; try apply compress_length; try assumption.
    destruct ET as [ET|[ET|ET]]; auto.
  - right. left. split; [exact NT|congruence].
Qed.

(** ** C21 *)
Lemma start_message sd pw x :
  exists s enc, start_internal E sd pw x = Ok (s, tag (role_of sd) :: enc) /\
    length enc = 32 /\ bytes_to_element E enc = Some (msg_point (role_of sd) pw (sval x)).
Proof.
  rewrite start_ok. do 2 eexists. split; [reflexivity|]. split; [apply compress_length|].
  apply ed_roundtrip.
Qed.

(** ** C24 *)
Lemma blind_multiple r : exists k, (0 <= k < ell)%Z /\ blind r = emul k ed_B.
Proof. apply multiple_of_B, ell_blind. Qed.

(** For a fixed role and password, the scalars correspond one to one to the points of the
    prime-order subgroup. *)
Lemma msg_point_bijective r pw P :
  emul ell P = ezero -> exists! x : scalar, msg_point r pw (sval x) = P.
Proof.
  intros HP. destruct (blind_multiple r) as (k & _ & Hk). destruct (multiple_of_B P HP) as (z & _ & Hz).
  unfold msg_point. generalize (pw_int pw). intros w. exists (sof (z - w * k)). split.
  - rewrite sval_sof, emul_mod by exact ell_B. rewrite Hk, Hz, <- emul_mul_scalar, <- emul_add_scalar.
    replace (z - w * k + w * k)%Z with z by ring. reflexivity.
  - intros y Hy. rewrite Hk, Hz, <- emul_mul_scalar, <- emul_add_scalar in Hy.
    apply zmod_ext. change (sval (sof (z - w * k)) = sval y). rewrite sval_sof.
    rewrite <- (Z.mod_small (sval y) ell) by apply sval_range.
    assert (M : ((sval y + w * k) mod ell = z mod ell)%Z).
    { apply (emul_inj ed_B); [exact ell_B|exact ed_B_nonzero| | |].
      - apply Z.mod_pos_bound. pose proof ell_gt_1. lia.
      - apply Z.mod_pos_bound. pose proof ell_gt_1. lia.
      - rewrite !emul_mod by exact ell_B. exact Hy. }
    rewrite <- Zminus_mod_idemp_l, <- M, Zminus_mod_idemp_l. f_equal. ring.
Qed.

Lemma ell_msg_point r pw x : emul ell (msg_point r pw x) = ezero.
Proof.
  unfold msg_point. rewrite emul_eadd, (emul_comm ell x), (emul_comm ell (pw_int pw)), ell_B, ell_blind.
  rewrite !emul_zero. apply eadd_0_r.
Qed.

(** [injection] on concrete encodings would evaluate them. *)
Lemma ok_pair_inj {Err A} (a a' : A) (t : byte) (m m' : bytes) :
  @Ok Err _ (a, t :: m) = Ok (a', t :: m') -> m = m'.
Proof. intros H. now injection H. Qed.

Lemma message_hides_password sd pw x s msg sd' pw' :
  start_internal E sd pw x = Ok (s, msg) -> role_of sd' = role_of sd ->
  exists! x', exists s', start_internal E sd' pw' x' = Ok (s', msg).
Proof.
  intros H Hr. rewrite start_ok in H. injection H as <- <-.
  destruct (msg_point_bijective (role_of sd) pw' _ (ell_msg_point (role_of sd) pw (sval x)))
    as (x' & Hx & Hu).
  exists x'. split.
  - exists (session sd' pw' x'). rewrite start_ok, Hr, Hx. reflexivity.
  - intros y (s' & Hy). apply Hu. rewrite start_ok, Hr in Hy. apply ok_pair_inj in Hy.
    now apply compress_inj in Hy.
Qed.
