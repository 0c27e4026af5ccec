(** * C15-C28: the properties of the spake2 crate.  Every theorem is closed by lemmas proved in the
    other files of this directory; the examples show that hypotheses are met. *)
From Coq Require Import ZArith Znumtheory Lia.
From Verif Require Import Base.Bytes Base.Outcome Base.Rng Base.Utf8 Base.Utf8Spec Base.Hex Hash.Hash.
From Verif Require Import Curve.Primes Curve.Zmod Curve.Abelian Curve.Ed25519 Curve.Ed25519Fast
  Curve.Ed25519Points Curve.Ed25519Subgroup.
From Verif Require Import Spake2.Spake2Model Spake2.Ed25519Group Spake2.Spake2Spec Spake2.Spake2Generic
  Spake2.Spake2Proofs Spake2.Spake2Proofs2 Spake2.Spake2Debug Spake2.Spake2Small Spake2.Spake2Fast.
Local Open Scope nat_scope.
Local Notation E := Ed25519Group.

(** The scalar drawn from a generator state, as an integer. *)
Definition drawn (T : Rng) (st : rng_state T) : Z :=
  (Z.of_N (le_val (fst (rng_fill T 64 st))) mod ell)%Z.

(** ** C15 *)
Theorem C15_agreement_ab :
  forall (T T' : Rng) (st : rng_state T) (st' : rng_state T') pw id_a id_b,
  exists sa sb ma mb key,
    start_a_with_rng E T pw id_a id_b st = Ok (sa, ma) /\
    start_b_with_rng E T' pw id_a id_b st' = Ok (sb, mb) /\
    finish E sa mb = Ok key /\ finish E sb ma = Ok key /\ length key = 32.
Proof.
  intros T T' st st' pw id_a id_b. rewrite start_a_rng_eq, start_b_rng_eq.
  rewrite <- start_a_eq, <- start_b_eq. apply agreement_ab.
Qed.
Print Assumptions C15_agreement_ab.

(** The key both compute: SHA-256 of the six 32-byte fields, with the shared element x*y*B. *)
Theorem C15_key_formula :
  forall (T T' : Rng) (st : rng_state T) (st' : rng_state T') pw id_a id_b sa sb ma mb,
  start_a_with_rng E T pw id_a id_b st = Ok (sa, ma) ->
  start_b_with_rng E T' pw id_a id_b st' = Ok (sb, mb) ->
  let x := drawn T st in let y := drawn T' st' in
  let key := sha256 (sha256 pw ++ sha256 id_a ++ sha256 id_b ++
                     compress (msg_point RoleA pw x) ++ compress (msg_point RoleB pw y) ++
                     compress (emul (x * y) ed_B)) in
  finish E sa mb = Ok key /\ finish E sb ma = Ok key.
Proof.
  intros T T' st st' pw id_a id_b sa sb ma mb Ha Hb.
  rewrite start_a_rng_eq in Ha. rewrite start_b_rng_eq in Hb. cbv zeta. unfold drawn.
  rewrite <- !random_scalar_val.
  rewrite (finish_honest (SideA id_a id_b) _ _ (SideB id_a id_b) _ _ _ _ _ _ eq_refl Ha Hb).
  rewrite (finish_honest (SideB id_a id_b) _ _ (SideA id_a id_b) _ _ _ _ _ _ eq_refl Hb Ha).
  rewrite !shared_honest. cbn [transcript role_of peer]. split; [reflexivity|].
  rewrite (Z.mul_comm (sval (fst (random_scalar E T' st')))). reflexivity.
Qed.
Print Assumptions C15_key_formula.

(** Agreement over any [Group] with the group laws and 32-byte encodings. *)
Theorem C15_agreement_any_group :
  forall G m n s base pws, group_laws G m n s base pws -> element_length G = 32 ->
  forall pw id_a id_b x y,
  exists sa sb ma mb key,
    start_a_internal G pw id_a id_b x = Ok (sa, ma) /\
    start_b_internal G pw id_a id_b y = Ok (sb, mb) /\
    finish G sa mb = Ok key /\ finish G sb ma = Ok key /\ length key = 32.
Proof. exact generic_agreement_ab. Qed.
Print Assumptions C15_agreement_any_group.

Example C15_case :
  group_laws E ed_M ed_N ed_S ed_B (fun p => sof (pw_int p)) /\ element_length E = 32 /\
  exists sa ma, start_a_with_rng E tape_rng (str "password") (str "idA") (str "idB") (repeat x07 64)
                = Ok (sa, ma) /\ length ma = 33.
Proof.
  split; [exact ed_group_laws|]. split; [reflexivity|].
  rewrite start_a_rng_eq, start_ok. do 2 eexists. split; [reflexivity|].
  cbn [length]. now rewrite compress_length.
Qed.

(** ** C16 *)
Theorem C16_agreement_symmetric :
  forall (T T' : Rng) (st : rng_state T) (st' : rng_state T') pw id_s,
  exists sa sb ma mb key,
    start_symmetric_with_rng E T pw id_s st = Ok (sa, ma) /\
    start_symmetric_with_rng E T' pw id_s st' = Ok (sb, mb) /\
    finish E sa mb = Ok key /\ finish E sb ma = Ok key /\ length key = 32.
Proof.
  intros T T' st st' pw id_s. rewrite !start_symmetric_rng_eq.
  rewrite <- !start_symmetric_eq. apply agreement_symmetric.
Qed.
Print Assumptions C16_agreement_symmetric.

Theorem C16_key_formula :
  forall (T T' : Rng) (st : rng_state T) (st' : rng_state T') pw id_s sa sb ma mb,
  start_symmetric_with_rng E T pw id_s st = Ok (sa, ma) ->
  start_symmetric_with_rng E T' pw id_s st' = Ok (sb, mb) ->
  let x := drawn T st in let y := drawn T' st' in
  let u := compress (msg_point RoleS pw x) in let v := compress (msg_point RoleS pw y) in
  finish E sa mb = Ok (sha256 (sha256 pw ++ sha256 id_s ++
    (if (be_val u <=? be_val v)%N then u ++ v else v ++ u) ++ compress (emul (x * y) ed_B))).
Proof.
  intros T T' st st' pw id_s sa sb ma mb Ha Hb.
  rewrite start_symmetric_rng_eq in Ha, Hb. cbv zeta. unfold drawn.
  rewrite <- !random_scalar_val.
  rewrite (finish_honest (SideSymmetric id_s) _ _ (SideSymmetric id_s) _ _ _ _ _ _ eq_refl Ha Hb).
  rewrite !shared_honest. reflexivity.
Qed.
Print Assumptions C16_key_formula.

Theorem C16_agreement_any_group :
  forall G m n s base pws, group_laws G m n s base pws -> element_length G = 32 ->
  forall pw id_s x y,
  exists sa sb ma mb key,
    start_symmetric_internal G pw id_s x = Ok (sa, ma) /\
    start_symmetric_internal G pw id_s y = Ok (sb, mb) /\
    finish G sa mb = Ok key /\ finish G sb ma = Ok key /\ length key = 32.
Proof. exact generic_agreement_symmetric. Qed.
Print Assumptions C16_agreement_any_group.

(** ** C17 *)
Theorem C17_finish_total :
  forall sd pw x s msg msg2, start_internal E sd pw x = Ok (s, msg) ->
  finish E s msg2 <> Panic.
Proof. exact finish_no_panic. Qed.
Print Assumptions C17_finish_total.

Theorem C17_finish_classified :
  forall sd pw x s msg msg2, start_internal E sd pw x = Ok (s, msg) ->
  (length msg2 <> 33 -> finish E s msg2 = Err WrongLength) /\
  (forall t rest, msg2 = t :: rest -> length msg2 = 33 ->
     (t <> tag (peer (role_of sd)) -> finish E s msg2 = Err BadSide) /\
     (t = tag (peer (role_of sd)) ->
        (~ decodable rest -> finish E s msg2 = Err CorruptMessage) /\
        (decodable rest -> exists key, finish E s msg2 = Ok key /\ length key = 32))).
Proof. exact finish_classified. Qed.
Print Assumptions C17_finish_classified.

(** The value of every successful finish, honest peer or not. *)
Theorem C17_finish_value :
  forall sd pw x s msg msg2 key, start_internal E sd pw x = Ok (s, msg) ->
  finish E s msg2 = Ok key ->
  exists rest P,
    msg2 = tag (peer (role_of sd)) :: rest /\ length rest = 32 /\
    ey P = fof (Z.of_N (le_val rest) mod 2 ^ 255) /\
    (ex P = f0 \/ is_negative (ex P) = sign_bit (Z.of_N (le_val rest))) /\
    key = sha256 (transcript sd pw (compress (msg_point (role_of sd) pw (sval x))) rest
                    (shared (role_of sd) pw (sval x) P)).
Proof.
  intros sd pw x s msg msg2 key H F. rewrite start_ok in H. injection H as <- <-.
  apply finish_inv in F. destruct F as (rest & P & E1 & E2 & E3 & E4).
  apply decompress_some in E3. destruct E3. exists rest, P. auto.
Qed.
Print Assumptions C17_finish_value.

Lemma y2_check : (if rdecompress (x02 :: repeat x00 31) then false else true) = true.
Proof. vm_cast_no_check (eq_refl true). Qed.

Example C17_case :
  (exists s msg, start_internal E (SideA (str "a") (str "b")) (str "pw") (sof 5) = Ok (s, msg)) /\
  decodable (compress ed_B) /\ ~ decodable (x02 :: repeat x00 31).
Proof.
  split; [rewrite start_ok; do 2 eexists; reflexivity|]. split.
  - apply decompress_decodable. exists ed_B. apply decompress_compress.
  - apply not_decodable. pose proof y2_check as H.
    destruct (rdecompress (x02 :: repeat x00 31)); [discriminate|reflexivity].
Qed.

(** ** C18 *)
Theorem C18_wrong_role_refused :
  forall sd pw x s msg sd' pw' x' s' msg',
  start_internal E sd pw x = Ok (s, msg) -> start_internal E sd' pw' x' = Ok (s', msg') ->
  role_of sd' <> peer (role_of sd) -> finish E s msg' = Err BadSide.
Proof. exact wrong_role_refused. Qed.
Print Assumptions C18_wrong_role_refused.

Theorem C18_reflection_refused :
  forall pw id_a id_b x s msg,
  (start_a_internal E pw id_a id_b x = Ok (s, msg) -> finish E s msg = Err BadSide) /\
  (start_b_internal E pw id_a id_b x = Ok (s, msg) -> finish E s msg = Err BadSide).
Proof.
  intros pw id_a id_b x s msg. rewrite start_a_eq, start_b_eq.
  split; intros H; apply (wrong_role_refused _ _ _ _ _ _ _ _ _ _ H H); discriminate.
Qed.
Print Assumptions C18_reflection_refused.

Example C18_case : role_of (SideSymmetric (str "s")) <> peer (role_of (SideA (str "a") (str "b"))) /\
  role_of (SideA (str "a") (str "b")) <> peer (role_of (SideA (str "c") (str "d"))).
Proof. split; discriminate. Qed.

(** ** C19: refuted, for every symmetric session. *)
Theorem C19_reflection_accepted :
  forall id_s pw x s msg, start_symmetric_internal E pw id_s x = Ok (s, msg) ->
  exists key, finish E s msg = Ok key /\ length key = 32.
Proof. exact reflection_accepted. Qed.
Print Assumptions C19_reflection_accepted.

Theorem C19_symmetric_reflection_refused_refuted :
  exists id_s pw x s msg key,
    start_symmetric_internal E pw id_s x = Ok (s, msg) /\ finish E s msg = Ok key.
Proof.
  destruct (agreement_symmetric (str "pw") (str "s") (sof 5) (sof 5)) as (s & _ & m & _ & _ & H & _).
  destruct (reflection_accepted _ _ _ _ _ H) as (key & Hk & _). do 6 eexists. split; [exact H|exact Hk].
Qed.
Print Assumptions C19_symmetric_reflection_refused_refuted.

(** ** C20 *)
Theorem C20_equal_keys_bind :
  forall sd pw x s msg sd' pw' x' s' msg' rest rest' key,
  start_internal E sd pw x = Ok (s, msg) -> start_internal E sd' pw' x' = Ok (s', msg') ->
  finish E s (tag (peer (role_of sd)) :: rest) = Ok key ->
  finish E s' (tag (peer (role_of sd')) :: rest') = Ok key ->
  exists mine mine' P P',
    msg = tag (role_of sd) :: mine /\ msg' = tag (role_of sd') :: mine' /\
    decompress rest = Some P /\ decompress rest' = Some P' /\
    let K := shared (role_of sd) pw (sval x) P in
    let K' := shared (role_of sd') pw' (sval x') P' in
    (pw = pw' /\ same_exchange (exchange_of sd mine rest) (exchange_of sd' mine' rest') /\ K = K') \/
    collision sha256 (transcript sd pw mine rest K) (transcript sd' pw' mine' rest' K') \/
    collision sha256 pw pw' \/
    (exists a a', In (a, a') (combine (identities sd) (identities sd')) /\ collision sha256 a a').
Proof. exact key_binds. Qed.
Print Assumptions C20_equal_keys_bind.

Lemma some_inj {A} (a b : A) : Some a = Some b -> a = b.
Proof. intros H. now injection H. Qed.

(** A wrong password: if no collision is exhibited, the keys differ. *)
Theorem C20_wrong_password_different_keys :
  forall pw pw' id_a id_b x y sa sb ma mb ka kb,
  start_a_internal E pw id_a id_b x = Ok (sa, ma) ->
  start_b_internal E pw' id_a id_b y = Ok (sb, mb) ->
  finish E sa mb = Ok ka -> finish E sb ma = Ok kb -> pw <> pw' ->
  ka <> kb \/ collision sha256 pw pw' \/
  exists mine theirs X Y,
    ma = x41 :: mine /\ mb = x42 :: theirs /\ decompress mine = Some X /\ decompress theirs = Some Y /\
    collision sha256 (transcript (SideA id_a id_b) pw mine theirs (shared RoleA pw (sval x) Y))
                     (transcript (SideB id_a id_b) pw' theirs mine (shared RoleB pw' (sval y) X)).
Proof.
  intros pw pw' id_a id_b x y sa sb ma mb ka kb Ha Hb Fa Fb Np.
  destruct (bytes_eq_dec ka kb) as [<-|Nk]; [right|now left].
  rewrite start_a_eq in Ha. rewrite start_b_eq in Hb.
  pose proof Ha as Ha'. pose proof Hb as Hb'. rewrite start_ok in Ha', Hb'.
  injection Ha' as _ Ea. injection Hb' as _ Eb. cbn [role_of tag] in Ea, Eb. subst ma mb.
  destruct (key_binds _ _ _ _ _ _ _ _ _ _ _ _ _ Ha Hb Fa Fb)
    as (mine & mine' & P & P' & E1 & E2 & D1 & D2 & H). cbv zeta in H.
  destruct H as [(H & _)|[H|[H|(a & a' & Hin & Nc & _)]]].
  - contradiction.
  - right. apply (f_equal (@tl byte)) in E1, E2. cbn [tl] in E1, E2. subst mine mine'.
    do 2 eexists. exists P', P. split; [reflexivity|]. split; [reflexivity|]. split; [exact D2|]. split; [exact D1|exact H].
  - now left.
  - exfalso. cbn in Hin. destruct Hin as [Hin|[Hin|[]]]; injection Hin as <- <-; now apply Nc.
Qed.
Print Assumptions C20_wrong_password_different_keys.

Example C20_case :
  exists s s' msg msg' rest rest' key,
    start_internal E (SideA (str "a") (str "b")) (str "pw") (sof 5) = Ok (s, msg) /\
    start_internal E (SideB (str "a") (str "b")) (str "pw") (sof 7) = Ok (s', msg') /\
    finish E s (tag (peer RoleA) :: rest) = Ok key /\
    finish E s' (tag (peer RoleB) :: rest') = Ok key.
Proof.
  destruct (agreement_ab (str "pw") (str "a") (str "b") (sof 5) (sof 7))
    as (s & s' & m & m' & key & H1 & H2 & H3 & H4 & _).
  rewrite start_a_eq in H1. rewrite start_b_eq in H2.
  pose proof (finish_inv (SideA (str "a") (str "b")) (str "pw") (sof 5) m' key) as F.
  pose proof (finish_inv (SideB (str "a") (str "b")) (str "pw") (sof 7) m key) as F'.
  pose proof H1 as H1'. pose proof H2 as H2'. rewrite start_ok in H1', H2'.
  injection H1' as <- _. injection H2' as <- _.
  destruct (F H3) as (r & _ & -> & _). destruct (F' H4) as (r' & _ & -> & _).
  do 4 eexists. exists r, r', key.
  split; [exact H1|]. split; [exact H2|]. split; [exact H3|exact H4].
Qed.

(** ** C21 *)
Theorem C21_wire_format :
  forall sd pw x,
  exists s enc, start_internal E sd pw x = Ok (s, tag (role_of sd) :: enc) /\
    length enc = 32 /\ bytes_to_element E enc = Some (msg_point (role_of sd) pw (sval x)).
Proof. exact start_message. Qed.
Print Assumptions C21_wire_format.

(** The entry points with a generator: the scalar is 64 bytes, little-endian, modulo the order. *)
Theorem C21_wire_format_rng :
  forall (T : Rng) (st : rng_state T) pw id_a id_b,
  (exists s enc, start_a_with_rng E T pw id_a id_b st = Ok (s, x41 :: enc) /\ length enc = 32 /\
     bytes_to_element E enc = Some (eadd (emul (drawn T st) ed_B) (emul (pw_int pw) ed_M))) /\
  (exists s enc, start_b_with_rng E T pw id_a id_b st = Ok (s, x42 :: enc) /\ length enc = 32 /\
     bytes_to_element E enc = Some (eadd (emul (drawn T st) ed_B) (emul (pw_int pw) ed_N))) /\
  (exists s enc, start_symmetric_with_rng E T pw id_a st = Ok (s, x53 :: enc) /\ length enc = 32 /\
     bytes_to_element E enc = Some (eadd (emul (drawn T st) ed_B) (emul (pw_int pw) ed_S))).
Proof.
  intros T st pw id_a id_b. unfold drawn. rewrite <- random_scalar_val.
  rewrite start_a_rng_eq, start_b_rng_eq, start_symmetric_rng_eq.
  split; [|split].
  - exact (start_message (SideA id_a id_b) pw (fst (random_scalar E T st))).
  - exact (start_message (SideB id_a id_b) pw (fst (random_scalar E T st))).
  - exact (start_message (SideSymmetric id_a) pw (fst (random_scalar E T st))).
Qed.
Print Assumptions C21_wire_format_rng.

(** Point encoding round trip for every point of the curve. *)
Theorem C21_encoding_roundtrip :
  forall P, length (element_to_bytes E P) = 32 /\ bytes_to_element E (element_to_bytes E P) = Some P.
Proof. intros P. split; [apply compress_length|apply ed_roundtrip]. Qed.
Print Assumptions C21_encoding_roundtrip.

(** ** C22 *)
Theorem C22_password_scalar :
  forall pw, exists s, hash_to_scalar E pw = Ok s /\
    sval s = (Z.of_N (be_val (pw_okm pw)) mod ell)%Z /\ length (pw_okm pw) = 48.
Proof.
  intros pw. exists (sof (pw_int pw)). split; [apply hash_to_scalar_ok|].
  rewrite sval_pw. unfold pw_int. split; [reflexivity|apply pw_okm_length].
Qed.
Print Assumptions C22_password_scalar.

(** ** C23 *)
Lemma ed_consts_ok : const_m E = Ok ed_M /\ const_n E = Ok ed_N /\ const_s E = Ok ed_S.
Proof. split; [exact const_m_ok|]. split; [exact const_n_ok|exact const_s_ok]. Qed.

Lemma compress_neq P Q a b : compress P = a -> compress Q = b -> bytes_eqb a b = false -> P <> Q.
Proof.
  intros <- <- H ->. rewrite <- Bool.not_true_iff_false in H. apply H. now apply bytes_eqb_eq.
Qed.

Theorem C23_constants :
  exists m n s, const_m E = Ok m /\ const_n E = Ok n /\ const_s E = Ok s /\
    m <> n /\ m <> s /\ n <> s /\ m <> ezero /\ n <> ezero /\ s <> ezero /\
    (forall k, emul k m = ezero <-> (ell | k)) /\ (forall k, emul k n = ezero <-> (ell | k)) /\
    (forall k, emul k s = ezero <-> (ell | k)).
Proof.
  exists ed_M, ed_N, ed_S. destruct ed_consts_ok as (H1 & H2 & H3).
  split; [exact H1|]. split; [exact H2|]. split; [exact H3|].
  split; [exact (compress_neq _ _ _ _ M_encoding N_encoding eq_refl)|].
  split; [exact (compress_neq _ _ _ _ M_encoding S_encoding eq_refl)|].
  split; [exact (compress_neq _ _ _ _ N_encoding S_encoding eq_refl)|].
  split; [exact ed_M_nonzero|]. split; [exact ed_N_nonzero|]. split; [exact ed_S_nonzero|].
  split; [intros k; exact (emul_order_exact _ k ell_M ed_M_nonzero)|].
  split; [intros k; exact (emul_order_exact _ k ell_N ed_N_nonzero)|].
  intros k; exact (emul_order_exact _ k ell_S ed_S_nonzero).
Qed.
Print Assumptions C23_constants.

(** They lie in the subgroup the base point generates, and that subgroup has prime order. *)
Theorem C23_constants_in_subgroup :
  prime ell /\
  forall r, exists! k, (0 <= k < ell)%Z /\ blind r = emul k ed_B.
Proof.
  split; [exact prime_ell|]. intros r. destruct (blind_multiple r) as (k & Hk & E).
  exists k. split; [now split|]. intros k' [Hk' E'].
  apply (emul_inj ed_B); [exact ell_B|exact ed_B_nonzero|exact Hk|exact Hk'|congruence].
Qed.
Print Assumptions C23_constants_in_subgroup.

(** ** C24 *)
Theorem C24_message_hides_password :
  forall sd pw x s msg sd' pw',
  start_internal E sd pw x = Ok (s, msg) -> role_of sd' = role_of sd ->
  exists! x', exists s', start_internal E sd' pw' x' = Ok (s', msg).
Proof. exact message_hides_password. Qed.
Print Assumptions C24_message_hides_password.

(** For every role and password the scalars correspond one to one to the elements of the
    prime-order subgroup, so a uniform scalar gives the same uniform message for every password. *)
Theorem C24_message_bijection :
  forall sd pw,
  (forall x s msg, start_internal E sd pw x = Ok (s, msg) ->
     exists P, emul ell P = ezero /\ msg = tag (role_of sd) :: compress P) /\
  (forall P, emul ell P = ezero ->
     exists! x, exists s, start_internal E sd pw x = Ok (s, tag (role_of sd) :: compress P)).
Proof.
  intros sd pw. split.
  - intros x s msg H. rewrite start_ok in H. injection H as _ <-.
    eexists. split; [apply ell_msg_point|reflexivity].
  - intros P HP. destruct (msg_point_bijective (role_of sd) pw P HP) as (x & Hx & Hu).
    exists x. split.
    + exists (session sd pw x). now rewrite start_ok, Hx.
    + intros y (s & Hy). apply Hu. rewrite start_ok in Hy. apply ok_pair_inj in Hy.
      now apply compress_inj in Hy.
Qed.
Print Assumptions C24_message_bijection.

Example C24_case :
  exists s msg, start_internal E (SideA (str "a") (str "b")) (str "pw") (sof 5) = Ok (s, msg) /\
  exists x' s', start_internal E (SideA (str "c") (str "d")) (str "other") x' = Ok (s', msg).
Proof.
  rewrite start_ok. do 2 eexists. split; [reflexivity|].
  destruct (C24_message_hides_password (SideA (str "a") (str "b")) (str "pw") (sof 5) _ _
              (SideA (str "c") (str "d")) (str "other") (start_ok _ _ _) eq_refl) as (x' & (s' & H) & _).
  exists x', s'. exact H.
Qed.

(** ** C25 *)
Theorem C25_debug_hides_secrets :
  forall G alt sd pw x s msg pw' x' s' msg',
  start_internal G sd pw x = Ok (s, msg) -> start_internal G sd pw' x' = Ok (s', msg') ->
  debug_spake2 G alt s = debug_spake2 G alt s'.
Proof. exact debug_hides_secrets. Qed.
Print Assumptions C25_debug_hides_secrets.

(** The text itself. *)
Theorem C25_debug_text :
  forall sd pw x s msg, start_internal E sd pw x = Ok (s, msg) ->
  debug_spake2 E false s =
  str "SPAKE2 { group: ""Ed25519"", side: " ++ debug_side false sd ++ str " }" /\
  (Forall (fun i => utf8_valid i = true) (identities sd) ->
   debug_side false sd =
   match sd with
   | SideA a b => str "Side::A { idA: (s=" ++ a ++ str "), idB: (s=" ++ b ++ str ") }"
   | SideB a b => str "Side::B { idA: (s=" ++ a ++ str "), idB: (s=" ++ b ++ str ") }"
   | SideSymmetric i => str "Side::Symmetric { idS: (s=" ++ i ++ str ") }"
   end).
Proof.
  intros sd pw x s msg H. split; [exact (debug_spake2_text sd pw x s msg H)|].
  intros V. destruct sd as [a b|a b|i]; cbn [identities] in V.
  - apply Forall_cons_iff in V. destruct V as [Va V]. apply Forall_cons_iff in V. destruct V as [Vb _].
    now apply debug_side_text_a.
  - apply Forall_cons_iff in V. destruct V as [Va V]. apply Forall_cons_iff in V. destruct V as [Vb _].
    now apply debug_side_text_b.
  - apply Forall_cons_iff in V. destruct V as [Vi _]. now apply debug_side_text_s.
Qed.
Print Assumptions C25_debug_text.

Example C25_case :
  (exists s msg, start_internal E (SideA (str "idA") (str "idB")) (str "secret") (sof 5) = Ok (s, msg)) /\
  (exists s msg, start_internal E (SideA (str "idA") (str "idB")) (str "other") (sof 9) = Ok (s, msg)) /\
  Forall (fun i => utf8_valid i = true) (identities (SideA (str "idA") (str "idB"))).
Proof.
  split; [rewrite start_ok; do 2 eexists; reflexivity|].
  split; [rewrite start_ok; do 2 eexists; reflexivity|].
  repeat constructor.
Qed.

(** ** C26: refuted in general; it holds when one identity is valid UTF-8, or when no byte needs a
    leading zero. *)
Theorem C26_identities_distinct_refuted :
  exists a b, a <> b /\ maybe_utf8 a = maybe_utf8 b.
Proof. exists (hex "ff0111"), (hex "ff1101"). exact hex_collision. Qed.
Print Assumptions C26_identities_distinct_refuted.

Theorem C26_utf8_identities_distinct :
  forall a b, utf8_valid a = true -> maybe_utf8 a = maybe_utf8 b -> a = b.
Proof. exact maybe_utf8_inj_valid. Qed.
Print Assumptions C26_utf8_identities_distinct.

(** An identity is printed as it is exactly when it is the UTF-8 encoding of a text, a sequence of Unicode
    scalar values. *)
Theorem C26_text_printed :
  forall b, maybe_utf8 b = str "(s=" ++ b ++ str ")" <->
    exists cs, Forall scalar_value cs /\ b = utf8_text cs.
Proof.
  intros b. rewrite <- utf8_valid_iff. unfold maybe_utf8. destruct (utf8_valid b); [split; reflexivity|].
  split; [|discriminate]. intros H. discriminate H.
Qed.
Print Assumptions C26_text_printed.
Example C26_text_case :
  str "gr" ++ hex "c3bcc39f" ++ str "e" = utf8_text [103; 114; 252; 223; 101]%N /\
  utf8_text [0x20AC; 0x1F600]%N = hex "e282acf09f9880" /\
  ~ exists cs, Forall scalar_value cs /\ hex "eda080" = utf8_text cs.
Proof.
  split; [reflexivity|]. split; [reflexivity|]. rewrite <- utf8_valid_iff. discriminate.
Qed.

Theorem C26_two_digit_identities_distinct :
  forall a b, Forall (fun c => (16 <= b2n c)%N) a -> Forall (fun c => (16 <= b2n c)%N) b ->
  maybe_utf8 a = maybe_utf8 b -> a = b.
Proof. exact maybe_utf8_inj_two_digits. Qed.
Print Assumptions C26_two_digit_identities_distinct.

(** Two identities in one side: ambiguous even for valid UTF-8, because nothing is quoted. *)
Theorem C26_sides_distinct_refuted :
  exists sd sd', sd <> sd' /\ Forall (fun i => utf8_valid i = true) (identities sd ++ identities sd') /\
    debug_side false sd = debug_side false sd'.
Proof.
  destruct debug_side_collision as (H1 & _ & H3).
  exists (SideA (str "a), idB: (s=b") (str "c")), (SideA (str "a") (str "b), idB: (s=c")).
  split; [exact H1|]. split; [repeat constructor|exact H3].
Qed.
Print Assumptions C26_sides_distinct_refuted.

Example C26_case : utf8_valid (str "idA") = true /\ utf8_valid (hex "c3a9") = true /\
  utf8_valid (hex "ff0111") = false /\ maybe_utf8 (hex "fffe") = str "(hex=fffe)".
Proof. repeat split; vm_compute; reflexivity. Qed.

(** ** C27: refuted; every point is accepted, in particular the eight points of small order. *)
Theorem C27_every_point_accepted :
  forall sd pw x s msg P, start_internal E sd pw x = Ok (s, msg) ->
  exists key, finish E s (tag (peer (role_of sd)) :: compress P) = Ok key /\ length key = 32.
Proof. exact every_point_accepted. Qed.
Print Assumptions C27_every_point_accepted.

Theorem C27_degenerate_points_refused_refuted :
  exists sd pw x s msg key,
    start_internal E sd pw x = Ok (s, msg) /\
    finish E s (tag (peer (role_of sd)) :: compress ezero) = Ok key.
Proof.
  exists (SideA (str "a") (str "b")), (str "pw"), (sof 5).
  destruct (every_point_accepted (SideA (str "a") (str "b")) (str "pw") (sof 5) _ _ ezero
              (start_ok _ _ _)) as (key & Hk & _).
  do 2 eexists. exists key. split; [apply start_ok|exact Hk].
Qed.
Print Assumptions C27_degenerate_points_refused_refuted.

(** The shared element when the peer sends a point of order dividing 8: its multiple by 8 does not
    depend on which such point was sent. *)
Theorem C27_small_order_effect :
  forall r pw x P, emul 8 P = ezero ->
  emul 8 (shared r pw x P) = emul 8 (shared r pw x ezero).
Proof.
  intros r pw x P HP. unfold shared. rewrite !(emul_comm 8 x), !emul_eadd, HP, !emul_zero. reflexivity.
Qed.
Print Assumptions C27_small_order_effect.

Example C27_case : NoDup small_xy /\ length small_xy = 8 /\
  forall x y, In (x, y) small_xy -> exists P, fval (ex P) = x /\ fval (ey P) = y /\ emul 8 P = ezero.
Proof. split; [exact small_xy_nodup|]. split; [reflexivity|exact small_order_points]. Qed.

(** ** C28: holds for 32-byte encodings; for every other length the transcript functions panic. *)
Theorem C28_no_panic_32 :
  forall G sd pw x s msg msg2, well_behaved G -> element_length G = 32 ->
  start_internal G sd pw x = Ok (s, msg) -> finish G s msg2 <> Panic.
Proof. exact finish_no_panic_32. Qed.
Print Assumptions C28_no_panic_32.

Theorem C28_panic_other_length :
  forall G sd pw x s msg t rest P, well_behaved G -> element_length G <> 32 ->
  start_internal G sd pw x = Ok (s, msg) ->
  length rest = element_length G -> bytes_to_element G rest = Some P ->
  t = match sd with SideA _ _ => x42 | SideB _ _ => x41 | SideSymmetric _ => x53 end ->
  finish G s (t :: rest) = Panic.
Proof. exact finish_panic_other_length. Qed.
Print Assumptions C28_panic_other_length.

(** An honest exchange over a lawful group with one-byte encodings panics. *)
Theorem C28_any_group_no_panic_refuted :
  exists G m n s base pws, group_laws G m n s base pws /\ well_behaved G /\
  exists x y sa sb ma mb,
    start_a_internal G (str "pw") (str "a") (str "b") x = Ok (sa, ma) /\
    start_b_internal G (str "pw") (str "a") (str "b") y = Ok (sb, mb) /\
    finish G sa mb = Panic /\ finish G sb ma = Panic.
Proof.
  exists Toy. do 5 eexists. split; [exact toy_laws|].
  split; [exact (lawful_well_behaved _ _ _ _ _ _ toy_laws)|].
  exists (of251 5), (of251 7).
  do 4 eexists. split; [reflexivity|]. split; [reflexivity|]. split; reflexivity.
Qed.
Print Assumptions C28_any_group_no_panic_refuted.

Example C28_case : well_behaved E /\ element_length E = 32 /\ well_behaved Toy /\ element_length Toy <> 32.
Proof.
  split; [exact (lawful_well_behaved _ _ _ _ _ _ ed_group_laws)|]. split; [reflexivity|].
  split; [exact (lawful_well_behaved _ _ _ _ _ _ toy_laws)|discriminate].
Qed.
