(** * SPAKE2: a dictionary of passwords tried against running sessions (C82); who chooses the key (C83). *)
From Coq Require Import ZArith Lia.
From Verif Require Import Base.Bytes Base.Outcome Base.Rng Base.Count Base.Guess Base.Dictionary Hash.Hash.
From Verif.Curve Require Import Primes Zmod Abelian Scalar25519 Ed25519 Ed25519Points Ed25519Subgroup NearUniform Strings64.
From Verif Require Import Spake2.Spake2Model Spake2.Ed25519Group Spake2.Spake2Spec Spake2.Spake2Proofs
  Spake2.Spake2Generic Spake2.Spake2Proofs2 Spake2.Spake2Props Spake2.Spake2Props3 Spake2.Spake2Props4.
Local Open Scope nat_scope.
Local Notation E := Ed25519Group.

(** A session of either role, started with the public functions from the random bytes [tape]. *)
Definition started (sd : Side) (pw tape : bytes) : outcome Empty_set (Spake2 E * bytes) :=
  match sd with
  | SideA a b => start_a_with_rng E tape_rng pw a b tape
  | SideB a b => start_b_with_rng E tape_rng pw a b tape
  | SideSymmetric i => start_symmetric_with_rng E tape_rng pw i tape
  end.
(** Does the session end with this key when it receives this message? *)
Definition has_key (sd : Side) (pw tape inbound key : bytes) : bool :=
  match started sd pw tape with
  | Ok (s, _) => match finish E s inbound with Ok k => bytes_eqb k key | _ => false end
  | _ => false
  end.

(** The messages of the sessions [us], which all use the password [pw]. *)
Definition outgoing (us : list Side) (pw : bytes) (tapes : list bytes) : list bytes :=
  map2 (fun sd t => sent sd pw t) us tapes.
(** A question: a message for a session, and a guess of the key it then has. *)
Definition question : Type := nat * bytes * bytes.
Definition answer (us : list Side) (w : bytes * list bytes) (q : question) : bool :=
  let '(i, inbound, key) := q in
  match nth_error us i, nth_error (snd w) i with
  | Some sd, Some t => has_key sd (fst w) t inbound key
  | _, _ => false
  end.
(** The attacker sees all the messages, then asks its questions one after the other. *)
Definition attacker : Type := list bytes -> list (question * bool) -> question.
Definition win (us : list Side) (a : attacker) (m : nat) (pw : bytes) (tapes : list bytes) : bool :=
  wins (answer us) (a (outgoing us pw tapes)) (pw, tapes) [] m.

(** Two passwords, and random bytes with which they lead to the same messages, collide at a question. *)
Definition collides (us : list Side) (a : attacker) (m : nat) (dict : list bytes) : Prop :=
  exists pw pw' tapes tapes' i sd t t' inbound key, In pw dict /\ In pw' dict /\ pw <> pw' /\
    outgoing us pw tapes = outgoing us pw' tapes' /\
    In (i, inbound, key) (refused (a (outgoing us pw tapes)) [] m) /\ nth_error us i = Some sd /\
    nth_error tapes i = Some t /\ nth_error tapes' i = Some t' /\
    (collision sha256 pw pw' \/
     exists mine theirs P, nth_error (outgoing us pw tapes) i = Some (tag (role_of sd) :: mine) /\
       inbound = tag (peer (role_of sd)) :: theirs /\ decompress theirs = Some P /\
       let hashed := transcript sd pw mine theirs (shared (role_of sd) pw (sval (random t)) P) in
       key = sha256 hashed /\
       collision sha256 hashed (transcript sd pw' mine theirs (shared (role_of sd) pw' (sval (random t')) P))).

Lemma started_eq sd pw t : started sd pw t = start_internal E sd pw (random t).
Proof. destruct sd; reflexivity. Qed.
Lemma sent_random sd pw t : sent sd pw t = msg_of (role_of sd) pw (random t).
Proof. exact (sent_eq sd pw t). Qed.
Lemma has_key_spec sd pw t inbound key : has_key sd pw t inbound key = true <->
  finish E (session sd pw (random t)) inbound = Ok key.
Proof.
  unfold has_key. rewrite started_eq, start_ok. destruct (finish E _ inbound) as [k|e|]; try (split; intros H; discriminate H).
  rewrite bytes_eqb_eq. split; [intros ->; reflexivity|intros H; injection H as ->; reflexivity].
Qed.

(** ** Counting *)
Definition body (pw : bytes) (sd : Side) (t : bytes) : bytes := tl (sent sd pw t).
Lemma body_eq pw sd t : body pw sd t = compress (msg_point (role_of sd) pw (sval (random t))).
Proof. unfold body. rewrite sent_random. reflexivity. Qed.
Lemma sent_body pw sd t : sent sd pw t = tag (role_of sd) :: body pw sd t.
Proof. rewrite body_eq, sent_random. reflexivity. Qed.
Lemma body_inj pw sd t t' : body pw sd t = body pw sd t' -> random t = random t'.
Proof. rewrite !body_eq. intros H. exact (msg_point_inj _ _ _ _ (compress_inj _ _ H)). Qed.

Definition bodies : list bytes := map (fun s => compress (msg_point RoleA [] (sval s))) all_scalars.
Lemma in_bodies pw sd t : In (body pw sd t) bodies.
Proof.
  rewrite body_eq. generalize (random t). intros x.
  destruct (msg_point_bijective RoleA [] _ (ell_msg_point (role_of sd) pw (sval x))) as (y & Hy & _).
  rewrite <- Hy. unfold bodies. apply (in_map (fun s => compress (msg_point RoleA [] (sval s)))), all_scalars_spec.
Qed.

Lemma few_strings pw sd c :
  length (filter (fun t => if bytes_eq_dec (body pw sd t) c then true else false) (strings 64)) <= most.
Proof.
  set (p := fun t => if bytes_eq_dec (body pw sd t) c then true else false).
  assert (forall t, In t (filter p (strings 64)) -> body pw sd t = c) as H.
  { intros t Ht. apply filter_In in Ht. destruct Ht as [Ht E']. unfold p in E'.
    destruct (bytes_eq_dec _ c) as [E''|_]; [exact E''|discriminate E']. }
  destruct (filter p (strings 64)) as [|t0 l] eqn:F; [apply Nat.le_0_l|]. pose proof (H t0 (or_introl eq_refl)) as E0.
  rewrite <- F. eapply Nat.le_trans; [|exact (most_spec (random t0))].
  apply filter_le. intros t Ht Hp. apply seqb_eq.
  assert (In t (t0 :: l)) as Hi by (rewrite <- F; apply filter_In; split; assumption).
  apply (body_inj pw sd). rewrite (H t Hi), E0. reflexivity.
Qed.

Definition add_tags (us : list Side) (bs : list bytes) : list bytes := map2 (fun sd b => tag (role_of sd) :: b) us bs.
Lemma outgoing_bodies us pw ts : outgoing us pw ts = add_tags us (seen us body pw ts).
Proof.
  unfold outgoing, add_tags, seen. revert ts. induction us as [|sd us IH]; intros [|t ts]; cbn [map2]; [reflexivity..|].
  rewrite IH, sent_body. reflexivity.
Qed.

Lemma two_accept_collides us (a : attacker) m dict :
  two_accept (strings 64) us dict body (fun _ => false) (fun bs => a (add_tags us bs)) (fun pw ts => answer us (pw, ts)) m ->
  collides us a m dict.
Proof.
  intros (pw & pw' & ts & ts' & [[i inbound] key] & Hp & Hp' & Hne & Hts & Hts' & _ & _ & ES & Hq & A & A').
  unfold answer in A, A'. cbn [fst snd] in A, A'.
  destruct (nth_error us i) as [sd|] eqn:Eu; [|discriminate A].
  destruct (nth_error ts i) as [t|] eqn:Et; [|discriminate A]. destruct (nth_error ts' i) as [t'|] eqn:Et'; [|discriminate A'].
  apply has_key_spec in A, A'.
  exists pw, pw', ts, ts', i, sd, t, t', inbound, key. split; [exact Hp|]. split; [exact Hp'|]. split; [exact Hne|].
  split; [rewrite !outgoing_bodies, ES; reflexivity|]. split; [rewrite outgoing_bodies; exact Hq|]. split; [exact Eu|]. split; [exact Et|]. split; [exact Et'|].
  assert (EY : body pw sd t = body pw' sd t').
  { assert (nth_error (seen us body pw ts) i = Some (body pw sd t)) as Q by (apply map2_nth; exists sd, t; auto).
    assert (nth_error (seen us body pw' ts') i = Some (body pw' sd t')) as Q' by (apply map2_nth; exists sd, t'; auto).
    rewrite ES in Q. rewrite Q in Q'. exact (some_inj _ _ Q'). }
  rewrite !body_eq in EY.
  destruct (finish_inv _ _ _ _ _ A) as (theirs & P & Ei & Lr & D1 & Hk).
  destruct (finish_inv _ _ _ _ _ A') as (theirs' & P' & Ei' & _ & D2 & Hk').
  rewrite Ei in Ei'. injection Ei' as <-. rewrite <- EY in Hk'. rewrite D1 in D2. apply some_inj in D2. subst P'.
  assert (EO : nth_error (outgoing us pw ts) i = Some (tag (role_of sd) :: compress (msg_point (role_of sd) pw (sval (random t))))).
  { apply map2_nth. exists sd, t. split; [exact Eu|]. split; [exact Et|]. rewrite sent_body, body_eq. reflexivity. }
  set (mine := compress (msg_point (role_of sd) pw (sval (random t)))) in *.
  assert (HX : forall K K', key = sha256 (transcript sd pw mine theirs K) -> key = sha256 (transcript sd pw' mine theirs K') ->
    collision sha256 pw pw' \/ collision sha256 (transcript sd pw mine theirs K) (transcript sd pw' mine theirs K')).
  { clear - Hne. intros K K' Hk Hk'. generalize dependent mine. intros mine Hk Hk'.
    destruct (bytes_eq_dec (transcript sd pw mine theirs K) (transcript sd pw' mine theirs K')) as [ET|NT].
    - left. split; [exact Hne|]. destruct sd as [i1 i2|i1 i2|i1]; cbn [transcript] in ET; apply app_inj_length in ET; try apply ET;
        rewrite !sha256_length; reflexivity.
    - right. split; [exact NT|]. rewrite <- Hk, <- Hk'. reflexivity. }
  destruct (HX _ _ Hk Hk') as [C|C]; [left; exact C|right].
  exists mine, theirs, P. split; [exact EO|]. split; [exact Ei|]. split; [exact D1|]. split; [exact Hk|exact C].
Qed.

Lemma dictionary_arith (K T M s m S : Z) (n : nat) :
  (0 <= m -> 0 <= K -> 0 <= M -> 0 <= s -> K * (M * s) <= (K + 1) * T -> S <= m * (M * s) ^ Z.of_nat n ->
   K ^ Z.of_nat n * S <= m * ((K + 1) * T) ^ Z.of_nat n)%Z.
Proof.
  intros Hm HK HM Hs H1 H2. pose proof (Nat2Z.is_nonneg n) as Hn. revert Hn H2. generalize (Z.of_nat n). intros z Hz H2.
  apply Z.le_trans with (K ^ z * (m * (M * s) ^ z))%Z; [apply Z.mul_le_mono_nonneg_l; [now apply Z.pow_nonneg|exact H2]|].
  replace (K ^ z * (m * (M * s) ^ z))%Z with (m * (K ^ z * (M * s) ^ z))%Z by ring. rewrite <- Z.pow_mul_l.
  apply Z.mul_le_mono_nonneg_l; [exact Hm|]. apply Z.pow_le_mono_l. split; [|exact H1].
  apply Z.mul_nonneg_nonneg; [exact HK|]. now apply Z.mul_nonneg_nonneg.
Qed.

Local Opaque strings.
(** ** C82.  Of all the random bytes of the [n] sessions, for all the passwords of the dictionary taken together,
    at most those of [m (1 + 2^-259)^n] passwords let one of an attacker's [m] questions be answered yes: the
    key of a session with a password drawn from the dictionary is found with probability at most
    [m (1 + 2^-259)^n / length dict].  Or there is a collision. *)
Theorem C82_dictionary :
  forall us dict (a : attacker) m, NoDup dict ->
  let n := length us in
  let winning pw := length (filter (win us a m pw) (choices (repeat (strings 64) n))) in
  ((2 ^ 259) ^ Z.of_nat n * Z.of_nat (sum_over winning dict)
   <= Z.of_nat m * ((2 ^ 259 + 1) * 256 ^ 64) ^ Z.of_nat n)%Z
  \/ collides us a m dict.
Proof.
  intros us dict a m ND n winning. unfold winning.
  destruct (dictionary_count bytes_eq_dec bytes_eq_dec (strings 64) (nodup_strings 64) most us dict ND body (fun _ => false)
    bodies (fun pw sd c _ _ => few_strings pw sd c) (fun pw sd t _ _ _ _ => in_bodies pw sd t) (fun bs => a (add_tags us bs))
    (fun pw ts => answer us (pw, ts)) m) as [H|H]; [left|right; exact (two_accept_collides us a m dict H)].
  rewrite (sum_over_ext _ (fun pw => length (filter (win us a m pw) (all_tapes (strings 64) us)))) in H.
  2:{ intros pw _. f_equal. apply filter_ext_in. intros ts _. unfold run_won, win. rewrite outgoing_bodies.
      apply wins_ext. intros q. reflexivity. }
  assert (filter (existsb (fun _ : bytes => false)) (all_tapes (strings 64) us) = []) as EZ.
  { generalize (all_tapes (strings 64) us). intros l. induction l as [|x l IH]; [reflexivity|]. cbn [filter].
    assert (existsb (fun _ : bytes => false) x = false) as -> by (clear; induction x as [|y x IH]; [reflexivity|exact IH]). exact IH. }
  rewrite EZ in H. unfold all_tapes in H. fold n in H. unfold bodies in H. rewrite map_length in H.
  rewrite Nat.mul_0_r, Nat.add_0_r in H.
  pose proof all_most as H1. revert H H1.
  generalize (sum_over (fun pw => length (filter (win us a m pw) (choices (repeat (strings 64) n)))) dict) as S.
  generalize most as M. generalize (length all_scalars) as s.
  assert (0 <= 2 ^ 259)%Z as HK by (apply Z.leb_le; vm_compute; reflexivity).
  revert HK. generalize (256 ^ 64)%Z as T. generalize (2 ^ 259)%Z as K. clear.
  intros K T HK s M S H H1. apply Nat2Z.inj_le in H. rewrite Nat2Z.inj_mul, Nat2Z.inj_pow, Nat2Z.inj_mul in H.
  apply (dictionary_arith K T (Z.of_nat M) (Z.of_nat s)); try assumption; apply Nat2Z.is_nonneg.
Qed.
Print Assumptions C82_dictionary.

(** ** The bound is met: an attacker who runs the peer's side itself, with the passwords of the dictionary in turn. *)
Definition opposite (sd : Side) : Side :=
  match sd with SideA a b => SideB a b | SideB a b => SideA a b | SideSymmetric i => SideSymmetric i end.
Definition trying (us : list Side) (dict : list bytes) (tape : bytes) : attacker := fun out hist =>
  let pw := nth (length hist) dict [] in
  match us, out with
  | sd :: _, msg :: _ =>
      match started (opposite sd) pw tape with
      | Ok (s, inbound) => (0, inbound, match finish E s msg with Ok key => key | _ => [] end)
      | _ => (0, [], [])
      end
  | _, _ => (0, [], [])
  end.

Lemma ok_pair_inv {Er A B} (a a' : A) (b b' : B) : @Ok Er _ (a, b) = Ok (a', b') -> a = a' /\ b = b'.
Proof. intros H. injection H as -> ->. now split. Qed.
Lemma opposite_key sd pw x y : exists key,
  finish E (session sd pw x) (msg_of (role_of (opposite sd)) pw y) = Ok key /\
  finish E (session (opposite sd) pw y) (msg_of (role_of sd) pw x) = Ok key.
Proof.
  assert (H : forall s s' m m' key,
    start_internal E sd pw x = Ok (s, m) -> start_internal E (opposite sd) pw y = Ok (s', m') ->
    finish E s m' = Ok key -> finish E s' m = Ok key -> exists key,
    finish E (session sd pw x) (msg_of (role_of (opposite sd)) pw y) = Ok key /\
    finish E (session (opposite sd) pw y) (msg_of (role_of sd) pw x) = Ok key).
  { intros s s' m m' key H1 H2 H3 H4. rewrite start_ok in H1, H2.
    apply ok_pair_inv in H1. apply ok_pair_inv in H2. destruct H1 as [<- <-]. destruct H2 as [<- <-].
    exists key. split; [exact H3|exact H4]. }
  destruct sd as [a b|a b|i]; cbn [opposite] in *.
  - destruct (agreement_ab pw a b x y) as (s & s' & m & m' & key & H1 & H2 & H3 & H4 & _).
    rewrite start_a_eq in H1. rewrite start_b_eq in H2. exact (H s s' m m' key H1 H2 H3 H4).
  - destruct (agreement_ab pw a b y x) as (s & s' & m & m' & key & H1 & H2 & H3 & H4 & _).
    rewrite start_a_eq in H1. rewrite start_b_eq in H2. exact (H s' s m' m key H2 H1 H4 H3).
  - destruct (agreement_symmetric pw i x y) as (s & s' & m & m' & key & H1 & H2 & H3 & H4 & _).
    rewrite start_symmetric_eq in H1, H2. exact (H s s' m m' key H1 H2 H3 H4).
Qed.

Lemma refused_by_length {Q} (ask : list (Q * bool) -> Q) (f : nat -> Q) : (forall h, ask h = f (length h)) ->
  forall n h, refused ask h n = map f (seq (length h) n).
Proof.
  intros H n. induction n as [|n IH]; intros h; cbn [refused seq map]; [reflexivity|].
  rewrite IH, H. f_equal. rewrite app_length, Nat.add_comm. reflexivity.
Qed.

Lemma trying_wins sd us dict tape m k pw t ts : k < m -> nth_error dict k = Some pw ->
  win (sd :: us) (trying (sd :: us) dict tape) m pw (t :: ts) = true.
Proof.
  intros Hk Ek. unfold win. apply wins_refused.
  set (out := outgoing (sd :: us) pw (t :: ts)).
  set (f := fun j => trying (sd :: us) dict tape out (repeat ((0, [], []), false) j)).
  rewrite (refused_by_length _ f).
  2:{ intros h. unfold f, trying. rewrite repeat_length. reflexivity. }
  exists (f k). split; [apply in_map, in_seq; cbn [length]; lia|].
  destruct (opposite_key sd pw (random t) (random tape)) as (key & H1 & H2).
  assert (EF : f k = (0, msg_of (role_of (opposite sd)) pw (random tape), key)).
  { unfold f, trying, out. rewrite repeat_length. rewrite (nth_error_nth dict k [] Ek). unfold outgoing. cbn [map2].
    rewrite started_eq, start_ok, sent_random, H2. reflexivity. }
  rewrite EF. unfold answer. cbn [nth_error fst snd]. apply has_key_spec. exact H1.
Qed.

Lemma sum_over_ge {A} (f : A -> nat) c (l : list A) : forall m, m <= length l ->
  (forall k a, k < m -> nth_error l k = Some a -> c <= f a) -> m * c <= sum_over f l.
Proof.
  induction l as [|a l IH]; intros m Hm H; [cbn in Hm; assert (m = 0) as -> by lia; apply Nat.le_0_l|].
  destruct m as [|m]; [apply Nat.le_0_l|]. cbn [sum_over].
  pose proof (H 0 a ltac:(lia) eq_refl) as H0.
  assert (m * c <= sum_over f l) as H1.
  { apply IH; [cbn in Hm; lia|]. intros k b Hk Eb. apply (H (S k)); [lia|exact Eb]. }
  cbn [Nat.mul]. apply Nat.add_le_mono; assumption.
Qed.

Theorem C82_bound_met :
  forall us dict tape m, us <> [] -> m <= length dict ->
  let n := length us in
  let winning pw := length (filter (win us (trying us dict tape) m pw) (choices (repeat (strings 64) n))) in
  (Z.of_nat m * (256 ^ 64) ^ Z.of_nat n <= Z.of_nat (sum_over winning dict))%Z.
Proof.
  intros us dict tape m Hus Hm n winning.
  assert (m * length (choices (repeat (strings 64) n)) <= sum_over winning dict) as H.
  { apply sum_over_ge; [exact Hm|]. intros k pw Hk Ek. unfold winning.
    rewrite (filter_ext_in _ (fun _ => true)).
    - assert (forall X (l : list X), filter (fun _ => true) l = l) as -> ; [|apply Nat.le_refl].
      intros X l. induction l as [|x l IH]; [reflexivity|]. cbn [filter]. rewrite IH. reflexivity.
    - intros ts Hts. destruct (in_all_tapes (strings 64) us ts Hts) as [Lts _].
      destruct us as [|sd us']; [exfalso; apply Hus; reflexivity|]. destruct ts as [|t ts]; [discriminate Lts|].
      exact (trying_wins sd us' dict tape m k pw t ts Hk Ek). }
  rewrite choices_length_eq in H. apply Nat2Z.inj_le in H. rewrite Nat2Z.inj_mul, Nat2Z.inj_pow, strings_64 in H. exact H.
Qed.
Print Assumptions C82_bound_met.

(** The hypotheses are met: three sessions, five passwords, two questions. *)
Example C82_case :
  let us := [SideA (str "alice") (str "bob"); SideB (str "alice") (str "carol"); SideSymmetric (str "s")] in
  let dict := [str "letmein"; str "hunter2"; str "123456"; str ""; str "qwerty"] in
  NoDup dict /\ us <> [] /\ 2 <= length dict.
Proof.
  cbv zeta. split; [|split; [discriminate|cbn; lia]].
  repeat (constructor; [cbn; intuition discriminate|]). constructor.
Qed.

(** ** C83.  Whatever message a session receives, at most a 2^-252 part of its random bytes lead to any given
    key, or two of them collide.  This includes the degenerate messages of C27 and C52: the key also hashes the
    session's own message. *)
Theorem C83_spake2 :
  forall sd pw inbound key,
  (2 ^ 252 * Z.of_nat (length (filter (fun t => has_key sd pw t inbound key) (strings 64))) <= 256 ^ 64)%Z \/
  exists t t' theirs P, random t <> random t' /\ inbound = tag (peer (role_of sd)) :: theirs /\ decompress theirs = Some P /\
    has_key sd pw t inbound key = true /\ has_key sd pw t' inbound key = true /\
    let hashed t := transcript sd pw (tl (sent sd pw t)) theirs (shared (role_of sd) pw (sval (random t)) P) in
    collision sha256 (hashed t) (hashed t').
Proof.
  intros sd pw inbound key. apply few_with. intros t t' _ _ A A'.
  destruct (seqb (random t) (random t')) eqn:Es; [left; now apply seqb_eq|right]. apply seqb_neq in Es.
  pose proof A as F. pose proof A' as F'. apply has_key_spec in F, F'.
  destruct (finish_inv _ _ _ _ _ F) as (theirs & P & Ei & Lr & D1 & Hk).
  destruct (finish_inv _ _ _ _ _ F') as (theirs' & P' & Ei' & _ & D2 & Hk').
  rewrite Ei in Ei'. injection Ei' as <-. rewrite D1 in D2. apply some_inj in D2. subst P'.
  exists t, t', theirs, P.
  split; [exact Es|]. split; [exact Ei|]. split; [exact D1|]. split; [exact A|]. split; [exact A'|]. cbv beta zeta.
  change (tl (sent sd pw t)) with (body pw sd t). change (tl (sent sd pw t')) with (body pw sd t').
  rewrite <- !body_eq in Hk, Hk'. split; [|rewrite <- Hk, <- Hk'; reflexivity].
  assert (HB : body pw sd t <> body pw sd t') by (intros E'; exact (Es (body_inj _ _ _ _ E'))).
  assert (L1 : length (body pw sd t) = 32) by (rewrite body_eq; apply compress_length).
  assert (L2 : length (body pw sd t') = 32) by (rewrite body_eq; apply compress_length).
  revert HB L1 L2 Lr. generalize (body pw sd t) (body pw sd t').
  generalize (shared (role_of sd) pw (sval (random t)) P) (shared (role_of sd) pw (sval (random t')) P).
  clear. intros K K' m m' HB L1 L2 L3 ET.
  destruct (transcript_inj _ _ _ _ _ _ _ _ _ _ L1 L3 L2 L3 ET) as [(_ & SE & _)|[[N _]|(a & a' & Ha & N & _)]].
  - destruct sd as [a b|a b|i]; cbn [exchange_of same_exchange] in SE.
    + destruct SE as (_ & _ & SE & _). exact (HB SE).
    + destruct SE as (_ & _ & _ & SE). exact (HB SE).
    + destruct SE as (_ & [(SE & _)|(SE & SE')]); [exact (HB SE)|]. apply HB. rewrite SE. exact SE'.
  - apply N. reflexivity.
  - apply N. clear - Ha. destruct sd as [x y|x y|x]; cbn in Ha; firstorder congruence.
Qed.
Print Assumptions C83_spake2.
