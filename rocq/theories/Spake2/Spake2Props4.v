(** * SPAKE2: replayed messages (C77). *)
From Coq Require Import ZArith Lia.
From Verif Require Import Base.Bytes Base.Outcome Base.Rng Base.Kat Hash.Hash.
From Verif.Curve Require Import Primes Zmod Abelian Scalar25519 Ed25519 Ed25519Points Ed25519Subgroup.
From Verif Require Import Spake2.Spake2Model Spake2.Ed25519Group Spake2.Spake2Spec Spake2.Spake2Proofs
  Spake2.Spake2Generic Spake2.Spake2Proofs2 Spake2.Spake2Props.
Local Open Scope nat_scope.
Local Notation E := Ed25519Group.

Lemma msg_point_inj r pw x x' : msg_point r pw (sval x) = msg_point r pw (sval x') -> x = x'.
Proof.
  intros H. destruct (msg_point_bijective r pw _ (ell_msg_point r pw (sval x))) as (z & _ & U).
  rewrite <- (U x eq_refl). exact (U x' (eq_sym H)).
Qed.

(** C77: the message of a peer, replayed to another session of the same role, gives the key of the first
    session only if the two sessions have the same password, identities and scalar, or a collision of
    SHA-256 is exhibited. *)
Theorem C77_spake2 :
  forall sd pw x s msg sd' pw' x' s' msg' inbound key,
  start_internal E sd pw x = Ok (s, msg) -> start_internal E sd' pw' x' = Ok (s', msg') ->
  role_of sd = role_of sd' -> finish E s inbound = Ok key ->
  (sd = sd' /\ pw = pw' /\ x = x' -> finish E s' inbound = Ok key) /\
  (finish E s' inbound = Ok key ->
   (sd = sd' /\ pw = pw' /\ x = x') \/
   collision sha256 pw pw' \/
   (exists a a', In (a, a') (combine (identities sd) (identities sd')) /\ collision sha256 a a') \/
   exists mine mine' rest P, msg = tag (role_of sd) :: mine /\ msg' = tag (role_of sd') :: mine' /\
     inbound = tag (peer (role_of sd)) :: rest /\ decompress rest = Some P /\
     collision sha256 (transcript sd pw mine rest (shared (role_of sd) pw (sval x) P))
       (transcript sd' pw' mine' rest (shared (role_of sd') pw' (sval x') P))).
Proof.
  intros sd pw x s msg sd' pw' x' s' msg' inbound key H H' Hr F. split.
  { intros (<- & <- & <-). rewrite H in H'. injection H' as <- <-. exact F. }
  intros F'. pose proof H as HS. rewrite start_ok in HS. injection HS as Es _.
  pose proof F as FI. rewrite <- Es in FI. destruct (finish_inv _ _ _ _ _ FI) as (rest & _ & -> & _).
  rewrite Hr in F'. destruct (key_binds _ _ _ _ _ _ _ _ _ _ _ _ _ H H' F F') as (mine & mine' & P & P' & E1 & E2 & D1 & D2 & B).
  rewrite D1 in D2. apply some_inj in D2. subst P'.
  cbv zeta in B. destruct B as [(<- & SE & _)|[B|[B|B]]].
  - left. assert (M : sd = sd' /\ mine = mine').
    { destruct sd as [a b|a b|i], sd' as [a' b'|a' b'|i']; try discriminate Hr; cbn [exchange_of same_exchange] in SE.
      - destruct SE as (-> & -> & -> & _). now split.
      - destruct SE as (-> & -> & _ & ->). now split.
      - destruct SE as (-> & [(-> & _)|(-> & E3)]); now split. }
    destruct M as [<- <-]. split; [reflexivity|]. split; [reflexivity|].
    pose proof H as HS. rewrite start_ok in HS, H'. rewrite E2 in H'. rewrite E1 in HS.
    assert (Em : compress (msg_point (role_of sd) pw (sval x)) = compress (msg_point (role_of sd) pw (sval x'))).
    { clear - HS H'. revert HS H'. generalize (compress (msg_point (role_of sd) pw (sval x))).
      generalize (compress (msg_point (role_of sd) pw (sval x'))). generalize (session sd pw x) (session sd pw x').
      intros c d u v H1 H2. injection H1 as _ ->. injection H2 as _ ->. reflexivity. }
    exact (msg_point_inj _ _ _ _ (compress_inj _ _ Em)).
  - do 3 right. exists mine, mine', rest, P.
    split; [exact E1|]. split; [exact E2|]. split; [reflexivity|]. split; [exact D1|]. exact B.
  - right. now left.
  - do 2 right. now left.
Qed.

(** Two sessions of one role that accept the same message. *)
Example C77_spake2_case : exists s msg s' msg' inbound key key',
  start_internal E (SideA (str "a") (str "b")) (str "pw") (sof 5) = Ok (s, msg) /\
  start_internal E (SideA (str "a") (str "b")) (str "pw") (sof 6) = Ok (s', msg') /\
  finish E s inbound = Ok key /\ finish E s' inbound = Ok key'.
Proof.
  destruct (agreement_ab (str "pw") (str "a") (str "b") (sof 5) (sof 7)) as (s & t & m & n & key & H1 & H2 & H3 & _).
  destruct (agreement_ab (str "pw") (str "a") (str "b") (sof 6) (sof 7)) as (s' & t' & m' & n' & key' & H4 & H5 & H6 & _).
  rewrite H2 in H5. injection H5 as <- <-.
  exists s, m, s', m', n, key, key'. rewrite start_a_eq in H1, H4.
  split; [exact H1|]. split; [exact H4|]. split; [exact H3|exact H6].
Qed.
