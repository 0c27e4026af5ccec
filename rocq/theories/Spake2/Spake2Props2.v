(** * C51-C54: more properties of the spake2 crate: encodings of points, points outside the
    prime-order subgroup, active password guesses, and the role of the blinding constants. *)
From Coq Require Import ZArith Znumtheory Lia.
From Verif Require Import Base.Bytes Base.Outcome Base.Rng Base.Hex Base.Kat Hash.Hash.
From Verif Require Import Curve.Primes Curve.Zmod Curve.Abelian Curve.Ed25519 Curve.Ed25519Points
  Curve.Ed25519Structure.
From Verif Require Import Spake2.Spake2Model Spake2.Ed25519Group Spake2.Spake2Spec Spake2.Spake2Proofs
  Spake2.Spake2Proofs2 Spake2.Spake2Attacks.
Local Open Scope nat_scope.
Local Notation E := Ed25519Group.

(** ** C51: one encoding per point.  Refuted; the accepted encodings of every point are these. *)

(** A string decodes to [P] if it has 32 bytes, its low 255 bits are the y-coordinate of [P] modulo
    2^255 - 19 and its top bit is the parity of the x-coordinate, or anything if x = 0. *)
Theorem C51_accepted_encodings :
  forall b P,
  bytes_to_element E b = Some P <->
  length b = 32 /\ ey P = fof (Z.of_N (le_val b) mod 2 ^ 255) /\
  (ex P = f0 \/ Z.odd (fval (ex P)) = (2 ^ 255 <=? Z.of_N (le_val b))%Z).
Proof.
  intros b P. cbn [bytes_to_element Ed25519Group]. unfold ed_bytes_to_element.
  destruct (Nat.eqb_spec (length b) 32) as [L|L]; cbn [negb].
  - rewrite decompress_exact. split; [intros H; split; [exact L|exact H]|intros [_ H]; exact H].
  - split; [intros H; discriminate H|intros [H _]; contradiction].
Qed.
Print Assumptions C51_accepted_encodings.

(** Every point has one, two or four of them. *)
Theorem C51_number_of_encodings :
  forall P, exists l,
  NoDup l /\ In (element_to_bytes E P) l /\
  (forall b, bytes_to_element E b = Some P <-> In b l) /\
  length l = (if (fval (ey P) <? 19)%Z then 2 else 1) * (if feq (ex P) f0 then 2 else 1).
Proof.
  intros P. exists (encodings P). split; [apply encodings_nodup|]. split; [exact (compress_in P)|].
  split; [|apply encodings_length].
  intros b. cbn [bytes_to_element Ed25519Group]. unfold ed_bytes_to_element.
  destruct (Nat.eqb_spec (length b) 32) as [L|L]; cbn [negb].
  - exact (encodings_spec P b L).
  - split; [intros H; discriminate H|]. intros H. exfalso. apply L. revert H. unfold encodings.
    rewrite in_flat_map. intros (v & _ & H). apply in_map_iff in H. destruct H as (sg & <- & _).
    apply raw_encoding_length.
Qed.
Print Assumptions C51_number_of_encodings.

Theorem C51_unique_iff :
  forall P,
  (forall b, bytes_to_element E b = Some P -> b = element_to_bytes E P) <->
  (ex P <> f0 /\ 19 <= fval (ey P))%Z.
Proof.
  intros P. destruct (C51_number_of_encodings P) as (l & ND & Hin & Hl & Hlen). split.
  - intros U. assert (L1 : length l <= 1).
    { apply (NoDup_incl_length ND (l' := [element_to_bytes E P])). intros b Hb. left. symmetry.
      apply U, Hl, Hb. }
    rewrite Hlen in L1. revert L1. unfold feq.
    destruct (Z.ltb_spec (fval (ey P)) 19) as [H|H], (fe_eq_dec (ex P) f0) as [Z|NZ]; intros L1;
      try (exfalso; cbn in L1; lia). split; [exact NZ|exact H].
  - intros [NZ H] b Hb. apply Hl in Hb.
    assert (L1 : length l = 1).
    { rewrite Hlen. unfold feq. destruct (Z.ltb_spec (fval (ey P)) 19) as [K|K]; [lia|].
      destruct (fe_eq_dec (ex P) f0); [contradiction|reflexivity]. }
    destruct l as [|c [|d l]]; try discriminate L1.
    destruct Hb as [<-|[]]. destruct Hin as [<-|[]]. reflexivity.
Qed.
Print Assumptions C51_unique_iff.

Theorem C51_unique_encoding_refuted :
  exists b b' P, b <> b' /\ bytes_to_element E b = Some P /\ bytes_to_element E b' = Some P.
Proof.
  exists (raw_encoding 1 false), (raw_encoding 1 true), ezero. split.
  - intros H. apply raw_encoding_inj in H; [|split; [discriminate|reflexivity]..].
    destruct H as [_ H]. discriminate H.
  - split; (apply C51_accepted_encodings; split; [apply raw_encoding_length|];
            split; [|left; reflexivity]);
      (assert (V : (0 <= 1 < 2 ^ 255)%Z) by (split; [discriminate|reflexivity]));
      match goal with |- context [raw_encoding 1 ?s] =>
        pose proof (raw_encoding_low 1 s V) as R end; unfold low255 in R; rewrite R; reflexivity.
Qed.
Print Assumptions C51_unique_encoding_refuted.

(** The key depends on the encoding: if the network replaces a message by another encoding of the
    same point, the receiver accepts, and the key changes unless SHA-256 collides. *)
Theorem C51_reencoding_changes_key :
  forall sd pw x s msg enc enc' P,
  start_internal E sd pw x = Ok (s, msg) -> enc <> enc' ->
  bytes_to_element E enc = Some P -> bytes_to_element E enc' = Some P ->
  exists mine, msg = tag (role_of sd) :: mine /\
  let K := shared (role_of sd) pw (sval x) P in
  let t := transcript sd pw mine enc K in let t' := transcript sd pw mine enc' K in
  finish E s (tag (peer (role_of sd)) :: enc) = Ok (sha256 t) /\
  finish E s (tag (peer (role_of sd)) :: enc') = Ok (sha256 t') /\ t <> t'.
Proof.
  intros sd pw x s msg enc enc' P H Hne Hb Hb'. rewrite start_ok in H. injection H as <- <-.
  eexists. split; [reflexivity|]. cbv zeta.
  split; [exact (finish_decoded sd pw x enc P Hb)|].
  split; [exact (finish_decoded sd pw x enc' P Hb')|].
  intros Q. apply Hne.
  exact (transcript_theirs_inj sd pw _ enc enc' _ _ (compress_length _) (decoded_length enc P Hb)
           (decoded_length enc' P Hb') Q).
Qed.
Print Assumptions C51_reencoding_changes_key.

(** ** C52: the shared element lies in the prime-order group.  Refuted: the peer's point is not
    checked and the cofactor is not cleared. *)

(** Every point is k*B + j*T for the base point B and the point T of order 8; the key is computed
    from x*(k - pw*n)*B + (x*j mod 8)*T, where n*B is the blinding constant of the peer's role. *)
Theorem C52_shared_element :
  forall sd pw x s msg enc P n,
  start_internal E sd pw x = Ok (s, msg) -> bytes_to_element E enc = Some P ->
  blind (peer (role_of sd)) = emul n ed_B ->
  exists k j mine, (0 <= k < ell)%Z /\ (0 <= j < 8)%Z /\
    P = eadd (emul k ed_B) (emul j ed_T) /\ msg = tag (role_of sd) :: mine /\
    finish E s (tag (peer (role_of sd)) :: enc) =
    Ok (sha256 (transcript sd pw mine enc
          (eadd (emul (sval x * (k - pw_int pw * n)) ed_B) (emul ((sval x * j) mod 8) ed_T)))).
Proof.
  intros sd pw x s msg enc P n H Hb Hn. rewrite start_ok in H. injection H as <- <-.
  destruct (ed_structure P) as (k & j & Hk & Hj & HP).
  exists k, j. eexists. split; [exact Hk|]. split; [exact Hj|]. split; [exact HP|]. split; [reflexivity|].
  rewrite <- (shared_structure (role_of sd) pw (sval x) n k j Hn), <- HP.
  exact (finish_decoded sd pw x enc P Hb).
Qed.
Print Assumptions C52_shared_element.

(** It is in the prime-order group exactly if the secret scalar kills the small component. *)
Theorem C52_in_subgroup_iff :
  forall r pw x k j,
  emul ell (shared r pw x (eadd (emul k ed_B) (emul j ed_T))) = ezero <-> (8 | x * j)%Z.
Proof. exact shared_in_subgroup_iff. Qed.
Print Assumptions C52_in_subgroup_iff.

(** A network that adds j*T to a message shifts the shared element by x*j*T: it learns x modulo 8 if
    it can compare keys. *)
Theorem C52_shift :
  forall r pw x x' P,
  (shared r pw x (eadd P ed_T) = eadd (shared r pw x P) (emul (x mod 8) ed_T)) /\
  (emul (x mod 8) ed_T = emul (x' mod 8) ed_T <-> (x mod 8 = x' mod 8)%Z).
Proof.
  intros r pw x x' P. split.
  - pose proof (shared_torsion r pw x P 1) as H. rewrite Z.mul_1_r in H.
    assert (E1 : emul 1 ed_T = ed_T) by exact (smul_1 _ _ _ _ ed_T). rewrite E1 in H. exact H.
  - split; [|intros ->; reflexivity]. intros H.
    apply (proj2 (sub_zero_iff _ _)) in H. rewrite <- emul_neg, <- emul_add_scalar in H.
    apply (proj1 (torsion_exact _)) in H. destruct H as [q Hq].
    pose proof (Z.mod_pos_bound x 8 eq_refl). pose proof (Z.mod_pos_bound x' 8 eq_refl). lia.
Qed.
Print Assumptions C52_shift.

Theorem C52_prime_order_refuted :
  exists sd pw x s msg enc P key,
  start_internal E sd pw x = Ok (s, msg) /\ bytes_to_element E enc = Some P /\
  finish E s (tag (peer (role_of sd)) :: enc) = Ok key /\
  emul ell (shared (role_of sd) pw (sval x) P) <> ezero.
Proof.
  exists (SideA (str "a") (str "b")), (str "pw"), (sof 5), (session (SideA (str "a") (str "b")) (str "pw") (sof 5)).
  eexists. exists (compress (eadd (emul 7 ed_B) (emul 1 ed_T))), (eadd (emul 7 ed_B) (emul 1 ed_T)).
  eexists. split; [apply start_ok|]. split; [apply ed_roundtrip|]. split.
  - exact (finish_decoded (SideA (str "a") (str "b")) (str "pw") (sof 5) _ _ (ed_roundtrip _)).
  - intros H. apply (proj1 (shared_in_subgroup_iff _ _ _ _ _)) in H. revert H.
    assert (V : sval (sof 5) = 5%Z) by reflexivity. rewrite V. intros [q Hq]. lia.
Qed.
Print Assumptions C52_prime_order_refuted.

(** ** C53: an active attacker tests one password per session *)

(** The attacker runs the other role with a guess [pw'].  It obtains the victim's shared element
    exactly if the guess is right (as a scalar) or the secrets happen to satisfy one linear relation;
    m and n are the discrete logarithms of the two constants. *)
Theorem C53_guess :
  forall sd sd' pw pw' x y s msg s' msg' m n,
  start_internal E sd pw x = Ok (s, msg) -> start_internal E sd' pw' y = Ok (s', msg') ->
  role_of sd' = peer (role_of sd) ->
  blind (role_of sd) = emul m ed_B -> blind (role_of sd') = emul n ed_B ->
  exists mine theirs X Y,
    msg = tag (role_of sd) :: mine /\ msg' = tag (role_of sd') :: theirs /\
    decompress mine = Some X /\ decompress theirs = Some Y /\
    let K := shared (role_of sd) pw (sval x) Y in
    let K' := shared (role_of sd') pw' (sval y) X in
    finish E s msg' = Ok (sha256 (transcript sd pw mine theirs K)) /\
    finish E s' msg = Ok (sha256 (transcript sd' pw' theirs mine K')) /\
    (K = K' <-> pw_int pw = pw_int pw' \/ (ell | sval x * n + sval y * m)%Z).
Proof.
  intros sd sd' pw pw' x y s msg s' msg' m n H H' Hr Hm Hn.
  pose proof (finish_honest sd pw x sd' pw' y s msg s' msg' Hr H H') as F.
  assert (Hr' : role_of sd = peer (role_of sd')) by (rewrite Hr, peer_peer; reflexivity).
  pose proof (finish_honest sd' pw' y sd pw x s' msg' s msg Hr' H' H) as F'.
  rewrite start_ok in H, H'. injection H as <- <-. injection H' as <- <-.
  exists (compress (msg_point (role_of sd) pw (sval x))), (compress (msg_point (role_of sd') pw' (sval y))),
    (msg_point (role_of sd) pw (sval x)), (msg_point (role_of sd') pw' (sval y)).
  split; [reflexivity|]. split; [reflexivity|].
  split; [exact (decompress_compress _)|]. split; [exact (decompress_compress _)|]. cbv zeta.
  rewrite <- Hr in F. rewrite <- Hr' in F'. split; [exact F|]. split; [exact F'|].
  rewrite Hr in Hn |- *. exact (guess_iff (role_of sd) pw pw' (sval x) (sval y) m n Hm Hn).
Qed.
Print Assumptions C53_guess.

(** So a wrong guess succeeds for exactly one of the attacker's secrets. *)
Theorem C53_wrong_guess_one_secret :
  forall r pw pw' x, pw_int pw <> pw_int pw' ->
  exists! y : scalar,
    shared r pw x (msg_point (peer r) pw' (sval y)) = shared (peer r) pw' (sval y) (msg_point r pw x).
Proof. exact wrong_guess_unique. Qed.
Print Assumptions C53_wrong_guess_one_secret.

(** ** C54: the discrete logarithm of a blinding constant is a trapdoor *)

(** What an attacker with secret [y] that knows n computes for the candidate [pw] from the victim's
    message [mine], decoded to [X]. *)
Definition candidate_key (n y : Z) (sd : Side) (pw mine : bytes) (X : epoint) : bytes :=
  sha256 (transcript sd pw mine (compress (emul y ed_B))
            (emul (y - pw_int pw * n) (eadd X (eopp (emul (pw_int pw) (blind (role_of sd))))))).

(** For the victim's password it is the victim's key: one session with such an attacker allows an
    offline search. *)
Theorem C54_trapdoor :
  forall sd pw x s msg n y,
  blind (peer (role_of sd)) = emul n ed_B ->
  start_internal E sd pw x = Ok (s, msg) ->
  exists mine X, msg = tag (role_of sd) :: mine /\ bytes_to_element E mine = Some X /\
    finish E s (tag (peer (role_of sd)) :: compress (emul y ed_B)) = Ok (candidate_key n y sd pw mine X).
Proof.
  intros sd pw x s msg n y Hn H. rewrite start_ok in H. injection H as <- <-.
  do 2 eexists. split; [reflexivity|]. split; [apply ed_roundtrip|].
  unfold candidate_key. rewrite <- (shared_trapdoor (role_of sd) pw (sval x) n y Hn).
  exact (finish_decoded sd pw x _ _ (ed_roundtrip _)).
Qed.
Print Assumptions C54_trapdoor.

(** Such an n exists for each of the three constants; it is unique modulo the group order. *)
Theorem C54_trapdoor_exists :
  forall r, exists! n, (0 <= n < ell)%Z /\ blind r = emul n ed_B.
Proof.
  intros r. destruct (blind_log_exists r) as (n & Hn & E). exists n. split; [split; [lia|exact E]|].
  intros n' [R' E']. unfold blind_log in E. rewrite E in E'. apply (proj1 (emul_B_iff _ _)) in E'.
  destruct E' as [q Hq]. assert (q = 0)%Z by nia. lia.
Qed.
Print Assumptions C54_trapdoor_exists.

(** ** Cases *)

(** The base point has one encoding, the identity two, and the point (i, 0) of order 4 two. *)
Lemma B_x_nonzero : ex ed_B <> f0.
Proof. intros H. apply (f_equal fval) in H. vm_compute in H. discriminate H. Qed.
Example C51_case :
  (ex ed_B <> f0 /\ 19 <= fval (ey ed_B))%Z /\
  ex ezero = f0 /\ exists P, ex P <> f0 /\ (fval (ey P) < 19)%Z.
Proof.
  split; [split; [exact B_x_nonzero|vm_compute; intros H; discriminate H]|]. split; [reflexivity|].
  exists (emul 2 ed_T). pose proof two_T as T. revert T. generalize (emul 2 ed_T). intros P [Hx Hy]. split.
  - intros H. apply (f_equal fval) in H. rewrite H in Hx. destruct Hx as [Hx|Hx]; vm_compute in Hx; discriminate Hx.
  - rewrite Hy. reflexivity.
Qed.

Example C52_case : exists r pw x k j, ~ (8 | x * j)%Z /\
  emul ell (shared r pw x (eadd (emul k ed_B) (emul j ed_T))) <> ezero.
Proof.
  exists RoleB, (str "pw"), 3%Z, 7%Z, 2%Z.
  assert (N : ~ (8 | 3 * 2)%Z) by (intros [q Hq]; lia).
  split; [exact N|]. intros H. exact (N (proj1 (C52_in_subgroup_iff _ _ _ _ _) H)).
Qed.

(** Two passwords with different scalars. *)
Check (test (negb (Z.eqb (pw_int (str "password")) (pw_int (str "Password")))) true).

Example C53_case : exists s msg s' msg',
  start_internal E (SideA (str "a") (str "b")) (str "password") (sof 5) = Ok (s, msg) /\
  start_internal E (SideB (str "a") (str "b")) (str "Password") (sof 7) = Ok (s', msg') /\
  role_of (SideB (str "a") (str "b")) = peer (role_of (SideA (str "a") (str "b"))).
Proof. rewrite !start_ok. do 4 eexists. split; [reflexivity|]. split; reflexivity. Qed.
