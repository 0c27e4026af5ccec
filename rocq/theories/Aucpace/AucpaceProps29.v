(** * AuCPace: the work a server does shows whether a user is registered, and nothing else (C97). *)
From Coq Require Import ZArith Lia.
From Verif Require Import Base.Bytes Base.Outcome Base.Rng Base.Kat.
From Verif Require Import Curve.Scalar25519 Aucpace.RistrettoGroup Aucpace.PwHash Aucpace.AucpaceModel Aucpace.AucpaceDb
  Aucpace.AucpaceRun Aucpace.AucpaceToy Aucpace.AucpaceWork.
Local Open Scope nat_scope.

(** ** Specification: the work for a request *)

(** A fresh key pair of the server. *)
Definition key_pair_work : list op := [Drew 64; ScalarMul; PointMul].
(** The password related string: from the verifier, or made up together with a salt. *)
Definition answer_work (known : bool) (username : bytes) : list op :=
  if known then [PointMul; PointMul; Compress] else [Drew 32; Digest (8 + length username); Base64 48].
Definition strong_answer_work (known : bool) (username : bytes) (refused : bool) : list op :=
  (if known then [ScalarMul; PointMul; Compress; ScalarMul; PointMul]
   else [Drew 32; Digest (8 + length username); ScalarMul; PointMul]) ++ [IdentityTest refused].
(** A point in place of a stored public key. *)
Definition made_up_key_work : list op := [Drew 64; MapToPoint].

Definition known {A} (o : option A) : bool := match o with Some _ => true | None => false end.
Definition refused {E A} (r : outcome E A) : bool := match r with Err _ => true | _ => false end.
(** Does the work contain a digest? *)
Definition digest_seen (t : list op) : bool := existsb (fun o => match o with Digest _ => true | _ => false end) t.

Section Props.
Context (R : RGroup) (D : bytes -> bytes).

(** C97: the functions with their work return what the functions of the model return. *)
Theorem C97_results :
  forall T s u st,
  (forall DB d, fst (generate_client_info_w R D DB T s u d st) = generate_client_info R D DB T s u d st) /\
  (forall DB PDB d, fst (generate_client_info_partial_aug_w R D DB PDB T s u d st)
                    = generate_client_info_partial_aug R D DB PDB T s u d st) /\
  (forall DB U d, fst (generate_client_info_strong_w R D DB T s u U d st) = generate_client_info_strong R D DB T s u U d st) /\
  (forall DB PDB U d, fst (generate_client_info_partial_strong_w R D DB PDB T s u U d st)
                      = generate_client_info_partial_strong R D DB PDB T s u U d st).
Proof.
  intros T s u st. repeat split.
  - intros DB d. unfold generate_client_info_w, generate_client_info. rewrite <- generate_server_keypair_w_fst.
    destruct (generate_server_keypair_w R T st) as [[[x X] st'] t]. cbn [fst]. rewrite <- generate_prs_w_fst.
    now destruct (generate_prs_w _ _ _ _ _ _ _ _ _ _).
  - intros DB PDB d. unfold generate_client_info_partial_aug_w, generate_client_info_partial_aug.
    destruct (lookup_long_term_keypair PDB d u) as [[x X]|].
    + rewrite <- generate_prs_w_fst. now destruct (generate_prs_w _ _ _ _ _ _ _ _ _ _).
    + destruct (point_random R T st) as [X st']. rewrite <- lookup_failed_w_fst. now destruct (lookup_failed_w _ _ _ _ _ _ _).
  - intros DB U d. unfold generate_client_info_strong_w, generate_client_info_strong. rewrite <- generate_server_keypair_w_fst.
    destruct (generate_server_keypair_w R T st) as [[[x X] st'] t]. cbn [fst]. rewrite <- generate_prs_strong_w_fst.
    now destruct (generate_prs_strong_w _ _ _ _ _ _ _ _ _ _ _).
  - intros DB PDB U d. unfold generate_client_info_partial_strong_w, generate_client_info_partial_strong.
    destruct (lookup_long_term_keypair PDB d u) as [[x X]|].
    + rewrite <- generate_prs_strong_w_fst. now destruct (generate_prs_strong_w _ _ _ _ _ _ _ _ _ _ _).
    + destruct (point_random R T st) as [X st']. rewrite <- lookup_failed_strong_w_fst.
      now destruct (lookup_failed_strong_w _ _ _ _ _ _ _ _).
Qed.

Lemma prs_work DB T s u d st x X :
  snd (generate_prs_w R D DB T s u d st x X) = answer_work (known (lookup_verifier DB d u)) u.
Proof.
  unfold generate_prs_w. destruct (lookup_verifier DB d u) as [[[? ?] ?]|]; [reflexivity|]. apply lookup_failed_w_snd.
Qed.
Lemma failed_strong_work T s u U X st :
  snd (lookup_failed_strong_w R D T s u U X st)
  = strong_answer_work false u (refused (fst (fst (lookup_failed_strong_w R D T s u U X st)))).
Proof.
  unfold lookup_failed_strong_w. destruct (rng_fill T 32 st). cbn [snd fst]. unfold update, new_hash. cbn [app].
  rewrite app_length, le_bytes_length. now destruct (is_identity _).
Qed.
Lemma prs_strong_work DB T s u U d st x X :
  snd (generate_prs_strong_w R D DB T s u U d st x X)
  = strong_answer_work (known (lookup_verifier_strong DB d u)) u (refused (fst (fst (generate_prs_strong_w R D DB T s u U d st x X)))).
Proof.
  unfold generate_prs_strong_w. destruct (lookup_verifier_strong DB d u) as [[[? ?] ?]|].
  - cbn [fst snd]. now destruct (is_identity _).
  - apply failed_strong_work.
Qed.
Lemma refused_substep T s (r : res (bytes * ServerMessage R) * rng_state T) :
  refused (cpace_substep R T s r) = refused (fst r).
Proof. destruct r as [[[prs m]|e|] st]; reflexivity. Qed.

(** C97: the work for a request depends on whether the user is registered, on the length of the name and, in the strong
    variants, on whether the request is refused (which the client is told) - not on the name, the verifier, the
    salt or the exponent, the server's secret or its keys. *)
Theorem C97_work :
  forall T s u st,
  (forall DB d, snd (generate_client_info_w R D DB T s u d st)
     = key_pair_work ++ answer_work (known (lookup_verifier DB d u)) u) /\
  (forall DB PDB d, snd (generate_client_info_partial_aug_w R D DB PDB T s u d st)
     = if known (lookup_long_term_keypair PDB d u) then answer_work (known (lookup_verifier DB d u)) u
       else made_up_key_work ++ answer_work false u) /\
  (forall DB U d, snd (generate_client_info_strong_w R D DB T s u U d st)
     = key_pair_work ++ strong_answer_work (known (lookup_verifier_strong DB d u)) u
                          (refused (generate_client_info_strong R D DB T s u U d st))) /\
  (forall DB PDB U d, snd (generate_client_info_partial_strong_w R D DB PDB T s u U d st)
     = let r := refused (generate_client_info_partial_strong R D DB PDB T s u U d st) in
       if known (lookup_long_term_keypair PDB d u) then strong_answer_work (known (lookup_verifier_strong DB d u)) u r
       else made_up_key_work ++ strong_answer_work false u r).
Proof.
  intros T s u st. destruct (C97_results T s u st) as (_ & _ & H3 & H4). repeat split.
  - intros DB d. unfold generate_client_info_w.
    pose proof (generate_server_keypair_w_snd R T st) as E.
    destruct (generate_server_keypair_w R T st) as [[[x X] st'] t]. cbn [snd] in E. subst t.
    pose proof (prs_work DB T s u d st' x X) as E. destruct (generate_prs_w _ _ _ _ _ _ _ _ _ _). cbn [snd] in *. now rewrite E.
  - intros DB PDB d. unfold generate_client_info_partial_aug_w.
    destruct (lookup_long_term_keypair PDB d u) as [[x X]|]; cbn [known].
    + pose proof (prs_work DB T s u d st x X) as E. destruct (generate_prs_w _ _ _ _ _ _ _ _ _ _). exact E.
    + destruct (point_random R T st) as [X st']. pose proof (lookup_failed_w_snd R D T s u X st') as E.
      destruct (lookup_failed_w _ _ _ _ _ _ _). cbn [snd] in *. now rewrite E.
  - intros DB U d. rewrite <- H3. unfold generate_client_info_strong_w.
    pose proof (generate_server_keypair_w_snd R T st) as E.
    destruct (generate_server_keypair_w R T st) as [[[x X] st'] t]. cbn [snd] in E. subst t.
    pose proof (prs_strong_work DB T s u U d st' x X) as E.
    destruct (generate_prs_strong_w _ _ _ _ _ _ _ _ _ _ _) as [r w]. cbn [fst snd] in *. now rewrite refused_substep, E.
  - intros DB PDB U d. rewrite <- H4. cbv zeta. unfold generate_client_info_partial_strong_w.
    destruct (lookup_long_term_keypair PDB d u) as [[x X]|]; cbn [known].
    + pose proof (prs_strong_work DB T s u U d st x X) as E.
      destruct (generate_prs_strong_w _ _ _ _ _ _ _ _ _ _ _) as [r w]. cbn [fst snd] in *. now rewrite refused_substep.
    + destruct (point_random R T st) as [X st']. pose proof (failed_strong_work T s u U X st') as E.
      destruct (lookup_failed_strong_w _ _ _ _ _ _ _ _) as [r w]. cbn [fst snd] in *. now rewrite refused_substep, E.
Qed.

(** C97, that unknown users are answered with the same work: refuted, for every variant.  One observer, who sees only
    whether a digest is computed, tells for every name, database, secret and generator whether the user is registered. *)
Theorem C97_same_work_refuted :
  exists observer : list op -> bool, forall T s u st,
  (forall DB d, observer (snd (generate_client_info_w R D DB T s u d st)) = known (lookup_verifier DB d u)) /\
  (forall DB PDB d, observer (snd (generate_client_info_partial_aug_w R D DB PDB T s u d st))
     = known (lookup_long_term_keypair PDB d u) && known (lookup_verifier DB d u)) /\
  (forall DB U d, observer (snd (generate_client_info_strong_w R D DB T s u U d st)) = known (lookup_verifier_strong DB d u)) /\
  (forall DB PDB U d, observer (snd (generate_client_info_partial_strong_w R D DB PDB T s u U d st))
     = known (lookup_long_term_keypair PDB d u) && known (lookup_verifier_strong DB d u)).
Proof.
  exists (fun t => negb (digest_seen t)). intros T s u st. destruct (C97_work T s u st) as (H1 & H2 & H3 & H4).
  clear - H1 H2 H3 H4. repeat split.
  - intros DB d. rewrite H1. now destruct (lookup_verifier DB d u).
  - intros DB PDB d. rewrite H2. now destruct (lookup_long_term_keypair PDB d u), (lookup_verifier DB d u).
  - intros DB U d. rewrite H3. generalize (refused (generate_client_info_strong R D DB T s u U d st)). intros r.
    now destruct (lookup_verifier_strong DB d u).
  - intros DB PDB U d. rewrite H4. generalize (refused (generate_client_info_partial_strong R D DB PDB T s u U d st)). intros r.
    cbv zeta. now destruct (lookup_long_term_keypair PDB d u), (lookup_verifier_strong DB d u).
Qed.
End Props.

(** Case: the user of the toy database, and one it does not have, in the four variants. *)
Definition sess : AuCPaceServerAugLayer := {| sal_secret := 7; sal_ssid := repeat x00 64 |}.
Example C97_case :
  known (lookup_verifier (AssocDb ToyGroup) (add_verifier empty_db alice (rbase ToyGroup, str "salt", toy_params)) alice) = true /\
  known (lookup_verifier (AssocDb ToyGroup) empty_db alice) = false.
Proof. split; [|reflexivity]. unfold alice. reflexivity. Qed.
Check (test (snd (generate_client_info_w ToyGroup toyD (AssocDb ToyGroup) tape_rng sess alice toy_db (toy_tape 3001 3002)))
            [Drew 64; ScalarMul; PointMul; PointMul; PointMul; Compress]).
Check (test (snd (generate_client_info_w ToyGroup toyD (AssocDb ToyGroup) tape_rng sess (str "mallory") toy_db (toy_tape 3001 3002)))
            [Drew 64; ScalarMul; PointMul; Drew 32; Digest 15; Base64 48]).
Check (test (snd (generate_client_info_strong_w ToyGroup toyD (AssocStrongDb ToyGroup) tape_rng sess alice (rbase ToyGroup) toy_sdb (toy_tape 3001 3002)))
            [Drew 64; ScalarMul; PointMul; ScalarMul; PointMul; Compress; ScalarMul; PointMul; IdentityTest false]).
Check (test (snd (generate_client_info_strong_w ToyGroup toyD (AssocStrongDb ToyGroup) tape_rng sess (str "mallory") (rbase ToyGroup) toy_sdb (toy_tape 3001 3002)))
            [Drew 64; ScalarMul; PointMul; Drew 32; Digest 15; ScalarMul; PointMul; IdentityTest false]).
