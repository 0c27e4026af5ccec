(** * AuCPace: the work a server does for a username.

    The functions of server.rs that answer a username, with a list of the costly operations they perform.  What an
    operation costs is not modelled, only that it is performed; each is taken to cost the same for all operands of
    the same lengths.  The lookups in the database are the application's and are not counted. *)
From Coq Require Import ZArith Lia.
From Verif Require Import Base.Bytes Base.Outcome Base.Rng.
From Verif Require Import Curve.Scalar25519 Aucpace.RistrettoGroup Aucpace.PwHash Aucpace.AucpaceModel.
Local Open Scope nat_scope.

Inductive op :=
| Drew (n : nat)            (* [fill_bytes] of n bytes *)
| PointMul                  (* a scalar times a point *)
| ScalarMul                 (* a product of scalars *)
| Compress                  (* a point encoded *)
| MapToPoint                (* [from_uniform_bytes] *)
| Digest (n : nat)          (* a digest of n bytes *)
| Base64 (n : nat)          (* n bytes encoded *)
| IdentityTest (r : bool).  (* a branch on [is_identity] *)

Section Work.
Context (R : RGroup) (D : bytes -> bytes).
Notation point := (pt R).
Notation smsg := (ServerMessage R).

(** utils.rs:157-168; [Scalar::random] draws 64 bytes *)
Definition generate_server_keypair_w (T : Rng) (st : rng_state T) : ((scalar * point) * rng_state T) * list op :=
  let cofactor := sone in
  let '(private, st') := scalar_random T st in
  let public := rmul (rbase R) (smult private cofactor) in
  (((private, public), st'), [Drew 64; ScalarMul; PointMul]).

(** server.rs:438-474 *)
Definition lookup_failed_w (T : Rng) (s : AuCPaceServerAugLayer) (username : bytes) (x_pub : point)
  (st : rng_state T) : (res (bytes * smsg) * rng_state T) * list op :=
  let '(prs, st') := rng_fill T 32 st in
  let hasher := update (update new_hash (le_bytes 8 (sal_secret s))) username in
  let hash_bytes := finalize D hasher in
  ((let! p := prefix 48 hash_bytes in
    let! salt := expect (salt_encode_b64 p) in
    Ok (prs, SAugmentationInfo group_name x_pub salt params_default), st'),
   [Drew 32; Digest (length hasher); Base64 48]).

(** server.rs:478-515 *)
Definition lookup_failed_strong_w (T : Rng) (s : AuCPaceServerAugLayer) (username : bytes)
  (blinded x_pub : point) (st : rng_state T) : (res (bytes * smsg) * rng_state T) * list op :=
  let '(prs, st') := rng_fill T 32 st in
  let hasher := update (update new_hash (le_bytes 8 (sal_secret s))) username in
  let cofactor := sone in
  let q := scalar_from_digest D hasher in
  let fake_blinded_salt := rmul blinded (smult q cofactor) in
  let id := is_identity fake_blinded_salt in
  ((if id then Err IllegalPointError
    else Ok (prs, SStrongAugmentationInfo group_name x_pub fake_blinded_salt params_default), st'),
   [Drew 32; Digest (length hasher); ScalarMul; PointMul; IdentityTest id]).

(** server.rs:371-398 *)
Definition generate_prs_w (DB : Database R) (T : Rng) (s : AuCPaceServerAugLayer) (username : bytes)
  (database : db DB) (st : rng_state T) (x : scalar) (x_pub : point)
  : (res (bytes * smsg) * rng_state T) * list op :=
  match lookup_verifier DB database username with
  | Some (w, salt, sigma) =>
      let cofactor := sone in
      let prs := rcompress R (rmul (rmul w x) cofactor) in
      ((Ok (prs, SAugmentationInfo group_name x_pub salt sigma), st), [PointMul; PointMul; Compress])
  | None => lookup_failed_w T s username x_pub st
  end.

(** server.rs:403-435 *)
Definition generate_prs_strong_w (DB : StrongDatabase R) (T : Rng) (s : AuCPaceServerAugLayer)
  (username : bytes) (blinded : point) (database : sdb DB) (st : rng_state T) (x : scalar)
  (x_pub : point) : (res (bytes * smsg) * rng_state T) * list op :=
  match lookup_verifier_strong DB database username with
  | Some (w, q, sigma) =>
      let cofactor := sone in
      let prs := rcompress R (rmul w (smult x cofactor)) in
      let uq := rmul blinded (smult q cofactor) in
      let id := is_identity uq in
      ((if id then Err IllegalPointError
        else Ok (prs, SStrongAugmentationInfo group_name x_pub uq sigma), st),
       [ScalarMul; PointMul; Compress; ScalarMul; PointMul; IdentityTest id])
  | None => lookup_failed_strong_w T s username blinded x_pub st
  end.

(** server.rs:201-222 *)
Definition generate_client_info_w (DB : Database R) (T : Rng) (s : AuCPaceServerAugLayer)
  (username : bytes) (database : db DB) (rng : rng_state T)
  : res (AuCPaceServerCPaceSubstep T * smsg) * list op :=
  let '(((x, x_pub), rng), t) := generate_server_keypair_w T rng in
  let '(r, u) := generate_prs_w DB T s username database rng x x_pub in
  (cpace_substep R T s r, t ++ u).

(** server.rs:245-273 *)
Definition generate_client_info_partial_aug_w (DB : Database R) (PDB : PartialAugDatabase R (db DB))
  (T : Rng) (s : AuCPaceServerAugLayer) (username : bytes) (database : db DB) (rng : rng_state T)
  : res (AuCPaceServerCPaceSubstep T * smsg) * list op :=
  match lookup_long_term_keypair PDB database username with
  | Some (x, x_pub) =>
      let '(r, u) := generate_prs_w DB T s username database rng x x_pub in (cpace_substep R T s r, u)
  | None =>
      let '(x_pub, rng) := point_random R T rng in
      let '(r, u) := lookup_failed_w T s username x_pub rng in
      (cpace_substep R T s r, [Drew 64; MapToPoint] ++ u)
  end.

(** server.rs:294-317 *)
Definition generate_client_info_strong_w (DB : StrongDatabase R) (T : Rng) (s : AuCPaceServerAugLayer)
  (username : bytes) (blinded : point) (database : sdb DB) (rng : rng_state T)
  : res (AuCPaceServerCPaceSubstep T * smsg) * list op :=
  let '(((x, x_pub), rng), t) := generate_server_keypair_w T rng in
  let '(r, u) := generate_prs_strong_w DB T s username blinded database rng x x_pub in
  (cpace_substep R T s r, t ++ u).

(** server.rs:339-368 *)
Definition generate_client_info_partial_strong_w (DB : StrongDatabase R)
  (PDB : PartialAugDatabase R (sdb DB)) (T : Rng) (s : AuCPaceServerAugLayer) (username : bytes)
  (blinded : point) (database : sdb DB) (rng : rng_state T)
  : res (AuCPaceServerCPaceSubstep T * smsg) * list op :=
  match lookup_long_term_keypair PDB database username with
  | Some (x, x_pub) =>
      let '(r, u) := generate_prs_strong_w DB T s username blinded database rng x x_pub in (cpace_substep R T s r, u)
  | None =>
      let '(x_pub, rng) := point_random R T rng in
      let '(r, u) := lookup_failed_strong_w T s username blinded x_pub rng in
      (cpace_substep R T s r, [Drew 64; MapToPoint] ++ u)
  end.

Lemma lookup_failed_w_fst T s u X st : fst (lookup_failed_w T s u X st) = lookup_failed R D T s u X st.
Proof. unfold lookup_failed_w, lookup_failed. now destruct (rng_fill T 32 st). Qed.
Lemma lookup_failed_strong_w_fst T s u U X st :
  fst (lookup_failed_strong_w T s u U X st) = lookup_failed_strong R D T s u U X st.
Proof. unfold lookup_failed_strong_w, lookup_failed_strong. now destruct (rng_fill T 32 st). Qed.
Lemma generate_prs_w_fst DB T s u d st x X :
  fst (generate_prs_w DB T s u d st x X) = generate_prs R D DB T s u d st x X.
Proof.
  unfold generate_prs_w, generate_prs. destruct (lookup_verifier DB d u) as [[[? ?] ?]|]; [reflexivity|].
  apply lookup_failed_w_fst.
Qed.
Lemma generate_prs_strong_w_fst DB T s u U d st x X :
  fst (generate_prs_strong_w DB T s u U d st x X) = generate_prs_strong R D DB T s u U d st x X.
Proof.
  unfold generate_prs_strong_w, generate_prs_strong. destruct (lookup_verifier_strong DB d u) as [[[? ?] ?]|].
  - cbn [fst]. now destruct (is_identity _).
  - apply lookup_failed_strong_w_fst.
Qed.
Lemma generate_server_keypair_w_fst T st :
  fst (generate_server_keypair_w T st) = generate_server_keypair R T st.
Proof. unfold generate_server_keypair_w, generate_server_keypair. now destruct (scalar_random T st). Qed.
Lemma generate_server_keypair_w_snd T st : snd (generate_server_keypair_w T st) = [Drew 64; ScalarMul; PointMul].
Proof. unfold generate_server_keypair_w. now destruct (scalar_random T st). Qed.
Lemma lookup_failed_w_snd T s u X st :
  snd (lookup_failed_w T s u X st) = [Drew 32; Digest (8 + length u); Base64 48].
Proof.
  unfold lookup_failed_w. destruct (rng_fill T 32 st). cbn [snd]. unfold update, new_hash. cbn [app].
  rewrite app_length, le_bytes_length. reflexivity.
Qed.
Lemma lookup_failed_strong_w_snd T s u U X st :
  exists id, snd (lookup_failed_strong_w T s u U X st) = [Drew 32; Digest (8 + length u); ScalarMul; PointMul; IdentityTest id].
Proof.
  unfold lookup_failed_strong_w. destruct (rng_fill T 32 st). cbn [snd]. unfold update, new_hash. cbn [app].
  rewrite app_length, le_bytes_length. eexists. reflexivity.
Qed.
End Work.
