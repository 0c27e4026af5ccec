(** * What is made of the random generator

    A history of any functions of the crate that use a random generator, over one generator: the generator a client or
    server owns (client.rs:36-45, server.rs:43-55) or one that the application lends (client.rs:441, 783;
    server.rs:201, 245, 294, 339).  What each call makes of it is read off the results of the model. *)
From Coq Require Import ZArith.
From Verif Require Import Base.Bytes Base.Outcome Base.Rng.
From Verif Require Import Curve.Scalar25519 Aucpace.RistrettoGroup Aucpace.PwHash Aucpace.Base64Spec Aucpace.AucpaceModel Aucpace.AucpaceRun.
Local Open Scope nat_scope.

(** What is drawn: a nonce (as kept and as sent), a salt, secret scalars, points, a random PRS, a server secret. *)
Inductive made (R : RGroup) :=
| MNonce (kept sent : bytes)
| MSalt (salt : bytes)
| MExponent (q : scalar)
| MKeyPair (x : scalar) (X : pt R)
| MBlinding (r : scalar)
| MPrivate (y : scalar)
| MXPub (X : pt R)
| MXRandom (X : pt R)
| MPrs (prs : bytes)
| MSecret (secret : N).
Arguments MNonce {R}. Arguments MSalt {R}. Arguments MExponent {R}. Arguments MKeyPair {R}. Arguments MBlinding {R}.
Arguments MPrivate {R}. Arguments MXPub {R}. Arguments MXRandom {R}. Arguments MPrs {R}. Arguments MSecret {R}.

Section Use.
Context (R : RGroup) (D : bytes -> bytes) (Params : Type) (params_try_into : Params -> outcome pherror bytes).

Inductive op :=
| OpClientBegin (K1 : nat)
| OpRegister (m : buf_mode) (user pass : bytes) (params : Params) (h : hasher Params)
| OpRegisterStrong (m : buf_mode) (user pass : bytes) (params : Params) (h : hasher Params)
| OpServerNew
| OpServerBegin (K1 : nat) (secret : N)
| OpKeyPair (secret : N)
| OpBlind (fuel : nat) (c : AuCPaceClientPreAug) (user pass : bytes)
| OpClientKey (c : AuCPaceClientCPaceSubstep) (ci : bytes)
| OpInfo (DB : Database R) (s : AuCPaceServerAugLayer) (user : bytes) (d : db DB)
| OpInfoPartial (DB : Database R) (PDB : PartialAugDatabase R (db DB)) (s : AuCPaceServerAugLayer) (user : bytes) (d : db DB)
| OpInfoStrong (DB : StrongDatabase R) (s : AuCPaceServerAugLayer) (user : bytes) (U : pt R) (d : sdb DB)
| OpInfoPartialStrong (DB : StrongDatabase R) (PDB : PartialAugDatabase R (sdb DB)) (s : AuCPaceServerAugLayer) (user : bytes)
    (U : pt R) (d : sdb DB)
| OpServerKey (ssid prs ci : bytes).

(** The generator of the caller after [generate_public_key] of the server (server.rs:552-570), which the model's
    function drops with the session's state. *)
Definition server_key_rng (T : Rng) (s : AuCPaceServerCPaceSubstep T) (ci : bytes) : rng_state T :=
  snd (generate_keypair R D T (scs_rng T s) (scs_ssid T s) (scs_prs T s) ci).

(** Which of the point and the PRS of a reply were drawn depends on what the database has of the user. *)
Definition info_made {V K} (verifier : option V) (keypair : option K) (X : pt R) (prs : bytes) : list (made R) :=
  match keypair with Some _ => [] | None => [MXRandom X] end ++ match verifier, keypair with Some _, Some _ => [] | _, _ => [MPrs prs] end.

(** One call; [None] for a call that does not return or fails without giving the generator back. *)
Definition exec (T : Rng) (o : op) (st : rng_state T) : option (list (made R) * rng_state T) :=
  match o with
  | OpClientBegin K1 =>
      let '((s, m), c) := client_begin R T K1 (client_new T st) in
      match m with CNonce n => Some ([MNonce (cse_nonce s) n], c_rng T c) | _ => None end
  | OpRegister m user pass params h =>
      let '(r, c) := do_register R Params params_try_into m T (client_new T st) user pass params h in
      Some (match r with Ok (CRegistration _ salt _ _) => [MSalt salt] | _ => [] end, c_rng T c)
  | OpRegisterStrong m user pass params h =>
      let '(r, c) := do_register_strong R D Params params_try_into m T (client_new T st) user pass params h in
      Some (match r with Ok (CStrongRegistration _ q _ _) => [MExponent q] | _ => [] end, c_rng T c)
  | OpServerNew => let s := server_new T st in Some ([MSecret (s_secret T s)], s_rng T s)
  | OpServerBegin K1 secret =>
      let '((s, m), s') := server_begin R T K1 {| s_rng := st; s_secret := secret |} in
      match m with SNonce n => Some ([MNonce (sse_nonce s) n], s_rng T s') | _ => None end
  | OpKeyPair secret =>
      let '((x, X), s') := generate_long_term_keypair R T {| s_rng := st; s_secret := secret |} in
      Some ([MKeyPair x X], s_rng T s')
  | OpBlind fuel c user pass =>
      match start_augmentation_strong R D T fuel c user pass st with
      | Some ((s, _), st') => Some ([MBlinding (scal_blinding_value s)], st')
      | None => None
      end
  | OpClientKey c ci => let '((s, _), st') := client_generate_public_key R D T c ci st in Some ([MPrivate (crs_priv_key s)], st')
  | OpInfo DB s user d =>
      match generate_client_info R D DB T s user d st with
      | Ok (s', SAugmentationInfo _ X _ _) =>
          Some (MXPub X :: match lookup_verifier DB d user with Some _ => [] | None => [MPrs (scs_prs T s')] end, scs_rng T s')
      | _ => None
      end
  | OpInfoPartial DB PDB s user d =>
      match generate_client_info_partial_aug R D DB PDB T s user d st with
      | Ok (s', SAugmentationInfo _ X _ _) =>
          Some (info_made (lookup_verifier DB d user) (lookup_long_term_keypair PDB d user) X (scs_prs T s'), scs_rng T s')
      | _ => None
      end
  | OpInfoStrong DB s user U d =>
      match generate_client_info_strong R D DB T s user U d st with
      | Ok (s', SStrongAugmentationInfo _ X _ _) =>
          Some (MXPub X :: match lookup_verifier_strong DB d user with Some _ => [] | None => [MPrs (scs_prs T s')] end, scs_rng T s')
      | _ => None
      end
  | OpInfoPartialStrong DB PDB s user U d =>
      match generate_client_info_partial_strong R D DB PDB T s user U d st with
      | Ok (s', SStrongAugmentationInfo _ X _ _) =>
          Some (info_made (lookup_verifier_strong DB d user) (lookup_long_term_keypair PDB d user) X (scs_prs T s'), scs_rng T s')
      | _ => None
      end
  | OpServerKey ssid prs ci =>
      let s := {| scs_ssid := ssid; scs_prs := prs; scs_rng := st |} in
      let '(s', _) := server_generate_public_key R D T s ci in
      Some ([MPrivate (src_priv_key s')], server_key_rng T s ci)
  end.
Fixpoint exec_all (T : Rng) (ops : list op) (st : rng_state T) : option (list (made R) * rng_state T) :=
  match ops with
  | [] => Some ([], st)
  | o :: ops' =>
      match exec T o st with
      | Some (ms, st') => match exec_all T ops' st' with Some (ms', st'') => Some (ms ++ ms', st'') | None => None end
      | None => None
      end
  end.
End Use.

(** ** Specification *)

(** The random bytes a value is made of. *)
Definition wide (d : bytes) : scalar := sof (Z.of_N (le_val d)).
Definition made_of {R : RGroup} (m : made R) (d : bytes) : Prop :=
  match m with
  | MNonce kept sent => kept = d /\ sent = d
  | MSalt salt => length d = 16 /\ is_base64 d salt
  | MExponent q => length d = 64 /\ q = wide d
  | MKeyPair x X => length d = 64 /\ x = wide d /\ X = rmul (rbase R) x
  | MBlinding r => length d = 64 /\ r = wide d /\ r <> szero
  | MPrivate y => length d = 64 /\ y = wide d
  | MXPub X => length d = 64 /\ X = rmul (rbase R) (wide d)
  | MXRandom X => length d = 64 /\ X = rfrom_uniform R d
  | MPrs prs => length d = 32 /\ prs = d
  | MSecret secret => length d = 8 /\ secret = le_val d
  end.

(** A generator that goes through the stream [f]; its state is the position. *)
Definition segment (f : nat -> byte) (p n : nat) : bytes := map f (seq p n).
Lemma segment_length f n p : length (segment f p n) = n.
Proof. unfold segment. now rewrite map_length, seq_length. Qed.
Lemma segment_bound f p : (le_val (segment f p 8) < 2 ^ 64)%N.
Proof. pose proof (le_val_bound (segment f p 8)) as H. rewrite segment_length in H. exact H. Qed.
Definition stream_rng (f : nat -> byte) : Rng :=
  {| rng_state := nat; rng_fill := fun n p => (segment f p n, p + n); rng_fill_length := segment_length f;
     rng_next_u64 := fun p => (le_val (segment f p 8), p + 8); rng_next_u64_bound := segment_bound f |}.

(** Segments of the stream between [p] and [p'], one after the other. *)
Fixpoint in_order (p : nat) (segs : list (nat * nat)) (p' : nat) : Prop :=
  match segs with
  | [] => p <= p'
  | (a, n) :: segs' => p <= a /\ in_order (a + n) segs' p'
  end.
