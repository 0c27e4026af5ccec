(** * AuCPace: the default client and server in the strong and partially augmented variants (C87, C88). *)
From Coq Require Import ZArith Lia List.
From Verif Require Import Base.Bytes Base.Outcome Base.Rng Base.RustTest Base.Kat Hash.Hash.
From Verif Require Import Curve.Scalar25519.
From Verif Require Import Aucpace.RistrettoGroup Aucpace.Ristretto255Group Aucpace.PwHash Aucpace.AucpaceModel Aucpace.AucpaceSpec
  Aucpace.AucpaceRun Aucpace.AucpaceDb Aucpace.AucpaceToy Aucpace.PwHashProofs Aucpace.AucpaceProofs Aucpace.AucpaceProps
  Aucpace.ScryptParams Aucpace.TcpExample Aucpace.Scrypt Aucpace.ScryptProofs Aucpace.AucpaceProps8 Aucpace.AucpaceProps9 Aucpace.AucpaceProps13
  Aucpace.Base64Spec Aucpace.PhcSpec Aucpace.Wire Aucpace.AucpaceProps14 Aucpace.AucpaceProps21.
Local Open Scope nat_scope.

Section Group.
Context (R : RGroup) (L : rgroup_laws R) (D : bytes -> bytes) (Dlen : forall m, length (D m) = 64).

(** The bytes of the salt of the strong variant, for the secret exponent [q]. *)
Definition salt_bytes (user pass : bytes) (q : scalar) : bytes := rcompress R (rmul (spec_Z R D user pass) q).

Lemma register_strong_scrypt T (c : AuCPaceClient T) m user pass P : scrypt_ok P -> fits m user pass ->
  let q := drawn T (c_rng T c) in
  exists ps, params_valid ps /\ scrypt_params_of ps = Ok P /\
  do_register_strong R D scrypt_params scrypt_to_params m T c user pass P scrypt_hasher
  = (Ok (CStrongRegistration user q ps (rmul (rbase R) (scrypt_w user pass (salt_bytes user pass q) P))),
     {| c_rng := after T 64 (c_rng T c) |}).
Proof.
  intros HP HF q. destruct (C68_roundtrip P HP) as (ps & E & V & B). exists ps.
  split; [exact V|]. split; [exact B|]. rewrite (do_register_strong_eq R L D) by exact HF. cbv zeta. fold q.
  change (strong_salt R D user pass q) with (b64_encode (salt_bytes user pass q)). rewrite spec_w_scrypt. cbn [obind].
  rewrite E. reflexivity.
Qed.

(** The outcome of an honest run in terms of the secrets. *)
Lemma honest_iff ssid w x ci ya yb :
  let ok := x <> szero /\ ya <> szero /\ yb <> szero /\ spec_G R D ssid (spec_PRS R w x) ci <> rzero R in
  existsb is_identity (honest_points R D ssid w x ci ya yb) = false <-> ok.
Proof.
  intros ok. unfold honest_points. cbn [existsb]. rewrite !Bool.orb_false_iff, !(is_identity_neq L). unfold spec_X.
  rewrite !(rmul_identity L). unfold ok. pose proof (rl_base R L) as HB. clear - HB. split.
  - intros (H1 & H2 & H3 & _). repeat split; intros E; [apply H1|apply H2|apply H3|apply H2]; auto.
  - intros (H1 & H2 & H3 & H4). repeat split; intros [E|E]; auto.
Qed.
Lemma honest_strong_iff ssid user pass q w x ci ya yb :
  let ok := q <> szero /\ spec_Z R D user pass <> rzero R /\
    x <> szero /\ ya <> szero /\ yb <> szero /\ spec_G R D ssid (spec_PRS R w x) ci <> rzero R in
  existsb is_identity (honest_points_strong R D ssid user pass q w x ci ya yb) = false <-> ok.
Proof.
  intros ok. unfold ok. rewrite <- honest_iff. unfold honest_points_strong, honest_points. cbn [tl existsb].
  rewrite !Bool.orb_false_iff, !(is_identity_neq L). rewrite (rmul_identity L (spec_Z R D user pass) q). clear. tauto.
Qed.
Lemma outcome_iff points key (ok : Prop) : length key = 64 -> (existsb is_identity points = false <-> ok) ->
  (ok <-> exists k, length k = 64 /\ honest_outcome R points key = Ok (k, k)) /\
  (~ ok <-> honest_outcome R points key = Err IllegalPointError).
Proof.
  intros Hk HO. unfold honest_outcome. destruct (existsb is_identity points).
  - split; split.
    + intros K. apply HO in K. discriminate K.
    + intros (key' & _ & K). discriminate K.
    + intros _. reflexivity.
    + intros _ K. apply HO in K. discriminate K.
  - pose proof (proj1 HO eq_refl) as K. split; split.
    + intros _. exists key. split; [exact Hk|reflexivity].
    + intros _. exact K.
    + intros N. elim (N K).
    + intros C. discriminate C.
Qed.
Lemma honest_key_length ssid w x ci ya yb : length (honest_key R D ssid w x ci ya yb) = 64.
Proof. apply Dlen. Qed.
End Group.

(** ** C87 *)

(** The strong registration of the default client succeeds for every name and password. *)
Theorem C87_register_strong :
  forall T (c : AuCPaceClient T) m user pass P, scrypt_ok P -> fits m user pass ->
  let q := drawn T (c_rng T c) in
  let l := rcompress Ristretto255 (rmul (spec_Z Ristretto255 sha512 user pass) q) in
  exists ps, params_valid ps /\ scrypt_params_of ps = Ok P /\
  do_register_strong Ristretto255 sha512 scrypt_params scrypt_to_params m T c user pass P scrypt_hasher
  = (Ok (CStrongRegistration user q ps (rmul (rbase Ristretto255) (scrypt_w user pass l P))),
     {| c_rng := after T 64 (c_rng T c) |}).
Proof. exact (register_strong_scrypt Ristretto255 ristretto255_laws sha512). Qed.
Print Assumptions C87_register_strong.

(** The strong login that follows.  Besides the conditions of the plain variant, the secret exponent must not
    be zero and the point hashed from the name and the password must not be the identity. *)
Theorem C87_login_strong :
  forall (DB : StrongDatabase Ristretto255) T Tc Ts (creg : AuCPaceClient T) (c : AuCPaceClient Tc) (s : AuCPaceServer Ts)
    am sm mreg m user pass P d ci (sts : rng_state Ts) (stb stc : rng_state Tc) fuel r stb',
  (forall d u uad W q ps, lookup_verifier_strong DB (store_verifier_strong DB d u uad W q ps) u = Some (W, q, ps)) ->
  ssid_mode_ok sm -> scrypt_ok P -> fits mreg user pass -> fits m user pass ->
  draw_blinding_value Tc fuel stb = Some (r, stb') ->
  let Z := spec_Z Ristretto255 sha512 user pass in
  exists u q ps W creg',
  do_register_strong Ristretto255 sha512 scrypt_params scrypt_to_params mreg T creg user pass P scrypt_hasher
    = (Ok (CStrongRegistration u q ps W), creg') /\
  forall uad,
  let d' := store_verifier_strong DB d u uad W q ps in
  let x := drawn Ts sts in
  let w := scrypt_w user pass (rcompress Ristretto255 (rmul Z q)) P in
  let ok := q <> szero /\ Z <> rzero Ristretto255 /\
    x <> szero /\ drawn Ts (after Ts 64 sts) <> szero /\ drawn Tc stc <> szero /\
    spec_G Ristretto255 sha512 (agreed_ssid sha512 Tc Ts sm c s) (spec_PRS Ristretto255 w x) ci <> rzero Ristretto255 in
  exists run, run_login_strong Ristretto255 sha512 scrypt_params scrypt_params_of am Tc Ts sm m c s
    (fun sess u U => generate_client_info_strong Ristretto255 sha512 DB Ts sess u U d' sts) fuel user pass scrypt_hasher ci stb stc
    = Some run /\
  (ok <-> exists key, length key = 64 /\ run = Ok (key, key)) /\ (~ ok <-> run = Err IllegalPointError).
Proof.
  pose proof ristretto255_laws as L. generalize dependent Ristretto255. intros R L.
  intros DB T Tc Ts creg c s am sm mreg m user pass P d ci sts stb stc fuel r stb' HDB Hm HP HFr HF Hb Z.
  destruct (register_strong_scrypt R L sha512 T creg mreg user pass P HP HFr) as (ps & _ & B & E).
  set (q := drawn T (c_rng T creg)) in E.
  exists user, q, ps, (rmul (rbase R) (scrypt_w user pass (salt_bytes R sha512 user pass q) P)), {| c_rng := after T 64 (c_rng T creg) |}.
  split; [exact E|]. intros uad d' x w ok.
  eexists. split.
  - apply (honest_login_strong_generic R L sha512 sha512_length scrypt_params scrypt_params_of DB Tc Ts am sm m c s
      (fun sess u U => generate_client_info_strong R sha512 DB Ts sess u U d' sts) user pass P scrypt_hasher d' w q ps
      fuel stb r stb' x (after Ts 64 sts) ci stc); try assumption.
    + apply spec_w_scrypt.
    + apply HDB.
    + intros sess U. apply generate_client_info_strong_eq.
  - apply outcome_iff; [apply honest_key_length, sha512_length|apply (honest_strong_iff R L)].
Qed.
Print Assumptions C87_login_strong.

(** With a long-term key pair (partial augmentation): the same, the server's private key being the stored one. *)
Theorem C87_login_partial_aug :
  forall (DB : Database Ristretto255) (PDB : PartialAugDatabase Ristretto255 (db DB)) T Tc Ts Tk
    (creg : AuCPaceClient T) (c : AuCPaceClient Tc) (s : AuCPaceServer Ts) (sk : AuCPaceServer Tk)
    am sm mreg m user pass P d ci (sts : rng_state Ts) (stc : rng_state Tc),
  db_lawful DB -> pdb_lawful PDB (lookup_verifier DB) ->
  ssid_mode_ok sm -> scrypt_ok P -> fits mreg user pass -> fits m user pass ->
  let l := fst (rng_fill T 16 (c_rng T creg)) in
  let x := drawn Tk (s_rng Tk sk) in
  exists u salt ps W creg' X sk',
  do_register Ristretto255 scrypt_params scrypt_to_params mreg T creg user pass P scrypt_hasher
    = (Ok (CRegistration u salt ps W), creg') /\
  generate_long_term_keypair Ristretto255 Tk sk = ((x, X), sk') /\
  forall uad d', store_long_term_keypair PDB (store_verifier DB d u salt uad W ps) user x X = Ok d' ->
  let run := run_login Ristretto255 sha512 scrypt_params scrypt_params_of am Tc Ts sm m c s
    (fun sess u => generate_client_info_partial_aug Ristretto255 sha512 DB PDB Ts sess u d' sts) user pass scrypt_hasher ci stc in
  let ok := x <> szero /\ drawn Ts sts <> szero /\ drawn Tc stc <> szero /\
    spec_G Ristretto255 sha512 (agreed_ssid sha512 Tc Ts sm c s) (spec_PRS Ristretto255 (scrypt_w user pass l P) x) ci
      <> rzero Ristretto255 in
  (ok <-> exists key, length key = 64 /\ run = Ok (key, key)) /\ (~ ok <-> run = Err IllegalPointError).
Proof.
  pose proof ristretto255_laws as L. generalize dependent Ristretto255. intros R L.
  intros DB PDB T Tc Ts Tk creg c s sk am sm mreg m user pass P d ci sts stc HDB HPDB Hm HP HFr HF l x.
  destruct (register_scrypt R T creg mreg user pass P HP HFr) as (ps & _ & B & _ & E).
  exists user, (b64_encode l), ps, (rmul (rbase R) (scrypt_w user pass l P)), {| c_rng := snd (rng_fill T 16 (c_rng T creg)) |},
    (spec_X R x), {| s_rng := after Tk 64 (s_rng Tk sk); s_secret := s_secret Tk sk |}.
  split; [exact E|]. split; [apply C32_long_term_keypair|]. intros uad d' Hst run ok.
  assert (H : run = honest_outcome R (honest_points R sha512 (agreed_ssid sha512 Tc Ts sm c s) (scrypt_w user pass l P) x ci (drawn Ts sts) (drawn Tc stc))
    (honest_key R sha512 (agreed_ssid sha512 Tc Ts sm c s) (scrypt_w user pass l P) x ci (drawn Ts sts) (drawn Tc stc))).
  { apply (honest_login_generic R L sha512 sha512_length scrypt_params scrypt_params_of DB Tc Ts am sm m c s
      (fun sess u => generate_client_info_partial_aug R sha512 DB PDB Ts sess u d' sts) user pass P scrypt_hasher d'
      (scrypt_w user pass l P) (b64_encode l) ps x sts ci stc); try assumption.
    - exact (proj1 (proj2 (salt_generate_eq T (c_rng T creg)))).
    - apply spec_w_scrypt.
    - rewrite (pdl_verifier _ _ HPDB _ _ _ _ _ _ Hst). apply (dl_same _ HDB).
    - intros sess. unfold generate_client_info_partial_aug. now rewrite (pdl_same _ _ HPDB _ _ _ _ _ Hst). }
  rewrite H. apply outcome_iff; [apply honest_key_length, sha512_length|apply (honest_iff R L)].
Qed.
Print Assumptions C87_login_partial_aug.

Theorem C87_login_partial_strong :
  forall (DB : StrongDatabase Ristretto255) (PDB : PartialAugDatabase Ristretto255 (sdb DB)) T Tc Ts Tk
    (creg : AuCPaceClient T) (c : AuCPaceClient Tc) (s : AuCPaceServer Ts) (sk : AuCPaceServer Tk)
    am sm mreg m user pass P d ci (sts : rng_state Ts) (stb stc : rng_state Tc) fuel r stb',
  sdb_lawful DB -> pdb_lawful PDB (lookup_verifier_strong DB) ->
  ssid_mode_ok sm -> scrypt_ok P -> fits mreg user pass -> fits m user pass ->
  draw_blinding_value Tc fuel stb = Some (r, stb') ->
  let Z := spec_Z Ristretto255 sha512 user pass in
  let x := drawn Tk (s_rng Tk sk) in
  exists u q ps W creg' X sk',
  do_register_strong Ristretto255 sha512 scrypt_params scrypt_to_params mreg T creg user pass P scrypt_hasher
    = (Ok (CStrongRegistration u q ps W), creg') /\
  generate_long_term_keypair Ristretto255 Tk sk = ((x, X), sk') /\
  forall uad d', store_long_term_keypair PDB (store_verifier_strong DB d u uad W q ps) user x X = Ok d' ->
  let w := scrypt_w user pass (rcompress Ristretto255 (rmul Z q)) P in
  let ok := q <> szero /\ Z <> rzero Ristretto255 /\
    x <> szero /\ drawn Ts sts <> szero /\ drawn Tc stc <> szero /\
    spec_G Ristretto255 sha512 (agreed_ssid sha512 Tc Ts sm c s) (spec_PRS Ristretto255 w x) ci <> rzero Ristretto255 in
  exists run, run_login_strong Ristretto255 sha512 scrypt_params scrypt_params_of am Tc Ts sm m c s
    (fun sess u U => generate_client_info_partial_strong Ristretto255 sha512 DB PDB Ts sess u U d' sts) fuel user pass scrypt_hasher ci stb stc
    = Some run /\
  (ok <-> exists key, length key = 64 /\ run = Ok (key, key)) /\ (~ ok <-> run = Err IllegalPointError).
Proof.
  pose proof ristretto255_laws as L. generalize dependent Ristretto255. intros R L.
  intros DB PDB T Tc Ts Tk creg c s sk am sm mreg m user pass P d ci sts stb stc fuel r stb' HDB HPDB Hm HP HFr HF Hb Z x.
  destruct (register_strong_scrypt R L sha512 T creg mreg user pass P HP HFr) as (ps & _ & B & E).
  set (q := drawn T (c_rng T creg)) in E.
  exists user, q, ps, (rmul (rbase R) (scrypt_w user pass (salt_bytes R sha512 user pass q) P)), {| c_rng := after T 64 (c_rng T creg) |},
    (spec_X R x), {| s_rng := after Tk 64 (s_rng Tk sk); s_secret := s_secret Tk sk |}.
  split; [exact E|]. split; [apply C32_long_term_keypair|]. intros uad d' Hst w ok.
  eexists. split.
  - apply (honest_login_strong_generic R L sha512 sha512_length scrypt_params scrypt_params_of DB Tc Ts am sm m c s
      (fun sess u U => generate_client_info_partial_strong R sha512 DB PDB Ts sess u U d' sts) user pass P scrypt_hasher d' w q ps
      fuel stb r stb' x sts ci stc); try assumption.
    + apply spec_w_scrypt.
    + rewrite (pdl_verifier _ _ HPDB _ _ _ _ _ _ Hst). apply (sdl_same _ HDB).
    + intros sess U. unfold generate_client_info_partial_strong. now rewrite (pdl_same _ _ HPDB _ _ _ _ _ Hst).
  - apply outcome_iff; [apply honest_key_length, sha512_length|apply (honest_strong_iff R L)].
Qed.
Print Assumptions C87_login_partial_strong.

(** What the strong client does with any public key, blinded salt and parameters of a message: unless a point
    is the identity it never fails, for the salt is one that scrypt reads.  Without alloc it does not look at
    the salt point (C50). *)
Theorem C87_augmentation_strong :
  forall m ssid user pass r x_pub (bs : pt Ristretto255) P, fits m user pass ->
  let c := {| scal_ssid := ssid; scal_username := user; scal_password := pass; scal_blinding_value := r |} in
  let Q := rmul bs (sinv r) in
  let refused := x_pub = rzero Ristretto255 \/ (m = AllocBuf /\ Q = rzero Ristretto255) in
  let run := do_strong_generate_cpace Ristretto255 scrypt_params m c x_pub bs P scrypt_hasher in
  (~ refused -> run = Ok {| ccs_ssid := ssid;
     ccs_prs := rcompress Ristretto255 (rmul x_pub (scrypt_w user pass (rcompress Ristretto255 Q) P)) |}) /\
  (refused -> run = Err IllegalPointError).
Proof.
  pose proof ristretto255_laws as L. generalize dependent Ristretto255. intros R L.
  intros m ssid user pass r x_pub bs P HF c Q refused run. unfold run, c.
  rewrite (do_strong_generate_cpace_eq R L scrypt_params m ssid user pass r x_pub bs P scrypt_hasher HF). fold Q.
  rewrite spec_w_scrypt. cbn [obind]. split.
  - intros N. assert (H : is_identity x_pub = false) by (apply (is_identity_neq L); intros E; apply N; left; exact E).
    rewrite H. cbn [orb]. destruct m as [n|]; [reflexivity|]. cbn [salt_rejected].
    assert (H' : is_identity Q = false) by (apply (is_identity_neq L); intros E; apply N; right; split; [reflexivity|exact E]).
    rewrite H'. reflexivity.
  - intros [H|[-> H]]; apply (is_identity_eq L) in H.
    + rewrite H. reflexivity.
    + cbn [salt_rejected]. rewrite H. destruct (is_identity x_pub); reflexivity.
Qed.
Print Assumptions C87_augmentation_strong.

(** The other three files of tests of the crate. *)
Theorem C87_tests_partial_aug :
  forall Tc Ts (crng crng' rng_key : rng_state Tc) (srng srng' rng_info : rng_state Ts) am pre,
  let t := test_key_agreement_partial Ristretto255 sha512 Tc Ts scrypt_hasher crng crng' rng_key srng srng' rng_info am pre in
  let ssid := agreed_ssid sha512 Tc Ts (ssid_of pre) {| c_rng := crng' |} {| s_rng := srng'; s_secret := s_secret Ts (server_new Ts srng) |} in
  let x := drawn Ts (s_rng Ts (server_new Ts srng)) in
  let w := scrypt_w USERNAME PASSWORD (fst (rng_fill Tc 16 crng)) recommended in
  let ok := x <> szero /\ drawn Ts rng_info <> szero /\ drawn Tc rng_key <> szero /\
            spec_G Ristretto255 sha512 ssid (spec_PRS Ristretto255 w x) CI <> rzero Ristretto255 in
  (passes t <-> ok) /\ (t = Err IllegalPointError <-> ~ ok) /\ t <> Panic.
Proof.
  intros Tc Ts crng crng' rng_key srng srng' rng_info am pre.
  destruct (C79_aucpace_partial_aug Ristretto255 ristretto255_laws sha512 sha512_length Tc Ts scrypt_hasher scrypt_hasher_32
    crng crng' rng_key srng srng' rng_info am pre) as (w & Hw & H).
  assert (E : w = scrypt_w USERNAME PASSWORD (fst (rng_fill Tc 16 crng)) recommended).
  { unfold spec_salt in Hw. rewrite spec_w_scrypt in Hw. revert Hw. clear. intros Hw. injection Hw as <-. reflexivity. }
  rewrite E in H. exact H.
Qed.
Print Assumptions C87_tests_partial_aug.

Theorem C87_tests_strong :
  forall Tc Ts (crng crng' rng_blind rng_key : rng_state Tc) (srng srng' rng_info : rng_state Ts) fuel am pre r stb',
  draw_blinding_value Tc fuel rng_blind = Some (r, stb') ->
  let q := drawn Tc crng in
  let Z := spec_Z Ristretto255 sha512 USERNAME PASSWORD in
  let w := scrypt_w USERNAME PASSWORD (rcompress Ristretto255 (rmul Z q)) recommended in
  let ssid := agreed_ssid sha512 Tc Ts (ssid_of pre) {| c_rng := crng' |} {| s_rng := srng'; s_secret := s_secret Ts (server_new Ts srng) |} in
  (exists t, test_key_agreement_strong Ristretto255 sha512 Tc Ts scrypt_hasher crng crng' rng_blind rng_key srng srng' rng_info fuel am pre = Some t /\
   let x := drawn Ts rng_info in
   let ok := q <> szero /\ Z <> rzero Ristretto255 /\
     x <> szero /\ drawn Ts (after Ts 64 rng_info) <> szero /\ drawn Tc rng_key <> szero /\
     spec_G Ristretto255 sha512 ssid (spec_PRS Ristretto255 w x) CI <> rzero Ristretto255 in
   (passes t <-> ok) /\ (t = Err IllegalPointError <-> ~ ok) /\ t <> Panic) /\
  (exists t, test_key_agreement_strong_partial Ristretto255 sha512 Tc Ts scrypt_hasher crng crng' rng_blind rng_key srng srng' rng_info fuel am pre = Some t /\
   let x := drawn Ts (s_rng Ts (server_new Ts srng)) in
   let ok := q <> szero /\ Z <> rzero Ristretto255 /\
     x <> szero /\ drawn Ts rng_info <> szero /\ drawn Tc rng_key <> szero /\
     spec_G Ristretto255 sha512 ssid (spec_PRS Ristretto255 w x) CI <> rzero Ristretto255 in
   (passes t <-> ok) /\ (t = Err IllegalPointError <-> ~ ok) /\ t <> Panic).
Proof.
  pose proof ristretto255_laws as L. generalize dependent Ristretto255. intros R L.
  intros Tc Ts crng crng' rng_blind rng_key srng srng' rng_info fuel am pre r stb' Hb q Z w ssid.
  assert (EW : forall w', spec_w scrypt_hasher USERNAME PASSWORD (b64_encode (rcompress R (rmul Z q))) recommended = Ok w' -> w' = w).
  { intros w' Hw. rewrite spec_w_scrypt in Hw. unfold w. clear - Hw. injection Hw as <-. reflexivity. }
  split.
  - destruct (C79_aucpace_strong R L sha512 sha512_length Tc Ts scrypt_hasher scrypt_hasher_32
      crng crng' rng_blind rng_key srng srng' rng_info fuel am pre r stb' Hb) as (w' & t & Hw & Ht & H).
    rewrite (EW w' Hw) in H. exists t. split; [exact Ht|exact H].
  - destruct (C79_aucpace_strong_partial_aug R L sha512 sha512_length Tc Ts scrypt_hasher scrypt_hasher_32
      crng crng' rng_blind rng_key srng srng' rng_info fuel am pre r stb' Hb) as (w' & t & Hw & Ht & H).
    rewrite (EW w' Hw) in H. exists t. split; [exact Ht|exact H].
Qed.
Print Assumptions C87_tests_strong.

(** ** C88: with a long-term key pair *)
Section Passwords.
Context (R : RGroup) (L : rgroup_laws R) (D : bytes -> bytes) (Dlen : forall m, length (D m) = 64).

(** Who logs in with [pass'] has the same HMAC key as the registered password, or a collision is exhibited. *)
Theorem C88_wrong_password_partial_aug :
  forall (DB : Database R) (PDB : PartialAugDatabase R (db DB)) Treg Tc Ts am (creg : AuCPaceClient Treg) (c : AuCPaceClient Tc)
    (s : AuCPaceServer Ts) sm mreg m user pass pass' P u salt ps W creg' d' ci x
    (sts : rng_state Ts) (stc : rng_state Tc) kc ks,
  ssid_mode_ok sm -> fits mreg user pass -> fits m user pass' -> scrypt_ok P ->
  do_register R scrypt_params scrypt_to_params mreg Treg creg user pass P scrypt_hasher
    = (Ok (CRegistration u salt ps W), creg') ->
  lookup_verifier DB d' user = Some (W, salt, ps) ->
  lookup_long_term_keypair PDB d' user = Some (x, rmul (rbase R) x) ->
  run_login R D scrypt_params scrypt_params_of am Tc Ts sm m c s
    (fun sess u => generate_client_info_partial_aug R D DB PDB Ts sess u d' sts) user pass' scrypt_hasher ci stc = Ok (kc, ks) ->
  am = Explicit \/ kc = ks ->
  let l := fst (rng_fill Treg 16 (c_rng Treg creg)) in
  (same_hmac_key (user ++ str ":" ++ pass') (user ++ str ":" ++ pass) /\
   (length user + length pass < 64 -> length user + length pass' < 64 -> up_to_zeros pass' pass)) \/
  scrypt_collision scalar32 P (user ++ str ":" ++ pass', l) (user ++ str ":" ++ pass, l) \/
  let ssid := agreed_ssid D Tc Ts sm c s in
  lucky R D (deciding am) (login_input R ssid (rmul (rbase R) (smult (scrypt_w user pass' l P) x)) ci)
    (login_input R ssid (rmul (rbase R) (smult (scrypt_w user pass l P) x)) ci) (drawn Ts sts) (drawn Tc stc).
Proof.
  intros DB PDB Treg Tc Ts am creg c s sm mreg m user pass pass' P u salt ps W creg' d' ci x sts stc kc ks
    Hm HFr HF HP Hreg Hl Hk0 Hr Hk l.
  destruct (register_scrypt R Treg creg mreg user pass P HP HFr) as (ps0 & _ & Hp & _ & E). fold l in E.
  rewrite E in Hreg. injection Hreg as <- <- <- <- <-.
  destruct (C69_login_partial_aug R L D Dlen scrypt_params scrypt_params_of DB PDB Tc Ts am sm m c s user pass' scrypt_hasher d' _ _ _ x sts ci stc kc ks
    Hm HF (proj1 (proj2 (salt_generate_eq Treg (c_rng Treg creg)))) Hl Hk0 Hr Hk) as (P' & w' & Hp' & Hw' & H).
  rewrite Hp in Hp'. injection Hp' as <-. change (spec_salt Treg (c_rng Treg creg)) with (b64_encode l) in Hw'.
  rewrite spec_w_scrypt in Hw'. injection Hw' as <-.
  destruct H as [Ew|H].
  - apply (rmul_inj L (rbase R) _ _ (rl_base R L)) in Ew.
    destruct (scrypt_inv scalar32 P (userpass user pass', l) (userpass user pass, l) HP (eq_sym Ew)) as [C|[K _]];
      [right; left; exact C|left]. split; [exact K|]. intros H1 H2. now apply (short_same user pass' pass).
  - right. right. cbv zeta in *. rewrite (prs_client_eq R L), (rmul_mul L) in H. exact H.
Qed.

(** And whoever has the same HMAC key is accepted. *)
Theorem C88_same_key_partial_aug_refuted :
  forall (DB : Database R) (PDB : PartialAugDatabase R (db DB)) Treg Tc Ts am (creg : AuCPaceClient Treg) (c : AuCPaceClient Tc)
    (s : AuCPaceServer Ts) sm mreg m user pass pass' P u salt ps W creg' d' ci x
    (sts : rng_state Ts) (stc : rng_state Tc),
  ssid_mode_ok sm -> fits mreg user pass -> fits m user pass' -> scrypt_ok P ->
  same_hmac_key (user ++ str ":" ++ pass') (user ++ str ":" ++ pass) ->
  do_register R scrypt_params scrypt_to_params mreg Treg creg user pass P scrypt_hasher
    = (Ok (CRegistration u salt ps W), creg') ->
  lookup_verifier DB d' user = Some (W, salt, ps) ->
  lookup_long_term_keypair PDB d' user = Some (x, rmul (rbase R) x) ->
  let w := scrypt_w user pass (fst (rng_fill Treg 16 (c_rng Treg creg))) P in
  let ssid := agreed_ssid D Tc Ts sm c s in
  let ya := drawn Ts sts in
  let yb := drawn Tc stc in
  run_login R D scrypt_params scrypt_params_of am Tc Ts sm m c s
    (fun sess u => generate_client_info_partial_aug R D DB PDB Ts sess u d' sts) user pass' scrypt_hasher ci stc
  = honest_outcome R (honest_points R D ssid w x ci ya yb) (honest_key R D ssid w x ci ya yb).
Proof.
  intros DB PDB Treg Tc Ts am creg c s sm mreg m user pass pass' P u salt ps W creg' d' ci x sts stc Hm HFr HF HP K Hreg Hl Hk0 w ssid ya yb.
  destruct (register_scrypt R Treg creg mreg user pass P HP HFr) as (ps0 & _ & Hp & _ & E).
  rewrite E in Hreg. injection Hreg as <- <- <- <- <-.
  set (l := fst (rng_fill Treg 16 (c_rng Treg creg))) in *.
  apply (honest_login_generic R L D Dlen scrypt_params scrypt_params_of DB Tc Ts am sm m c s
    (fun sess u => generate_client_info_partial_aug R D DB PDB Ts sess u d' sts) user pass' P scrypt_hasher d' w (b64_encode l) ps0 x sts ci stc);
    try assumption.
  - exact (proj1 (proj2 (salt_generate_eq Treg (c_rng Treg creg)))).
  - rewrite spec_w_scrypt. unfold w, scrypt_w. do 2 f_equal. now apply scrypt_same_key.
  - intros sess. unfold generate_client_info_partial_aug. rewrite Hk0. reflexivity.
Qed.

(** In the strong variant only the registered password is accepted. *)
Theorem C88_wrong_password_partial_strong :
  forall (DB : StrongDatabase R) (PDB : PartialAugDatabase R (sdb DB)) Treg Tc Ts am (creg : AuCPaceClient Treg) (c : AuCPaceClient Tc)
    (s : AuCPaceServer Ts) sm mreg m user pass pass' P u q ps W creg' d' ci x
    (sts : rng_state Ts) (stb stc : rng_state Tc) fuel kc ks,
  ssid_mode_ok sm -> fits mreg user pass -> fits m user pass' -> scrypt_ok P ->
  do_register_strong R D scrypt_params scrypt_to_params mreg Treg creg user pass P scrypt_hasher
    = (Ok (CStrongRegistration u q ps W), creg') ->
  lookup_verifier_strong DB d' user = Some (W, q, ps) ->
  lookup_long_term_keypair PDB d' user = Some (x, rmul (rbase R) x) ->
  run_login_strong R D scrypt_params scrypt_params_of am Tc Ts sm m c s
    (fun sess u U => generate_client_info_partial_strong R D DB PDB Ts sess u U d' sts) fuel user pass' scrypt_hasher ci stb stc
    = Some (Ok (kc, ks)) ->
  am = Explicit \/ kc = ks ->
  let salt_of p := rcompress R (rmul (spec_Z R D user p) q) in
  pass' = pass \/
  scrypt_collision scalar32 P (user ++ str ":" ++ pass', salt_of pass') (user ++ str ":" ++ pass, salt_of pass) \/
  collision (fun m => rfrom_uniform R (D m)) (word x01 ++ user ++ pass') (word x01 ++ user ++ pass) \/
  let ssid := agreed_ssid D Tc Ts sm c s in
  lucky R D (deciding am) (login_input R ssid (rmul (rbase R) (smult (scrypt_w user pass' (salt_of pass') P) x)) ci)
    (login_input R ssid (rmul (rbase R) (smult (scrypt_w user pass (salt_of pass) P) x)) ci)
    (drawn Ts sts) (drawn Tc stc).
Proof.
  intros DB PDB Treg Tc Ts am creg c s sm mreg m user pass pass' P u q ps W creg' d' ci x sts stb stc fuel kc ks
    Hm HFr HF HP Hreg Hl Hk0 Hr Hk salt_of.
  apply do_register_strong_ok in Hreg; [|exact L|exact HFr]. destruct Hreg as (-> & Ht & w & Hw & ->).
  destruct (C68_roundtrip P HP) as (ps0 & Ht0 & _ & Hp). rewrite Ht in Ht0. injection Ht0 as <-.
  change (strong_salt R D user pass q) with (b64_encode (salt_of pass)) in Hw. rewrite spec_w_scrypt in Hw. injection Hw as <-.
  assert (HI : forall sess U, generate_client_info_partial_strong R D DB PDB Ts sess user U d' sts
    = cpace_substep R Ts sess (generate_prs_strong R D DB Ts sess user U d' sts x (spec_X R x))).
  { intros sess U. unfold generate_client_info_partial_strong. rewrite Hk0. reflexivity. }
  destruct (login_strong_generic R L D Dlen scrypt_params scrypt_params_of DB Tc Ts am sm m c s _ fuel user user pass' scrypt_hasher d' _ q ps
    x sts ci stb stc kc ks Hm HF Hl HI Hr Hk) as (Hq & P' & w' & Hp' & Hw' & H).
  rewrite Hp in Hp'. injection Hp' as <-.
  change (spec_w scrypt_hasher user pass' (b64_encode (salt_of pass')) P = Ok w') in Hw'. rewrite spec_w_scrypt in Hw'. injection Hw' as <-.
  destruct H as [Ew|H].
  - apply (rmul_inj L (rbase R) _ _ (rl_base R L)) in Ew.
    destruct (scrypt_inv scalar32 P (userpass user pass', salt_of pass') (userpass user pass, salt_of pass) HP (eq_sym Ew)) as [C|[_ Es]];
      [right; left; exact C|]. cbn [snd] in Es.
    destruct (bytes_dec pass' pass) as [Ep|Np]; [left; exact Ep|]. right; right; left.
    split; [intros EE; apply Np; now do 2 apply app_inv_head in EE|].
    unfold salt_of in Es. apply (rcompress_inj L) in Es. exact (rmul_cancel R L _ _ q Hq Es).
  - do 3 right. cbv zeta in *. rewrite (prs_client_eq R L) in H. unfold spec_W in H. rewrite (rmul_mul L) in H. exact H.
Qed.
End Passwords.
Print Assumptions C88_wrong_password_partial_aug.
Print Assumptions C88_same_key_partial_aug_refuted.
Print Assumptions C88_wrong_password_partial_strong.

(** ** Cases *)

(** Databases as the theorems require exist, and they store the key pair of a registered user. *)
Example C87_case_databases :
  db_lawful (AssocDb Ristretto255) /\ pdb_lawful (AssocPartial Ristretto255) (lookup_verifier (AssocDb Ristretto255)) /\
  sdb_lawful (AssocStrongDb Ristretto255) /\ pdb_lawful (AssocPartial Ristretto255) (lookup_verifier_strong (AssocStrongDb Ristretto255)) /\
  forall d u salt uad W ps x X, exists d',
    store_long_term_keypair (AssocPartial Ristretto255) (store_verifier (AssocDb Ristretto255) d u salt uad W ps) u x X = Ok d'.
Proof.
  generalize Ristretto255. intros R.
  split; [apply assoc_db_lawful|]. split; [apply assoc_partial_lawful|]. split; [apply assoc_strong_db_lawful|].
  split; [apply assoc_partial_lawful|].
  intros d u salt uad W ps x X. cbn [AssocPartial store_long_term_keypair AssocDb store_verifier add_verifier a_verifiers].
  rewrite assoc_same. eexists. reflexivity.
Qed.

(** Over the toy group, with the cheapest parameters of scrypt: logins with the password, with the password and a
    zero byte, and with another one. *)
Section Over.
Context (R : RGroup) (D : bytes -> bytes) (client : AuCPaceClient tape_rng) (server : AuCPaceServer tape_rng).
Context (treg tblind tinfo tkey : bytes) (user pass pass' ci : bytes).
Definition partial_over : res (bytes * bytes) :=
  match fst (register_alloc R scrypt_params scrypt_to_params tape_rng (client_new tape_rng treg) user pass cheap scrypt_hasher) with
  | Ok (CRegistration u salt ps W) =>
      let '((x, X), _) := generate_long_term_keypair R tape_rng server in
      match store_long_term_keypair (AssocPartial R) (store_verifier (AssocDb R) empty_db u salt None W ps) u x X with
      | Ok d => run_login R D scrypt_params scrypt_params_of Explicit tape_rng tape_rng (ByNonces 16) AllocBuf client server
          (fun sess u => generate_client_info_partial_aug R D (AssocDb R) (AssocPartial R) tape_rng sess u d tinfo)
          user pass' scrypt_hasher ci tkey
      | _ => Err HashEmpty
      end
  | _ => Err HashEmpty
  end.
Definition strong_over : option (res (bytes * bytes)) :=
  match fst (register_alloc_strong R D scrypt_params scrypt_to_params tape_rng (client_new tape_rng treg) user pass cheap scrypt_hasher) with
  | Ok (CStrongRegistration u q ps W) =>
      let d := store_verifier_strong (AssocStrongDb R) empty_db u None W q ps in
      run_login_strong R D scrypt_params scrypt_params_of Explicit tape_rng tape_rng (ByNonces 16) AllocBuf client server
        (fun sess u U => generate_client_info_strong R D (AssocStrongDb R) tape_rng sess u U d tinfo)
        3 user pass' scrypt_hasher ci tblind tkey
  | _ => None
  end.
End Over.
Definition scrypt_login_partial (pass' : bytes) : res (bytes * bytes) :=
  partial_over ToyGroup toyD toy_client toy_server (toy_tape 3001 3002) (toy_tape 6001 6002) (toy_tape 7001 7002) alice secret pass' channel.
Definition scrypt_login_strong (pass' : bytes) : option (res (bytes * bytes)) :=
  strong_over ToyGroup toyD toy_client toy_server (toy_tape 3001 3002) (toy_tape 0 5002) (toy_tape 6001 6002) (toy_tape 7001 7002)
    alice secret pass' channel.
Check (test (agreed (scrypt_login_partial secret)) true).
Check (test (agreed (scrypt_login_partial (secret ++ [x00]))) true).
Check (test (auth_failed (scrypt_login_partial (secret ++ [x01]))) true).
Check (test (option_map agreed (scrypt_login_strong secret)) (Some true)).
Check (test (option_map auth_failed (scrypt_login_strong (secret ++ [x00]))) (Some true)).
