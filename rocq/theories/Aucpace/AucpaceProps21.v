(** * AuCPace: the default client and server (C87), and which passwords scrypt tells apart (C88). *)
From Coq Require Import ZArith Lia List.
From Verif Require Import Base.Bytes Base.Outcome Base.Rng Base.RustTest Base.Kat Hash.Hash.
From Verif Require Import Curve.Scalar25519.
From Verif Require Import Aucpace.RistrettoGroup Aucpace.Ristretto255Group Aucpace.PwHash Aucpace.AucpaceModel Aucpace.AucpaceSpec
  Aucpace.AucpaceRun Aucpace.AucpaceDb Aucpace.AucpaceToy Aucpace.PwHashProofs Aucpace.AucpaceProofs Aucpace.AucpaceProps
  Aucpace.ScryptParams Aucpace.TcpExample Aucpace.Scrypt Aucpace.ScryptProofs Aucpace.AucpaceProps8 Aucpace.AucpaceProps9 Aucpace.AucpaceProps13
  Aucpace.Base64Spec Aucpace.PhcSpec Aucpace.Wire Aucpace.AucpaceProps14.
Local Open Scope nat_scope.

(** The scalar of 32 bytes, and the scalar [w] of a name, a password and the bytes of a salt. *)
Definition scalar32 (b : bytes) : scalar := sof (Z.of_N (le_val b)).
Definition scrypt_w (user pass l : bytes) (P : scrypt_params) : scalar := scalar32 (scrypt_raw (userpass user pass) l P 32).

(** ** C87: the default client hashes with scrypt *)

(** scrypt fails for salts that are not base64, with an error, and for no others; its hash has 32 bytes. *)
Theorem C87_hasher :
  forall password P salt,
  (forall l, is_base64 l salt -> scrypt_hasher password P salt = Ok (Some (scrypt_raw password l P 32)) /\
     length (scrypt_raw password l P 32) = 32) /\
  ((forall l, ~ is_base64 l salt) -> scrypt_hasher password P salt = Err B64Encoding).
Proof.
  intros password P salt. unfold scrypt_hasher. split.
  - intros l Hl. apply C80_base64 in Hl. apply b64_decode_iff in Hl. rewrite Hl. split; [reflexivity|apply scrypt_length].
  - intros H. destruct (b64_decode salt) as [l|] eqn:E; [|reflexivity]. elim (H l). apply C80_base64, b64_decode_iff, E.
Qed.
Print Assumptions C87_hasher.
(** A salt a message may carry that scrypt refuses: one character too many. *)
Example C87_case_salt : salt_from_b64 (str "c2FsdA") = Ok (str "c2FsdA") /\ is_base64 (str "salt") (str "c2FsdA") /\
  salt_from_b64 (str "c2FsdAAAA") = Ok (str "c2FsdAAAA") /\ (forall l, ~ is_base64 l (str "c2FsdAAAA")).
Proof.
  split; [reflexivity|]. split; [apply C80_base64; reflexivity|]. split; [reflexivity|].
  intros l H. apply C80_base64, b64_decode_iff in H. discriminate H.
Qed.

Lemma scrypt_hasher_32 : forall m p b, exists o, scrypt_hasher m p (b64_encode b) = Ok (Some o) /\ length o = 32.
Proof.
  intros m p b. destruct (proj1 (C87_hasher m p (b64_encode b)) b) as [E Hl]; [now apply C80_base64|].
  eexists. split; [exact E|exact Hl].
Qed.
Lemma spec_w_scrypt user pass l P : spec_w scrypt_hasher user pass (b64_encode l) P = Ok (scrypt_w user pass l P).
Proof.
  unfold spec_w. destruct (proj1 (C87_hasher (userpass user pass) P (b64_encode l)) l) as [-> Hl]; [now apply C80_base64|].
  cbn [omap_err obind spec_scalar]. rewrite Hl. reflexivity.
Qed.

Section Group.
Context (R : RGroup) (L : rgroup_laws R) (D : bytes -> bytes) (Dlen : forall m, length (D m) = 64).

Lemma register_scrypt T (c : AuCPaceClient T) m user pass P : scrypt_ok P -> fits m user pass ->
  let l := fst (rng_fill T 16 (c_rng T c)) in
  exists ps, params_valid ps /\ scrypt_params_of ps = Ok P /\ scrypt_to_params P = Ok ps /\
  do_register R scrypt_params scrypt_to_params m T c user pass P scrypt_hasher
  = (Ok (CRegistration user (b64_encode l) ps (rmul (rbase R) (scrypt_w user pass l P))),
     {| c_rng := snd (rng_fill T 16 (c_rng T c)) |}).
Proof.
  intros HP HF l. destruct (C68_roundtrip P HP) as (ps & E & V & B). exists ps.
  split; [exact V|]. split; [exact B|]. split; [exact E|]. rewrite do_register_eq by exact HF.
  change (spec_salt T (c_rng T c)) with (b64_encode l). rewrite spec_w_scrypt. cbn [obind]. rewrite E. reflexivity.
Qed.

(** A client without the right salt: what [generate_cpace] does with any salt and parameters of a message. *)
Lemma generate_cpace_scrypt m ssid user pass x_pub salt P : fits m user pass -> salt_valid salt ->
  let c := {| cal_ssid := ssid; cal_username := user; cal_password := pass |} in
  let r := do_generate_cpace R scrypt_params m c x_pub salt P scrypt_hasher in
  is_identity x_pub = false ->
  (forall l, is_base64 l salt -> r = Ok {| ccs_ssid := ssid; ccs_prs := rcompress R (rmul x_pub (scrypt_w user pass l P)) |}) /\
  ((forall l, ~ is_base64 l salt) -> r = Err (PasswordHashing B64Encoding)).
Proof.
  intros HF V c r Hx. unfold r, c. rewrite do_generate_cpace_eq by assumption. rewrite Hx. split.
  - intros l Hl. apply C80_base64 in Hl. subst salt. now rewrite spec_w_scrypt.
  - intros H. unfold spec_w. rewrite (proj2 (C87_hasher _ _ _) H). reflexivity.
Qed.

Lemma login_scrypt (DB : Database R) T Tc Ts (creg : AuCPaceClient T) (c : AuCPaceClient Tc) (s : AuCPaceServer Ts)
    am sm m user pass pass' P d ps ci (sts : rng_state Ts) (stc : rng_state Tc) :
  ssid_mode_ok sm -> fits m user pass' -> scrypt_params_of ps = Ok P ->
  let l := fst (rng_fill T 16 (c_rng T creg)) in
  let w := scrypt_w user pass l P in
  lookup_verifier DB d user = Some (rmul (rbase R) w, b64_encode l, ps) ->
  scrypt_w user pass' l P = w ->
  let ssid := agreed_ssid D Tc Ts sm c s in
  let x := drawn Ts sts in
  let ya := drawn Ts (after Ts 64 sts) in
  let yb := drawn Tc stc in
  run_login R D scrypt_params scrypt_params_of am Tc Ts sm m c s
    (fun sess u => generate_client_info R D DB Ts sess u d sts) user pass' scrypt_hasher ci stc
  = honest_outcome R (honest_points R D ssid w x ci ya yb) (honest_key R D ssid w x ci ya yb).
Proof.
  intros Hm HF Hp l w Hl Hw ssid x ya yb.
  apply (honest_login_generic R L D Dlen scrypt_params scrypt_params_of DB Tc Ts am sm m c s
    (fun sess u => generate_client_info R D DB Ts sess u d sts) user pass' P scrypt_hasher d w (b64_encode l) ps x (after Ts 64 sts) ci stc);
    try assumption.
  - exact (proj1 (proj2 (salt_generate_eq T (c_rng T creg)))).
  - rewrite spec_w_scrypt. now rewrite Hw.
  - intros sess. apply generate_client_info_eq.
Qed.
End Group.

(** The default client and server (aucpace/src/lib.rs:111-117): SHA-512, scrypt, nonces of 16 bytes, over
    ristretto255.  A registration succeeds for every name and password, with all parameters scrypt accepts. *)
Theorem C87_register :
  forall T (c : AuCPaceClient T) user pass P, scrypt_ok P ->
  let l := fst (rng_fill T 16 (c_rng T c)) in
  exists ps, params_valid ps /\ scrypt_params_of ps = Ok P /\
  register_alloc Ristretto255 scrypt_params scrypt_to_params T c user pass P scrypt_hasher
  = (Ok (CRegistration user (b64_encode l) ps (rmul (rbase Ristretto255) (scrypt_w user pass l P))),
     {| c_rng := snd (rng_fill T 16 (c_rng T c)) |}).
Proof.
  intros T c user pass P HP l. destruct (register_scrypt Ristretto255 T c AllocBuf user pass P HP I) as (ps & V & B & _ & E).
  exists ps. split; [exact V|]. split; [exact B|exact E].
Qed.
Print Assumptions C87_register.

(** The login that follows, with any database that returns the record it has stored and either kind of
    authentication, ends with one key on both sides, or with [IllegalPointError] when one of the three secret
    scalars is zero or the generator of the CPace substep is the identity. *)
Theorem C87_login :
  forall (DB : Database Ristretto255) T Tc Ts (creg : AuCPaceClient T) (c : AuCPaceClient Tc) (s : AuCPaceServer Ts)
    am sm user pass P d ci (sts : rng_state Ts) (stc : rng_state Tc),
  (forall d u salt uad W ps, lookup_verifier DB (store_verifier DB d u salt uad W ps) u = Some (W, salt, ps)) ->
  ssid_mode_ok sm -> scrypt_ok P ->
  let l := fst (rng_fill T 16 (c_rng T creg)) in
  exists u salt ps W creg',
  register_alloc Ristretto255 scrypt_params scrypt_to_params T creg user pass P scrypt_hasher
    = (Ok (CRegistration u salt ps W), creg') /\
  forall uad,
  let d' := store_verifier DB d u salt uad W ps in
  let run := run_login Ristretto255 sha512 scrypt_params scrypt_params_of am Tc Ts sm AllocBuf c s
    (fun sess u => generate_client_info Ristretto255 sha512 DB Ts sess u d' sts) user pass scrypt_hasher ci stc in
  let x := drawn Ts sts in
  let ok := x <> szero /\ drawn Ts (after Ts 64 sts) <> szero /\ drawn Tc stc <> szero /\
    spec_G Ristretto255 sha512 (agreed_ssid sha512 Tc Ts sm c s) (spec_PRS Ristretto255 (scrypt_w user pass l P) x) ci
      <> rzero Ristretto255 in
  (ok <-> exists key, length key = 64 /\ run = Ok (key, key)) /\ (~ ok <-> run = Err IllegalPointError).
Proof.
  pose proof ristretto255_laws as L. generalize dependent Ristretto255. intros R L.
  intros DB T Tc Ts creg c s am sm user pass P d ci sts stc HDB Hm HP l.
  destruct (register_scrypt R T creg AllocBuf user pass P HP I) as (ps & _ & B & _ & E).
  exists user, (b64_encode l), ps, (rmul (rbase R) (scrypt_w user pass l P)), {| c_rng := snd (rng_fill T 16 (c_rng T creg)) |}.
  split; [exact E|]. intros uad d' run x ok.
  pose proof (login_scrypt R L sha512 sha512_length DB T Tc Ts creg c s am sm AllocBuf user pass pass P d' ps ci sts stc
    Hm I B (HDB _ _ _ _ _ _) eq_refl) as H.
  cbv zeta in H. fold l in H. fold x in H. change (run = honest_outcome R (honest_points R sha512 (agreed_ssid sha512 Tc Ts sm c s)
    (scrypt_w user pass l P) x ci (drawn Ts (after Ts 64 sts)) (drawn Tc stc))
    (honest_key R sha512 (agreed_ssid sha512 Tc Ts sm c s) (scrypt_w user pass l P) x ci (drawn Ts (after Ts 64 sts)) (drawn Tc stc))) in H.
  assert (HO : existsb is_identity (honest_points R sha512 (agreed_ssid sha512 Tc Ts sm c s)
    (scrypt_w user pass l P) x ci (drawn Ts (after Ts 64 sts)) (drawn Tc stc)) = false <-> ok).
  { unfold honest_points. cbn [existsb]. rewrite !Bool.orb_false_iff, !(is_identity_neq L). unfold spec_X.
    rewrite !(rmul_identity L). unfold ok. pose proof (rl_base R L) as HB. clear - HB. split.
    - intros (H1 & H2 & H3 & _). repeat split; intros E; [apply H1|apply H2|apply H3|apply H2]; auto.
    - intros (H1 & H2 & H3 & H4). repeat split; intros [E|E]; auto. }
  unfold honest_outcome in H. clearbody run ok.
  destruct (existsb is_identity _); rewrite H.
  - split; split.
    + intros K. apply HO in K. discriminate K.
    + intros (key & _ & K). discriminate K.
    + intros _. reflexivity.
    + intros _ K. apply HO in K. discriminate K.
  - pose proof (proj1 HO eq_refl) as K. split; split.
    + intros _. eexists. split; [|reflexivity]. apply sha512_length.
    + intros _. exact K.
    + intros N. elim (N K).
    + intros C. discriminate C.
Qed.
Print Assumptions C87_login.

(** What the default client does in the augmentation layer with any public key, salt and parameters. *)
Theorem C87_augmentation :
  forall ssid user pass x_pub salt P, phc_salt salt -> x_pub <> rzero Ristretto255 ->
  let c := {| cal_ssid := ssid; cal_username := user; cal_password := pass |} in
  let r := generate_cpace_alloc Ristretto255 scrypt_params c x_pub salt P scrypt_hasher in
  (forall l, is_base64 l salt ->
     r = Ok {| ccs_ssid := ssid; ccs_prs := rcompress Ristretto255 (rmul x_pub (scrypt_w user pass l P)) |}) /\
  ((forall l, ~ is_base64 l salt) -> r = Err (PasswordHashing B64Encoding)).
Proof.
  pose proof ristretto255_laws as L. generalize dependent Ristretto255. intros R L.
  intros ssid user pass x_pub salt P V Hx c r.
  apply (generate_cpace_scrypt R AllocBuf ssid user pass x_pub salt P I); [|now apply (is_identity_neq L)].
  exact (proj2 (proj1 (salt_from_b64_ok salt salt) (proj2 (C48_salts salt salt) (conj eq_refl V)))).
Qed.
Print Assumptions C87_augmentation.

(** C79 for the program as it is: the tests of the crate with SHA-512, scrypt and ristretto255. *)
Theorem C87_tests :
  forall Tc Ts (crng crng' rng_key : rng_state Tc) (srng srng' rng_info : rng_state Ts) am pre,
  let t := test_key_agreement Ristretto255 sha512 Tc Ts scrypt_hasher crng crng' rng_key srng srng' rng_info am pre in
  let ssid := agreed_ssid sha512 Tc Ts (ssid_of pre) {| c_rng := crng' |} {| s_rng := srng'; s_secret := s_secret Ts (server_new Ts srng) |} in
  let x := drawn Ts rng_info in
  let w := scrypt_w USERNAME PASSWORD (fst (rng_fill Tc 16 crng)) recommended in
  let ok := x <> szero /\ drawn Ts (after Ts 64 rng_info) <> szero /\ drawn Tc rng_key <> szero /\
            spec_G Ristretto255 sha512 ssid (spec_PRS Ristretto255 w x) CI <> rzero Ristretto255 in
  (passes t <-> ok) /\ (t = Err IllegalPointError <-> ~ ok) /\ t <> Panic.
Proof.
  intros Tc Ts crng crng' rng_key srng srng' rng_info am pre.
  destruct (C79_aucpace_plain Ristretto255 ristretto255_laws sha512 sha512_length Tc Ts scrypt_hasher scrypt_hasher_32
    crng crng' rng_key srng srng' rng_info am pre) as (w & Hw & H).
  assert (E : w = scrypt_w USERNAME PASSWORD (fst (rng_fill Tc 16 crng)) recommended).
  { unfold spec_salt in Hw. rewrite spec_w_scrypt in Hw. revert Hw. clear. intros Hw. injection Hw as <-. reflexivity. }
  rewrite E in H. exact H.
Qed.
Print Assumptions C87_tests.

(** ** C88: which passwords the default client tells apart *)

(** Two passwords, for one salt, have the same hash if they are the same HMAC key; if they have not, equal
    hashes, with equal salts or not, exhibit a collision. *)
Theorem C88_hash :
  forall password password' l l' P, scrypt_ok P ->
  (same_hmac_key password password' -> scrypt_raw password l P 32 = scrypt_raw password' l P 32) /\
  (scrypt_raw password l P 32 = scrypt_raw password' l' P 32 ->
   (same_hmac_key password password' /\ l = l') \/ scrypt_collision (fun b => b) P (password, l) (password', l')).
Proof.
  intros password password' l l' P HP. split; [apply scrypt_same_key|].
  intros E. destruct (scrypt_inv (fun b => b) P (password, l) (password', l') HP E) as [C|K]; [now right|now left].
Qed.
Print Assumptions C88_hash.

(** With names and passwords of at most 63 bytes together, being the same key is ending with zeros. *)
Lemma short_same user pass pass' : length user + length pass < 64 -> length user + length pass' < 64 ->
  same_hmac_key (userpass user pass) (userpass user pass') <-> up_to_zeros pass pass'.
Proof.
  intros H H'. unfold same_hmac_key, short_key, userpass.
  destruct (Nat.ltb_spec 64 (length (user ++ str ":" ++ pass))) as [C|_]; [rewrite !app_length in C; cbn in C; lia|].
  destruct (Nat.ltb_spec 64 (length (user ++ str ":" ++ pass'))) as [C|_]; [rewrite !app_length in C; cbn in C; lia|].
  unfold up_to_zeros. split; intros (n & E); exists n.
  - rewrite <- !app_assoc in E. destruct E as [E|E]; do 2 apply app_inv_head in E; [left|right]; exact E.
  - destruct E as [-> | ->]; [left|right]; now rewrite <- !app_assoc.
Qed.

Section Passwords.
Context (R : RGroup) (L : rgroup_laws R) (D : bytes -> bytes) (Dlen : forall m, length (D m) = 64).

(** C88: the user registered with [pass].  Who logs in with [pass'] has the same HMAC key, or one of the
    collisions is exhibited: of scrypt, whose last digest is reduced to a scalar, or one of the three of CPace. *)
Theorem C88_wrong_password :
  forall (DB : Database R) Treg Tc Ts am (creg : AuCPaceClient Treg) (c : AuCPaceClient Tc)
    (s : AuCPaceServer Ts) sm mreg m user pass pass' P u salt ps W creg' d uad ci
    (sts : rng_state Ts) (stc : rng_state Tc) kc ks,
  ssid_mode_ok sm -> fits mreg user pass -> fits m user pass' -> scrypt_ok P ->
  do_register R scrypt_params scrypt_to_params mreg Treg creg user pass P scrypt_hasher
    = (Ok (CRegistration u salt ps W), creg') ->
  let d' := store_verifier DB d u salt uad W ps in
  lookup_verifier DB d' user = Some (W, salt, ps) ->
  run_login R D scrypt_params scrypt_params_of am Tc Ts sm m c s
    (fun sess u => generate_client_info R D DB Ts sess u d' sts) user pass' scrypt_hasher ci stc = Ok (kc, ks) ->
  am = Explicit \/ kc = ks ->
  let l := fst (rng_fill Treg 16 (c_rng Treg creg)) in
  (same_hmac_key (user ++ str ":" ++ pass') (user ++ str ":" ++ pass) /\
   (length user + length pass < 64 -> length user + length pass' < 64 -> up_to_zeros pass' pass)) \/
  scrypt_collision scalar32 P (user ++ str ":" ++ pass', l) (user ++ str ":" ++ pass, l) \/
  let ssid := agreed_ssid D Tc Ts sm c s in
  let x := drawn Ts sts in
  lucky R D (deciding am) (login_input R ssid (rmul (rbase R) (smult (scrypt_w user pass' l P) x)) ci)
    (login_input R ssid (rmul (rbase R) (smult (scrypt_w user pass l P) x)) ci) (drawn Ts (after Ts 64 sts)) (drawn Tc stc).
Proof.
  intros DB Treg Tc Ts am creg c s sm mreg m user pass pass' P u salt ps W creg' d uad ci sts stc kc ks
    Hm HFr HF HP Hreg d' Hl Hr Hk l.
  destruct (register_scrypt R Treg creg mreg user pass P HP HFr) as (ps0 & _ & Hp & _ & E). fold l in E.
  rewrite E in Hreg. injection Hreg as <- <- <- <- <-.
  destruct (C69_login R L D Dlen scrypt_params scrypt_params_of DB Tc Ts am sm m c s user pass' scrypt_hasher d' _ _ _ sts ci stc kc ks
    Hm HF (proj1 (proj2 (salt_generate_eq Treg (c_rng Treg creg)))) Hl Hr Hk) as (P' & w' & Hp' & Hw' & H).
  rewrite Hp in Hp'. injection Hp' as <-. change (spec_salt Treg (c_rng Treg creg)) with (b64_encode l) in Hw'.
  rewrite spec_w_scrypt in Hw'. injection Hw' as <-.
  destruct H as [Ew|H].
  - apply (rmul_inj L (rbase R) _ _ (rl_base R L)) in Ew.
    destruct (scrypt_inv scalar32 P (userpass user pass', l) (userpass user pass, l) HP (eq_sym Ew)) as [C|[K _]];
      [right; left; exact C|left]. split; [exact K|]. intros H1 H2. now apply (short_same user pass' pass).
  - right. right. cbv zeta in *. rewrite (prs_client_eq R L), (rmul_mul L) in H. exact H.
Qed.

(** That only the registered password is accepted is false: every other password that is the same key is
    accepted, ... *)
Theorem C88_same_key_refuted :
  forall (DB : Database R) Treg Tc Ts am (creg : AuCPaceClient Treg) (c : AuCPaceClient Tc)
    (s : AuCPaceServer Ts) sm mreg m user pass pass' P u salt ps W creg' d uad ci
    (sts : rng_state Ts) (stc : rng_state Tc),
  ssid_mode_ok sm -> fits mreg user pass -> fits m user pass' -> scrypt_ok P ->
  same_hmac_key (user ++ str ":" ++ pass') (user ++ str ":" ++ pass) ->
  do_register R scrypt_params scrypt_to_params mreg Treg creg user pass P scrypt_hasher
    = (Ok (CRegistration u salt ps W), creg') ->
  let d' := store_verifier DB d u salt uad W ps in
  lookup_verifier DB d' user = Some (W, salt, ps) ->
  let w := scrypt_w user pass (fst (rng_fill Treg 16 (c_rng Treg creg))) P in
  let ssid := agreed_ssid D Tc Ts sm c s in
  let x := drawn Ts sts in
  let ya := drawn Ts (after Ts 64 sts) in
  let yb := drawn Tc stc in
  run_login R D scrypt_params scrypt_params_of am Tc Ts sm m c s
    (fun sess u => generate_client_info R D DB Ts sess u d' sts) user pass' scrypt_hasher ci stc
  = honest_outcome R (honest_points R D ssid w x ci ya yb) (honest_key R D ssid w x ci ya yb).
Proof.
  intros DB Treg Tc Ts am creg c s sm mreg m user pass pass' P u salt ps W creg' d uad ci sts stc Hm HFr HF HP K Hreg d' Hl.
  destruct (register_scrypt R Treg creg mreg user pass P HP HFr) as (ps0 & _ & Hp & _ & E).
  rewrite E in Hreg. injection Hreg as <- <- <- <- <-.
  apply (login_scrypt R L D Dlen DB Treg Tc Ts creg c s am sm m user pass pass' P d' _ ci sts stc Hm HF Hp Hl).
  unfold scrypt_w. f_equal. now apply scrypt_same_key.
Qed.

(** ... in particular every short password with zeros appended. *)
Theorem C88_only_the_password_refuted :
  forall (DB : Database R) Treg Tc Ts am (creg : AuCPaceClient Treg) (c : AuCPaceClient Tc)
    (s : AuCPaceServer Ts) sm mreg m user pass n P u salt ps W creg' d uad ci
    (sts : rng_state Ts) (stc : rng_state Tc),
  let pass' := pass ++ repeat x00 (S n) in
  ssid_mode_ok sm -> fits mreg user pass -> fits m user pass' -> scrypt_ok P -> length user + length pass' < 64 ->
  do_register R scrypt_params scrypt_to_params mreg Treg creg user pass P scrypt_hasher
    = (Ok (CRegistration u salt ps W), creg') ->
  let d' := store_verifier DB d u salt uad W ps in
  lookup_verifier DB d' user = Some (W, salt, ps) ->
  let ssid := agreed_ssid D Tc Ts sm c s in
  let x := drawn Ts sts in
  let w := scrypt_w user pass (fst (rng_fill Treg 16 (c_rng Treg creg))) P in
  x <> szero -> drawn Ts (after Ts 64 sts) <> szero -> drawn Tc stc <> szero -> spec_G R D ssid (spec_PRS R w x) ci <> rzero R ->
  pass' <> pass /\ exists key, length key = 64 /\
  run_login R D scrypt_params scrypt_params_of am Tc Ts sm m c s
    (fun sess u => generate_client_info R D DB Ts sess u d' sts) user pass' scrypt_hasher ci stc = Ok (key, key).
Proof.
  intros DB Treg Tc Ts am creg c s sm mreg m user pass n P u salt ps W creg' d uad ci sts stc
    pass' Hm HFr HF HP Hlen Hreg d' Hl ssid x w Hx Hya Hyb HG.
  split.
  { intros E. apply (f_equal (@length _)) in E. unfold pass' in E. rewrite app_length, repeat_length in E. lia. }
  assert (K : same_hmac_key (user ++ str ":" ++ pass') (user ++ str ":" ++ pass)).
  { apply (short_same user pass' pass); [exact Hlen| |now exists (S n); left].
    unfold pass' in Hlen. rewrite app_length, repeat_length in Hlen. lia. }
  pose proof (C88_same_key_refuted DB Treg Tc Ts am creg c s sm mreg m user pass pass' P u salt ps W creg' d uad ci sts stc
    Hm HFr HF HP K Hreg Hl) as H. cbv zeta in H. fold d' in H. fold w in H. fold ssid in H. fold x in H.
  eexists. split; [|etransitivity; [exact H|apply (honest_outcome_ok R L)]].
  - apply Dlen.
  - pose proof (rl_base R L) as HB. unfold honest_points. intros Q [<-|[<-|[<-|[]]]].
    + intros E. apply (rmul_identity L) in E. destruct E; auto.
    + intros E. apply (rmul_identity L) in E. destruct E; auto.
    + intros E. apply (rmul_identity L) in E. destruct E; auto.
Qed.

(** In the strong variant the salt depends on the password too, and only the registered password is accepted. *)
Theorem C88_wrong_password_strong :
  forall (DB : StrongDatabase R) Treg Tc Ts am (creg : AuCPaceClient Treg) (c : AuCPaceClient Tc)
    (s : AuCPaceServer Ts) sm mreg m user pass pass' P u q ps W creg' d uad ci
    (sts : rng_state Ts) (stb stc : rng_state Tc) fuel kc ks,
  ssid_mode_ok sm -> fits mreg user pass -> fits m user pass' -> scrypt_ok P ->
  do_register_strong R D scrypt_params scrypt_to_params mreg Treg creg user pass P scrypt_hasher
    = (Ok (CStrongRegistration u q ps W), creg') ->
  let d' := store_verifier_strong DB d u uad W q ps in
  lookup_verifier_strong DB d' user = Some (W, q, ps) ->
  run_login_strong R D scrypt_params scrypt_params_of am Tc Ts sm m c s
    (fun sess u U => generate_client_info_strong R D DB Ts sess u U d' sts) fuel user pass' scrypt_hasher ci stb stc
    = Some (Ok (kc, ks)) ->
  am = Explicit \/ kc = ks ->
  let salt_of p := rcompress R (rmul (spec_Z R D user p) q) in
  pass' = pass \/
  scrypt_collision scalar32 P (user ++ str ":" ++ pass', salt_of pass') (user ++ str ":" ++ pass, salt_of pass) \/
  collision (fun m => rfrom_uniform R (D m)) (word x01 ++ user ++ pass') (word x01 ++ user ++ pass) \/
  let ssid := agreed_ssid D Tc Ts sm c s in
  let x := drawn Ts sts in
  lucky R D (deciding am) (login_input R ssid (rmul (rbase R) (smult (scrypt_w user pass' (salt_of pass') P) x)) ci)
    (login_input R ssid (rmul (rbase R) (smult (scrypt_w user pass (salt_of pass) P) x)) ci)
    (drawn Ts (after Ts 64 sts)) (drawn Tc stc).
Proof.
  intros DB Treg Tc Ts am creg c s sm mreg m user pass pass' P u q ps W creg' d uad ci sts stb stc fuel kc ks
    Hm HFr HF HP Hreg d' Hl Hr Hk salt_of.
  apply do_register_strong_ok in Hreg; [|exact L|exact HFr]. destruct Hreg as (-> & Ht & w & Hw & ->).
  destruct (C68_roundtrip P HP) as (ps0 & Ht0 & _ & Hp). rewrite Ht in Ht0. injection Ht0 as <-.
  change (strong_salt R D user pass q) with (b64_encode (salt_of pass)) in Hw. rewrite spec_w_scrypt in Hw. injection Hw as <-.
  destruct (login_strong_generic R L D Dlen scrypt_params scrypt_params_of DB Tc Ts am sm m c s _ fuel user user pass' scrypt_hasher d' _ q ps
    (drawn Ts sts) (after Ts 64 sts) ci stb stc kc ks Hm HF Hl
    (fun sess U => generate_client_info_strong_eq R D DB Ts sess user U d' sts) Hr Hk)
    as (Hq & P' & w' & Hp' & Hw' & H).
  rewrite Hp in Hp'. injection Hp' as <-.
  change (spec_w scrypt_hasher user pass' (b64_encode (salt_of pass')) P = Ok w') in Hw'. rewrite spec_w_scrypt in Hw'. injection Hw' as <-.
  destruct H as [Ew|H].
  - apply (rmul_inj L (rbase R) _ _ (rl_base R L)) in Ew.
    destruct (scrypt_inv scalar32 P (userpass user pass', salt_of pass') (userpass user pass, salt_of pass) HP (eq_sym Ew)) as [C|[_ Es]];
      [right; left; exact C|]. cbn [snd] in Es.
    destruct (bytes_dec pass' pass) as [Ep|Np]; [left; exact Ep|]. right; right; left.
    split; [intros EE; apply Np; now do 2 apply app_inv_head in EE|].
    unfold salt_of in Es. apply (rcompress_inj L) in Es. exact (rmul_cancel R L _ _ q Hq Es).
  - do 3 right. cbv zeta in *. rewrite (prs_client_eq R L) in H. unfold spec_W in H. rewrite (rmul_mul L) in H. exact H.
Qed.
End Passwords.
Print Assumptions C88_wrong_password.
Print Assumptions C88_same_key_refuted.
Print Assumptions C88_only_the_password_refuted.
Print Assumptions C88_wrong_password_strong.

(** ** Cases *)

(** The cheapest parameters scrypt accepts; the hasher over the toy group; the same login with a password, with
    the password and a zero byte, and with another one. *)
Definition cheap : scrypt_params := {| sp_log_n := 1; sp_r := 1; sp_p := 1 |}.
Example C87_case_cheap : scrypt_ok cheap /\ scrypt_ok recommended.
Proof. unfold scrypt_ok, cheap, recommended. cbn [sp_log_n sp_r sp_p]. repeat split. Qed.
Definition scrypt_login_over (R : RGroup) (D : bytes -> bytes) (treg tc ts tinfo tkey : bytes) (user pass pass' ci : bytes) : res (bytes * bytes) :=
  match fst (register_alloc R scrypt_params scrypt_to_params tape_rng (client_new tape_rng treg) user pass cheap scrypt_hasher) with
  | Ok (CRegistration u salt ps W) =>
      let d := store_verifier (SingleDb R) single_default u salt None W ps in
      run_login R D scrypt_params scrypt_params_of Explicit tape_rng tape_rng (ByNonces 16) AllocBuf
        (client_new tape_rng tc) (server_new tape_rng ts)
        (fun sess u => generate_client_info R D (SingleDb R) tape_rng sess u d tinfo) user pass' scrypt_hasher ci tkey
  | _ => Err HashEmpty
  end.
Definition scrypt_login (pass' : bytes) : res (bytes * bytes) :=
  scrypt_login_over ToyGroup toyD (toy_tape 3001 3002) (toy_tape 4001 4002) (toy_tape 5001 5002) (toy_tape 6001 6002)
    (toy_tape 7001 7002) alice secret pass' (str "ci").
Check (test (agreed (scrypt_login secret)) true).
Check (test (agreed (scrypt_login (secret ++ [x00]))) true).
Check (test (match scrypt_login (secret ++ [x01]) with Err MutualAuthFail => true | _ => false end) true).
Example C88_case_key : same_hmac_key (alice ++ str ":" ++ secret ++ [x00]) (alice ++ str ":" ++ secret) /\
  ~ same_hmac_key (alice ++ str ":" ++ secret ++ [x01]) (alice ++ str ":" ++ secret).
Proof.
  split; [exists 1; left; reflexivity|]. rewrite <- key_block_iff. intros E. vm_compute in E. discriminate E.
Qed.
Example C88_case_database : forall d u salt uad W ps,
  lookup_verifier (SingleDb ToyGroup) (store_verifier (SingleDb ToyGroup) d u salt uad W ps) u = Some (W, salt, ps).
Proof. intros. cbn. now rewrite bytes_eqb_refl. Qed.
