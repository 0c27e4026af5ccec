(** * C55: the crate with the group and digest it is used with, ristretto255 and SHA-512.

    The other properties are for any group with [rgroup_laws] and any digest; here nothing is left
    abstract but the password hasher, the database and the random generators. *)
From Coq Require Import ZArith Lia Field.
From Verif Require Import Base.Bytes Base.Outcome Base.Hex Base.Kat Base.Rng Hash.Hash.
From Verif.Curve Require Import Primes Abelian Scalar25519 Ed25519 Ed25519Points Ristretto Ristretto255.
From Verif Require Import Aucpace.RistrettoGroup Aucpace.Ristretto255Group Aucpace.PwHash Aucpace.AucpaceModel
  Aucpace.AucpaceSpec Aucpace.AucpaceRun Aucpace.AucpaceDb Aucpace.AucpaceProofs Aucpace.AucpaceToy
  Aucpace.AucpaceProps Aucpace.Ristretto255Fast.
Local Open Scope nat_scope.

(** The elements form a group of prime order: every element is a multiple of the base point by exactly
    one scalar, and addition of elements is addition of these scalars. *)
Theorem C55_prime_order_group :
  forall P : pt Ristretto255, exists! s : scalar, rmul (rbase Ristretto255) s = P.
Proof.
  intros P. destruct (rmul_onto ristretto255_laws (rbase Ristretto255) P (rl_base _ ristretto255_laws)) as [s Es].
  exists s. split; [exact Es|]. intros s' E. rewrite <- Es in E. symmetry.
  exact (rmul_inj ristretto255_laws (rbase Ristretto255) s' s (rl_base _ ristretto255_laws) E).
Qed.
Theorem C55_addition :
  forall a b : Z,
  radd Ristretto255 (rmul (rbase Ristretto255) (sof a)) (rmul (rbase Ristretto255) (sof b))
  = rmul (rbase Ristretto255) (sof (a + b)).
Proof.
  intros a b. rewrite <- !(smul_rmul ristretto255_laws). symmetry.
  exact (smul_add _ _ _ _ (rl_abelian _ ristretto255_laws) a b (rbase Ristretto255)).
Qed.

(** Encoding: a byte string decodes to an element exactly when it is that element's encoding, whatever
    its length. *)
Theorem C55_encoding :
  forall b (P : pt Ristretto255), rdecompress Ristretto255 b = Some P <-> b = rcompress Ristretto255 P.
Proof.
  intros b P. split.
  - intros E. symmetry. exact (ris_compress_decompress b P E).
  - intros ->. exact (ris_decompress_compress P).
Qed.

(** The code stores extended coordinates (X : Y : Z : T) of some point of the even subgroup; the encoding
    and the equality test do not depend on which point of the class it is, nor on the coordinates. *)
Theorem C55_representative :
  forall X Y Z T X' Y' Z' T' P Q,
  rep X Y Z T (ex P) (ey P) -> rep X' Y' Z' T' (ex Q) (ey Q) -> even_point P -> even_point Q ->
  fe_bytes (ris_encode_fe X Y Z T) = rcompress Ristretto255 (ris_class P) /\
  (ris_ct_eq X Y X' Y' = true <-> ris_class P = ris_class Q) /\
  (ris_class P = ris_class Q <-> fe_bytes (ris_encode_fe X Y Z T) = fe_bytes (ris_encode_fe X' Y' Z' T')).
Proof.
  intros X Y Z T X' Y' Z' T' P Q HP HQ EP EQ.
  assert (A : forall X Y Z T P, rep X Y Z T (ex P) (ey P) -> even_point P ->
            fe_bytes (ris_encode_fe X Y Z T) = ris_compress (ris_class P)).
  { clear. intros X Y Z T P HR HE. unfold ris_compress. rewrite rp_class, (ris_encode_class X Y Z T P HR HE). reflexivity. }
  split; [exact (A _ _ _ _ _ HP EP)|]. split; [exact (ris_ct_eq_class _ _ _ _ _ _ _ _ _ _ HP HQ EP EQ)|].
  rewrite (A _ _ _ _ _ HP EP), (A _ _ _ _ _ HQ EQ). split.
  - intros ->. reflexivity.
  - intros E. exact (@rcompress_inj Ristretto255 ristretto255_laws _ _ E).
Qed.

(** The map from 64 uniform bytes always gives an element whose encoding decodes. *)
Theorem C55_from_uniform :
  forall b, rdecompress Ristretto255 (rcompress Ristretto255 (rfrom_uniform Ristretto255 b))
            = Some (rfrom_uniform Ristretto255 b).
Proof. intros b. exact (ris_decompress_compress (ris_from_uniform b)). Qed.
(** The map of one half, said without an algorithm (RFC 9496 section 4.3.4).  With r = sqrt(-1) r0^2,
    D = (-1 - d r)(r + d) and N_s = (r + 1)(1 - d^2), s is the even root of N_s/D when that has a root, and
    otherwise the root of r N_s/D whose opposite is even (s = 0 when D = 0); the point is
    x = 2 s D / (sqrt(-d-1) (c (r - 1)(d - 1)^2 - D)), y = (1 - s^2)/(1 + s^2), with c = -1 or c = r. *)
Definition rfc_sqrt_m1 : fe := fof 19681161376707505956807079304988542015446066515923890162744021073123829784752.
Definition rfc_sqrt_ad_minus_one : fe :=
  fof 25063068953384623474111414158702152701244531502492656460079210482610430750235.
Definition map_image (r0 x y : fe) : Prop :=
  (let d := fopp (fof 121665) / fof 121666 in
   let r := rfc_sqrt_m1 * (r0 * r0) in
   let D := (fopp f1 - d * r) * (r + d) in
   let N_s := (r + f1) * (f1 - d * d) in
   exists s c,
   ((D <> f0 /\ D * (s * s) = N_s /\ Z.odd (fval s) = false /\ c = fopp f1) \/
    (D <> f0 /\ (forall z, D * (z * z) <> N_s) /\ D * (s * s) = r * N_s /\ Z.odd (fval (fopp s)) = false /\ c = r) \/
    (D = f0 /\ s = f0 /\ (c = fopp f1 \/ c = r))) /\
   x * (rfc_sqrt_ad_minus_one * (c * (r - f1) * ((d - f1) * (d - f1)) - D)) = (f1 + f1) * s * D /\
   y * (f1 + s * s) = f1 - s * s)%fe.
Lemma ed_d_quotient : ed_d = (fopp (fof 121665) / fof 121666)%fe.
Proof.
  assert (H : fof 121666 <> f0) by (intros E; apply (f_equal fval) in E; vm_compute in E; discriminate E).
  rewrite <- ed_d_eq. revert H. generalize ed_d (fof 121666). intros a b H. field. exact H.
Qed.
(** [P] is the image of a 32-byte half exactly when it satisfies these equations for the number that the
    half is in little-endian order, without its top bit; the whole map is the sum of the two images. *)
Theorem C55_map :
  forall b (P : epoint), P = ris_map (fe_of_bytes b) <->
  map_image (fof (Z.of_N (le_val b) mod 2 ^ 255)) (ex P) (ey P).
Proof.
  intros b P. unfold map_image. cbv zeta. rewrite <- ed_d_quotient.
  change (fof (Z.of_N (le_val b) mod 2 ^ 255)) with (fe_of_bytes b). generalize (fe_of_bytes b). intros r0.
  pose proof (elligator_spec r0 (ex P) (ey P)) as S. rewrite <- (ris_map_spec r0) in S.
  etransitivity; [|exact S]. generalize (ris_map r0). intros Q. split.
  - intros ->. reflexivity.
  - intros E. apply epoint_ext; congruence.
Qed.
Theorem C55_from_uniform_sum :
  forall a b P Q, length a = 32 -> length b = 32 ->
  map_image (fof (Z.of_N (le_val a) mod 2 ^ 255)) (ex P) (ey P) ->
  map_image (fof (Z.of_N (le_val b) mod 2 ^ 255)) (ex Q) (ey Q) ->
  rfrom_uniform Ristretto255 (a ++ b) = radd Ristretto255 (ris_class P) (ris_class Q).
Proof.
  intros a b P Q La Lb HP HQ. apply C55_map in HP. apply C55_map in HQ. rewrite HP, HQ.
  change (rfrom_uniform Ristretto255) with ris_from_uniform. change (radd Ristretto255) with ris_add.
  unfold ris_from_uniform. rewrite firstn_app, skipn_app, La, Nat.sub_diag, (firstn_all2 a), (skipn_all2 a) by lia.
  rewrite firstn_O, skipn_O, app_nil_r, app_nil_l, (firstn_all2 b) by lia. exact (ris_class_add _ _).
Qed.
(** The hypotheses can be met: every string has exactly one image. *)
Theorem C55_map_total : forall b, exists! P, map_image (fof (Z.of_N (le_val b) mod 2 ^ 255)) (ex P) (ey P).
Proof.
  intros b. exists (ris_map (fe_of_bytes b)). split; [now apply C55_map|].
  intros Q H. apply C55_map in H. symmetry. exact H.
Qed.
(** The map adds the images of the two halves of its input: swapping the halves changes nothing, and
    exchanging one half between two inputs keeps the sum. *)
Theorem C55_from_uniform_halves :
  forall a b a' b', length a = 32 -> length b = 32 -> length a' = 32 -> length b' = 32 ->
  let U := rfrom_uniform Ristretto255 in
  U (a ++ b) = U (b ++ a) /\
  radd Ristretto255 (U (a ++ b)) (U (a' ++ b')) = radd Ristretto255 (U (a ++ b')) (U (a' ++ b)).
Proof.
  intros a b a' b' La Lb La' Lb' U.
  assert (E : forall x y, length x = 32 -> length y = 32 ->
    U (x ++ y) = ris_add (ris_class (ris_map (fe_of_bytes x))) (ris_class (ris_map (fe_of_bytes y)))).
  { intros x y Lx Ly. unfold U. change (rfrom_uniform Ristretto255) with ris_from_uniform.
    unfold ris_from_uniform. rewrite firstn_app, skipn_app, Lx, Nat.sub_diag, (firstn_all2 x), (skipn_all2 x) by lia.
    rewrite firstn_O, skipn_O, app_nil_r, app_nil_l, (firstn_all2 y) by lia. exact (ris_class_add _ _). }
  clearbody U. rewrite (E a b La Lb), (E b a Lb La), (E a' b' La' Lb'), (E a b' La Lb'), (E a' b La' Lb).
  change (radd Ristretto255) with ris_add.
  generalize (ris_class (ris_map (fe_of_bytes a))) (ris_class (ris_map (fe_of_bytes b)))
    (ris_class (ris_map (fe_of_bytes a'))) (ris_class (ris_map (fe_of_bytes b'))).
  clear. intros p q p' q'. destruct ris_laws as [comm assoc _ _].
  split; [exact (comm p q)|].
  rewrite <- (assoc p q), <- (assoc p q'). f_equal.
  rewrite (assoc q p'), (assoc q' p'), (comm q p'), (comm q' p'), <- !assoc. f_equal. exact (comm q q').
Qed.

(** Registration and login with a lawful database: both sides return the same key, which is the
    specification's, when the three private keys are not zero and the generator of the session is not the
    identity. *)
Lemma rmul_nonzero (Q : pt Ristretto255) k :
  Q <> rzero Ristretto255 -> k <> szero -> rmul Q k <> rzero Ristretto255.
Proof.
  intros HQ Hk E. apply (rmul_identity ristretto255_laws) in E.
  destruct E as [E|E]; [exact (Hk E)|exact (HQ E)].
Qed.

Theorem C55_honest_login :
  forall (DB : Database Ristretto255), db_lawful DB ->
  forall Params params_try_into params_of Treg Tc Ts (creg : AuCPaceClient Treg) (c : AuCPaceClient Tc)
    (s : AuCPaceServer Ts) sm mreg m user pass params (h : hasher Params) u salt ps W creg' d uad ci
    (sts : rng_state Ts) (stc : rng_state Tc) w,
  ssid_mode_ok sm -> fits mreg user pass -> fits m user pass ->
  do_register Ristretto255 Params params_try_into mreg Treg creg user pass params h
    = (Ok (CRegistration u salt ps W), creg') ->
  params_of ps = Ok params -> spec_w h user pass salt params = Ok w ->
  let d' := store_verifier DB d u salt uad W ps in
  let ssid := agreed_ssid sha512 Tc Ts sm c s in
  let x := drawn Ts sts in
  let ya := drawn Ts (after Ts 64 sts) in
  let yb := drawn Tc stc in
  let prs := spec_PRS Ristretto255 w x in
  x <> szero -> ya <> szero -> yb <> szero ->
  spec_G Ristretto255 sha512 ssid prs ci <> rzero Ristretto255 ->
  let key := spec_sk sha512 ssid (spec_sk1 Ristretto255 sha512 ssid prs ci ya yb) in
  length key = 64 /\
  run_login Ristretto255 sha512 Params params_of Explicit Tc Ts sm m c s
    (fun sess u => generate_client_info Ristretto255 sha512 DB Ts sess u d' sts) user pass h ci stc
  = Ok (key, key).
Proof.
  intros DB LDB Params params_try_into params_of Treg Tc Ts creg c s sm mreg m user pass params h u salt ps W
    creg' d uad ci sts stc w Hm HFr HF Hreg Hp Hw d' ssid x ya yb prs Hx Hya Hyb HG key.
  assert (Eu : u = user) by exact (proj1 (do_register_ok Ristretto255 Params params_try_into mreg Treg creg user pass
    params h u salt ps W creg' HFr Hreg)).
  assert (Hl : lookup_verifier DB (store_verifier DB d u salt uad W ps) user = Some (W, salt, ps)).
  { rewrite Eu. apply (dl_same DB LDB). }
  split; [apply sha512_length|].
  destruct (C29_honest_login Ristretto255 ristretto255_laws sha512 sha512_length Params params_try_into params_of
    DB Treg Tc Ts creg c s sm mreg m user pass params h u salt ps W creg' d uad ci sts stc Hm HFr HF Hreg Hp Hl)
    as (w' & Hw' & E).
  assert (Ew : w' = w) by (rewrite Hw in Hw'; injection Hw' as ->; reflexivity). subst w'.
  refine (eq_trans E _). apply (honest_outcome_ok Ristretto255 ristretto255_laws). intros P [<-|[<-|[<-|[]]]].
  - exact (rmul_nonzero _ x (rl_base _ ristretto255_laws) Hx).
  - exact (rmul_nonzero _ ya HG Hya).
  - exact (rmul_nonzero _ yb HG Hyb).
Qed.

(** A case: a registration and a login with SHA-512, an association list and the small hasher.  That the
    generator is not the identity, and the key, are computed (by the definitions proved equal to the
    specification's in [Ristretto255Fast]); the key was computed independently too. *)
Section Case.
Definition case_salt : bytes := spec_salt tape_rng (toy_tape 1001 1002).
Definition case_ssid : bytes := agreed_ssid sha512 tape_rng tape_rng (ByNonces 16) toy_client toy_server.
Definition case_w : scalar :=
  sof (Z.of_N (le_val (le_bytes 32 (le_val (case_salt ++ toy_params ++ userpass alice secret) mod 65521)))).
Definition case_x : scalar := drawn tape_rng (toy_tape 3001 3002).
Definition case_ya : scalar := drawn tape_rng (after tape_rng 64 (toy_tape 3001 3002)).
Definition case_yb : scalar := drawn tape_rng (toy_tape 4001 4002).
Definition case_prs : bytes := fast_prs case_w case_x.
Definition case_session : bytes * bytes := fast_session case_ssid case_prs channel case_ya case_yb.

Lemma compress_zero : rcompress Ristretto255 (rzero Ristretto255) = repeat x00 32.
Proof. change (enc_epoint ezero = repeat x00 32). vm_cast_no_check (eq_refl (repeat x00 32)). Qed.
Example C55_case : fst case_session <> repeat x00 32 ->
  let d' := store_verifier (AssocDb Ristretto255) empty_db alice case_salt None (spec_W Ristretto255 case_w) toy_params in
  run_login Ristretto255 sha512 bytes toy_params_of Explicit tape_rng tape_rng (ByNonces 16) AllocBuf
    toy_client toy_server
    (fun sess u => generate_client_info Ristretto255 sha512 (AssocDb Ristretto255) tape_rng sess u d' (toy_tape 3001 3002))
    alice secret toy_hash channel (toy_tape 4001 4002)
  = Ok (snd case_session, snd case_session).
Proof.
  unfold case_session, case_prs. rewrite fast_session_ok, fast_prs_ok. cbn [fst snd]. intros HG.
  assert (NZ : forall a b, Z.eqb (sval a) (sval b) = false -> a <> b).
  { intros a b E ->. rewrite Z.eqb_refl in E. discriminate E. }
  refine (proj2 (C55_honest_login (AssocDb Ristretto255) (assoc_db_lawful Ristretto255) bytes toy_params_try_into
    toy_params_of tape_rng tape_rng tape_rng toy_client toy_client toy_server (ByNonces 16) AllocBuf AllocBuf
    alice secret toy_params toy_hash alice case_salt toy_params (spec_W Ristretto255 case_w) _
    empty_db None channel (toy_tape 3001 3002) (toy_tape 4001 4002) case_w I I I _ eq_refl eq_refl _ _ _ _)).
  - rewrite (do_register_eq Ristretto255 bytes toy_params_try_into AllocBuf tape_rng toy_client alice secret
      toy_params toy_hash I). reflexivity.
  - apply NZ. vm_compute. reflexivity.
  - apply NZ. vm_compute. reflexivity.
  - apply NZ. vm_compute. reflexivity.
  - intros E. apply HG. exact (eq_trans (f_equal (rcompress Ristretto255) E) compress_zero).
Qed.
Check (test case_session
  (hex "0063fd391a84070d60f99c97bde1deae8192f382d0381cc628459a40d5e6c559",
   hex "1a8eddc82c2274c3861265d57364aaed0af875212abbeae3e88ecb75a790d6eb" ++
   hex "a8ba168f733836259b6adf20d79dd8bd6c6f49bcbcebc41d52420e07977e2184")).
End Case.
