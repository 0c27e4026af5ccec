(** * The protocol in terms of RFC 9496: computed with the RFC's own procedures on integers, every message,
    key, error and panic is the same (C94).

    [Rfc] (Curve/Rfc.v) has the procedures as the RFCs print them, on integers and extended coordinates;
    it shares no definition with the curve of the model. *)
From Coq Require Import ZArith Lia List.
From Verif Require Import Base.Bytes Base.Outcome Base.Rng Base.Hex Base.Kat Hash.Hash Hash.Fips180 Hash.Fips180Proofs Hash.HashProps.
From Verif.Curve Require Import Primes Abelian Scalar25519 Ristretto255 RfcProofs.
From Verif.Curve Require Rfc.
From Verif Require Import Aucpace.RistrettoGroup Aucpace.Ristretto255Group Aucpace.PwHash Aucpace.AucpaceModel
  Aucpace.AucpaceRun Aucpace.AucpaceDb Aucpace.Wire Aucpace.AucpaceWorld Aucpace.GroupSim Aucpace.AucpaceSpec.
Import ListNotations.
Local Open Scope nat_scope.

(** The interface of the group on the RFC's procedures *)
Definition negated (t : Rfc.ext) : Rfc.ext :=
  let '(X, Y, Z, T) := t in (Rfc.NEG X, Y, Z, Rfc.NEG T).
Definition RfcGroup : RGroup := {|
  pt := Rfc.ext;
  radd := Rfc.point_add;
  rzero := Rfc.IDENTITY;
  ropp := negated;
  rbase := Rfc.BASE;
  reqb := Rfc.Equals;
  rcompress := Rfc.Encode;
  rdecompress := Rfc.Decode;
  rfrom_uniform := Rfc.Derive
|}.
(** SHA-512 of FIPS 180-4, on octet strings *)
Definition SHA512_octets (m : bytes) : bytes := octets_of (SHA512 (bits_of m)).

(** The internal representation [t] represents the group element [P]. *)
Definition represents (P : pt Ristretto255) (t : pt RfcGroup) : Prop := rrepr t P.

Lemma equals_bool t u P Q : rrepr t P -> rrepr u Q -> ris_eqb P Q = Rfc.Equals t u.
Proof.
  intros H K. pose proof (rrepr_equals t u P Q H K) as E. pose proof (ris_eqb_eq P Q) as E'.
  destruct (ris_eqb P Q), (Rfc.Equals t u); try reflexivity.
  - destruct (proj1 E' eq_refl). symmetry. now apply E.
  - destruct (proj1 E eq_refl). now apply E'.
Qed.

(** The RFC's procedures represent the operations of the model's group. *)
Theorem C94_represents : simulation Ristretto255 RfcGroup represents.
Proof.
  split; cbn [RfcGroup Ristretto255 radd rzero rbase reqb rcompress rdecompress rfrom_uniform pt]; unfold represents.
  - intros P P' Q Q' H K. now apply rrepr_add.
  - exact rrepr_identity.
  - exact rrepr_base.
  - intros P P' Q Q' H K. now apply equals_bool.
  - intros P P' H. symmetry. now apply rrepr_encode.
  - intros b. pose proof (rrepr_decode b) as H. destruct (Rfc.Decode b) as [t|].
    + destruct H as (P & -> & H). exact H.
    + rewrite H. exact I.
  - exact rrepr_derive.
Qed.

(** Every element has a representation, and elements with the same representation are the same. *)
Theorem C94_represented P : exists t, represents P t /\ forall Q, represents Q t -> Q = P.
Proof.
  pose proof (rrepr_decode (ris_compress P)) as H. rewrite ris_decompress_compress in H.
  destruct (Rfc.Decode (ris_compress P)) as [t|]; [|discriminate H].
  destruct H as (P' & E & H). injection E as <-. exists t. split; [exact H|].
  intros Q K. pose proof (rrepr_encode t P H) as E1. pose proof (rrepr_encode t Q K) as E2.
  rewrite E1 in E2. apply (f_equal ris_decompress) in E2. rewrite !ris_decompress_compress in E2.
  now injection E2 as ->.
Qed.

(** Decoding: the model accepts the strings the RFC accepts; a multiple of what was read is encoded as the
    RFC encodes it; the identity is recognised as the RFC recognises it. *)
Theorem C94_decode b :
  match Rfc.Decode b with
  | None => rdecompress Ristretto255 b = None
  | Some t => exists P, rdecompress Ristretto255 b = Some P /\ rcompress Ristretto255 P = b /\ Rfc.Encode t = b /\
      is_identity P = Rfc.Equals t Rfc.IDENTITY /\
      forall s, rcompress Ristretto255 (rmul P s) = Rfc.Encode (Rfc.point_mul (sval s) t)
  end.
Proof.
  pose proof (rrepr_decode b) as H. destruct (Rfc.Decode b) as [t|]; [|exact H].
  destruct H as (P & E & H). exists P. split; [exact E|].
  pose proof (ris_compress_decompress b P E) as E'.
  split; [exact E'|]. split; [rewrite (rrepr_encode t P H); exact E'|].
  split; [apply (equals_bool t Rfc.IDENTITY P ris_zero H rrepr_identity)|].
  intros s. symmetry. apply rrepr_encode. apply rrepr_mul; [apply sval_range|exact H].
Qed.

(** The same of the base point and of the map from hash outputs to the group *)
Theorem C94_base s : rcompress Ristretto255 (rmul (rbase Ristretto255) s) = Rfc.Encode (Rfc.point_mul (sval s) Rfc.BASE).
Proof. symmetry. apply rrepr_encode. apply rrepr_mul; [apply sval_range|exact rrepr_base]. Qed.
Theorem C94_derive b s :
  rcompress Ristretto255 (rmul (rfrom_uniform Ristretto255 b) s) = Rfc.Encode (Rfc.point_mul (sval s) (Rfc.Derive b)).
Proof. symmetry. apply rrepr_encode. apply rrepr_mul; [apply sval_range|apply rrepr_derive]. Qed.

(** ** The protocol's values, written with the standards alone *)
Lemma sha512_std m : sha512 m = SHA512_octets m.
Proof. apply C92_octets. Qed.

(** The public key of a session: the secret is 64 octets of the generator, as an integer modulo the order *)
Theorem C94_public_key T st ssid prs ci : exists x P st',
  generate_keypair Ristretto255 sha512 T st ssid prs ci = ((x, P), st') /\
  sval x = (Rfc.integer (fst (rng_fill T 64 st)) mod Rfc.L)%Z /\
  rcompress Ristretto255 P =
    Rfc.Encode (Rfc.point_mul (sval x) (Rfc.Derive (SHA512_octets ([x01; x00; x00; x00] ++ ssid ++ prs ++ ci)))).
Proof.
  unfold generate_keypair, scalar_random. destruct (rng_fill T 64 st) as [b st'].
  eexists _, _, _. split; [reflexivity|]. split.
  - cbn [fst]. unfold scalar_wide. rewrite sval_sof, integer_v, L_is. reflexivity.
  - rewrite smult_one_r. unfold point_from_hash, finalize. rewrite C94_derive, sha512_std.
    unfold update. now rewrite <- !app_assoc.
Qed.

(** The session key of either party from the other's encoded public key, with implicit authentication: the
    error is raised when the RFC finds the identity. *)
Definition std_sk1 (ssid : bytes) (x : scalar) (t : Rfc.ext) : bytes :=
  SHA512_octets ([x02; x00; x00; x00] ++ ssid ++ Rfc.Encode (Rfc.point_mul (sval x) t)).
Definition std_key (ssid : bytes) (x : scalar) (t : Rfc.ext) : bytes :=
  SHA512_octets ([x05; x00; x00; x00] ++ ssid ++ std_sk1 ssid x t).
Definition std_implicit (ssid : bytes) (x : scalar) (t : Rfc.ext) : res bytes :=
  if Rfc.Equals t Rfc.IDENTITY then Err IllegalPointError else Ok (std_key ssid x t).
Lemma std_sk1_is ssid x P t : represents P t ->
  compute_first_session_key Ristretto255 sha512 ssid x P = std_sk1 ssid x t.
Proof.
  intros H. unfold compute_first_session_key, std_sk1, finalize. rewrite sha512_std.
  assert (E : rcompress Ristretto255 (rmul P x) = Rfc.Encode (Rfc.point_mul (sval x) t)).
  { symmetry. apply rrepr_encode. apply rrepr_mul; [apply sval_range|exact H]. }
  rewrite E. unfold update. now rewrite <- !app_assoc.
Qed.
Lemma std_key_is ssid x P t : represents P t ->
  compute_session_key sha512 ssid (compute_first_session_key Ristretto255 sha512 ssid x P) = std_key ssid x t.
Proof.
  intros H. rewrite (std_sk1_is _ _ _ _ H). unfold compute_session_key, std_key, finalize. rewrite sha512_std.
  unfold update. now rewrite <- !app_assoc.
Qed.
Theorem C94_implicit b :
  match Rfc.Decode b with
  | None => rdecompress Ristretto255 b = None
  | Some t => exists P, rdecompress Ristretto255 b = Some P /\
      (forall c, client_implicit_auth Ristretto255 sha512 c P = std_implicit (crs_ssid c) (crs_priv_key c) t) /\
      (forall s, server_implicit_auth Ristretto255 sha512 s P = std_implicit (src_ssid s) (src_priv_key s) t)
  end.
Proof.
  pose proof (rrepr_decode b) as H. destruct (Rfc.Decode b) as [t|]; [|exact H].
  destruct H as (P & E & H). exists P. split; [exact E|].
  assert (I : @is_identity Ristretto255 P = Rfc.Equals t Rfc.IDENTITY)
    by exact (equals_bool t Rfc.IDENTITY P ris_zero H rrepr_identity).
  split; intros c; unfold client_implicit_auth, server_implicit_auth, std_implicit;
    rewrite (std_key_is _ _ P t H), I; reflexivity.
Qed.

(** ** Whole runs *)
Section Runs.
Context (Params : Type) (params_try_into : Params -> outcome pherror bytes) (params_of : bytes -> res Params).
Notation R := Ristretto255.
Notation R' := RfcGroup.

(** Registration stores the same verifier, and what goes over the wire is the same. *)
Definition same_client_bytes (m : ClientMessage R) (m' : ClientMessage R') : Prop :=
  forall F strong, put_client R F strong m = put_client R' F strong m'.
Definition same_server_bytes (m : ServerMessage R) (m' : ServerMessage R') : Prop :=
  forall F strong, put_server R F strong m = put_server R' F strong m'.
Lemma crel_bytes m m' : crel represents m m' -> same_client_bytes m m'.
Proof. intros H F strong. exact (put_client_sim C94_represents unit (fun _ => Panic) F strong m m' H). Qed.
Lemma srel_bytes m m' : srel represents m m' -> same_server_bytes m m'.
Proof. intros H F strong. exact (put_server_sim C94_represents unit (fun _ => Panic) F strong m m' H). Qed.
Lemma outrel_weaken {E A B} (r s : A -> B -> Prop) (a : outcome E A) b :
  (forall x y, r x y -> s x y) -> outrel r a b -> outrel s a b.
Proof. intros H. destruct a, b; cbn; auto. Qed.

Theorem C94_register m T c u p ps h :
  outrel same_client_bytes (fst (do_register R Params params_try_into m T c u p ps h))
                           (fst (do_register R' Params params_try_into m T c u p ps h)) /\
  outrel same_client_bytes (fst (do_register_strong R sha512 Params params_try_into m T c u p ps h))
                           (fst (do_register_strong R' SHA512_octets Params params_try_into m T c u p ps h)).
Proof.
  split; (eapply outrel_weaken; [exact crel_bytes|]).
  - apply (register_sim C94_represents).
  - apply (register_strong_sim C94_represents _ _ sha512_std).
Qed.

(** The wire: the same strings are accepted as messages, with the same rest, and encode to the same bytes. *)
Definition decoded_same {A B} (same : A -> B -> Prop) (a : option (A * bytes)) (b : option (B * bytes)) : Prop :=
  match a, b with
  | Some (m, rest), Some (m', rest') => same m m' /\ rest = rest'
  | None, None => True
  | _, _ => False
  end.
Theorem C94_wire F strong K1 b :
  decoded_same same_client_bytes (get_client R F strong K1 b) (get_client R' F strong K1 b) /\
  decoded_same same_server_bytes (get_server R F strong K1 b) (get_server R' F strong K1 b).
Proof.
  split.
  - pose proof (get_client_sim C94_represents unit (fun _ => Panic) F strong K1 b) as H.
    destruct (get_client R F strong K1 b) as [[m x]|], (get_client R' F strong K1 b) as [[m' x']|];
      cbn [optrel] in H; try tauto. destruct H as [H E]. split; [now apply crel_bytes|exact E].
  - pose proof (get_server_sim C94_represents unit (fun _ => Panic) F strong K1 b) as H.
    destruct (get_server R F strong K1 b) as [[m x]|], (get_server R' F strong K1 b) as [[m' x']|];
      cbn [optrel] in H; try tauto. destruct H as [H E]. split; [now apply srel_bytes|exact E].
Qed.

(** A login against the same database ends with the same keys or the same failure. *)
Theorem C94_login a Tc Ts sm m c s d d' user pass h ci st rng : adbrel represents (vrel represents) d d' ->
  run_login R sha512 Params params_of a Tc Ts sm m c s
    (fun s u => generate_client_info R sha512 (AssocDb R) Ts s u d rng) user pass h ci st =
  run_login R' SHA512_octets Params params_of a Tc Ts sm m c s
    (fun s u => generate_client_info R' SHA512_octets (AssocDb R') Ts s u d' rng) user pass h ci st /\
  run_login R sha512 Params params_of a Tc Ts sm m c s
    (fun s u => generate_client_info_partial_aug R sha512 (AssocDb R) (AssocPartial R) Ts s u d rng) user pass h ci st =
  run_login R' SHA512_octets Params params_of a Tc Ts sm m c s
    (fun s u => generate_client_info_partial_aug R' SHA512_octets (AssocDb R') (AssocPartial R') Ts s u d' rng) user pass h ci st.
Proof.
  intros Hd. split; apply (run_login_sim C94_represents _ _ sha512_std); intros s' u.
  - now apply (client_info_sim C94_represents _ _ sha512_std unit (fun _ => Panic) _ _ _ _ _ (assoc_db_sim represents)).
  - now apply (client_info_partial_sim C94_represents _ _ sha512_std unit (fun _ => Panic) _ _ _ _ _ (assoc_db_sim represents)).
Qed.
Theorem C94_login_strong a Tc Ts sm m c s d d' fuel user pass h ci stb stc rng : adbrel represents (svrel represents) d d' ->
  run_login_strong R sha512 Params params_of a Tc Ts sm m c s
    (fun s u U => generate_client_info_strong R sha512 (AssocStrongDb R) Ts s u U d rng) fuel user pass h ci stb stc =
  run_login_strong R' SHA512_octets Params params_of a Tc Ts sm m c s
    (fun s u U => generate_client_info_strong R' SHA512_octets (AssocStrongDb R') Ts s u U d' rng) fuel user pass h ci stb stc /\
  run_login_strong R sha512 Params params_of a Tc Ts sm m c s
    (fun s u U => generate_client_info_partial_strong R sha512 (AssocStrongDb R) (AssocPartial R) Ts s u U d rng) fuel user pass h ci stb stc =
  run_login_strong R' SHA512_octets Params params_of a Tc Ts sm m c s
    (fun s u U => generate_client_info_partial_strong R' SHA512_octets (AssocStrongDb R') (AssocPartial R') Ts s u U d' rng) fuel user pass h ci stb stc.
Proof.
  intros Hd. split; apply (run_login_strong_sim C94_represents _ _ sha512_std); intros s' u U U' HU.
  - now apply (client_info_strong_sim C94_represents _ _ sha512_std unit (fun _ => Panic) _ _ _ _ _ (assoc_sdb_sim represents)).
  - now apply (client_info_partial_strong_sim C94_represents _ _ sha512_std unit (fun _ => Panic) _ _ _ _ _ (assoc_sdb_sim represents)).
Qed.

(** Any number of sessions in any order under any network: the sessions are in the same states and the logs
    differ only in how the points are represented. *)
Notation run_ris Tc Ts := (run R sha512 Params Tc Ts (AssocDb R) (AssocStrongDb R) (AssocPartial R) (AssocPartial R)).
Notation run_rfc Tc Ts := (run R' SHA512_octets Params Tc Ts (AssocDb R') (AssocStrongDb R') (AssocPartial R') (AssocPartial R')).
Notation empty := {| a_verifiers := []; a_keys := [] |}.
Theorem C94_world Tc Ts rng es es' :
  Forall2 (erel (rel := represents) Params Tc Ts) es es' ->
  let w := run_ris Tc Ts (init R Ts (AssocDb R) (AssocStrongDb R) rng empty empty) es in
  let w' := run_rfc Tc Ts (init R' Ts (AssocDb R') (AssocStrongDb R') rng empty empty) es' in
  (forall i, w_clients w i = w_clients w' i) /\ (forall j, w_sessions w j = w_sessions w' j) /\
  sv_server (w_server w) = sv_server (w_server w') /\
  adbrel represents (vrel represents) (sv_db (w_server w)) (sv_db (w_server w')) /\
  adbrel represents (svrel represents) (sv_sdb (w_server w)) (sv_sdb (w_server w')) /\
  Forall2 (lrel (rel := represents)) (w_log w) (w_log w').
Proof.
  intros H w w'.
  assert (W : wrel (rel := represents) Ts (AssocDb R) (AssocDb R') (AssocStrongDb R) (AssocStrongDb R') (adbrel represents (vrel represents)) (adbrel represents (svrel represents)) w w').
  { apply (run_sim C94_represents _ _ sha512_std Params (fun _ => Panic) (fun _ => Panic) _ _ _ _ _ _ _ _ _ _ _
      (assoc_db_sim represents) _ (assoc_sdb_sim represents)); [|exact H].
    apply init_sim; split; constructor. }
  destruct W as [Wv Wd Ws Wc Wss Wl]. repeat split; try assumption; apply Wd || apply Ws.
Qed.

(** Every sequence of events has a counterpart. *)
Lemma some_rep P : exists t, represents P t.
Proof. destruct (C94_represented P) as (t & H & _). now exists t. Qed.
Theorem C94_events Tc Ts (es : list (event R Params Tc Ts)) : exists es', Forall2 (erel (rel := represents) Params Tc Ts) es es'.
Proof.
  induction es as [|e es [es' IH]]; [exists []; constructor|].
  assert (exists e', erel (rel := represents) Params Tc Ts e e') as [e' He].
  { destruct e as [i e|j e|u s a W p|u a W q p|u|u].
    - destruct e as [K st|s|n|u p|f u p st|m X s p h|m X Y p h|ci st|Y|Y|a].
      + exists (EClient R' Params Tc Ts i (CE_Begin R' Params Tc K st)). repeat split.
      + exists (EClient R' Params Tc Ts i (CE_BeginPre R' Params Tc s)). repeat split.
      + exists (EClient R' Params Tc Ts i (CE_Agree R' Params Tc n)). repeat split.
      + exists (EClient R' Params Tc Ts i (CE_Start R' Params Tc u p)). repeat split.
      + exists (EClient R' Params Tc Ts i (CE_StartStrong R' Params Tc f u p st)). repeat split.
      + destruct (some_rep X) as [t H]. exists (EClient R' Params Tc Ts i (CE_Generate R' Params Tc m t s p h)). repeat split. exact H.
      + destruct (some_rep X) as [t H], (some_rep Y) as [y K].
        exists (EClient R' Params Tc Ts i (CE_GenerateStrong R' Params Tc m t y p h)). repeat split; assumption.
      + exists (EClient R' Params Tc Ts i (CE_Key R' Params Tc ci st)). repeat split.
      + destruct (some_rep Y) as [t H]. exists (EClient R' Params Tc Ts i (CE_RecvKey R' Params Tc t)). split; [reflexivity|exact H].
      + destruct (some_rep Y) as [t H]. exists (EClient R' Params Tc Ts i (CE_Implicit R' Params Tc t)). split; [reflexivity|exact H].
      + exists (EClient R' Params Tc Ts i (CE_RecvAuth R' Params Tc a)). repeat split.
    - destruct e as [K|s|n|u st|u st|u U st|u U st|ci|Y|Y|a].
      + exists (EServer R' Params Tc Ts j (SE_Begin R' Ts K)). repeat split.
      + exists (EServer R' Params Tc Ts j (SE_BeginPre R' Ts s)). repeat split.
      + exists (EServer R' Params Tc Ts j (SE_Agree R' Ts n)). repeat split.
      + exists (EServer R' Params Tc Ts j (SE_Info R' Ts u st)). repeat split.
      + exists (EServer R' Params Tc Ts j (SE_InfoPartial R' Ts u st)). repeat split.
      + destruct (some_rep U) as [t H]. exists (EServer R' Params Tc Ts j (SE_InfoStrong R' Ts u t st)). repeat split. exact H.
      + destruct (some_rep U) as [t H]. exists (EServer R' Params Tc Ts j (SE_InfoPartialStrong R' Ts u t st)). repeat split. exact H.
      + exists (EServer R' Params Tc Ts j (SE_Key R' Ts ci)). repeat split.
      + destruct (some_rep Y) as [t H]. exists (EServer R' Params Tc Ts j (SE_RecvKey R' Ts t)). split; [reflexivity|exact H].
      + destruct (some_rep Y) as [t H]. exists (EServer R' Params Tc Ts j (SE_Implicit R' Ts t)). split; [reflexivity|exact H].
      + exists (EServer R' Params Tc Ts j (SE_RecvAuth R' Ts a)). repeat split.
    - destruct (some_rep W) as [t H]. exists (EStore R' Params Tc Ts u s a t p). repeat split. exact H.
    - destruct (some_rep W) as [t H]. exists (EStoreStrong R' Params Tc Ts u a t q p). repeat split. exact H.
    - exists (ELongTerm R' Params Tc Ts u). reflexivity.
    - exists (ELongTermStrong R' Params Tc Ts u). reflexivity. }
  exists (e' :: es'). now constructor.
Qed.
End Runs.

(** ** Cases *)
(** A database with a registered user: the verifier w*B, with w = 5 *)
Example C94_db_case : adbrel represents (vrel represents)
  {| a_verifiers := [(str "u", (rmul (rbase Ristretto255) (sof 5), str "c2FsdA", str "i=1"))]; a_keys := [] |}
  {| a_verifiers := [(str "u", (Rfc.point_mul 5 Rfc.BASE, str "c2FsdA", str "i=1"))]; a_keys := [] |}.
Proof.
  split; [|constructor]. constructor; [|constructor]. split; [reflexivity|]. repeat split.
  assert (E : sval (sof 5) = 5%Z) by (rewrite sval_sof; reflexivity).
  unfold represents, rmul. rewrite E. apply rrepr_mul; [lia|exact rrepr_base].
Qed.
(** Events that carry points of the network: the base point as a blinded user name and as a public key *)
Example C94_events_case Params Tc Ts st :
  Forall2 (erel (rel := represents) Params Tc Ts)
    [EServer _ _ _ _ 0 (SE_BeginPre _ _ (str "sixteen octets!!")); EServer _ _ _ _ 0 (SE_InfoStrong Ristretto255 _ (str "u") ris_base st);
     EServer _ _ _ _ 0 (SE_Key _ _ []); EServer _ _ _ _ 0 (SE_RecvKey Ristretto255 _ ris_base)]
    [EServer _ _ _ _ 0 (SE_BeginPre _ _ (str "sixteen octets!!")); EServer _ _ _ _ 0 (SE_InfoStrong RfcGroup _ (str "u") Rfc.BASE st);
     EServer _ _ _ _ 0 (SE_Key _ _ []); EServer _ _ _ _ 0 (SE_RecvKey RfcGroup _ Rfc.BASE)].
Proof. repeat constructor; exact rrepr_base. Qed.
(** The key of a session whose peer's key is the base point and whose secret is 3 (computed with other software) *)
Check (test (std_implicit (str "ssid") (sof 3) Rfc.BASE)
  (@Ok Error bytes (hex "2d7dd1ffa57adaaaa198d756ce963bf21e0375b8ea2acfaea7fc9d8c680d7224fe42798967b0c2410557686feccab79b6b5890938cf787185ff1522d059930a7"))).
Check (test (std_implicit (str "ssid") (sof 3) Rfc.IDENTITY) (@Err Error bytes IllegalPointError)).
(** Strings the standard refuses, and one it accepts *)
Check (test (match Rfc.Decode (repeat xff 32) with None => true | _ => false end) true).
Check (test (match Rfc.Decode (rcompress RfcGroup Rfc.BASE) with Some t => Rfc.Equals t Rfc.BASE | None => false end) true).
