(** * Fast evaluation of the values of an AuCPace session over ristretto255, proved equal to the
      specification's.

    Nothing here models repository code; it makes session keys computable, for a known-answer test. *)
From Coq Require Import ZArith Lia List.
From Verif Require Import Base.Bytes Base.Hex Base.Kat Hash.Hash.
From Verif.Curve Require Import Primes Abelian Edwards Scalar25519 Ed25519 Ed25519Fast Ed25519Points Ristretto
  Ristretto255.
From Verif Require Import Aucpace.RistrettoGroup Aucpace.Ristretto255Group Aucpace.AucpaceSpec.
Import ListNotations.
Local Open Scope nat_scope.

Definition ext_encode (e : ext) : bytes :=
  fe_bytes (ris_encode_fe (fof (eX e)) (fof (eY e)) (fof (eZ e)) (fof (eT e))).

Lemma ext_encode_ok e P : erep e P -> even_point P -> ext_encode e = rcompress Ristretto255 (ris_class P).
Proof.
  intros H HE. unfold ext_encode. change (rcompress Ristretto255) with ris_compress. unfold ris_compress.
  rewrite rp_class. rewrite (ris_encode_class _ _ _ _ P H HE). reflexivity.
Qed.

Lemma class_smul n P :
  ris_class (emul n P) = smul ris_add ris_zero ris_opp n (ris_class P).
Proof.
  assert (K : forall m, ris_class (pmul eadd m P) = pmul ris_add m (ris_class P)).
  { induction m as [m IH|m IH|]; cbn [pmul].
    - rewrite !ris_class_add, IH. reflexivity.
    - rewrite ris_class_add, IH. reflexivity.
    - reflexivity. }
  destruct n as [|m|m].
  - change (emul 0 P) with ezero. rewrite <- (ris_class_rp ris_zero). reflexivity.
  - exact (K m).
  - change (emul (Z.neg m) P) with (eopp (pmul eadd m P)). rewrite ris_class_opp, K. reflexivity.
Qed.
Lemma even_smul n P : (0 <= n)%Z -> even_point P -> even_point (emul n P).
Proof.
  intros Hn HP. assert (K : forall m, even_point (pmul eadd m P)).
  { induction m as [m IH|m IH|]; cbn [pmul].
    - apply even_add; [apply even_add; exact IH|exact HP].
    - apply even_add; exact IH.
    - exact HP. }
  destruct n as [|m|m]; [exact (rp_even ris_zero)|exact (K m)|lia].
Qed.

(** A multiple of the class of a point. *)
Lemma ext_rmul_ok e P (s : scalar) :
  erep e P -> even_point P ->
  ext_encode (ext_smul (sval s) e) = rcompress Ristretto255 (@rmul Ristretto255 (ris_class P) s).
Proof.
  intros H HE. unfold rmul. change (smul (radd Ristretto255) (rzero Ristretto255) (ropp Ristretto255))
    with (smul ris_add ris_zero ris_opp). rewrite <- class_smul.
  apply ext_encode_ok; [|apply even_smul; [apply sval_range|exact HE]].
  apply ext_smul_ok; [apply sval_range|exact H].
Qed.

Definition fast_base : ext := ext_of (fval (ex ed_B)) (fval (ey ed_B)).
Definition fast_base_mul (s : scalar) : bytes := ext_encode (ext_smul (sval s) fast_base).
Lemma fast_base_mul_ok s : fast_base_mul s = rcompress Ristretto255 (rmul (rbase Ristretto255) s).
Proof.
  unfold fast_base_mul. change (rbase Ristretto255) with ris_base. rewrite <- (ris_class_rp ris_base).
  apply ext_rmul_ok; [apply ext_of_ok|apply rp_even].
Qed.

Definition fast_map (b : bytes) : ext :=
  let P := ris_map (fe_of_bytes (firstn 32 b)) in
  let Q := ris_map (fe_of_bytes (firstn 32 (skipn 32 b))) in
  ext_addp (ext_of (fval (ex P)) (fval (ey P))) (ext_of (fval (ex Q)) (fval (ey Q))).
Lemma fast_map_ok b : ext_encode (fast_map b) = rcompress Ristretto255 (rfrom_uniform Ristretto255 b).
Proof.
  change (rfrom_uniform Ristretto255 b) with (ris_from_uniform b). unfold ris_from_uniform.
  apply ext_encode_ok; [apply ext_addp_ok; apply ext_of_ok|apply even_add; apply ris_map_even].
Qed.
Definition fast_map_mul (b : bytes) (s : scalar) : bytes := ext_encode (ext_smul (sval s) (fast_map b)).
Lemma fast_map_mul_ok b s :
  fast_map_mul b s = rcompress Ristretto255 (rmul (rfrom_uniform Ristretto255 b) s).
Proof.
  unfold fast_map_mul. change (rfrom_uniform Ristretto255 b) with (ris_from_uniform b). unfold ris_from_uniform.
  apply ext_rmul_ok; [apply ext_addp_ok; apply ext_of_ok|apply even_add; apply ris_map_even].
Qed.

(** The specification's values. *)
Definition fast_prs (w x : scalar) : bytes := fast_base_mul (smult w x).
Lemma fast_prs_ok w x : fast_prs w x = spec_PRS Ristretto255 w x.
Proof. exact (fast_base_mul_ok _). Qed.
(** the encoding of the generator, and the key *)
Definition fast_session (ssid prs ci : bytes) (ya yb : scalar) : bytes * bytes :=
  let G := fast_map (sha512 (word x01 ++ ssid ++ prs ++ ci)) in
  (ext_encode G,
   spec_sk sha512 ssid (sha512 (word x02 ++ ssid ++ ext_encode (ext_smul (sval (smult ya yb)) G)))).
Lemma fast_session_ok ssid prs ci ya yb :
  fast_session ssid prs ci ya yb
  = (rcompress Ristretto255 (spec_G Ristretto255 sha512 ssid prs ci),
     spec_sk sha512 ssid (spec_sk1 Ristretto255 sha512 ssid prs ci ya yb)).
Proof.
  unfold fast_session, spec_sk1, spec_K, spec_G. rewrite fast_map_ok.
  rewrite <- fast_map_mul_ok. reflexivity.
Qed.
