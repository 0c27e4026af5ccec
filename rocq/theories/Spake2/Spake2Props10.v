(** * SPAKE2 in terms of the standards: the password's scalar and the key on HKDF and SHA-256 as specified in Fips180.v (C92). *)
From Coq Require Import ZArith Lia.
From Verif Require Import Base.Bytes Base.Outcome Base.Rng Base.Hex Base.Kat Hash.Hash Hash.Fips180 Hash.Fips180Proofs Hash.HashProps.
From Verif.Curve Require Import Primes Zmod Abelian Scalar25519 Ed25519 Ed25519Points.
From Verif Require Import Spake2.Spake2Model Spake2.Ed25519Group Spake2.Spake2Spec Spake2.Spake2Proofs
  Spake2.Spake2Generic Spake2.Spake2Proofs2 Spake2.Spake2Props.
Local Open Scope nat_scope.
Local Notation E := Ed25519Group.

(** HKDF-SHA-256 without a salt, with the info "SPAKE2 pw" and 48 octets of output *)
Definition hkdf_octets (pw : bytes) : bytes :=
  HKDF_Expand SHA256_octets 64 32 (HKDF_Extract SHA256_octets 64 (repeat x00 32) pw) (str "SPAKE2 pw") 48.

Lemma some_inj {A} (a b : A) : Some a = Some b -> b = a.
Proof. intros H. now injection H as ->. Qed.
Lemma if_false {A} (a b : A) (c : bool) : c = false -> (if c then a else b) = b.
Proof. now intros ->. Qed.
Lemma okm_is pw : pw_okm pw = hkdf_octets pw.
Proof.
  apply some_inj. unfold hkdf_octets. rewrite <- C92_salt, extract_is, C92_hmac. rewrite <- (pw_okm_hkdf pw), C92_hkdf, if_false by reflexivity.
  unfold HKDF_Extract. exact eq_refl.
Qed.

(** The scalar of a password is the number its HKDF output expresses, modulo the order of the group. *)
Theorem C92_spake2_password pw : exists s, hash_to_scalar E pw = Ok s /\ sval s = (Z.of_N (value (bits_of (hkdf_octets pw))) mod ell)%Z.
Proof.
  destruct (C22_password_scalar pw) as (s & H & V & _). exists s. split; [exact H|]. now rewrite bits_value, <- okm_is.
Qed.

(** What a session hashes, as a bit string: FIPS 180-4's SHA-256 of the password and the identities, the messages with
    the sorted order or A's first, and the shared element. *)
Definition hashed_bits (sd : Side) (pw mine theirs : bytes) (K : epoint) : list bool :=
  let id i := SHA256 (bits_of i) in
  match sd with
  | SideA a b => id pw ++ id a ++ id b ++ bits_of mine ++ bits_of theirs ++ bits_of (compress K)
  | SideB a b => id pw ++ id a ++ id b ++ bits_of theirs ++ bits_of mine ++ bits_of (compress K)
  | SideSymmetric i => id pw ++ id i ++ bits_of (sorted mine theirs) ++ bits_of (compress K)
  end.
Lemma hashed_is sd pw mine theirs K : bits_of (transcript sd pw mine theirs K) = hashed_bits sd pw mine theirs K.
Proof. destruct sd; unfold transcript, hashed_bits; cbv zeta; rewrite !bits_app, !C92_sha256; reflexivity. Qed.

(** Every key is FIPS 180-4's SHA-256 of that string, whoever the peer was. *)
Theorem C92_spake2_key sd pw x s msg msg2 key : start_internal E sd pw x = Ok (s, msg) -> finish E s msg2 = Ok key ->
  exists rest P, msg2 = tag (peer (role_of sd)) :: rest /\ bytes_to_element E rest = Some P /\
    bits_of key = SHA256 (hashed_bits sd pw (compress (msg_point (role_of sd) pw (sval x))) rest (shared (role_of sd) pw (sval x) P)).
Proof.
  intros H F. rewrite start_ok in H. injection H as <- <-. apply finish_inv in F. destruct F as (rest & P & E1 & E2 & E3 & E4).
  exists rest, P. split; [exact E1|]. split.
  - change (ed_bytes_to_element rest = Some P). unfold ed_bytes_to_element. rewrite E2. exact E3.
  - rewrite E4, C92_sha256, hashed_is. reflexivity.
Qed.

(** A session that meets the hypotheses, and the HKDF output of a password *)
Example C92_spake2_case : exists s msg s' msg' key,
  start_internal E (SideA (str "a") (str "b")) (str "pw") (sof 5) = Ok (s, msg) /\
  start_internal E (SideB (str "a") (str "b")) (str "pw") (sof 6) = Ok (s', msg') /\ finish E s msg' = Ok key.
Proof.
  destruct (agreement_ab (str "pw") (str "a") (str "b") (sof 5) (sof 6)) as (sa & sb & ma & mb & key & H & H' & F & _).
  rewrite start_a_eq in H. rewrite start_b_eq in H'. exists sa, ma, sb, mb, key. split; [exact H|]. split; [exact H'|exact F].
Qed.
Check (test (bytes_eqb (hkdf_octets (str "pw")) (pw_okm (str "pw"))) true).
