(** * The executable hash functions are those of the standards (C92)

    The digests, HMAC and HKDF are crates the repository depends on (sha1, sha2, hmac, hkdf); the model has executable
    versions of them (Hash.v).  Here they are compared, for all inputs, with FIPS 180-4, RFC 2104 and RFC 5869 as
    specified in Fips180.v. *)
From Coq Require Import ZArith Znumtheory Sorting.Sorted.
From Verif Require Import Base.Bytes Base.Hex Base.Kat Hash.Hash Hash.Fips180 Hash.Fips180Proofs.
Local Open Scope nat_scope.

(** ** SHA-1, SHA-256, SHA-512 *)
Theorem C92_sha1 m : bits_of (sha1 m) = SHA1 (bits_of m).
Proof. apply sha1_is. Qed.
Theorem C92_sha256 m : bits_of (sha256 m) = SHA256 (bits_of m).
Proof. apply sha256_is. Qed.
Theorem C92_sha512 m : bits_of (sha512 m) = SHA512 (bits_of m).
Proof. apply sha512_is. Qed.

(** On octet strings; an octet string is determined by its bits. *)
Definition SHA256_octets (m : bytes) : bytes := octets_of (SHA256 (bits_of m)).
Theorem C92_octets m :
  octets_of (bits_of m) = m /\ sha1 m = octets_of (SHA1 (bits_of m)) /\ sha256 m = SHA256_octets m /\ sha512 m = octets_of (SHA512 (bits_of m)).
Proof. unfold SHA256_octets. rewrite <- sha1_is, <- sha256_is, <- sha512_is. now rewrite !octets_bits. Qed.

(** The specification on the examples of the standard *)
Check (test (SHA1 (bits_of (hex "616263"))) (bits_of (hex "a9993e364706816aba3e25717850c26c9cd0d89d"))).
Check (test (SHA256 (bits_of (hex "616263"))) (bits_of (hex "ba7816bf8f01cfea414140de5dae2223b00361a396177a9cb410ff61f20015ad"))).
Check (test (SHA512 (bits_of (hex "616263"))) (bits_of (hex "ddaf35a193617abacc417349ae20413112e6fa4e89a97ea20a9eeee64b55d39a2192992a274fc1a836ba3c23a3feebbd454d4423643ce80e2a9ac94fa54ca49f"))).

(** ** The constants

    [primes] has the first 80 primes in order, and [fraction k w p] the first [w] bits of the fractional part of the
    [k]-th root of [p]: with the right integer part [a] in front it is the largest multiple of 2^-w whose [k]-th power
    is at most [p]. *)
Theorem C92_constants :
  (forall p, In p primes <-> prime (Z.of_N p) /\ (p < 410)%N) /\ StronglySorted N.lt primes /\ length primes = 80 /\
  (forall k w p, (0 < k)%N -> (fraction k w p < 2 ^ w)%N /\
     exists a, ((a * 2 ^ w + fraction k w p) ^ k <= p * 2 ^ (k * w) < (a * 2 ^ w + fraction k w p + 1) ^ k)%N) /\
  s2_k sha256_params = map (fraction 3 32) (firstn 64 primes) /\ s2_k sha512_params = map (fraction 3 64) (firstn 80 primes) /\
  s2_iv sha256_params = map (fraction 2 32) (firstn 8 primes) /\ s2_iv sha512_params = map (fraction 2 64) (firstn 8 primes).
Proof.
  split; [exact primes_spec|]. split; [|split; [now rewrite primes_are|split]].
  - unfold primes. generalize 410. intros n. assert (H : forall n a, StronglySorted N.lt (map N.of_nat (filter is_prime (seq a n)))).
    { clear n. induction n as [|n IH]; intros a; [constructor|]. cbn [seq filter]. destruct (is_prime a); [|apply IH]. cbn [map].
      constructor; [apply IH|]. apply Forall_forall. intros x Hx. apply in_map_iff in Hx. destruct Hx as (y & <- & Hy).
      apply filter_In in Hy. destruct Hy as [Hy _]. apply in_seq in Hy. lia. }
    apply H.
  - intros k w p Hk. unfold fraction. set (r := root k (p * 2 ^ (k * w))%N). split; [apply N.mod_lt, N.pow_nonzero; discriminate|].
    exists (r / 2 ^ w)%N. rewrite (N.mul_comm (r / 2 ^ w)), <- N.div_mod by (apply N.pow_nonzero; discriminate). now apply root_spec.
  - rewrite k256, k512, primes_are, (fractions_are 2 32 eq_refl _ _ iv256_check), (fractions_are 2 64 eq_refl _ _ iv512_check).
    repeat split; reflexivity.
Qed.

(** ** HMAC-SHA-256 and HKDF-SHA-256 *)
Theorem C92_hmac key m : hmac_sha256 key m = HMAC SHA256_octets 64 key m.
Proof.
  unfold hmac_sha256. rewrite (hmac_is sha256 64 32) by (apply sha256_length || lia).
  assert (E : forall x, sha256 x = SHA256_octets x) by (intros x; apply C92_octets).
  unfold HMAC, HMAC_key. cbv zeta. now rewrite !E.
Qed.

Lemma HMAC_ext H H' B key m : (forall x, H x = H' x) -> HMAC H B key m = HMAC H' B key m.
Proof. intros E. unfold HMAC, HMAC_key. cbv zeta. now rewrite !E. Qed.
Lemma HKDF_T_ext H H' B prk info : (forall x, H x = H' x) -> forall i, HKDF_T H B prk info i = HKDF_T H' B prk info i.
Proof. intros E. induction i as [|i IH]; [reflexivity|]. cbn [HKDF_T]. rewrite IH. now apply HMAC_ext. Qed.

Lemma flat_map_length' {A B} (f : A -> list B) k l : (forall x, In x l -> length (f x) = k) -> length (flat_map f l) = length l * k.
Proof.
  induction l as [|x l IH]; intros H; [reflexivity|]. cbn [flat_map length]. rewrite app_length, IH, (H x (or_introl eq_refl)).
  - reflexivity.
  - intros y Hy. apply H. now right.
Qed.
Lemma extract_is salt ikm : hkdf_extract sha256 64 salt ikm = hmac_sha256 salt ikm.
Proof. reflexivity. Qed.
Lemma no_salt H : HMAC_key H 64 [] = HMAC_key H 64 (repeat x00 32).
Proof. reflexivity. Qed.
(** HKDF-Extract and HKDF-Expand: more than 255 blocks are refused, otherwise the output is that of the RFC. *)
Theorem C92_hkdf salt ikm info L :
  hkdf_expand sha256 64 32 (hkdf_extract sha256 64 salt ikm) info L =
  if 255 * 32 <? L then None else Some (HKDF_Expand SHA256_octets 64 32 (HKDF_Extract SHA256_octets 64 salt ikm) info L).
Proof.
  rewrite (hkdf_expand_is sha256 64 32) by (apply sha256_length || lia). destruct (255 * 32 <? L); [reflexivity|]. f_equal.
  rewrite extract_is, C92_hmac. unfold HKDF_Expand, HKDF_Extract. f_equal.
  rewrite !flat_map_concat_map. f_equal. apply map_ext. apply HKDF_T_ext. intros x. apply C92_octets.
Qed.
Theorem C92_hkdf_length salt ikm info L : L <= 255 * 32 ->
  length (HKDF_Expand SHA256_octets 64 32 (HKDF_Extract SHA256_octets 64 salt ikm) info L) = L.
Proof.
  intros HL. unfold HKDF_Expand. rewrite firstn_length, (flat_map_length' _ 32), seq_length.
  - apply Nat.min_l. change 31 with (32 - 1) in *. pose proof (Nat.div_mod (L + (32 - 1)) 32 ltac:(lia)).
    pose proof (Nat.mod_upper_bound (L + (32 - 1)) 32 ltac:(lia)). lia.
  - intros i Hi. apply in_seq in Hi. destruct i as [|i]; [lia|]. cbn [HKDF_T]. unfold HMAC. cbv zeta.
    rewrite <- (proj1 (proj2 (proj2 (C92_octets _)))). apply sha256_length.
Qed.
(** Without a salt the RFC's is a string of HashLen zeros; the crate is given the empty string, which HMAC pads the same way. *)
Theorem C92_salt ikm : hkdf_extract sha256 64 [] ikm = HKDF_Extract SHA256_octets 64 (repeat x00 32) ikm.
Proof. rewrite extract_is, C92_hmac. unfold HKDF_Extract, HMAC. now rewrite no_salt. Qed.
