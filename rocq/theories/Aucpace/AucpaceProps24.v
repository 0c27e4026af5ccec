(** * The default hasher of AuCPace is scrypt as in RFC 7914 (C90). *)
From Coq Require Import ZArith Lia List.
From Verif Require Import Base.Bytes Base.Outcome Base.Kat Base.Hex Hash.Hash.
From Verif Require Import Aucpace.PwHash Aucpace.ScryptParams Aucpace.Scrypt Aucpace.ScryptProofs Aucpace.ScryptSpec Aucpace.ScryptRfc.
Import ListNotations.
Local Open Scope nat_scope.

(** The hash of a password under a salt in base64 is scrypt of the password and the salt, 32 octets of it. *)
Theorem C90_hash password salt P : scrypt_ok P -> (sp_log_n P <= 32)%N ->
  scrypt_hasher password P (b64_encode salt) =
  Ok (Some (scrypt password salt (2 ^ sp_log_n P) (N.to_nat (sp_r P)) (N.to_nat (sp_p P)) 32)).
Proof.
  intros HP Hk. unfold scrypt_hasher. rewrite (proj2 (b64_decode_iff _ salt) eq_refl). do 2 f_equal. now apply scrypt_rfc.
Qed.
(** A salt that is not the base64 text of octets is an error. *)
Theorem C90_salt password s P : (forall salt, s <> b64_encode salt) -> scrypt_hasher password P s = Err B64Encoding.
Proof.
  intros H. unfold scrypt_hasher. destruct (b64_decode s) as [salt|] eqn:E; [|reflexivity].
  apply b64_decode_iff in E. now elim (H salt).
Qed.
(** The mixing function of C88 is scryptROMix on each of the [p] parts. *)
Theorem C90_mixing P b : scrypt_ok P -> (sp_log_n P <= 32)%N ->
  let r := N.to_nat (sp_r P) in let p := N.to_nat (sp_p P) in length b = 128 * r * p ->
  mixing P b = flat_map (fun i => scryptROMix r (2 ^ sp_log_n P) (octets b (i * (128 * r)) (128 * r))) (seq 0 p).
Proof.
  intros (Hr & Hp & _) Hk r p Lb. unfold mixing. cbv zeta. fold r p. assert (Hr' : 0 < r) by lia.
  rewrite chunks_map by lia. rewrite !flat_map_concat_map, map_map. f_equal. apply map_ext_in. intros i Hi. apply in_seq in Hi.
  unfold octets. assert (L : length (firstn (128 * r) (skipn (i * (128 * r)) b)) = 128 * r).
  { rewrite firstn_length, skipn_length, Lb. assert (S i * (128 * r) <= p * (128 * r)) by (apply Nat.mul_le_mono_r; lia). lia. }
  destruct (chunks_words r _ L) as [G E]. rewrite <- E at 2. symmetry. now apply ro_mix_ok.
Qed.

(** With more than 2^32 table entries the hash is not RFC 7914's: the crate takes the index from 32 bits, so whatever
    the state, the second half of the table is never read, and for some states the RFC reads there. *)
Theorem C90_index_refuted r k : 0 < r -> (32 < k)%N ->
  (forall X, length X = 128 * r -> (integerify (chunks (2 * r) 16 (words X)) (2 ^ k) < 2 ^ 32)%N) /\
  (exists X, length X = 128 * r /\ (Integerify r X mod 2 ^ k = 2 ^ 32)%N).
Proof.
  intros Hr Hk. split.
  - intros X L. destruct (chunks_words r X L) as [[G Lx] _]. generalize dependent (chunks (2 * r) 16 (words X)). intros x G Lx.
    unfold integerify. rewrite last_nth, Lx. pose proof (nth_good x (2 * r - 1) G ltac:(lia)) as [Lw Hw].
    destruct (nth (2 * r - 1) x []) as [|v w]; [discriminate Lw|]. cbn [hd]. inversion Hw as [|? ? Hv _]; subst.
    apply bits_word. intros m Hm. rewrite N.land_spec. now rewrite (word_bits v m).
  - exists (repeat x00 (128 * r - 64) ++ [x00; x00; x00; x00; x01] ++ repeat x00 59). split.
    + rewrite !app_length, !repeat_length. cbn [length]. lia.
    + unfold Integerify, block, octets. rewrite skipn_app, skipn_all2, repeat_length by (rewrite repeat_length; lia).
      replace (64 * (2 * r - 1) - (128 * r - 64)) with 0 by lia. cbn [skipn]. rewrite app_nil_l.
      change (le_val (firstn 64 ([x00; x00; x00; x00; x01] ++ repeat x00 59))) with (2 ^ 32)%N.
      apply N.mod_small. apply N.pow_lt_mono_r; lia.
Qed.

(** Cases: the vectors of sections 8 and 12 of the RFC, on the specification; accepted parameters of both kinds. *)
Check (test (salsa20_core (hex "7e879a214f3ec9867ca940e641718f26baee555b8c61c1b50df846116dcd3b1dee24f319df9b3d8514121e4b5ac5aa3276021d2909c74829edebc68db8b8c25e")) (hex "a41f859c6608cc993b81cacb020cef05044b2181a2fd337dfd7b1c6396682f29b4393168e3c9e6bcfe6bc5b7a06d96bae424cc102c91745c24ad673dc7618f81")).
Check (test (scrypt (str "") (str "") 16 1 1 64) (hex "77d6576238657b203b19ca42c18a0497f16b4844e3074ae8dfdffa3fede21442fcd0069ded0948f8326a753a0fc81f17e8d3e0fb2e0d3628cf35e20c38d18906")).
Example C90_case_recommended : scrypt_ok {| sp_log_n := 17; sp_r := 8; sp_p := 1 |} /\ (17 <= 32)%N.
Proof. unfold scrypt_ok. cbn [sp_log_n sp_r sp_p]. repeat split; lia || reflexivity || discriminate. Qed.
Example C90_case_large : scrypt_ok {| sp_log_n := 33; sp_r := 8; sp_p := 1 |} /\ (32 < 33)%N.
Proof. unfold scrypt_ok. cbn [sp_log_n sp_r sp_p]. repeat split; lia || reflexivity || discriminate. Qed.
Example C90_case_salt : forall salt, str "a" <> b64_encode salt.
Proof. intros [|a [|b [|c salt]]] H; cbn in H; discriminate H. Qed.
