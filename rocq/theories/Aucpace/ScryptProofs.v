(** * When scrypt gives two passwords the same hash *)
From Coq Require Import ZArith Lia.
From Verif Require Import Base.Bytes Base.Outcome Hash.Hash.
From Verif Require Import Aucpace.PwHash Aucpace.ScryptParams Aucpace.Scrypt Aucpace.AucpaceSpec.
Local Open Scope nat_scope.

(** ** Specification *)

(** RFC 2104: HMAC uses a key longer than a block through its digest, and fills the block with zeros.  So keys
    are the same when they differ by zeros at the end, a long key being replaced by its digest. *)
Definition short_key (k : bytes) : bytes := if Nat.ltb 64 (length k) then sha256 k else k.
Definition up_to_zeros (a b : bytes) : Prop := exists n, a = b ++ repeat x00 n \/ b = a ++ repeat x00 n.
Definition same_hmac_key (k k' : bytes) : Prop := up_to_zeros (short_key k) (short_key k').

(** The two strings HMAC-SHA-256 hashes. *)
Definition key_block (k : bytes) : bytes := short_key k ++ repeat x00 (64 - length (short_key k)).
Definition inner (i : bytes * bytes) : bytes := xor_pad x36 (key_block (fst i)) ++ snd i.
Definition outer (i : bytes * bytes) : bytes := xor_pad x5c (key_block (fst i)) ++ sha256 (inner i).

(** scrypt (RFC 7914, section 6) makes of the password and salt a string, by HMAC of [first], mixes it, and
    ends with the HMAC of [second]. *)
Definition start (P : scrypt_params) (i : bytes * bytes) : bytes :=
  pbkdf2 (fst i) (snd i) (128 * N.to_nat (sp_r P) * N.to_nat (sp_p P)).
Definition mixing (P : scrypt_params) (b : bytes) : bytes :=
  let r := N.to_nat (sp_r P) in
  flat_map (fun chunk => unwords (ro_mix (2 ^ sp_log_n P) (chunks (2 * r) 16 (words chunk)))) (chunks (N.to_nat (sp_p P)) (128 * r) b).
Definition first (i : bytes * bytes) : bytes * bytes := (fst i, snd i ++ [x00; x00; x00; x01]).
Definition second (P : scrypt_params) (i : bytes * bytes) : bytes * bytes := (fst i, mixing P (start P i) ++ [x00; x00; x00; x01]).

(** Two inputs of scrypt exhibit a collision, of SHA-256 in one of the two HMACs or of the mixing function.
    The last digest counts only as [f] sees it. *)
Definition scrypt_collision {A} (f : bytes -> A) (P : scrypt_params) (i i' : bytes * bytes) : Prop :=
  collision sha256 (inner (first i)) (inner (first i')) \/ collision sha256 (outer (first i)) (outer (first i')) \/
  collision (mixing P) (start P i) (start P i') \/
  collision sha256 (inner (second P i)) (inner (second P i')) \/
  collision (fun m => f (sha256 m)) (outer (second P i)) (outer (second P i')).

(** ** Proofs *)

Lemma short_key_length k : length (short_key k) <= 64.
Proof. unfold short_key. destruct (Nat.ltb_spec 64 (length k)); [rewrite sha256_length; lia|lia]. Qed.
Lemma key_block_length k : length (key_block k) = 64.
Proof. unfold key_block. rewrite app_length, repeat_length. pose proof (short_key_length k). lia. Qed.
Lemma xor_pad_length c k : length (xor_pad c k) = length k.
Proof. apply map_length. Qed.
Lemma hmac_outer k m : hmac_sha256 k m = sha256 (outer (k, m)).
Proof. reflexivity. Qed.

Lemma key_block_iff k k' : key_block k = key_block k' <-> same_hmac_key k k'.
Proof.
  unfold key_block, same_hmac_key, up_to_zeros. pose proof (short_key_length k) as L. pose proof (short_key_length k') as L'.
  generalize dependent (short_key k). generalize dependent (short_key k'). intros b Lb a La.
  assert (W : forall a b : bytes, length a <= length b -> length b <= 64 ->
    a ++ repeat x00 (64 - length a) = b ++ repeat x00 (64 - length b) -> b = a ++ repeat x00 (length b - length a)).
  { clear. intros a b L Lb E. apply (f_equal (firstn (length b))) in E.
    rewrite (firstn_app (length b) b), Nat.sub_diag, firstn_O, app_nil_r, firstn_all in E. rewrite <- E at 1.
    rewrite firstn_app, firstn_all2 by exact L. f_equal.
    replace (64 - length a) with ((length b - length a) + (64 - length b)) by lia. rewrite repeat_app, firstn_app, repeat_length, Nat.sub_diag, firstn_O, app_nil_r.
    apply firstn_all2. rewrite repeat_length. lia. }
  split.
  - intros E. destruct (Nat.le_ge_cases (length a) (length b)) as [C|C].
    + exists (length b - length a). right. now apply W.
    + exists (length a - length b). left. apply W; [exact C|exact La|now symmetry].
  - intros (n & [-> | ->]); rewrite app_length, repeat_length in *; rewrite <- app_assoc, <- repeat_app; do 2 f_equal; lia.
Qed.

Lemma xor_involutive c b : (c = x36 \/ c = x5c) -> n2b (N.lxor (b2n (n2b (N.lxor (b2n b) (b2n c)))) (b2n c)) = b.
Proof. intros [-> | ->]; destruct b; reflexivity. Qed.
Lemma xor_pad_inj c k k' : (c = x36 \/ c = x5c) -> xor_pad c k = xor_pad c k' -> k = k'.
Proof.
  intros Hc E. apply (f_equal (xor_pad c)) in E. unfold xor_pad in E. rewrite !map_map in E.
  assert (I : forall l, map (fun b => n2b (N.lxor (b2n (n2b (N.lxor (b2n b) (b2n c)))) (b2n c))) l = l).
  { intros l. rewrite <- (map_id l) at 2. apply map_ext. intros b. now apply xor_involutive. }
  now rewrite !I in E.
Qed.
Lemma app_same_length {A} (a a' b b' : list A) : length a = length a' -> a ++ b = a' ++ b' -> a = a' /\ b = b'.
Proof.
  revert a'. induction a as [|x a IH]; intros [|x' a'] L E; cbn in *; try discriminate L; [now split|].
  injection E as -> E. destruct (IH a') as [-> ->]; [now injection L|exact E|now split].
Qed.
Lemma outer_inv i i' : outer i = outer i' -> key_block (fst i) = key_block (fst i') /\ sha256 (inner i) = sha256 (inner i').
Proof.
  intros E. apply app_same_length in E; [|now rewrite !xor_pad_length, !key_block_length].
  destruct E as [E ->]. split; [|reflexivity]. apply (xor_pad_inj x5c); [now right|exact E].
Qed.
Lemma inner_inv i i' : key_block (fst i) = key_block (fst i') -> inner i = inner i' -> snd i = snd i'.
Proof. intros B E. apply app_same_length in E; [easy|now rewrite B]. Qed.

Lemma bytes_dec (a b : bytes) : a = b \/ a <> b.
Proof. destruct (bytes_eqb a b) eqn:E; [left; now apply bytes_eqb_eq|right]. intros ->. now rewrite (proj2 (bytes_eqb_eq b b) eq_refl) in E. Qed.

(** Equal keyed digests. *)
Lemma hmac_inv {A} (f : bytes -> A) i i' : f (sha256 (outer i)) = f (sha256 (outer i')) ->
  collision sha256 (inner i) (inner i') \/ collision (fun m => f (sha256 m)) (outer i) (outer i') \/
  (same_hmac_key (fst i) (fst i') /\ snd i = snd i').
Proof.
  intros E. destruct (bytes_dec (outer i) (outer i')) as [Eo|No]; [|right; left; now split].
  apply outer_inv in Eo. destruct Eo as [B Ei].
  destruct (bytes_dec (inner i) (inner i')) as [E'|N]; [|left; now split].
  right. right. split; [now apply key_block_iff|now apply (inner_inv i i')].
Qed.

Lemma pbkdf2_32 p s : pbkdf2 p s 32 = sha256 (outer (p, s ++ [x00; x00; x00; x01])).
Proof.
  unfold pbkdf2. change (seq 1 ((32 + 31) / 32)) with [1]. cbn [flat_map]. rewrite app_nil_r. unfold pbkdf2_block.
  rewrite firstn_all2 by (unfold hmac_sha256; rewrite (hmac_length _ _ 32) by apply sha256_length; lia). reflexivity.
Qed.
Lemma pbkdf2_prefix p s n : 32 <= n -> firstn 32 (pbkdf2 p s n) = sha256 (outer (p, s ++ [x00; x00; x00; x01])).
Proof.
  intros H. unfold pbkdf2. rewrite firstn_firstn, Nat.min_l by exact H.
  assert (K : exists k, (n + 31) / 32 = S k).
  { assert (1 <= (n + 31) / 32) by (apply (Nat.div_le_lower_bound _ 32); lia). exists (pred ((n + 31) / 32)). lia. }
  destruct K as [k ->]. cbn [seq flat_map]. unfold pbkdf2_block at 1.
  rewrite firstn_app. unfold hmac_sha256 at 2. rewrite (hmac_length _ _ 32) by apply sha256_length.
  rewrite Nat.sub_diag, firstn_O, app_nil_r. rewrite firstn_all2 by (unfold hmac_sha256; rewrite (hmac_length _ _ 32) by apply sha256_length; lia).
  reflexivity.
Qed.
Lemma scrypt_second P i : scrypt_raw (fst i) (snd i) P 32 = sha256 (outer (second P i)).
Proof. unfold scrypt_raw. rewrite pbkdf2_32. reflexivity. Qed.

Lemma start_long P i : scrypt_ok P -> firstn 32 (start P i) = sha256 (outer (first i)).
Proof.
  intros (Hr & Hp & _). unfold start. rewrite pbkdf2_prefix; [reflexivity|].
  assert (1 <= N.to_nat (sp_r P) * N.to_nat (sp_p P)) by (rewrite <- N2Nat.inj_mul; lia).
  rewrite <- Nat.mul_assoc. lia.
Qed.

(** The hash depends on the password through the key only. *)
Lemma scrypt_same_key password password' salt P len :
  same_hmac_key password password' -> scrypt_raw password salt P len = scrypt_raw password' salt P len.
Proof.
  intros H. apply key_block_iff in H.
  assert (B : forall m, hmac_sha256 password m = hmac_sha256 password' m).
  { intros m. rewrite !hmac_outer. unfold outer, inner. cbn [fst snd]. now rewrite H. }
  assert (F : forall s n, pbkdf2 password s n = pbkdf2 password' s n).
  { intros s n. unfold pbkdf2. f_equal. rewrite !flat_map_concat_map. f_equal. apply map_ext. intros k. apply B. }
  unfold scrypt_raw. rewrite !F. reflexivity.
Qed.

(** Equal hashes, or hashes that are equal as seen by [f]: same key and same salt, or a collision. *)
Lemma scrypt_inv {A} (f : bytes -> A) P i i' : scrypt_ok P ->
  f (scrypt_raw (fst i) (snd i) P 32) = f (scrypt_raw (fst i') (snd i') P 32) ->
  scrypt_collision f P i i' \/ (same_hmac_key (fst i) (fst i') /\ snd i = snd i').
Proof.
  intros HP. rewrite !scrypt_second. intros E. unfold scrypt_collision.
  destruct (hmac_inv f _ _ E) as [C|[C|[K M]]]; [tauto|tauto|]. cbn [second fst snd] in K, M.
  apply app_inv_tail in M. destruct (bytes_dec (start P i) (start P i')) as [Es|Ns]; [|left; right; right; left; now split].
  apply (f_equal (firstn 32)) in Es. rewrite !start_long in Es by exact HP.
  destruct (hmac_inv (fun x => x) _ _ Es) as [C|[C|[_ M']]]; [tauto|left; right; left; exact C|].
  right. split; [exact K|]. cbn [first snd] in M'. now apply app_inv_tail in M'.
Qed.
