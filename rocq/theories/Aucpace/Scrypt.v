(** * The default password hasher: [scrypt::Scrypt] (scrypt 0.11.0 with pbkdf2 0.12, salsa20 0.10 and base64ct 1.6.0).

    These crates are not in /repo; the model follows their published source.  aucpace/src/lib.rs:117 makes
    [Scrypt] the hasher of [Client], and all tests and examples use it. *)
From Coq Require Import ZArith Lia.
From Verif Require Import Base.Bytes Base.Outcome Base.Kat Base.Hex Hash.Hash.
From Verif Require Import Aucpace.PwHash Aucpace.PwHashProofs Aucpace.ScryptParams.
Local Open Scope N_scope.

(** ** Decoding of unpadded base64 (base64ct, encoding.rs [decode] and [validate_last_block], alphabet/standard.rs) *)

Definition b64_digit (c : byte) : option N :=
  let n := b2n c in
  if (65 <=? n) && (n <=? 90) then Some (n - 65)
  else if (97 <=? n) && (n <=? 122) then Some (n - 97 + 26)
  else if (48 <=? n) && (n <=? 57) then Some (n - 48 + 52)
  else if n =? 43 then Some 62
  else if n =? 47 then Some 63
  else None.
(** [decode_3bytes] *)
Definition decode_three (a b c d : N) : bytes := [n2b (a * 4 + b / 16); n2b (b mod 16 * 16 + c / 4); n2b (c mod 4 * 64 + d)].
(** The rest of up to three characters is filled up with ['A']; the bits this leaves over must be zero, which the
    crate checks by encoding the last block again. *)
Fixpoint b64_decode (s : bytes) : option bytes :=
  match s with
  | [] => Some []
  | [_] => None
  | [a; b] =>
      match b64_digit a, b64_digit b with
      | Some x, Some y => let d := firstn 1 (decode_three x y 0 0) in if bytes_eqb (b64_encode d) s then Some d else None
      | _, _ => None
      end
  | [a; b; c] =>
      match b64_digit a, b64_digit b, b64_digit c with
      | Some x, Some y, Some z => let d := firstn 2 (decode_three x y z 0) in if bytes_eqb (b64_encode d) s then Some d else None
      | _, _, _ => None
      end
  | a :: b :: c :: d :: r =>
      match b64_digit a, b64_digit b, b64_digit c, b64_digit d, b64_decode r with
      | Some x, Some y, Some z, Some w, Some l => Some (decode_three x y z w ++ l)
      | _, _, _, _, _ => None
      end
  end.

(** ** PBKDF2 with HMAC-SHA-256 and one round (pbkdf2 [pbkdf2_hmac]) *)

Definition pbkdf2_block (password salt : bytes) (i : nat) : bytes := hmac_sha256 password (salt ++ rev (le_bytes 4 (N.of_nat i))).
Definition pbkdf2 (password salt : bytes) (len : nat) : bytes :=
  firstn len (flat_map (pbkdf2_block password salt) (seq 1 (Nat.div (len + 31) 32))).

(** ** Salsa20/8 (salsa20 [SalsaCore::<U4>]) on sixteen words *)

Definition add32 (a b : N) : N := N.land (a + b) mask32.
Definition rotl32 (n x : N) : N := N.land (N.lor (N.shiftl x n) (N.shiftr x (32 - n))) mask32.
Definition quarter_round (q : N * N * N * N) : N * N * N * N :=
  let '(a, b, c, d) := q in
  let b := N.lxor b (rotl32 7 (add32 a d)) in
  let c := N.lxor c (rotl32 9 (add32 b a)) in
  let d := N.lxor d (rotl32 13 (add32 c b)) in
  let a := N.lxor a (rotl32 18 (add32 d c)) in
  (a, b, c, d).
Definition double_round (x : list N) : list N :=
  match x with
  | [v0; v1; v2; v3; v4; v5; v6; v7; v8; v9; v10; v11; v12; v13; v14; v15] =>
      let '(v0, v4, v8, v12) := quarter_round (v0, v4, v8, v12) in
      let '(v5, v9, v13, v1) := quarter_round (v5, v9, v13, v1) in
      let '(v10, v14, v2, v6) := quarter_round (v10, v14, v2, v6) in
      let '(v15, v3, v7, v11) := quarter_round (v15, v3, v7, v11) in
      let '(v0, v1, v2, v3) := quarter_round (v0, v1, v2, v3) in
      let '(v5, v6, v7, v4) := quarter_round (v5, v6, v7, v4) in
      let '(v10, v11, v8, v9) := quarter_round (v10, v11, v8, v9) in
      let '(v15, v12, v13, v14) := quarter_round (v15, v12, v13, v14) in
      [v0; v1; v2; v3; v4; v5; v6; v7; v8; v9; v10; v11; v12; v13; v14; v15]
  | _ => x
  end.
Fixpoint zip_with (f : N -> N -> N) (a b : list N) : list N :=
  match a, b with x :: a', y :: b' => f x y :: zip_with f a' b' | _, _ => [] end.
Definition salsa20_8 (x : list N) : list N :=
  zip_with add32 (double_round (double_round (double_round (double_round x)))) x.

(** ** scrypt (block_mix/soft.rs, romix.rs) on lists of blocks of sixteen words *)

(** [scrypt_block_mix]: the running block, and the outputs in order *)
Fixpoint mix_blocks (x : list N) (b : list (list N)) : list (list N) :=
  match b with
  | [] => []
  | b0 :: b' => let x := salsa20_8 (zip_with N.lxor x b0) in x :: mix_blocks x b'
  end.
Fixpoint evens {A} (l : list A) : list A := match l with a :: _ :: r => a :: evens r | [a] => [a] | [] => [] end.
Definition odds {A} (l : list A) : list A := evens (tl l).
Definition block_mix (b : list (list N)) : list (list N) :=
  let y := mix_blocks (last b []) b in evens y ++ odds y.
(** [integerify]: the first word of the last block, modulo the power of two [n] *)
Definition integerify (x : list (list N)) (n : N) : N := N.land (hd 0 (last x [])) (n - 1).
(** [scrypt_ro_mix]: the first loop leaves the blocks in [v], the last one first *)
Fixpoint ro_fill (n : nat) (x : list (list N)) (v : list (list (list N))) : list (list N) * list (list (list N)) :=
  match n with
  | O => (x, v)
  | S n' => ro_fill n' (block_mix x) (x :: v)
  end.
Fixpoint zip_blocks (a b : list (list N)) : list (list N) :=
  match a, b with x :: a', y :: b' => zip_with N.lxor x y :: zip_blocks a' b' | _, _ => [] end.
Fixpoint ro_walk (k : nat) (n : N) (v : list (list (list N))) (x : list (list N)) : list (list N) :=
  match k with
  | O => x
  | S k' => ro_walk k' n v (block_mix (zip_blocks x (nth (N.to_nat (integerify x n)) v [])))
  end.
Definition ro_mix (n : N) (b : list (list N)) : list (list N) :=
  let '(x, v) := ro_fill (N.to_nat n) b [] in
  ro_walk (N.to_nat n) n (rev v) x.

(** bytes to words and back, all little-endian *)
Fixpoint words (l : bytes) : list N :=
  match l with a :: b :: c :: d :: r => le_val [a; b; c; d] :: words r | _ => [] end.
Fixpoint chunks {A} (fuel n : nat) (l : list A) : list (list A) :=
  match fuel, l with
  | S f, _ :: _ => firstn n l :: chunks f n (skipn n l)
  | _, _ => []
  end.
Definition unwords (x : list (list N)) : bytes := flat_map (fun b => flat_map (le_bytes 4) b) x.
(** lib.rs [scrypt] with an output of [len] > 0 bytes *)
Definition scrypt_raw (password salt : bytes) (P : scrypt_params) (len : nat) : bytes :=
  let r := N.to_nat (sp_r P) in
  let p := N.to_nat (sp_p P) in
  let b := pbkdf2 password salt (128 * r * p) in
  let b := flat_map (fun chunk => unwords (ro_mix (2 ^ sp_log_n P) (chunks (2 * r) 16 (words chunk)))) (chunks p (128 * r) b) in
  pbkdf2 password b len.

(** simple.rs [PasswordHasher for Scrypt]: [hash_password_customized] without algorithm and version; 32 bytes of output *)
Definition scrypt_hasher : hasher scrypt_params := fun password P salt =>
  match b64_decode salt with
  | Some salt => Ok (Some (scrypt_raw password salt P 32))
  | None => Err B64Encoding
  end.

(** ** Facts *)

Lemma digit_char n : n < 64 -> b64_digit (b64_char n) = Some n.
Proof.
  intros H. assert (Hn : (N.to_nat n < 64)%nat) by lia. rewrite <- (N2Nat.id n). revert Hn. generalize (N.to_nat n). clear.
  intros k Hk. do 64 (destruct k as [|k]; [reflexivity|]). lia.
Qed.
Lemma char_digit c n : b64_digit c = Some n -> n < 64 /\ b64_char n = c.
Proof. intros H. destruct c; (discriminate H || (injection H as <-; split; [reflexivity|reflexivity])). Qed.
Ltac divs := zify; Z.div_mod_to_equations; lia.
Lemma byte_is n b : n = b2n b -> n2b n = b.
Proof. intros ->. apply n2b_b2n. Qed.
Lemma decode_three_encode a b c r :
  decode_three (b2n a / 4) (b2n a mod 4 * 16 + b2n b / 16) (b2n b mod 16 * 4 + b2n c / 64) (b2n c mod 64) ++ r = a :: b :: c :: r.
Proof.
  unfold decode_three. cbn [app]. pose proof (b2n_lt a) as Ha. pose proof (b2n_lt b) as Hb. pose proof (b2n_lt c) as Hc.
  f_equal; [|f_equal; [|f_equal]]; apply byte_is; clear r; divs.
Qed.
Lemma encode_decode_three x y z w r : x < 64 -> y < 64 -> z < 64 -> w < 64 ->
  b64_encode (decode_three x y z w ++ r) = b64_char x :: b64_char y :: b64_char z :: b64_char w :: b64_encode r.
Proof.
  intros Hx Hy Hz Hw. unfold decode_three. cbn [app b64_encode]. rewrite !b2n_n2b, !N.mod_small by divs.
  f_equal; [|f_equal; [|f_equal; [|f_equal]]]; f_equal; clear r; divs.
Qed.
(** The decoder accepts exactly what the encoder produces, and undoes it. *)
Lemma b64_decode_iff s l : b64_decode s = Some l <-> s = b64_encode l.
Proof.
  assert (B : forall a n k, 0 < k -> a < k * n -> a / k < n) by (intros; apply N.div_lt_upper_bound; lia).
  split.
  - revert l. assert (HI : forall n s, (length s <= n)%nat -> forall l, b64_decode s = Some l -> s = b64_encode l); [|exact (HI _ s (le_n _))].
    clear s. intros n. induction n as [|n IH]; intros s Hs l H.
    { destruct s; [|cbn in Hs; lia]. injection H as <-. reflexivity. }
    destruct s as [|a [|b [|c [|d r]]]]; cbn [b64_decode] in H; [injection H as <-; reflexivity|discriminate H|..].
    + destruct (b64_digit a), (b64_digit b); try discriminate H. cbv zeta in H.
      destruct (bytes_eqb (b64_encode _) _) eqn:E; [|discriminate H]. injection H as <-. symmetry. now apply bytes_eqb_eq.
    + destruct (b64_digit a), (b64_digit b), (b64_digit c); try discriminate H. cbv zeta in H.
      destruct (bytes_eqb (b64_encode _) _) eqn:E; [|discriminate H]. injection H as <-. symmetry. now apply bytes_eqb_eq.
    + destruct (b64_digit a) as [x|] eqn:Ea, (b64_digit b) as [y|] eqn:Eb, (b64_digit c) as [z|] eqn:Ec, (b64_digit d) as [w|] eqn:Ed;
        try discriminate H. destruct (b64_decode r) as [l'|] eqn:Er; [|discriminate H]. injection H as <-.
      apply char_digit in Ea, Eb, Ec, Ed. destruct Ea as [? <-], Eb as [? <-], Ec as [? <-], Ed as [? <-].
      change (b64_char x :: b64_char y :: b64_char z :: b64_char w :: r = b64_encode (decode_three x y z w ++ l')).
      rewrite encode_decode_three by assumption. rewrite <- (IH r); [reflexivity| |exact Er]. cbn [length] in Hs. lia.
  - intros ->. revert l. assert (HI : forall n l, (length l <= n)%nat -> b64_decode (b64_encode l) = Some l); [|intros l; exact (HI _ l (le_n _))].
    intros n. induction n as [|n IH]; intros l Hl.
    { destruct l; [reflexivity|cbn in Hl; lia]. }
    destruct l as [|a [|b [|c r]]]; [reflexivity|..].
    + pose proof (b2n_lt a). cbn [b64_encode b64_decode]. rewrite !digit_char by divs. cbv zeta.
      assert (E : firstn 1 (decode_three (b2n a / 4) (b2n a mod 4 * 16) 0 0) = [a]).
      { unfold decode_three. cbn [firstn]. f_equal. apply byte_is. divs. }
      rewrite E. cbn [b64_encode]. now rewrite (proj2 (bytes_eqb_eq _ _) eq_refl).
    + pose proof (b2n_lt a). pose proof (b2n_lt b). cbn [b64_encode b64_decode]. rewrite !digit_char by divs. cbv zeta.
      assert (E : firstn 2 (decode_three (b2n a / 4) (b2n a mod 4 * 16 + b2n b / 16) (b2n b mod 16 * 4) 0) = [a; b]).
      { unfold decode_three. cbn [firstn]. f_equal; [|f_equal]; apply byte_is; divs. }
      rewrite E. cbn [b64_encode]. now rewrite (proj2 (bytes_eqb_eq _ _) eq_refl).
    + pose proof (b2n_lt a). pose proof (b2n_lt b). pose proof (b2n_lt c). cbn [b64_encode b64_decode].
      rewrite !digit_char by divs. cbn [length] in Hl. rewrite IH by lia. f_equal. apply decode_three_encode.
Qed.
Lemma pbkdf2_length p s n : length (pbkdf2 p s n) = n.
Proof.
  unfold pbkdf2. rewrite firstn_length, (flat_map_length _ 32), seq_length by (intros i; apply hmac_length, sha256_length).
  pose proof (Nat.div_mod_eq (n + 31) 32). pose proof (Nat.mod_upper_bound (n + 31) 32). lia.
Qed.
Lemma scrypt_length password salt P len : length (scrypt_raw password salt P len) = len.
Proof. apply pbkdf2_length. Qed.

(** ** Known answers: RFC 7914, sections 8, 11, 12 *)
Check (test (pbkdf2 (str "passwd") (str "salt") 64) (hex "55ac046e56e3089fec1691c22544b605f94185216dde0465e68b9d57c20dacbc49ca9cccf179b645991664b39d77ef317c71b845b1e30bd509112041d3a19783")).
Check (test (scrypt_raw (str "") (str "") {| sp_log_n := 4; sp_r := 1; sp_p := 1 |} 64) (hex "77d6576238657b203b19ca42c18a0497f16b4844e3074ae8dfdffa3fede21442fcd0069ded0948f8326a753a0fc81f17e8d3e0fb2e0d3628cf35e20c38d18906")).
Check (test (scrypt_raw (str "pleaseletmein") (str "SodiumChloride") {| sp_log_n := 3; sp_r := 2; sp_p := 3 |} 32) (hex "0b94d94d99c180fd08ff162e2b4958f9ed4d2d28946e43c79c5a825a8028e9ea")).
