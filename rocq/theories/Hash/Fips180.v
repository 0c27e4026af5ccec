(** * FIPS 180-4 on bit strings, RFC 2104 and RFC 5869 on octet strings

    The specification the executable hash functions (Hash.v) are compared with.  It follows the text of the standards,
    with their names and indices, and shares no definition with the model.  A bit string has its first bit first; a
    word of [w] bits is a number below 2^w, described by its bits; the constants are computed from their definition, the
    roots of the first primes. *)
From Coq Require Import ZArith.
From Verif Require Import Base.Bytes.
Local Open Scope nat_scope.

(** ** Bit strings (FIPS 180-4, section 3.1) *)

(** the bits of an octet string, the most significant bit of each octet first *)
Definition bits_of (m : bytes) : list bool := flat_map (fun b => map (N.testbit (b2n b)) [7; 6; 5; 4; 3; 2; 1; 0]%N) m.
(** the number a bit string expresses *)
Definition value (s : list bool) : N := fold_left (fun n b => (2 * n + N.b2n b)%N) s 0%N.
(** the octets of a bit string whose length is a multiple of 8 *)
Definition octets_of (s : list bool) : bytes := map (fun i => n2b (value (firstn 8 (skipn (8 * i) s)))) (seq 0 (length s / 8)).
(** [n] expressed in binary, with [k] bits *)
Definition bit (x : N) (i : nat) : bool := N.testbit x (N.of_nat i).
Definition binary (k : nat) (n : N) : list bool := map (bit n) (rev (seq 0 k)).

(** ** Words of [w] bits (sections 2.2.2, 3.2, 4.1); bit 0 is the least significant one *)
Section Words.
Context (w : nat).
Definition word (f : nat -> bool) : N := value (map f (rev (seq 0 w))).
Definition ROTR (n : nat) (x : N) : N := word (fun i => bit x ((i + n) mod w)).
Definition ROTL (n : nat) (x : N) : N := word (fun i => bit x ((i + (w - n)) mod w)).
Definition SHR (n : nat) (x : N) : N := word (fun i => (i + n <? w) && bit x (i + n)).
Definition XOR3 (x y z : N) : N := word (fun i => xorb (bit x i) (xorb (bit y i) (bit z i))).
Definition Ch (x y z : N) : N := word (fun i => if bit x i then bit y i else bit z i).
Definition Maj (x y z : N) : N := word (fun i => (bit x i && bit y i) || (bit x i && bit z i) || (bit y i && bit z i)).
(** addition modulo 2^w *)
Definition plus (l : list N) : N := (fold_right N.add 0 l mod 2 ^ N.of_nat w)%N.

(** ** Padding and parsing (sections 5.1, 5.2): blocks of 16 words; the length of the message in the last two *)

(** the smallest solution of l + 1 + k = 14 w modulo 16 w *)
Definition zeros (l : nat) : nat :=
  match find (fun k => (l + 1 + k) mod (16 * w) =? 14 * w) (seq 0 (16 * w)) with Some k => k | None => 0 end.
Definition padded (M : list bool) : list bool :=
  M ++ [true] ++ repeat false (zeros (length M)) ++ binary (2 * w) (N.of_nat (length M)).
(** [M_j^(i)], with [i] from 0 *)
Definition M_word (P : list bool) (i j : nat) : N := value (firstn w (skipn ((16 * i + j) * w) P)).

(** ** SHA-256 and SHA-512 (sections 6.2, 6.4), which differ in the following *)
Context (T : nat) (Sigma0 Sigma1 sigma0 sigma1 : N -> N) (K : list N).
Definition words8 : Type := N * N * N * N * N * N * N * N.

(** [W_0 .. W_(t-1)] *)
Fixpoint W (M : nat -> N) (t : nat) : list N :=
  match t with
  | O => []
  | S t =>
      let l := W M t in
      let W i := nth i l 0%N in
      l ++ [if t <? 16 then M t else plus [sigma1 (W (t - 2)); W (t - 7); sigma0 (W (t - 15)); W (t - 16)]]
  end.
Definition round (W : list N) (s : words8) (t : nat) : words8 :=
  let '(a, b, c, d, e, f, g, h) := s in
  let T1 := plus [h; Sigma1 e; Ch e f g; nth t K 0%N; nth t W 0%N] in
  let T2 := plus [Sigma0 a; Maj a b c] in
  (plus [T1; T2], a, b, c, plus [d; T1], e, f, g).
Definition next (M : nat -> N) (H : words8) : words8 :=
  let '(a, b, c, d, e, f, g, h) := fold_left (round (W M T)) (seq 0 T) H in
  let '(H0, H1, H2, H3, H4, H5, H6, H7) := H in
  (plus [a; H0], plus [b; H1], plus [c; H2], plus [d; H3], plus [e; H4], plus [f; H5], plus [g; H6], plus [h; H7]).
(** [H^(i)] *)
Fixpoint Hash8 (H0 : words8) (P : list bool) (i : nat) : words8 :=
  match i with O => H0 | S i => next (M_word P i) (Hash8 H0 P i) end.
Definition SHA2 (H0 : words8) (M : list bool) : list bool :=
  let P := padded M in
  let '(a, b, c, d, e, f, g, h) := Hash8 H0 P (length P / (16 * w)) in
  binary w a ++ binary w b ++ binary w c ++ binary w d ++ binary w e ++ binary w f ++ binary w g ++ binary w h.
End Words.

(** ** Constants (sections 4.2.2, 4.2.3, 5.3.3, 5.3.5) *)

Definition is_prime (n : nat) : bool := (1 <? n) && forallb (fun d => negb (N.of_nat n mod N.of_nat d =? 0)%N) (seq 2 (n - 2)).
(** there are 80 primes below 410 *)
Definition primes : list N := map N.of_nat (filter is_prime (seq 0 410)).
(** the largest r of at most [b] bits above [acc] with r^k <= n *)
Fixpoint root_from (b : nat) (k n acc : N) : N :=
  match b with
  | O => acc
  | S b => let r := (acc + 2 ^ N.of_nat b)%N in root_from b k n (if (r ^ k <=? n)%N then r else acc)
  end.
Definition root (k n : N) : N := root_from (N.to_nat (N.size n)) k n 0.
(** the first [w] bits of the fractional part of the [k]-th root of [p] *)
Definition fraction (k w p : N) : N := (root k (p * 2 ^ (k * w)) mod 2 ^ w)%N.
Definition first8 (l : list N) : words8 :=
  let H i := nth i l 0%N in (H 0, H 1, H 2, H 3, H 4, H 5, H 6, H 7).

Definition SHA256 : list bool -> list bool :=
  let w := 32 in
  SHA2 w 64 (fun x => XOR3 w (ROTR w 2 x) (ROTR w 13 x) (ROTR w 22 x)) (fun x => XOR3 w (ROTR w 6 x) (ROTR w 11 x) (ROTR w 25 x))
    (fun x => XOR3 w (ROTR w 7 x) (ROTR w 18 x) (SHR w 3 x)) (fun x => XOR3 w (ROTR w 17 x) (ROTR w 19 x) (SHR w 10 x))
    (map (fraction 3 32) (firstn 64 primes)) (first8 (map (fraction 2 32) primes)).
Definition SHA512 : list bool -> list bool :=
  let w := 64 in
  SHA2 w 80 (fun x => XOR3 w (ROTR w 28 x) (ROTR w 34 x) (ROTR w 39 x)) (fun x => XOR3 w (ROTR w 14 x) (ROTR w 18 x) (ROTR w 41 x))
    (fun x => XOR3 w (ROTR w 1 x) (ROTR w 8 x) (SHR w 7 x)) (fun x => XOR3 w (ROTR w 19 x) (ROTR w 61 x) (SHR w 6 x))
    (map (fraction 3 64) (firstn 80 primes)) (first8 (map (fraction 2 64) primes)).

(** ** SHA-1 (sections 4.1.1, 4.2.1, 5.3.1, 6.1) *)
Section Sha1.
Local Notation w := 32.
Definition words5 : Type := N * N * N * N * N.
Definition f1 (t : nat) (x y z : N) : N :=
  if t <? 20 then Ch w x y z else if t <? 40 then XOR3 w x y z else if t <? 60 then Maj w x y z else XOR3 w x y z.
Definition K1 (t : nat) : N :=
  if t <? 20 then 0x5a827999 else if t <? 40 then 0x6ed9eba1 else if t <? 60 then 0x8f1bbcdc else 0xca62c1d6.
Fixpoint W1 (M : nat -> N) (t : nat) : list N :=
  match t with
  | O => []
  | S t =>
      let l := W1 M t in
      let W i := nth i l 0%N in
      l ++ [if t <? 16 then M t else ROTL w 1 (XOR3 w (W (t - 3)) (W (t - 8)) (XOR3 w (W (t - 14)) (W (t - 16)) 0%N))]
  end.
Definition round1 (W : list N) (s : words5) (t : nat) : words5 :=
  let '(a, b, c, d, e) := s in
  let T := plus w [ROTL w 5 a; f1 t b c d; e; K1 t; nth t W 0%N] in
  (T, a, ROTL w 30 b, c, d).
Definition next1 (M : nat -> N) (H : words5) : words5 :=
  let '(a, b, c, d, e) := fold_left (round1 (W1 M 80)) (seq 0 80) H in
  let '(H0, H1, H2, H3, H4) := H in
  (plus w [a; H0], plus w [b; H1], plus w [c; H2], plus w [d; H3], plus w [e; H4]).
Fixpoint Hash5 (P : list bool) (i : nat) : words5 :=
  match i with
  | O => (0x67452301, 0xefcdab89, 0x98badcfe, 0x10325476, 0xc3d2e1f0)%N
  | S i => next1 (M_word w P i) (Hash5 P i)
  end.
Definition SHA1 (M : list bool) : list bool :=
  let P := padded w M in
  let '(a, b, c, d, e) := Hash5 P (length P / (16 * w)) in
  binary w a ++ binary w b ++ binary w c ++ binary w d ++ binary w e.
End Sha1.

(** ** HMAC (RFC 2104, section 2) and HKDF (RFC 5869, sections 2.2, 2.3) *)
Section Hmac.
Context (H : bytes -> bytes) (B : nat).
(** a key longer than [B] octets is hashed; zeros are appended to make [B] octets *)
Definition HMAC_key (K : bytes) : bytes :=
  let K := if B <? length K then H K else K in map (fun i => nth i K x00) (seq 0 B).
Definition XOR_each (K : bytes) (c : N) : bytes := map (fun k => n2b (N.lxor (b2n k) c)) K.
Definition HMAC (K text : bytes) : bytes :=
  let K := HMAC_key K in H (XOR_each K 0x5c ++ H (XOR_each K 0x36 ++ text)).

Definition HKDF_Extract (salt IKM : bytes) : bytes := HMAC salt IKM.
(** [T(0)] is empty *)
Fixpoint HKDF_T (PRK info : bytes) (i : nat) : bytes :=
  match i with O => [] | S j => HMAC PRK (HKDF_T PRK info j ++ info ++ [n2b (N.of_nat i)]) end.
(** the first [L] octets of [T(1) | .. | T(N)], with [N] = ceil(L / HashLen) *)
Definition HKDF_Expand (HashLen : nat) (PRK info : bytes) (L : nat) : bytes :=
  firstn L (flat_map (HKDF_T PRK info) (seq 1 ((L + (HashLen - 1)) / HashLen))).
End Hmac.
