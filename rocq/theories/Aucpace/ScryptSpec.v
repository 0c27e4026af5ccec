(** * RFC 7914, on octet strings

    The specification the executable model of the default hasher (Scrypt.v) is compared with.  It follows the text of
    RFC 7914 (sections 2 to 6) and RFC 8018 (section 5.2), with their names, on octet strings and indices; of the
    model's definitions it shares HMAC-SHA-256 only. *)
From Coq Require Import ZArith.
From Verif Require Import Base.Bytes Hash.Hash.
Local Open Scope nat_scope.

(** ** Octet strings *)

(** [len] octets of [B] from [off] on; the [i]-th 64-octet block *)
Definition octets (B : bytes) (off len : nat) : bytes := firstn len (skipn off B).
Definition block (B : bytes) (i : nat) : bytes := octets B (64 * i) 64.
(** [A xor B] *)
Definition xor (A B : bytes) : bytes :=
  map (fun i => n2b (N.lxor (b2n (nth i A x00)) (b2n (nth i B x00)))) (seq 0 (length A)).

(** ** Section 3: the Salsa20/8 core *)

(** [R(a,b)] of a sum [a] modulo 2^32: rotation to the left by [b] *)
Definition R (a b : N) : N := let a := (a mod 2 ^ 32)%N in (a * 2 ^ b mod 2 ^ 32 + a / 2 ^ (32 - b))%N.
(** assignment to [x[i]] *)
Definition set (i : nat) (v : N) (x : list N) : list N := firstn i x ++ v :: skipn (S i) x.
(** [x[i] ^= R(x[a]+x[b],n)] *)
Definition step (x : list N) (s : nat * nat * nat * N) : list N :=
  let '(i, a, b, n) := s in set i (N.lxor (nth i x 0%N) (R (nth a x 0 + nth b x 0)%N n)) x.
Definition double_round_steps : list (nat * nat * nat * N) :=
  [ (4, 0, 12, 7%N); (8, 4, 0, 9%N); (12, 8, 4, 13%N); (0, 12, 8, 18%N);
    (9, 5, 1, 7%N); (13, 9, 5, 9%N); (1, 13, 9, 13%N); (5, 1, 13, 18%N);
    (14, 10, 6, 7%N); (2, 14, 10, 9%N); (6, 2, 14, 13%N); (10, 6, 2, 18%N);
    (3, 15, 11, 7%N); (7, 3, 15, 9%N); (11, 7, 3, 13%N); (15, 11, 7, 18%N);
    (1, 0, 3, 7%N); (2, 1, 0, 9%N); (3, 2, 1, 13%N); (0, 3, 2, 18%N);
    (6, 5, 4, 7%N); (7, 6, 5, 9%N); (4, 7, 6, 13%N); (5, 4, 7, 18%N);
    (11, 10, 9, 7%N); (8, 11, 10, 9%N); (9, 8, 11, 13%N); (10, 9, 8, 18%N);
    (12, 15, 14, 7%N); (13, 12, 15, 9%N); (14, 13, 12, 13%N); (15, 14, 13, 18%N) ].
Definition salsa20_core (B : bytes) : bytes :=
  let input := map (fun i => le_val (octets B (4 * i) 4)) (seq 0 16) in
  let x := Nat.iter 4 (fun x => fold_left step double_round_steps x) input in
  flat_map (fun i => le_bytes 4 ((nth i x 0 + nth i input 0) mod 2 ^ 32)%N) (seq 0 16).

(** ** Section 4: scryptBlockMix *)

(** [Y[i]]; before the first block, [X] is [B[2 * r - 1]] *)
Fixpoint Y (r : nat) (B : bytes) (i : nat) : bytes :=
  salsa20_core (xor (match i with O => block B (2 * r - 1) | S j => Y r B j end) (block B i)).
Definition scryptBlockMix (r : nat) (B : bytes) : bytes :=
  flat_map (fun i => Y r B (2 * i)) (seq 0 r) ++ flat_map (fun i => Y r B (2 * i + 1)) (seq 0 r).

(** ** Section 5: scryptROMix *)

Definition V (r : nat) (B : bytes) (i : nat) : bytes := Nat.iter i (scryptBlockMix r) B.
Definition Integerify (r : nat) (X : bytes) : N := le_val (block X (2 * r - 1)).
Definition scryptROMix (r : nat) (n : N) (B : bytes) : bytes :=
  Nat.iter (N.to_nat n)
    (fun X => let j := (Integerify r X mod n)%N in scryptBlockMix r (xor X (V r B (N.to_nat j))))
    (V r B (N.to_nat n)).

(** ** Section 6, and PBKDF2-HMAC-SHA256 with one iteration *)

(** Octet [k] of the derived key is in block [k / 32 + 1]. *)
Definition PBKDF2_1 (P S : bytes) (dkLen : nat) : bytes :=
  map (fun k => nth (k mod 32) (hmac_sha256 P (S ++ be_bytes 4 (N.of_nat (k / 32 + 1)))) x00) (seq 0 dkLen).
Definition scrypt (P S : bytes) (n : N) (r p dkLen : nat) : bytes :=
  let B := PBKDF2_1 P S (p * 128 * r) in
  PBKDF2_1 P (flat_map (fun i => scryptROMix r n (octets B (i * (128 * r)) (128 * r))) (seq 0 p)) dkLen.
