(** * Specification of SRP-6a as in RFC 5054, independent of the model's code.

    It uses only: the number a byte string denotes ([be_val]), exponentiation and remainder on
    integers, and string concatenation. *)
From Verif Require Import Base.Bytes.

(** [l] is the shortest big-endian encoding of [n]: it denotes [n], is not empty, and has no
    leading zero byte unless it is the single byte 0. *)
Definition minimal_be (n : N) (l : bytes) : Prop :=
  be_val l = n /\ l <> [] /\ forall t, l = x00 :: t -> t = [].

(** RFC 5054 PAD: left padding with zero bytes to [k] bytes. *)
Definition pad (k : nat) (l : bytes) : bytes := repeat x00 (k - length l) ++ l.

(** A group the API may be used with: non-zero modulus, generator not longer than the modulus. *)
Definition usable_group (n g : N) : Prop :=
  n <> 0%N /\ (forall ln lg, minimal_be n ln -> minimal_be g lg -> length lg <= length ln).

(** x = H(s | H(I | ":" | P)) *)
Definition rfc_x (H : bytes -> bytes) (user pw salt : bytes) : N :=
  be_val (H (salt ++ H (user ++ [x3a] ++ pw))).

(** k = H(N | PAD(g)), given the encodings of N and g *)
Definition rfc_k (H : bytes -> bytes) (enc_n enc_g : bytes) : N :=
  be_val (H (enc_n ++ pad (length enc_n) enc_g)).

(** u = H(PAD(A) | PAD(B)), given the encodings of N, A and B *)
Definition rfc_u (H : bytes -> bytes) (enc_n enc_A enc_B : bytes) : N :=
  be_val (H (pad (length enc_n) enc_A ++ pad (length enc_n) enc_B)).

(** Client side: S = (B - k*g^x)^(a + u*x) mod N, over the integers. *)
Definition srp_client_S (n g B k x a u : N) : Z :=
  (((Z.of_N B - Z.of_N k * Z.of_N g ^ Z.of_N x) ^ (Z.of_N a + Z.of_N u * Z.of_N x)) mod Z.of_N n)%Z.

(** Server side: S = (A * v^u)^b mod N *)
Definition srp_server_S (n A v u b : N) : Z :=
  (((Z.of_N A * Z.of_N v ^ Z.of_N u) ^ Z.of_N b) mod Z.of_N n)%Z.

(** B = k*v + g^b mod N *)
Definition srp_B (n g k v b : N) : N := ((k * v + g ^ b) mod n)%N.

(** The common value: g^(b*(a + u*x)) mod N *)
Definition srp_S (n g a b u x : N) : N := (g ^ (b * (a + u * x)) mod n)%N.
