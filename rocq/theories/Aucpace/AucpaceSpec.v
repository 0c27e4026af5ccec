(** * Specification of AuCPace, written from the protocol table in aucpace/src/lib.rs:23-83 (and the
    paper it cites), independent of the model's functions.

    Exponents multiply in the field of scalars; the cofactor of ristretto255 is 1. *)
From Coq Require Import ZArith.
From Verif Require Import Base.Bytes Base.Rng.
From Verif Require Import Curve.Primes Curve.Scalar25519 Aucpace.RistrettoGroup.
Local Open Scope nat_scope.

(** "H0..H5: H where the index is prepended to the input as a little-endian four-byte word" *)
Definition word (i : byte) : bytes := [i; x00; x00; x00].

(** A collision of [f]: two different inputs with the same image. *)
Definition collision {A B} (f : A -> B) (a b : A) : Prop := a <> b /\ f a = f b.

Section Spec.
Context (R : RGroup) (D : bytes -> bytes).

(** ssid = H0(s || t) *)
Definition spec_ssid (s t : bytes) : bytes := D (word x00 ++ s ++ t).
(** the SSID of a pre-established string *)
Definition spec_ssid_pre (ssid : bytes) : bytes := D (word x00 ++ ssid).
(** W = B^w, X = B^x *)
Definition spec_W (w : scalar) : pt R := rmul (rbase R) w.
Definition spec_X (x : scalar) : pt R := rmul (rbase R) x.
(** PRS = W^x = X^w = B^(w*x) *)
Definition spec_PRS (w x : scalar) : bytes := rcompress R (rmul (rbase R) (smult w x)).
(** G = Map2Point(H1(ssid || PRS || CI)) *)
Definition spec_G (ssid prs ci : bytes) : pt R := rfrom_uniform R (D (word x01 ++ ssid ++ prs ++ ci)).
(** K = Yb^ya = Ya^yb = G^(ya*yb) *)
Definition spec_K (ssid prs ci : bytes) (ya yb : scalar) : pt R := rmul (spec_G ssid prs ci) (smult ya yb).
(** sk1 = H2(ssid || K) *)
Definition spec_sk1 (ssid prs ci : bytes) (ya yb : scalar) : bytes :=
  D (word x02 ++ ssid ++ rcompress R (spec_K ssid prs ci ya yb)).
(** Ta = H3(ssid || sk1), Tb = H4(ssid || sk1), sk = H5(ssid || sk1) *)
Definition spec_Ta (ssid sk1 : bytes) : bytes := D (word x03 ++ ssid ++ sk1).
Definition spec_Tb (ssid sk1 : bytes) : bytes := D (word x04 ++ ssid ++ sk1).
Definition spec_sk (ssid sk1 : bytes) : bytes := D (word x05 ++ ssid ++ sk1).

(** Strong variant: Z = Map2Point(H1(user || password)), salt point Z^q *)
Definition spec_Z (user pass : bytes) : pt R := rfrom_uniform R (D (word x01 ++ user ++ pass)).

(** "${1..m_J}": the scalar a generator in state [st] yields, and its state afterwards *)
Definition drawn (T : Rng) (st : rng_state T) : scalar :=
  sof (Z.of_N (le_val (fst (rng_fill T 64 st)))).
Definition after (T : Rng) (n : nat) (st : rng_state T) : rng_state T := snd (rng_fill T n st).
End Spec.
