(** * [impl Group for Ed25519Group] (spake2/src/ed25519.rs). *)
From Coq Require Import ZArith Znumtheory.
From Verif Require Import Base.Bytes Base.Outcome Base.Rng Base.Hex Hash.Hash.
From Verif Require Import Curve.Primes Curve.Zmod Curve.Abelian Curve.Ed25519 Curve.Ed25519Points.
From Verif Require Export Curve.Scalar25519.
From Verif Require Import Spake2.Spake2Model.
Local Open Scope Z_scope.

(** [CompressedEdwardsY(bytes).decompress().unwrap()] *)
Definition decompress_unwrap (b : bytes) : outcome Empty_set epoint :=
  match decompress b with
  | Some P => Ok P
  | None => Panic
  end.

(** [reducible[32 + 16 - 1 - i] = okm[i]] for i in 0..48 on a zeroed 64-byte array:
    the 48 bytes reversed, followed by 16 zeros. *)
Definition reducible (okm : bytes) : bytes := rev (firstn 48 okm) ++ repeat x00 16.

(** ed25519.rs:106-129 [ed25519_hash_to_scalar]; [Hkdf::new] with an empty salt,
    [expand(...).unwrap()] *)
Definition ed25519_hash_to_scalar (s : bytes) : outcome Empty_set scalar :=
  match hkdf_expand sha256 64 32 (hkdf_extract sha256 64 [] s) (str "SPAKE2 pw") 48 with
  | Some okm => Ok (scalar_wide (reducible okm))
  | None => Panic
  end.

(** ed25519.rs:82-92 [bytes_to_element] *)
Definition ed_bytes_to_element (b : bytes) : option epoint :=
  if negb (Nat.eqb (length b) 32) then None else decompress b.

(** ed25519.rs:14-104 *)
Definition Ed25519Group : Group := {|
  Scalar := scalar;
  Element := epoint;
  g_name := str "Ed25519";                                  (* 19-21 *)
  const_m := decompress_unwrap M_bytes;                     (* 23-33 *)
  const_n := decompress_unwrap N_bytes;                     (* 35-45 *)
  const_s := decompress_unwrap S_bytes;                     (* 47-57 *)
  hash_to_scalar := ed25519_hash_to_scalar;                 (* 59-61 *)
  random_scalar := scalar_random;                           (* 63-68 *)
  scalar_neg := zopp ell ell_gt_1;                          (* 70-72 *)
  element_to_bytes := compress;                             (* 74-76 *)
  element_length := 32;                                     (* 78-80 *)
  bytes_to_element := ed_bytes_to_element;                  (* 82-92 *)
  basepoint_mult := fun s => emul (sval s) ed_B;            (* 94-96 *)
  scalarmult := fun e s => emul (sval s) e;                 (* 97-99 *)
  g_add := eadd                                             (* 101-103 *)
|}.
