(** * The group interface of the aucpace model, instantiated with ristretto255.

    [rgroup_laws] is what the theorems about the model assume of the group; here it is proved of the
    group the code uses, so the theorems hold of it without assumption. *)
From Coq Require Import ZArith List.
From Verif Require Import Base.Bytes Base.Hex Base.Kat.
From Verif.Curve Require Import Primes Abelian Ed25519 Ed25519Points Ristretto Ristretto255.
From Verif Require Import Aucpace.RistrettoGroup.
Import ListNotations.
Local Open Scope nat_scope.

Definition Ristretto255 : RGroup := {|
  pt := rpoint;
  radd := ris_add;
  rzero := ris_zero;
  ropp := ris_opp;
  rbase := ris_base;
  reqb := ris_eqb;
  rcompress := ris_compress;
  rdecompress := ris_decompress;
  rfrom_uniform := ris_from_uniform
|}.

Theorem ristretto255_laws : rgroup_laws Ristretto255.
Proof.
  split.
  - exact ris_laws.
  - exact ris_order.
  - exact ris_generated.
  - exact ris_base_nonzero.
  - exact ris_eqb_eq.
  - exact ris_compress_length.
  - exact ris_decompress_compress.
  - exact (fun b P _ => ris_compress_decompress b P).
Qed.

(** ** RFC 9496, appendix A: vectors for the executable definitions *)

Definition enc_epoint (P : epoint) : bytes := fe_bytes (encode_affine P).
Definition decoded (b : bytes) : option bytes :=
  option_map (fun '(x, y) => fe_bytes (ris_encode_fe x y f1 (fmul x y))) (ris_decode_fe (fe_of_bytes b)).

(** A.1: the multiples of the generator (the specification's doubling and addition) *)
Definition B2 := eadd ed_B ed_B.
Definition B4 := eadd B2 B2.
Check (test (enc_epoint ezero) (repeat x00 32)).
Check (test (enc_epoint ed_B) (hex "e2f2ae0a6abc4e71a884a961c500515f58e30b6aa582dd8db6a65945e08d2d76")).
Check (test (enc_epoint B2) (hex "6a493210f7499cd17fecb510ae0cea23a110e8d5b901f8acadd3095c73a3b919")).
Check (test (enc_epoint (eadd B2 ed_B)) (hex "94741f5d5d52755ece4f23f044ee27d5d1ea1e2bd196b462166b16152a9d0259")).
Check (test (enc_epoint B4) (hex "da80862773358b466ffadfe0b3293ab3d9fd53c5ea6c955358f568322daf6a57")).
Check (test (enc_epoint (eadd B4 ed_B)) (hex "e882b131016b52c1d3337080187cf768423efccbb517bb495ab812c4160ff44e")).
Check (test (decoded (hex "e882b131016b52c1d3337080187cf768423efccbb517bb495ab812c4160ff44e"))
            (Some (hex "e882b131016b52c1d3337080187cf768423efccbb517bb495ab812c4160ff44e"))).

(** A.2: rejected encodings (not canonical; negative; not a square; negative xy; y = 0) *)
Definition rejected (b : bytes) : bool := match ris_decompress b with None => true | Some _ => false end.
Check (test (rejected (x00 :: repeat xff 31)) true).
Check (test (rejected (repeat xff 31 ++ [x7f])) true).
Check (test (rejected (xf3 :: repeat xff 30 ++ [x7f])) true).
Check (test (rejected (xed :: repeat xff 30 ++ [x7f])) true).
Check (test (rejected (x01 :: repeat x00 31)) true).
Check (test (rejected (hex "ed57ffd8c914fb201471d1c3d245ce3c746fcbe63a3679d51b6a516ebebe0e20")) true).
Check (test (rejected (hex "26948d35ca62e643e26a83177332e6b6afeb9d08e4268b650f1f5bbd8d81d371")) true).
Check (test (rejected (hex "3eb858e78f5a7254d8c9731174a94f76755fd3941c0ac93735c07ba14579630e")) true).
Check (test (rejected (xec :: repeat xff 30 ++ [x7f])) true).

(** A.3: the map from uniform bytes *)
Definition uniform_raw (b : bytes) : bytes :=
  enc_epoint (eadd (ris_map (fe_of_bytes (firstn 32 b))) (ris_map (fe_of_bytes (firstn 32 (skipn 32 b))))).
Check (test (uniform_raw (hex "5d1be09e3d0c82fc538112490e35701979d99e06ca3e2b5b54bffe8b4dc772c14d98b696a1bbfb5ca32c436cc61c16563790306c79eaca7705668b47dffe5bb6"))
            (hex "3066f82a1a747d45120d1740f14358531a8f04bbffe6a819f86dfe50f44a0a46")).

(** The vector above is of the specification's [rfrom_uniform]: taking the representative of order l
    does not change the encoding. *)
Theorem uniform_raw_correct b : rcompress Ristretto255 (rfrom_uniform Ristretto255 b) = uniform_raw b.
Proof.
  unfold rcompress, rfrom_uniform, Ristretto255, ris_compress, uniform_raw, enc_epoint, ris_from_uniform.
  rewrite rp_class. f_equal. symmetry. apply (ris_encode_class _ _ _ _ _ (rep_affine _)).
  apply even_add; apply ris_map_even.
Qed.
