(** * Known-answer tests of the SPAKE2 definitions, from the crate's own tests
    (spake2/src/lib.rs:585-783).  Evaluated when the file is compiled; see Base/Kat.v. *)
From Coq Require Import ZArith.
From Verif Require Import Base.Bytes Base.Outcome Base.Hex Base.Kat Base.Utf8 Hash.Hash.
From Verif Require Import Curve.Primes Curve.Ed25519 Curve.Ed25519Points Curve.Ed25519Fast.
From Verif Require Import Spake2.Spake2Model Spake2.Ed25519Group Spake2.Spake2Spec Spake2.Spake2Fast.

(** test_convert *)
Check (test (le_bytes 32 2238329342913194256032495932344128051776374960164957527413114840482143558222)
            (hex "4e5ab4345d4708845913b4641bc27d5252a585101bcc4244d449f4a879d9f204")).

(** test_serialize_basepoint *)
Check (test (compress_xy (Bx, By))
            (hex "5866666666666666666666666666666666666666666666666666666666666666")).

(** test_password_to_scalar, on the specification and on the model *)
Check (test (pw_int (str "password"))
            3515301705789368674385125653994241092664323519848410154015274772661223168839%Z).
Check (test (match ed25519_hash_to_scalar (str "password") with Ok s => sval s | _ => 0%Z end)
            3515301705789368674385125653994241092664323519848410154015274772661223168839%Z).

(** test_hash_ab, test_hash_symmetric *)
Definition X32 := repeat x58 32.
Definition Y32 := repeat x59 32.
Definition K32 := repeat x4b 32.
Check (test (hash_ab (str "pw") (str "idA") (str "idB") X32 Y32 K32)
            (@Ok Error _ (hex "d59d9ba920f7092565cec747b08d5b2e981d553ac32fde0f25e5b4a4cfca3efd"))).
Check (test (hash_symmetric (str "pw") (str "idSymmetric") X32 Y32 K32)
            (@Ok Error _ (hex "b0b31e4401aae37d91a9a8bf6fbb1298cafc005ff9142e3ffc5b9799fb11128b"))).
Check (test (hash_symmetric (str "pw") (str "idSymmetric") Y32 X32 K32)
            (@Ok Error _ (hex "b0b31e4401aae37d91a9a8bf6fbb1298cafc005ff9142e3ffc5b9799fb11128b"))).

(** test_asymmetric *)
Definition scalar_a : Z := 2611694063369306139794446498317402240796898290761098242657700742213257926693.
Definition scalar_b : Z := 7002393159576182977806091886122272758628412261510164356026361256515836884383.
Definition kat_pw := str "password".
Definition kat_msg_a := hex "416fc960df73c9cf8ed7198b0c9534e2e96a5984bfc5edc023fd24dacf371f2af9".
Definition kat_msg_b := hex "42354e97b88406922b1df4bea1d7870f17aed3dba7c720b313edae315b00959309".
Definition kat_key := hex "712295de7219c675ddd31942184aa26e0a957cf216bc230d165b215047b520c1".
Check (test (x41 :: fast_msg RoleA kat_pw scalar_a) kat_msg_a).
Check (test (x42 :: fast_msg RoleB kat_pw scalar_b) kat_msg_b).
Check (test (fast_finish (SideA (str "idA") (str "idB")) kat_pw scalar_a kat_msg_b) (@Ok Error _ kat_key)).
Check (test (fast_finish (SideB (str "idA") (str "idB")) kat_pw scalar_b kat_msg_a) (@Ok Error _ kat_key)).

(** tests/spake2.rs: reflected message, bad length *)
Check (test (fast_finish (SideA (str "idA") (str "idB")) kat_pw scalar_a kat_msg_a) (@Err _ bytes BadSide)).
Check (test (fast_finish (SideA (str "idA") (str "idB")) kat_pw scalar_a (repeat x00 34))
            (@Err _ bytes WrongLength)).

(** test_debug *)
Check (test (debug_side false (SideA (str "idA") (str "idB")))
            (str "Side::A { idA: (s=idA), idB: (s=idB) }")).
Check (test (debug_side false (SideSymmetric (str "idS"))) (str "Side::Symmetric { idS: (s=idS) }")).
