(** * Known-answer tests for Hash/Hash.v (FIPS 180-4 / RFC examples; not proofs of anything else). *)
From Verif Require Import Base.Bytes Base.Hex Base.Kat Hash.Hash.

(* sha1_kat0 *)
Check (test (sha1 (hex "616263")) (hex "a9993e364706816aba3e25717850c26c9cd0d89d")).
(* sha256_kat0 *)
Check (test (sha256 (hex "616263")) (hex "ba7816bf8f01cfea414140de5dae2223b00361a396177a9cb410ff61f20015ad")).
(* sha512_kat0 *)
Check (test (sha512 (hex "616263")) (hex "ddaf35a193617abacc417349ae20413112e6fa4e89a97ea20a9eeee64b55d39a2192992a274fc1a836ba3c23a3feebbd454d4423643ce80e2a9ac94fa54ca49f")).
(* sha1_kat1 *)
Check (test (sha1 (hex "")) (hex "da39a3ee5e6b4b0d3255bfef95601890afd80709")).
(* sha256_kat1 *)
Check (test (sha256 (hex "")) (hex "e3b0c44298fc1c149afbf4c8996fb92427ae41e4649b934ca495991b7852b855")).
(* sha512_kat1 *)
Check (test (sha512 (hex "")) (hex "cf83e1357eefb8bdf1542850d66d8007d620e4050b5715dc83f4a921d36ce9ce47d0d13c5d85f2b0ff8318d2877eec2f63b931bd47417a81a538327af927da3e")).
(* sha1_kat2 *)
Check (test (sha1 (hex "6162636462636465636465666465666765666768666768696768696a68696a6b696a6b6c6a6b6c6d6b6c6d6e6c6d6e6f6d6e6f706e6f7071")) (hex "84983e441c3bd26ebaae4aa1f95129e5e54670f1")).
(* sha256_kat2 *)
Check (test (sha256 (hex "6162636462636465636465666465666765666768666768696768696a68696a6b696a6b6c6a6b6c6d6b6c6d6e6c6d6e6f6d6e6f706e6f7071")) (hex "248d6a61d20638b8e5c026930c3e6039a33ce45964ff2167f6ecedd419db06c1")).
(* sha512_kat2 *)
Check (test (sha512 (hex "6162636462636465636465666465666765666768666768696768696a68696a6b696a6b6c6a6b6c6d6b6c6d6e6c6d6e6f6d6e6f706e6f7071")) (hex "204a8fc6dda82f0a0ced7beb8e08a41657c16ef468b228a8279be331a703c33596fd15c13b1b07f9aa1d3bea57789ca031ad85c7a71dd70354ec631238ca3445")).
(* sha1_kat3 *)
Check (test (sha1 (hex "616161616161616161616161616161616161616161616161616161616161616161616161616161616161616161616161616161616161616161616161616161616161616161616161616161616161616161616161616161616161616161616161616161616161616161616161616161")) (hex "ac877859d427d9192054eea8feb3b8a403ef83a5")).
(* sha256_kat3 *)
Check (test (sha256 (hex "616161616161616161616161616161616161616161616161616161616161616161616161616161616161616161616161616161616161616161616161616161616161616161616161616161616161616161616161616161616161616161616161616161616161616161616161616161")) (hex "6374f73208854473827f6f6a3f43b1f53eaa3b82c21c1a6d69a2110b2a79baad")).
(* sha512_kat3 *)
Check (test (sha512 (hex "616161616161616161616161616161616161616161616161616161616161616161616161616161616161616161616161616161616161616161616161616161616161616161616161616161616161616161616161616161616161616161616161616161616161616161616161616161")) (hex "fa9121c7b32b9e01733d034cfc78cbf67f926c7ed83e82200ef86818196921760b4beff48404df811b953828274461673c68d04e297b0eb7b2b4d60fc6b566a2")).
(* sha1_kat4 *)
Check (test (sha1 (hex "62626262626262626262626262626262626262626262626262626262626262626262626262626262626262626262626262626262626262626262626262626262626262626262626262626262626262626262626262626262626262626262626262626262626262626262626262626262")) (hex "7613e3edd19e38b9f5b8df789c0a948eec6a0f04")).
(* sha256_kat4 *)
Check (test (sha256 (hex "62626262626262626262626262626262626262626262626262626262626262626262626262626262626262626262626262626262626262626262626262626262626262626262626262626262626262626262626262626262626262626262626262626262626262626262626262626262")) (hex "2e00e3a07d2633eb2a2ae7a01effd634d3b07dfefe3189a24eccb50829c0d1f1")).
(* sha512_kat4 *)
Check (test (sha512 (hex "62626262626262626262626262626262626262626262626262626262626262626262626262626262626262626262626262626262626262626262626262626262626262626262626262626262626262626262626262626262626262626262626262626262626262626262626262626262")) (hex "fd29e3caf85c0e469f0f157a3d8dad942e776c4cf8fcd1e10fc5592af6024ade7e2c163a127cee9f6053311cae50c40d682260c8f1d4d2b63608a55a66e44f1d")).
(* sha1_kat5 *)
Check (test (sha1 (hex "6363636363636363636363636363636363636363636363636363636363636363636363636363636363636363636363636363636363636363636363636363636363636363636363636363636363636363636363636363636363636363636363636363636363636363636363636363636363636363636363636363636363636363636363636363636363636363636363636363636363636363636363636363636363636363636363636363636363636363636363636363636363636363636363636363636363636363")) (hex "417482b8b5d14a3afb8dc3446a8bc13b358715eb")).
(* sha256_kat5 *)
Check (test (sha256 (hex "6363636363636363636363636363636363636363636363636363636363636363636363636363636363636363636363636363636363636363636363636363636363636363636363636363636363636363636363636363636363636363636363636363636363636363636363636363636363636363636363636363636363636363636363636363636363636363636363636363636363636363636363636363636363636363636363636363636363636363636363636363636363636363636363636363636363636363")) (hex "5e39abe881f543e1215902fe6309ea58521e6911e3af4fd241aea8a95322ae09")).
(* sha512_kat5 *)
Check (test (sha512 (hex "6363636363636363636363636363636363636363636363636363636363636363636363636363636363636363636363636363636363636363636363636363636363636363636363636363636363636363636363636363636363636363636363636363636363636363636363636363636363636363636363636363636363636363636363636363636363636363636363636363636363636363636363636363636363636363636363636363636363636363636363636363636363636363636363636363636363636363")) (hex "99cfa61ef6b82f841fab609192af407f89d3b5598709c7f92b2745020717ea0a442c8cfe97a744075ea91f4060c5b9aeeb1c42326a1e86aaef46dbb31f0f3e35")).
(* hmac_sha256_kat0 *)
Check (test (hmac_sha256 (hex "0b0b0b0b0b0b0b0b0b0b0b0b0b0b0b0b0b0b0b0b") (hex "4869205468657265")) (hex "b0344c61d8db38535ca8afceaf0bf12b881dc200c9833da726e9376c2e32cff7")).
(* hmac_sha256_kat1 *)
Check (test (hmac_sha256 (hex "4a656665") (hex "7768617420646f2079612077616e7420666f72206e6f7468696e673f")) (hex "5bdcc146bf60754e6a042426089575c75a003f089d2739839dec58b964ec3843")).
(* hmac_sha256_kat2 *)
Check (test (hmac_sha256 (hex "aaaaaaaaaaaaaaaaaaaaaaaaaaaaaaaaaaaaaaaaaaaaaaaaaaaaaaaaaaaaaaaaaaaaaaaaaaaaaaaaaaaaaaaaaaaaaaaaaaaaaaaaaaaaaaaaaaaaaaaaaaaaaaaaaaaaaaaaaaaaaaaaaaaaaaaaaaaaaaaaaaaaaaaaaaaaaaaaaaaaaaaaaaaaaaaaaaaaaaaaaaaaaaaaaaaaaaaaaaaaaaaaaaaaaaaaaaaaaaaaaaaaaaaaaaaaaaaaaaaaaa") (hex "54657374205573696e67204c6172676572205468616e20426c6f636b2d53697a65204b6579202d2048617368204b6579204669727374")) (hex "60e431591ee0b67f0d8a26aacbf5b77f8e0bc6213728c5140546040f0ee37f54")).

(** RFC 5869, test case 1 *)
Check (test (
  hkdf_expand sha256 64 32
    (hkdf_extract sha256 64 (hex "000102030405060708090a0b0c") (hex "0b0b0b0b0b0b0b0b0b0b0b0b0b0b0b0b0b0b0b0b0b0b"))
    (hex "f0f1f2f3f4f5f6f7f8f9") 42)
  (Some (hex "3cb25f25faacd57a90434f64d0362f2a2d2d0a90cf1a5a4c5db02d56ecc4c5bf34007208d5b887185865"))).
