(** * Known-answer tests of the SRP model: srp/tests/rfc5054.rs and srp/src/types.rs:40-45.

    These are tests of the model against the vectors the repository checks, not proofs. *)
From Verif Require Import Base.Bytes Base.Outcome Base.BigUint Base.Hex Base.Kat Hash.Hash.
From Verif Require Import Srp.SrpModel Srp.SrpGroups.
Local Open Scope N_scope.

Definition kat_k := hex "7556AA045AEF2CDD07ABAF0F665C3E818913186F".
Definition kat_x := hex "94B7555AABE9127CC58CCF4993DB6CF84D16C124".
Definition kat_u := hex "CE38B9593487DA98554ED47D70A7AE5F462EF019".
Definition kat_a := hex "60975527035CF2AD1989806F0407210BC81EDC04E2762A56AFD529DDDA2D4393".
Definition kat_b := hex "E487CB59D31AC550471E81F00F6928E01DDA08E974A004F49E61F5D105284D20".
Definition kat_v := hex
 "7E273DE8696FFC4F4E337D05B4B375BEB0DDE1569E8FA00A9886D812
  9BADA1F1822223CA1A605B530E379BA4729FDC59F105B4787E5186F5
  C671085A1447B52A48CF1970B4FB6F8400BBF4CEBFBB168152E08AB5
  EA53D15C1AFF87B2B9DA6E04E058AD51CC72BFC9033B564E26480D78
  E955A5E29E7AB245DB2BE315E2099AFB".
Definition kat_A := hex
 "61D5E490F6F1B79547B0704C436F523DD0E560F0C64115BB72557EC4
  4352E8903211C04692272D8B2D1A5358A2CF1B6E0BFCF99F921530EC
  8E39356179EAE45E42BA92AEACED825171E1E8B9AF6D9C03E1327F44
  BE087EF06530E69F66615261EEF54073CA11CF5858F0EDFDFE15EFEA
  B349EF5D76988A3672FAC47B0769447B".
Definition kat_B := hex
 "BD0C61512C692C0CB6D041FA01BB152D4916A1E77AF46AE105393011
  BAF38964DC46A0670DD125B95A981652236F99D9B681CBF87837EC99
  6C6DA04453728610D0C6DDB58B318885D7D82C7F8DEB75CE7BD4FBAA
  37089E6F9C6059F388838E7A00030B331EB76840910440B1B27AAEAE
  EB4012B7D7665238A8E3FB004B117B58".
Definition kat_S := hex
 "B0DC82BABCF30674AE450C0287745E7990A3381F63B387AAF271A10D
  233861E359B48220F7C4693C9AE12B0A6F67809F0876E2D013800D6C
  41BB59B6D5979B5C00A172B4A2A5903A0BDCAF8A709585EB2AFAFA8F
  3499B200210DCC1F10EB33943CD67FC88A2F39A4BE5BEC4EC0A3212D
  C346D7E474B29EDE8A469FFECA686E5A".

(* kat_k_ok *)
Check (test (omap to_bytes_be (compute_k sha1 G_1024)) (@Ok SrpAuthError bytes kat_k)).

(* kat_x_ok *)
Check (test (  to_bytes_be (compute_x sha1 (compute_identity_hash sha1 (str "alice") (str "password123"))
                 (hex "BEB25379D1A8581EB5A727673A2441EE"))) (kat_x)).

(* kat_u_ok *)
Check (test (to_bytes_be (compute_u sha1 kat_A kat_B)) (kat_u)).

(* kat_v_ok *)
Check (test (  compute_verifier sha1 G_1024 (str "alice") (str "password123")
    (hex "BEB25379D1A8581EB5A727673A2441EE")) (@Ok SrpAuthError bytes kat_v)).

(* kat_A_ok *)
Check (test (client_public G_1024 kat_a) (@Ok SrpAuthError bytes kat_A)).

(* kat_B_ok *)
Check (test (server_public sha1 G_1024 kat_b kat_v) (@Ok SrpAuthError bytes kat_B)).

(* kat_S_client_ok *)
Check (test (  omap to_bytes_be (client_premaster G_1024 (from_bytes_be kat_B) (from_bytes_be kat_k)
    (from_bytes_be kat_x) (from_bytes_be kat_a) (from_bytes_be kat_u))) (@Ok SrpAuthError bytes kat_S)).

(* kat_S_server_ok *)
Check (test (  omap to_bytes_be (server_premaster G_1024 (from_bytes_be kat_A) (from_bytes_be kat_v)
    (from_bytes_be kat_u) (from_bytes_be kat_b))) (@Ok SrpAuthError bytes kat_S)).

(** The code examples of the documentation, with the two proofs they contain (srp/src/client.rs:50-58,
    srp/src/server.rs:41-50): SHA-256, the 2048-bit group and empty secrets. *)
(** The client's premaster secret there takes minutes to compute here; this is its value as computed elsewhere. *)
Definition doc_S := hex
 "A75284CF9F8D5489FC788223E3C28E4E0F8304C2606125296794E5FF99E4D95D
  AFD36B32BF2C8DEE85CC19F4F4A8A16E8812B00404D04E1345B6549D9EF089CD
  1691EDFE7700CB54E1EFC88B62F42FDC29C1224D1374C46F337054B2C4A7C8E9
  5712BDF5BF1CFAC70F8262BB39CD97E1F379F8C397936DDED01507B2F335D737
  85E2C9A86C44C360C18D2A4B66177F3A4D00FDDD08F77EC1C186E5074D6E5396
  A012B99B0680C4A6C97572FE8A4D800BF3C3A14361528BB03D18BC12C391A5A8
  02536DE3FD7D1A5CA4CF9E3CA1B67FFF1CF3E81E726AD73547B5B47BA1544275
  4CD9133AC6E7EA07113483A4F4704E0AE947B00B885C0255FF23088B450F33D6".
Check (test (let m1 := compute_m1 sha256 [x01] [x31] doc_S in compute_m2 sha256 [x01] m1 doc_S)
            (hex "adca0d1acf49002e79ee30aa60923c31584c0cb8984ccfdc8ccdbebd7506833f")).
Check (test (let! sv := server_process_reply sha256 G_2048 [] [] [x31] in
             verify_client sv (hex "1a5008f36fa2eeabd0edcf2e2e892cd569d054e0f4d867910e67b638f204b339")) (@Ok SrpAuthError unit tt)).
(** client.rs:21-29 and server.rs:8-21, 27-35: the public values are 1, and 1 is accepted. *)
Check (test (client_public G_2048 (repeat x00 64)) (@Ok SrpAuthError bytes [x01])).
Check (test (server_public sha256 G_2048 (repeat x00 64) []) (@Ok SrpAuthError bytes [x01])).
Check (test (omap server_key (server_process_reply sha256 G_2048 (repeat x00 64) [] [x01])) (@Ok SrpAuthError bytes [x01])).
