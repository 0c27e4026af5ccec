(** * C01-C14: the properties of the srp crate.  Every theorem is closed by a lemma proved in
    SrpProofs.v, SrpProofs2.v or SrpGroupProofs.v; the examples show that hypotheses are met. *)
From Verif Require Import Base.Bytes Base.Outcome Base.BigUint Base.Hex Hash.Hash.
From Verif Require Import Srp.SrpModel Srp.SrpSpec Srp.SrpProofs Srp.SrpProofs2 Srp.SrpSession.
From Verif Require Import Srp.SrpGroups Srp.SrpRfcGroups Srp.SrpGroupProofs Srp.SrpExamples.
Local Open Scope N_scope.

(** C01 *)
Theorem C01_honest_handshake_agrees :
  forall (D : bytes -> bytes) grp user pw salt a b,
  usable_group (sg_n grp) (sg_g grp) ->
  exists v A B,
    compute_verifier D grp user pw salt = Ok v /\
    client_public grp a = Ok A /\
    server_public D grp b v = Ok B /\
    (be_val A mod sg_n grp <> 0 -> be_val B mod sg_n grp <> 0 ->
     exists cv sv,
       client_process_reply D grp a user pw salt B = Ok cv /\
       server_process_reply D grp b v A = Ok sv /\
       client_key cv = server_key sv /\
       minimal_be (srp_S (sg_n grp) (sg_g grp) (be_val a) (be_val b)
                     (be_val (D (A ++ B))) (rfc_x D user pw salt)) (client_key cv) /\
       verify_client sv (client_proof cv) = Ok tt /\
       verify_server cv (server_proof sv) = Ok tt).
Proof. exact honest_handshake. Qed.
Print Assumptions C01_honest_handshake_agrees.

Example C01_case : usable_group (sg_n grp16) (sg_g grp16) /\
  (exists v A B, compute_verifier sha256 grp16 alice password123 salt0 = Ok v /\
     client_public grp16 a0 = Ok A /\ server_public sha256 grp16 b0 v = Ok B /\
     be_val A mod sg_n grp16 <> 0 /\ be_val B mod sg_n grp16 <> 0).
Proof. exact c01_case. Qed.

(** C02 *)
Theorem C02_client_premaster_formula :
  forall grp B k x a u, sg_n grp <> 0 ->
  exists S, client_premaster grp B k x a u = Ok S /\
            Z.of_N S = srp_client_S (sg_n grp) (sg_g grp) B k x a u.
Proof. exact client_premaster_ok. Qed.
Print Assumptions C02_client_premaster_formula.

Theorem C02_server_premaster_formula :
  forall grp A v u b, sg_n grp <> 0 ->
  exists S, server_premaster grp A v u b = Ok S /\
            Z.of_N S = srp_server_S (sg_n grp) A v u b.
Proof. exact server_premaster_ok. Qed.
Print Assumptions C02_server_premaster_formula.

Theorem C02_server_public_formula :
  forall grp b k v, sg_n grp <> 0 ->
  compute_b_pub grp b k v = Ok (srp_B (sg_n grp) (sg_g grp) k v b).
Proof. exact compute_b_pub_ok. Qed.
Print Assumptions C02_server_public_formula.

Theorem C02_client_public_value :
  forall grp a A, client_public grp a = Ok A -> minimal_be (sg_g grp ^ be_val a mod sg_n grp) A.
Proof. exact client_public_value. Qed.
Print Assumptions C02_client_public_value.

Theorem C02_server_public_value :
  forall (D : bytes -> bytes) grp b v B ln lg,
  minimal_be (sg_n grp) ln -> minimal_be (sg_g grp) lg ->
  server_public D grp b v = Ok B ->
  minimal_be (srp_B (sg_n grp) (sg_g grp) (rfc_k D ln lg) (be_val v) (be_val b)) B.
Proof. exact server_public_value. Qed.
Print Assumptions C02_server_public_value.

(** The key of each side, whatever the other side sent. *)
Theorem C02_client_key_value :
  forall (D : bytes -> bytes) grp a user pw salt B cv A ln lg lB,
  client_process_reply D grp a user pw salt B = Ok cv -> client_public grp a = Ok A ->
  minimal_be (sg_n grp) ln -> minimal_be (sg_g grp) lg -> minimal_be (be_val B) lB ->
  minimal_be (Z.to_N (srp_client_S (sg_n grp) (sg_g grp) (be_val B) (rfc_k D ln lg)
                        (rfc_x D user pw salt) (be_val a) (be_val (D (A ++ lB))))) (client_key cv).
Proof. exact client_key_value. Qed.
Print Assumptions C02_client_key_value.

Theorem C02_server_key_value :
  forall (D : bytes -> bytes) grp b v A sv B lA,
  server_process_reply D grp b v A = Ok sv -> server_public D grp b v = Ok B ->
  minimal_be (be_val A) lA ->
  minimal_be (Z.to_N (srp_server_S (sg_n grp) (be_val A) (be_val v) (be_val (D (lA ++ B))) (be_val b)))
    (server_key sv).
Proof. exact server_key_value. Qed.
Print Assumptions C02_server_key_value.

(** A case where the subtraction of the client formula is negative. *)
Example C02_case :
  client_premaster grp16 3 1000 5 7 11 = Ok 13604 /\
  srp_client_S 65267 2 3 1000 5 7 11 = 13604%Z /\ (3 - 1000 * 2 ^ 5 < 0)%Z.
Proof. exact c02_case. Qed.

(** C03 *)
Theorem C03_client_rejects_exactly_zero :
  forall (D : bytes -> bytes) grp a user pw salt B,
  usable_group (sg_n grp) (sg_g grp) ->
  (N.divide (sg_n grp) (be_val B) ->
     client_process_reply D grp a user pw salt B = Err (IllegalParameter (str "b_pub"))) /\
  (~ N.divide (sg_n grp) (be_val B) ->
     exists cv, client_process_reply D grp a user pw salt B = Ok cv).
Proof. exact client_accepts_iff. Qed.
Print Assumptions C03_client_rejects_exactly_zero.

Theorem C03_server_rejects_exactly_zero :
  forall (D : bytes -> bytes) grp b v A,
  usable_group (sg_n grp) (sg_g grp) ->
  (N.divide (sg_n grp) (be_val A) ->
     server_process_reply D grp b v A = Err (IllegalParameter (str "a_pub"))) /\
  (~ N.divide (sg_n grp) (be_val A) ->
     exists sv, server_process_reply D grp b v A = Ok sv).
Proof. exact server_accepts_iff. Qed.
Print Assumptions C03_server_rejects_exactly_zero.

Theorem C03_every_multiple_rejected :
  forall (D : bytes -> bytes) grp j z l a user pw salt b v,
  usable_group (sg_n grp) (sg_g grp) ->
  minimal_be (j * sg_n grp) l ->
  client_process_reply D grp a user pw salt (repeat x00 z ++ l)
    = Err (IllegalParameter (str "b_pub")) /\
  server_process_reply D grp b v (repeat x00 z ++ l) = Err (IllegalParameter (str "a_pub")).
Proof. exact multiples_rejected. Qed.
Print Assumptions C03_every_multiple_rejected.

Example C03_case : usable_group (sg_n grp16) (sg_g grp16) /\
  N.divide (sg_n grp16) (be_val (hex "01fde6")) /\ ~ N.divide (sg_n grp16) (be_val (hex "01fde7")) /\
  minimal_be (2 * sg_n grp16) (hex "01fde6").
Proof. exact c03_case. Qed.

(** C04 *)
Theorem C04_client_reply_panics_iff :
  forall (D : bytes -> bytes) grp a user pw salt B,
  client_process_reply D grp a user pw salt B = Panic <->
  sg_n grp = 0 \/
  (~ usable_group (sg_n grp) (sg_g grp) /\ ~ N.divide (sg_n grp) (be_val B)).
Proof. exact client_process_reply_panic. Qed.
Print Assumptions C04_client_reply_panics_iff.

Theorem C04_server_reply_panics_iff :
  forall (D : bytes -> bytes) grp b v A,
  server_process_reply D grp b v A = Panic <-> ~ usable_group (sg_n grp) (sg_g grp).
Proof. exact server_process_reply_panic. Qed.
Print Assumptions C04_server_reply_panics_iff.

Theorem C04_server_public_panics_iff :
  forall (D : bytes -> bytes) grp b v,
  server_public D grp b v = Panic <-> ~ usable_group (sg_n grp) (sg_g grp).
Proof. exact server_public_panic. Qed.
Print Assumptions C04_server_public_panics_iff.

Theorem C04_client_public_panics_iff :
  forall grp a, client_public grp a = Panic <-> sg_n grp = 0.
Proof. exact client_public_panic. Qed.
Print Assumptions C04_client_public_panics_iff.

Theorem C04_compute_verifier_panics_iff :
  forall (D : bytes -> bytes) grp user pw salt,
  compute_verifier D grp user pw salt = Panic <-> sg_n grp = 0.
Proof. exact compute_verifier_panic. Qed.
Print Assumptions C04_compute_verifier_panics_iff.

Theorem C04_client_premaster_panics_iff :
  forall grp B k x a u, client_premaster grp B k x a u = Panic <-> sg_n grp = 0.
Proof. exact client_premaster_panic. Qed.
Print Assumptions C04_client_premaster_panics_iff.

Theorem C04_server_premaster_panics_iff :
  forall grp A v u b, server_premaster grp A v u b = Panic <-> sg_n grp = 0.
Proof. exact server_premaster_panic. Qed.
Print Assumptions C04_server_premaster_panics_iff.

Theorem C04_publics_return_no_error :
  forall (D : bytes -> bytes) grp a b v user pw salt,
  (forall e, client_public grp a <> Err e) /\
  (forall e, server_public D grp b v <> Err e) /\
  (forall e, compute_verifier D grp user pw salt <> Err e).
Proof. exact publics_no_err. Qed.
Print Assumptions C04_publics_return_no_error.

(** Both sides of the equivalences occur: a usable group, and one whose g is longer than N. *)
Example C04_case : usable_group (sg_n grp16) (sg_g grp16) /\
  ~ usable_group (sg_n grp_bad) (sg_g grp_bad) /\ sg_n grp_bad <> 0.
Proof. exact c04_case. Qed.

(** C05 *)
Theorem C05_verify_client_exact :
  forall (D : bytes -> bytes) grp b v A ln lg lA lB lS,
  usable_group (sg_n grp) (sg_g grp) ->
  ~ N.divide (sg_n grp) (be_val A) ->
  minimal_be (sg_n grp) ln -> minimal_be (sg_g grp) lg ->
  minimal_be (be_val A) lA ->
  minimal_be (srp_B (sg_n grp) (sg_g grp) (rfc_k D ln lg) (be_val v) (be_val b)) lB ->
  minimal_be (Z.to_N (srp_server_S (sg_n grp) (be_val A) (be_val v) (be_val (D (lA ++ lB)))
                        (be_val b))) lS ->
  exists sv, server_process_reply D grp b v A = Ok sv /\ server_key sv = lS /\
    server_proof sv = D (lA ++ D (lA ++ lB ++ lS) ++ lS) /\
    forall reply,
      (reply = D (lA ++ lB ++ lS) -> verify_client sv reply = Ok tt) /\
      (reply <> D (lA ++ lB ++ lS) -> verify_client sv reply = Err (BadRecordMac (str "client"))).
Proof. exact verify_client_exact. Qed.
Print Assumptions C05_verify_client_exact.

Theorem C05_verify_server_exact :
  forall (D : bytes -> bytes) grp a user pw salt B ln lg lA lB lS,
  usable_group (sg_n grp) (sg_g grp) ->
  ~ N.divide (sg_n grp) (be_val B) ->
  minimal_be (sg_n grp) ln -> minimal_be (sg_g grp) lg ->
  minimal_be (sg_g grp ^ be_val a mod sg_n grp) lA ->
  minimal_be (be_val B) lB ->
  minimal_be (Z.to_N (srp_client_S (sg_n grp) (sg_g grp) (be_val B) (rfc_k D ln lg)
                        (rfc_x D user pw salt) (be_val a) (be_val (D (lA ++ lB))))) lS ->
  exists cv, client_process_reply D grp a user pw salt B = Ok cv /\ client_key cv = lS /\
    client_proof cv = D (lA ++ lB ++ lS) /\
    forall reply,
      (reply = D (lA ++ D (lA ++ lB ++ lS) ++ lS) -> verify_server cv reply = Ok tt) /\
      (reply <> D (lA ++ D (lA ++ lB ++ lS) ++ lS) ->
         verify_server cv reply = Err (BadRecordMac (str "server"))).
Proof. exact verify_server_exact. Qed.
Print Assumptions C05_verify_server_exact.

(** Every number has a minimal encoding, so the hypotheses naming encodings can be met. *)
Theorem C05_encodings_exist : forall n, exists l, minimal_be n l /\ forall l', minimal_be n l' -> l' = l.
Proof. exact minimal_be_exists_unique. Qed.
Print Assumptions C05_encodings_exist.

(** C06 *)
Theorem C06_accepted_client_proof_same_key :
  forall (D : bytes -> bytes) grp a user pw salt B b v A cv sv lA lB,
  client_process_reply D grp a user pw salt B = Ok cv -> client_public grp a = Ok lA ->
  server_process_reply D grp b v A = Ok sv -> server_public D grp b v = Ok lB ->
  be_val A = be_val lA -> be_val B = be_val lB ->
  verify_client sv (client_proof cv) = Ok tt ->
  client_key cv = server_key sv \/
  collision D (lA ++ lB ++ client_key cv) (lA ++ lB ++ server_key sv).
Proof. exact accepted_client_same_key. Qed.
Print Assumptions C06_accepted_client_proof_same_key.

Theorem C06_accepted_server_proof_same_key :
  forall (D : bytes -> bytes) grp a user pw salt B b v A cv sv lA lB h,
  (forall m, length (D m) = h) ->
  client_process_reply D grp a user pw salt B = Ok cv -> client_public grp a = Ok lA ->
  server_process_reply D grp b v A = Ok sv -> server_public D grp b v = Ok lB ->
  be_val A = be_val lA ->
  verify_server cv (server_proof sv) = Ok tt ->
  client_key cv = server_key sv \/
  collision D (lA ++ client_proof cv ++ client_key cv)
              (lA ++ D (lA ++ lB ++ server_key sv) ++ server_key sv).
Proof. exact accepted_server_same_key. Qed.
Print Assumptions C06_accepted_server_proof_same_key.

Theorem C06_accepted_client_proof_same_transcript :
  forall (D : bytes -> bytes) grp grp' a user pw salt B b v A cv sv lA lB,
  client_process_reply D grp a user pw salt B = Ok cv -> client_public grp a = Ok lA ->
  server_process_reply D grp' b v A = Ok sv -> server_public D grp' b v = Ok lB ->
  verify_client sv (client_proof cv) = Ok tt ->
  let tc := lA ++ to_bytes_be (be_val B) ++ client_key cv in
  let ts := to_bytes_be (be_val A) ++ lB ++ server_key sv in
  tc = ts \/ collision D tc ts.
Proof. exact accepted_m1_transcript. Qed.
Print Assumptions C06_accepted_client_proof_same_transcript.

(** The honest run of C01_case meets all hypotheses (the proof is accepted). *)
Example C06_case : exists v A B cv sv,
  compute_verifier sha256 grp16 alice password123 salt0 = Ok v /\
  client_process_reply sha256 grp16 a0 alice password123 salt0 B = Ok cv /\
  client_public grp16 a0 = Ok A /\
  server_process_reply sha256 grp16 b0 v A = Ok sv /\ server_public sha256 grp16 b0 v = Ok B /\
  verify_client sv (client_proof cv) = Ok tt /\ verify_server cv (server_proof sv) = Ok tt.
Proof. exact c06_case. Qed.

(** C07 *)
Theorem C07_transcript_injective_refuted :
  forall D : bytes -> bytes,
  exists A B K A' B' K', (A, B, K) <> (A', B', K') /\ A <> [] /\ B <> [] /\ A' <> [] /\ B' <> [] /\
    compute_m1 D A B K = compute_m1 D A' B' K'.
Proof. exact m1_ambiguous. Qed.
Print Assumptions C07_transcript_injective_refuted.

(** End to end with SHA-256: messages altered in both directions, and both proofs accepted. *)
Theorem C07_altered_messages_accepted_refuted :
  exists grp user pw salt v a b A B A' B' cv sv,
    compute_verifier sha256 grp user pw salt = Ok v /\
    client_public grp a = Ok A /\ server_public sha256 grp b v = Ok B /\
    A' <> A /\ B' <> B /\
    client_process_reply sha256 grp a user pw salt B' = Ok cv /\
    server_process_reply sha256 grp b v A' = Ok sv /\
    verify_client sv (client_proof cv) = Ok tt /\
    client_key cv = server_key sv.
Proof. exact altered_messages_accepted. Qed.
Print Assumptions C07_altered_messages_accepted_refuted.

Theorem C07_m1_binding_fixed_lengths :
  forall (D : bytes -> bytes) A B K A' B' K',
  length A = length A' -> length B = length B' ->
  compute_m1 D A B K = compute_m1 D A' B' K' ->
  (A = A' /\ B = B' /\ K = K') \/ collision D (A ++ B ++ K) (A' ++ B' ++ K').
Proof. exact m1_binding. Qed.
Print Assumptions C07_m1_binding_fixed_lengths.

Theorem C07_m2_binding_fixed_lengths :
  forall (D : bytes -> bytes) A B K A' B' K' h,
  (forall m, length (D m) = h) ->
  length A = length A' ->
  compute_m2 D A (compute_m1 D A B K) K = compute_m2 D A' (compute_m1 D A' B' K') K' ->
  (A = A' /\ B = B' /\ K = K') \/
  collision D (A ++ B ++ K) (A' ++ B' ++ K') \/
  collision D (A ++ compute_m1 D A B K ++ K) (A' ++ compute_m1 D A' B' K' ++ K').
Proof. exact m2_binding. Qed.
Print Assumptions C07_m2_binding_fixed_lengths.

(** C08 *)
Theorem C08_k_follows_rfc :
  forall (D : bytes -> bytes) grp ln lg,
  usable_group (sg_n grp) (sg_g grp) ->
  minimal_be (sg_n grp) ln -> minimal_be (sg_g grp) lg ->
  compute_k D grp = Ok (rfc_k D ln lg).
Proof. exact k_rfc. Qed.
Print Assumptions C08_k_follows_rfc.

Theorem C08_x_follows_rfc :
  forall (D : bytes -> bytes) user pw salt,
  compute_x D (compute_identity_hash D user pw) salt = rfc_x D user pw salt.
Proof. exact compute_x_spec. Qed.
Print Assumptions C08_x_follows_rfc.

Theorem C08_verifier_follows_rfc :
  forall (D : bytes -> bytes) grp user pw salt,
  sg_n grp <> 0 ->
  exists v, compute_verifier D grp user pw salt = Ok v /\
            minimal_be (sg_g grp ^ rfc_x D user pw salt mod sg_n grp) v.
Proof. exact verifier_rfc. Qed.
Print Assumptions C08_verifier_follows_rfc.

(** M1 and M2 of every session that completes, whatever the other side sent. *)
Theorem C08_client_proofs_follow_rfc :
  forall (D : bytes -> bytes) grp a user pw salt B cv A lB,
  client_process_reply D grp a user pw salt B = Ok cv -> client_public grp a = Ok A ->
  minimal_be (be_val B) lB ->
  client_proof cv = D (A ++ lB ++ client_key cv) /\
  forall m2, verify_server cv m2 = Ok tt <-> m2 = D (A ++ client_proof cv ++ client_key cv).
Proof. exact client_proofs. Qed.
Print Assumptions C08_client_proofs_follow_rfc.

Theorem C08_server_proofs_follow_rfc :
  forall (D : bytes -> bytes) grp b v A sv B lA,
  server_process_reply D grp b v A = Ok sv -> server_public D grp b v = Ok B ->
  minimal_be (be_val A) lA ->
  (forall m1, verify_client sv m1 = Ok tt <-> m1 = D (lA ++ B ++ server_key sv)) /\
  forall m1, verify_client sv m1 = Ok tt -> server_proof sv = D (lA ++ m1 ++ server_key sv).
Proof. exact server_proofs. Qed.
Print Assumptions C08_server_proofs_follow_rfc.

(** A completed session on each side (the C06 case is the same),
    and encodings of N, g and of a received value with leading zeros. *)
Example C08_case :
  (exists v A B cv sv,
     compute_verifier sha256 grp16 alice password123 salt0 = Ok v /\
     client_process_reply sha256 grp16 a0 alice password123 salt0 B = Ok cv /\
     client_public grp16 a0 = Ok A /\
     server_process_reply sha256 grp16 b0 v A = Ok sv /\ server_public sha256 grp16 b0 v = Ok B /\
     verify_client sv (client_proof cv) = Ok tt /\ verify_server cv (server_proof sv) = Ok tt) /\
  minimal_be (sg_n grp16) (hex "fef3") /\ minimal_be (sg_g grp16) (hex "02") /\
  minimal_be (be_val (hex "0000c51f")) (hex "c51f").
Proof.
  split; [exact c06_case|]. repeat split; try discriminate; intros t E; discriminate.
Qed.

(** C09 *)
Theorem C09_u_padding_refuted :
  exists grp a user pw salt B cv A,
    client_process_reply sha1 grp a user pw salt B = Ok cv /\ client_public grp a = Ok A /\
    let ln := to_bytes_be (sg_n grp) in
    let k := rfc_k sha1 ln (to_bytes_be (sg_g grp)) in
    let S u := srp_client_S (sg_n grp) (sg_g grp) (be_val B) k (rfc_x sha1 user pw salt) (be_val a) u in
    compute_u sha1 A B <> rfc_u sha1 ln A B /\
    Z.of_N (be_val (client_key cv)) <> S (rfc_u sha1 ln A B).
Proof. exact u_padding_refuted. Qed.
Print Assumptions C09_u_padding_refuted.

(** The same with the built-in 1024-bit group and a = 1. *)
Theorem C09_u_padding_G1024_refuted :
  exists a A B, client_public G_1024 a = Ok A /\ length B = 128%nat /\
    compute_u sha1 A B <> rfc_u sha1 bin_1024 A B.
Proof. exact u_padding_G1024. Qed.
Print Assumptions C09_u_padding_G1024_refuted.

Theorem C09_u_follows_rfc_at_full_length :
  forall (D : bytes -> bytes) ln lA lB,
  length lA = length ln -> length lB = length ln ->
  compute_u D lA lB = rfc_u D ln lA lB.
Proof. exact u_full_length. Qed.
Print Assumptions C09_u_follows_rfc_at_full_length.

(** C10 *)
Theorem C10_leading_zeros_client :
  forall (D : bytes -> bytes) grp z1 z2 a user pw salt B,
  client_process_reply D grp (repeat x00 z1 ++ a) user pw salt (repeat x00 z2 ++ B)
  = client_process_reply D grp a user pw salt B.
Proof. exact leading_zeros_client. Qed.
Print Assumptions C10_leading_zeros_client.

Theorem C10_leading_zeros_server :
  forall (D : bytes -> bytes) grp z1 z2 z3 b v A,
  server_process_reply D grp (repeat x00 z1 ++ b) (repeat x00 z2 ++ v) (repeat x00 z3 ++ A)
  = server_process_reply D grp b v A.
Proof. exact leading_zeros_server. Qed.
Print Assumptions C10_leading_zeros_server.

Theorem C10_leading_zeros_publics :
  forall (D : bytes -> bytes) grp z1 z2 z3 a b v,
  client_public grp (repeat x00 z1 ++ a) = client_public grp a /\
  server_public D grp (repeat x00 z2 ++ b) (repeat x00 z3 ++ v) = server_public D grp b v.
Proof. exact leading_zeros_publics. Qed.
Print Assumptions C10_leading_zeros_publics.

Theorem C10_outputs_canonical :
  forall (D : bytes -> bytes) grp ln,
  minimal_be (sg_n grp) ln ->
  (forall a l, client_public grp a = Ok l -> canonical_below (sg_n grp) ln l) /\
  (forall b v l, server_public D grp b v = Ok l -> canonical_below (sg_n grp) ln l) /\
  (forall user pw salt l, compute_verifier D grp user pw salt = Ok l ->
     canonical_below (sg_n grp) ln l) /\
  (forall a user pw salt B cv, client_process_reply D grp a user pw salt B = Ok cv ->
     canonical_below (sg_n grp) ln (client_key cv)) /\
  (forall b v A sv, server_process_reply D grp b v A = Ok sv ->
     canonical_below (sg_n grp) ln (server_key sv)).
Proof. exact outputs_canonical. Qed.
Print Assumptions C10_outputs_canonical.

(** C11 *)
Theorem C11_builtin_groups_are_rfc5054 :
  forall grp bits n g, In (grp, (bits, n, g)) builtin ->
  sg_n grp = n /\ sg_g grp = g /\ 2 ^ (bits - 1) <= n < 2 ^ bits /\ 1 < g < n /\
  N.gcd g n = 1 /\ usable_group (sg_n grp) (sg_g grp).
Proof. exact builtin_groups_rfc. Qed.
Print Assumptions C11_builtin_groups_are_rfc5054.

Theorem C11_honest_client_always_accepted :
  forall (D : bytes -> bytes) grp e a b v, In (grp, e) builtin ->
  exists A sv, client_public grp a = Ok A /\ ~ N.divide (sg_n grp) (be_val A) /\
    server_process_reply D grp b v A = Ok sv.
Proof. exact builtin_honest_accepted. Qed.
Print Assumptions C11_honest_client_always_accepted.

Theorem C11_honest_server_accepted_iff_nonzero :
  forall (D : bytes -> bytes) grp a user pw salt b v B,
  server_public D grp b v = Ok B ->
  (exists cv, client_process_reply D grp a user pw salt B = Ok cv) <-> be_val B <> 0.
Proof. exact honest_b_accepted. Qed.
Print Assumptions C11_honest_server_accepted_iff_nonzero.

Example C11_case : In (G_2048, (2048, rfc5054_N_2048, rfc5054_g_2048)) builtin.
Proof. exact c11_case. Qed.

(** C12 *)
Theorem C12_u_zero_not_aborted_refuted :
  forall (D : bytes -> bytes) grp b v A lA lB,
  usable_group (sg_n grp) (sg_g grp) ->
  ~ N.divide (sg_n grp) (be_val A) ->
  minimal_be (be_val A) lA -> server_public D grp b v = Ok lB ->
  be_val (D (lA ++ lB)) = 0 ->
  exists sv, server_process_reply D grp b v A = Ok sv /\
             minimal_be (be_val A ^ be_val b mod sg_n grp) (server_key sv).
Proof. exact u_zero_server_key. Qed.
Print Assumptions C12_u_zero_not_aborted_refuted.

(** Witness: a digest with 20-byte output that is SHA-1 except on one handshake; two different
    verifiers, both handshakes complete, same key. *)
Theorem C12_key_independent_of_verifier_refuted :
  exists (D : bytes -> bytes) grp b v v' A sv sv',
    (forall m, length (D m) = 20%nat) /\ be_val v <> be_val v' /\
    server_process_reply D grp b v A = Ok sv /\ server_process_reply D grp b v' A = Ok sv' /\
    server_public D grp b v <> server_public D grp b v' /\
    server_key sv = server_key sv'.
Proof. exact key_independent_of_verifier. Qed.
Print Assumptions C12_key_independent_of_verifier_refuted.

(** C13 *)
Theorem C13_credentials_injective_refuted :
  forall D : bytes -> bytes,
  exists user pw user' pw', (user, pw) <> (user', pw') /\
    forall salt grp,
      compute_identity_hash D user pw = compute_identity_hash D user' pw' /\
      compute_verifier D grp user pw salt = compute_verifier D grp user' pw' salt.
Proof. exact credentials_ambiguous. Qed.
Print Assumptions C13_credentials_injective_refuted.

Theorem C13_credentials_binding_without_colon :
  forall (D : bytes -> bytes) user pw user' pw',
  ~ In x3a user -> ~ In x3a user' ->
  compute_identity_hash D user pw = compute_identity_hash D user' pw' ->
  (user = user' /\ pw = pw') \/
  collision D (user ++ [x3a] ++ pw) (user' ++ [x3a] ++ pw').
Proof. exact credentials_binding. Qed.
Print Assumptions C13_credentials_binding_without_colon.

Example C13_case : ~ In x3a alice.
Proof. exact c13_case. Qed.

(** C14 *)
Theorem C14_key_is_digest_of_premaster_refuted :
  forall (D : bytes -> bytes) grp h ln,
  (forall m, length (D m) = h) -> minimal_be (sg_n grp) ln -> (length ln < h)%nat ->
  (forall a user pw salt B cv, client_process_reply D grp a user pw salt B = Ok cv ->
     forall m, client_key cv <> D m) /\
  (forall b v A sv, server_process_reply D grp b v A = Ok sv ->
     forall m, server_key sv <> D m).
Proof. exact key_is_not_a_digest. Qed.
Print Assumptions C14_key_is_digest_of_premaster_refuted.

Example C14_case : (forall m, length (sha256 m) = 32%nat) /\
  minimal_be (sg_n grp16) (hex "fef3") /\
  exists cv, client_process_reply sha256 grp16 a0 alice password123 salt0 (hex "1234") = Ok cv.
Proof. exact c14_case. Qed.
