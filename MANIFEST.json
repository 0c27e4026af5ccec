{
 "claims": [
  {
   "property": "C01",
   "status": "proved",
   "theorems": [
    "C01_honest_handshake_agrees"
   ],
   "note": "Any group with non-zero N and g not longer than N, any digest, any byte strings. The model's digest is a function of the concatenated input."
  },
  {
   "property": "C02",
   "status": "proved",
   "theorems": [
    "C02_client_premaster_formula",
    "C02_server_premaster_formula",
    "C02_server_public_formula",
    "C02_client_public_value",
    "C02_server_public_value",
    "C02_client_key_value",
    "C02_server_key_value"
   ],
   "note": ""
  },
  {
   "property": "C03",
   "status": "proved",
   "theorems": [
    "C03_client_rejects_exactly_zero",
    "C03_server_rejects_exactly_zero",
    "C03_every_multiple_rejected"
   ],
   "note": "Also every encoding of every multiple of N."
  },
  {
   "property": "C04",
   "status": "proved",
   "theorems": [
    "C04_client_reply_panics_iff",
    "C04_server_reply_panics_iff",
    "C04_server_public_panics_iff",
    "C04_client_public_panics_iff",
    "C04_compute_verifier_panics_iff",
    "C04_client_premaster_panics_iff",
    "C04_server_premaster_panics_iff",
    "C04_publics_return_no_error"
   ],
   "note": "Exact panic conditions of every method. Allocation failure is not modelled."
  },
  {
   "property": "C05",
   "status": "proved",
   "theorems": [
    "C05_verify_client_exact",
    "C05_verify_server_exact",
    "C05_encodings_exist"
   ],
   "note": ""
  },
  {
   "property": "C06",
   "status": "proved",
   "theorems": [
    "C06_accepted_client_proof_same_key",
    "C06_accepted_server_proof_same_key",
    "C06_accepted_client_proof_same_transcript"
   ],
   "note": "The collision is the explicit pair of hashed strings. For the server proof the digest must have a fixed output length."
  },
  {
   "property": "C07",
   "status": "partial",
   "theorems": [
    "C07_transcript_injective_refuted",
    "C07_altered_messages_accepted_refuted",
    "C07_m1_binding_fixed_lengths",
    "C07_m2_binding_fixed_lengths"
   ],
   "note": "REFUTED in general: two different transcripts hash as the same message, and a concrete SHA-256 run where both messages are altered in transit and the proof is accepted (16-bit group). Proved when A and B have fixed lengths."
  },
  {
   "property": "C08",
   "status": "proved",
   "theorems": [
    "C08_k_follows_rfc",
    "C08_x_follows_rfc",
    "C08_verifier_follows_rfc",
    "C08_client_proofs_follow_rfc",
    "C08_server_proofs_follow_rfc"
   ],
   "note": ""
  },
  {
   "property": "C09",
   "status": "partial",
   "theorems": [
    "C09_u_padding_refuted",
    "C09_u_padding_G1024_refuted",
    "C09_u_follows_rfc_at_full_length",
    "C09_u_exact",
    "C09_client_key_at_full_length",
    "C09_server_key_at_full_length"
   ],
   "note": "REFUTED: the code does not pad; concrete SHA-1 run whose key differs from the RFC's. Proved: with both encodings at full length u and both keys are the RFC's, and otherwise u is the RFC's only with a digest collision."
  },
  {
   "property": "C10",
   "status": "proved",
   "theorems": [
    "C10_leading_zeros_client",
    "C10_leading_zeros_server",
    "C10_leading_zeros_publics",
    "C10_outputs_canonical"
   ],
   "note": ""
  },
  {
   "property": "C11",
   "status": "proved",
   "theorems": [
    "C11_builtin_groups_are_rfc5054",
    "C11_honest_client_always_accepted",
    "C11_honest_server_accepted_iff_nonzero"
   ],
   "note": "Primality of the moduli is not proved; only coprimality of g and N is needed and proved."
  },
  {
   "property": "C12",
   "status": "partial",
   "theorems": [
    "C12_u_zero_not_aborted_refuted",
    "C12_key_independent_of_verifier_refuted"
   ],
   "note": "REFUTED: with u = 0 the server completes with key A^b, whatever the verifier; witness digest is SHA-1 changed on two messages."
  },
  {
   "property": "C13",
   "status": "partial",
   "theorems": [
    "C13_credentials_injective_refuted",
    "C13_credentials_binding_without_colon"
   ],
   "note": "REFUTED in general (':' in user names); proved for user names without ':'."
  },
  {
   "property": "C14",
   "status": "partial",
   "theorems": [
    "C14_key_is_digest_of_premaster_refuted"
   ],
   "note": "REFUTED: key() is the premaster secret; whenever the digest is longer than N no session key is a digest at all."
  },
  {
   "property": "C15",
   "status": "proved",
   "theorems": [
    "C15_agreement_ab",
    "C15_key_formula",
    "C15_agreement_any_group"
   ],
   "note": ""
  },
  {
   "property": "C16",
   "status": "proved",
   "theorems": [
    "C16_agreement_symmetric",
    "C16_key_formula",
    "C16_agreement_any_group"
   ],
   "note": ""
  },
  {
   "property": "C17",
   "status": "proved",
   "theorems": [
    "C17_finish_total",
    "C17_finish_classified",
    "C17_finish_value"
   ],
   "note": ""
  },
  {
   "property": "C18",
   "status": "proved",
   "theorems": [
    "C18_wrong_role_refused",
    "C18_reflection_refused"
   ],
   "note": ""
  },
  {
   "property": "C19",
   "status": "partial",
   "theorems": [
    "C19_reflection_accepted",
    "C19_symmetric_reflection_refused_refuted"
   ],
   "note": "REFUTED: a symmetric session always accepts its own reflected message (C19_reflection_accepted, for every session)."
  },
  {
   "property": "C20",
   "status": "proved",
   "theorems": [
    "C20_equal_keys_bind",
    "C20_wrong_password_different_keys"
   ],
   "note": ""
  },
  {
   "property": "C21",
   "status": "proved",
   "theorems": [
    "C21_wire_format",
    "C21_wire_format_rng",
    "C21_encoding_roundtrip"
   ],
   "note": ""
  },
  {
   "property": "C22",
   "status": "proved",
   "theorems": [
    "C22_password_scalar"
   ],
   "note": ""
  },
  {
   "property": "C23",
   "status": "proved",
   "theorems": [
    "C23_constants",
    "C23_constants_in_subgroup"
   ],
   "note": ""
  },
  {
   "property": "C24",
   "status": "proved",
   "theorems": [
    "C24_message_hides_password",
    "C24_message_bijection"
   ],
   "note": ""
  },
  {
   "property": "C25",
   "status": "proved",
   "theorems": [
    "C25_debug_hides_secrets",
    "C25_debug_text",
    "C25_debug_text_alternate"
   ],
   "note": ""
  },
  {
   "property": "C26",
   "status": "partial",
   "theorems": [
    "C26_identities_distinct_refuted",
    "C26_utf8_identities_distinct",
    "C26_text_printed",
    "C26_two_digit_identities_distinct",
    "C26_sides_distinct_refuted",
    "C26_hex_printed"
   ],
   "note": "REFUTED in general (hex without zero padding; unquoted identities in a side); proved for valid UTF-8 identities and for identities without bytes below 0x10."
  },
  {
   "property": "C27",
   "status": "partial",
   "theorems": [
    "C27_every_point_accepted",
    "C27_degenerate_points_refused_refuted",
    "C27_small_order_effect"
   ],
   "note": "REFUTED: every curve point is accepted, including the identity and all small-order points."
  },
  {
   "property": "C28",
   "status": "partial",
   "theorems": [
    "C28_no_panic_32",
    "C28_panic_other_length",
    "C28_any_group_no_panic_refuted"
   ],
   "note": "REFUTED for groups whose encoding is not 32 bytes (every finish that reaches the transcript panics); proved for 32 bytes."
  },
  {
   "property": "C29",
   "status": "proved",
   "theorems": [
    "C29_honest_login",
    "C29_agreement"
   ],
   "note": "Any group satisfying the Ristretto laws, any 64-byte digest, any hasher, any database that returns the record stored; SSID from nonces or pre-established; fixed and allocated buffers."
  },
  {
   "property": "C30",
   "status": "proved",
   "theorems": [
    "C30_client_implicit_is_explicit",
    "C30_server_implicit_is_explicit",
    "C30_honest_login"
   ],
   "note": ""
  },
  {
   "property": "C31",
   "status": "proved",
   "theorems": [
    "C31_honest_login",
    "C31_salt_recovered",
    "C31_undecided",
    "C31_fuel"
   ],
   "note": ""
  },
  {
   "property": "C32",
   "status": "proved",
   "theorems": [
    "C32_long_term_keypair",
    "C32_honest_login",
    "C32_honest_login_strong"
   ],
   "note": ""
  },
  {
   "property": "C33",
   "status": "proved",
   "theorems": [
    "C33_same_ssid",
    "C33_ssid_determines_nonces",
    "C33_ssid_determines_nonces_client",
    "C33_ssid_determines_nonces_server"
   ],
   "note": ""
  },
  {
   "property": "C34",
   "status": "proved",
   "theorems": [
    "C34_prestablished_ssid",
    "C34_sessions"
   ],
   "note": ""
  },
  {
   "property": "C35",
   "status": "partial",
   "theorems": [
    "C35_identity_refused",
    "C35_only_identity_refused",
    "C35_strong_salt_refuted"
   ],
   "note": "REFUTED for the blinded salt in strong_generate_cpace (fixed-buffer variant): the identity is accepted there and refused by the alloc variant. Proved for every other point received."
  },
  {
   "property": "C36",
   "status": "proved",
   "theorems": [
    "C36_authenticators"
   ],
   "note": ""
  },
  {
   "property": "C37",
   "status": "proved",
   "theorems": [
    "C37_server_accepts",
    "C37_client_accepts",
    "C37_same_nonces",
    "C37_no_reflection_client",
    "C37_no_reflection_server"
   ],
   "note": "Over every history of the world of sessions (AucpaceWorld.v); collisions are explicit pairs of hashed strings."
  },
  {
   "property": "C38",
   "status": "proved",
   "theorems": [
    "C38_fake_salt",
    "C38_fake_exponent",
    "C38_consistent",
    "C38_reply_form"
   ],
   "note": "Over every history; the salt and exponent are given as a function of the first 64-bit draw of the server's generator."
  },
  {
   "property": "C39",
   "status": "partial",
   "theorems": [
    "C39_salt_length_refuted",
    "C39_partial_refuted",
    "C39_strong_partial"
   ],
   "note": "REFUTED: salts of 22 and of 64 characters, empty parameters, and a server point that changes with partial augmentation. Proved of the strong variant: only the parameters differ."
  },
  {
   "property": "C40",
   "status": "proved",
   "theorems": [
    "C40_hash_password",
    "C40_no_panic",
    "C40_registration_no_panic"
   ],
   "note": "SaltString's own invariant (4 to 64 legal characters) is a hypothesis; it is what SaltString::generate/from_b64/encode_b64 give."
  },
  {
   "property": "C41",
   "status": "partial",
   "theorems": [
    "C41_alloc_never",
    "C41_documented_refuted"
   ],
   "note": "REFUTED: the documentation attributes the error to the alloc functions, which never return it; the fixed-buffer functions return it exactly when u+p+1 exceeds the buffer."
  },
  {
   "property": "C42",
   "status": "proved",
   "theorems": [
    "C42_scalar_from_hash"
   ],
   "note": ""
  },
  {
   "property": "C43",
   "status": "proved",
   "theorems": [
    "C43_blinding_nonzero",
    "C43_perfect_hiding"
   ],
   "note": ""
  },
  {
   "property": "C44",
   "status": "partial",
   "theorems": [
    "C44_domain_separation",
    "C44_domain_separation_sk1",
    "C44_fake_salt_refuted",
    "C44_shared_H1_refuted"
   ],
   "note": "REFUTED: the fake-salt hash has no index word, and the strong variant's point and the CPace generator share H1. Proved for the authenticators, session keys and SSID."
  },
  {
   "property": "C45",
   "status": "proved",
   "theorems": [
    "C45_generators",
    "C45_public_keys",
    "C45_same_generator"
   ],
   "note": ""
  },
  {
   "property": "C46",
   "status": "partial",
   "theorems": [
    "C46_credentials_refuted",
    "C46_same_blinded_point_refuted",
    "C46_up_to_boundary_partial"
   ],
   "note": "REFUTED: user name and password are hashed with no separator, so different pairs give the same point; proved up to that boundary."
  },
  {
   "property": "C47",
   "status": "proved",
   "theorems": [
    "C47_login_after_history",
    "C47_login_after_history_strong",
    "C47_others_unaffected"
   ],
   "note": "Over every history of events, for any database that returns the latest record; the events include logins, stores and key-pair generation of any users."
  },
  {
   "property": "C48",
   "status": "proved",
   "theorems": [
    "C48_salts",
    "C48_parameter_strings",
    "C48_client_roundtrip",
    "C48_server_roundtrip",
    "C48_client_prefix_free",
    "C48_server_prefix_free",
    "C48_client_only_valid",
    "C48_server_only_valid",
    "C48_client_bincode_canonical",
    "C48_server_bincode_canonical",
    "C48_postcard_canonical_refuted",
    "C48_client_nonce_valid",
    "C48_client_authenticator_valid",
    "C48_registration_valid",
    "C48_strong_registration_valid",
    "C48_server_nonce_valid",
    "C48_server_authenticator_valid",
    "C48_augmentation_valid",
    "C48_strong_augmentation_valid"
   ],
   "note": "bincode and postcard; canonical in bincode only (postcard has redundant varints, C48_postcard_canonical_refuted). Which error is reported is not modelled."
  },
  {
   "property": "C49",
   "status": "partial",
   "theorems": [
    "C49_first_variants_partial",
    "C49_client_refuted",
    "C49_server_refuted",
    "C49_registration_is_authenticator_refuted"
   ],
   "note": "REFUTED: every message after the second variant is never decoded as itself by the other build; a registration is decoded as an authenticator. Proved for the first two variants."
  },
  {
   "property": "C50",
   "status": "partial",
   "theorems": [
    "C50_plain",
    "C50_register",
    "C50_strong_partial",
    "C50_strong_refuted"
   ],
   "note": "REFUTED for the strong variant on the identity blinded salt; proved otherwise."
  },
  {
   "property": "C51",
   "status": "partial",
   "theorems": [
    "C51_accepted_encodings",
    "C51_number_of_encodings",
    "C51_unique_iff",
    "C51_unique_encoding_refuted",
    "C51_reencoding_changes_key"
   ],
   "note": "REFUTED: some points have several accepted encodings. Proved: exactly which strings decode to each point, their number, when it is one, and that re-encoding a message changes the transcript."
  },
  {
   "property": "C52",
   "status": "partial",
   "theorems": [
    "C52_shared_element",
    "C52_in_subgroup_iff",
    "C52_shift",
    "C52_prime_order_refuted"
   ],
   "note": "REFUTED: a low-order or mixed point yields a shared element outside the prime-order group. Proved: the exact shared element and exactly when it is in the subgroup."
  },
  {
   "property": "C53",
   "status": "proved",
   "theorems": [
    "C53_guess",
    "C53_wrong_guess_one_secret"
   ],
   "note": "Information-theoretic count; no claim about computational hardness."
  },
  {
   "property": "C54",
   "status": "proved",
   "theorems": [
    "C54_trapdoor",
    "C54_trapdoor_exists"
   ],
   "note": "The logarithms exist but are not computed."
  },
  {
   "property": "C55",
   "status": "proved",
   "theorems": [
    "C55_prime_order_group",
    "C55_addition",
    "C55_encoding",
    "C55_representative",
    "C55_from_uniform",
    "C55_map",
    "C55_from_uniform_sum",
    "C55_map_total",
    "C55_from_uniform_halves",
    "C55_honest_login"
   ],
   "note": "The password hasher, the database and the random generators stay abstract."
  },
  {
   "property": "C56",
   "status": "proved",
   "theorems": [
    "C56_client_no_panic",
    "C56_server_no_panic"
   ],
   "note": "Given that the password hasher (a parameter) does not panic."
  },
  {
   "property": "C57",
   "status": "partial",
   "theorems": [
    "C57_registered_partial",
    "C57_restart_refuted"
   ],
   "note": "REFUTED: the fake salt of an unknown user is keyed by a secret drawn in AuCPaceServer::new, so it changes at a restart (or there is a collision in the digest) while a registered user's does not; unknown users can be told apart. Proved: replies for registered users are the same."
  },
  {
   "property": "C58",
   "status": "partial",
   "theorems": [
    "C58_stolen_partial_refuted",
    "C58_fresh_key_partial"
   ],
   "note": "REFUTED for partial augmentation: the stored verifier and long-term private key give the PRS. Proved for a fresh server key: each group element is the PRS for exactly one key of the server, so the verifier alone leaves the PRS undetermined."
  },
  {
   "property": "C59",
   "status": "partial",
   "theorems": [
    "C59_modes_refuted",
    "C59_empty_nonces_refuted"
   ],
   "note": "REFUTED: a pre-established SSID equal to the concatenated nonces gives the SSID of that session, and nonces of length 0 are accepted."
  },
  {
   "property": "C60",
   "status": "partial",
   "theorems": [
    "C60_terminates_iff",
    "C60_always_terminates_refuted"
   ],
   "note": "REFUTED for a generator that keeps returning zeros. Proved: terminates exactly when some draw is not zero, with the first such value."
  },
  {
   "property": "C61",
   "status": "proved",
   "theorems": [
    "C61_preimages",
    "C61_bias",
    "C61_keys"
   ],
   "note": ""
  },
  {
   "property": "C62",
   "status": "proved",
   "theorems": [
    "C62_server_errors",
    "C62_client_errors",
    "C62_server_reports",
    "C62_client_reports",
    "C62_refused",
    "C62_agreement",
    "C62_client_reads_all",
    "C62_completes",
    "C62_completes_partial_aug",
    "C62_completes_strong",
    "C62_honest"
   ],
   "note": "The connection keeps bytes in order and loses none while both ends are open; calls fail only when the other thread has ended."
  },
  {
   "property": "C63",
   "status": "partial",
   "theorems": [
    "C63_termination_refuted",
    "C63_split_refuted",
    "C63_other_user_refuted"
   ],
   "note": "REFUTED: messages are not framed. Every session whose first two client messages fit the buffer has an execution in which both threads wait for ever; in every session the server can panic on a short read; and a user name can be chosen so that the server answers for another user."
  },
  {
   "property": "C64",
   "status": "partial",
   "theorems": [
    "C64_injective",
    "C64_connection",
    "C64_mixed_families_refuted"
   ],
   "note": "REFUTED for ends of different address families (which a TCP connection does not have). Proved when the families agree."
  },
  {
   "property": "C65",
   "status": "partial",
   "theorems": [
    "C65_single",
    "C65_single_strong",
    "C65_no_std",
    "C65_other_users_refuted",
    "C65_keypair",
    "C65_stale_keypair_refuted"
   ],
   "note": "REFUTED: each store forgets the user before, and a user registered later inherits the earlier user's long-term key pair. Proved: the exact content after any history."
  },
  {
   "property": "C66",
   "status": "proved",
   "theorems": [
    "C66_client_transport",
    "C66_server_transport",
    "C66_login",
    "C66_long_name",
    "C66_main"
   ],
   "note": "The scrypt parameters' parser is a parameter of the statement."
  },
  {
   "property": "C67",
   "status": "partial",
   "theorems": [
    "C67_builtin_generators_partial",
    "C67_client_public_onto",
    "C67_server_public_onto",
    "C67_publics_injective",
    "C67_square_generator_leaks"
   ],
   "note": "Partial: primality of N and (N-1)/2 is a hypothesis of the theorem about the built-in groups; the other theorems hold of every group with a generator. Gauss's lemma is proved from scratch (Curve/GaussLemma.v), so no exponentiation modulo N is needed."
  },
  {
   "property": "C68",
   "status": "partial",
   "theorems": [
    "C68_roundtrip",
    "C68_params_of_exact",
    "C68_honest",
    "C68_unknown_user_refuted",
    "C68_unknown_user_partial_aug_refuted",
    "C68_unknown_user_strong_refuted",
    "C68_cost_refuted"
   ],
   "note": "REFUTED in two parts: the reply for an unknown user has no parameters, so the client thread of each TCP example panics (and then the server's); and the client takes any cost the server sends that scrypt accepts, up to 2^63 bytes. Proved: round trip of the parameters, exactly which strings are read, completion of the example with scrypt."
  },
  {
   "property": "C69",
   "status": "proved",
   "theorems": [
    "C69_substep",
    "C69_login",
    "C69_login_partial_aug",
    "C69_login_strong",
    "C69_login_partial_strong",
    "C69_wrong_password",
    "C69_wrong_password_strong",
    "C69_unknown_user",
    "C69_unknown_user_strong",
    "C69_unknown_user_partial_strong",
    "C69_unknown_user_partial_aug"
   ],
   "note": "Every collision named in a disjunction is a pair of concrete, different messages of the two runs; messages between the honest parties are delivered unchanged (C37 treats the network)."
  },
  {
   "property": "C70",
   "status": "proved",
   "theorems": [
    "C70_verifier_binding",
    "C70_wrong_password",
    "C70_exception_unique"
   ],
   "note": "The primality of n and (n-1)/2 is a hypothesis (not proved for the built-in groups, see C67). Collisions are exhibited, not assumed away; the count is per value of u."
  },
  {
   "property": "C71",
   "status": "proved",
   "theorems": [
    "C71_trapdoor"
   ],
   "note": "A fact about the scheme as implemented: stated with the logarithm as a hypothesis; nothing is claimed about how hard it is to find."
  },
  {
   "property": "C72",
   "status": "proved",
   "theorems": [
    "C72_server_key",
    "C72_client_key",
    "C72_login"
   ],
   "note": "The generator must not be the identity; the digest is arbitrary. About exact counts of scalars, not about a distribution (see C61 for that)."
  },
  {
   "property": "C73",
   "status": "proved",
   "theorems": [
    "C73_server",
    "C73_server_implicit",
    "C73_client",
    "C73_client_implicit",
    "C73_password",
    "C73_verifier"
   ],
   "note": "Collisions are exhibited, not assumed away. The public key the honest party sent must not be the identity (its scalar is then 0)."
  },
  {
   "property": "C74",
   "status": "proved",
   "theorems": [
    "C74_message",
    "C74_eavesdropper",
    "C74_role_visible"
   ],
   "note": "Probability = number of byte strings of the generator's output that pass, over 256^64 (one message) or 256^128 (both); the parties' generators are independent. Says nothing about what a party that takes part can learn (see C53)."
  },
  {
   "property": "C75",
   "status": "proved",
   "theorems": [
    "C75_server_key",
    "C75_client_key",
    "C75_login",
    "C75_login_strong",
    "C75_identity_visible"
   ],
   "note": "Probability = number of byte strings that pass. In C75_login the server's long-term scalar is any fixed one, both verifiers are stored with the same salt and parameters, and the client holds the server's PRS. With explicit authentication the authenticators depend on the PRS (see C73)."
  },
  {
   "property": "C76",
   "status": "proved",
   "theorems": [
    "C76_spake2",
    "C76_srp",
    "C76_aucpace",
    "C76_srp_texts"
   ],
   "note": ""
  },
  {
   "property": "C77",
   "status": "partial",
   "theorems": [
    "C77_server",
    "C77_client",
    "C77_spake2",
    "C77_srp_server",
    "C77_srp_client",
    "C77_srp_replay_refuted"
   ],
   "note": "Proved for SPAKE2 and AuCPace (both directions). REFUTED for SRP as stated: M1 hashes the public keys without their lengths, so a recorded login can be accepted by a session with another private key whose public key has another length (C77_srp_replay_refuted, a SHA-256 instance in a 16-bit group); with equal lengths it holds (C77_srp_server, C77_srp_client)."
  },
  {
   "property": "C78",
   "status": "partial",
   "theorems": [
    "C78_user",
    "C78_user_strong",
    "C78_user_refuted",
    "C78_user_strong_refuted",
    "C78_srp",
    "C78_srp_refuted"
   ],
   "note": "REFUTED for names with colons in SRP and AuCPace: `u:t` with password `p` is logged in as `u` if that user's password is `t:p` (C78_srp_refuted, C78_user_refuted); in the strong variant only colons can move (C78_user_strong_refuted, and C78_user_strong says nothing else can). Without colons names and passwords agree (C78_srp, C78_user)."
  },
  {
   "property": "C79",
   "status": "partial",
   "theorems": [
    "C79_aucpace_plain",
    "C79_aucpace_partial_aug",
    "C79_aucpace_strong",
    "C79_aucpace_strong_partial_aug",
    "C79_aucpace_hash_agree",
    "C79_aucpace_unit_tests",
    "C79_spake2",
    "C79_spake2_mismatch",
    "C79_spake2_docs",
    "C79_srp_good_password",
    "C79_srp_good_password_fails_once_partial",
    "C79_srp_bad_password_partial",
    "C79_srp_bad_public"
   ],
   "note": "AuCPace, SPAKE2, SRP's good_password and bad_public: proved outright. SRP's good_password_fails_once and bad_password assume that the 2048-bit modulus is a safe prime (see C67). The hasher is a parameter that returns 32 bytes for base64 salts, as scrypt does (C87); a blinding value is found (C31)."
  },
  {
   "property": "C80",
   "status": "proved",
   "theorems": [
    "C80_base64",
    "C80_injective",
    "C80_registration_salt",
    "C80_registration_salts_distinct",
    "C80_strong_registration",
    "C80_strong_salts_distinct"
   ],
   "note": "base64 specified by bit groups in Base64Spec; SaltString::generate follows the published source of password-hash"
  },
  {
   "property": "C81",
   "status": "proved",
   "theorems": [
    "C81_one_verifier_per_session",
    "C81_online_guessing",
    "C81_right_guess_accepted",
    "C81_every_verifier_fits",
    "C81_zero_exponent",
    "C81_dictionary",
    "C81_plain_sessions",
    "C81_partial_sessions",
    "C81_strong_sessions",
    "C81_partial_strong_sessions"
   ],
   "note": "collisions are explicit: two verifiers, one session, at a public key the attacker sends there; C81_dictionary_case has no collisions at all, so the bound there is unconditional"
  },
  {
   "property": "C82",
   "status": "proved",
   "theorems": [
    "C82_dictionary",
    "C82_bound_met"
   ],
   "note": "concrete: edwards25519 and SHA-256 as computed in the model, no group or digest hypothesis; a yes or no to a key guess stands for whatever later tells the attacker that its key is right"
  },
  {
   "property": "C83",
   "status": "partial",
   "theorems": [
    "C83_aucpace_client",
    "C83_aucpace_server",
    "C83_spake2",
    "C83_srp_constant_key",
    "C83_srp_builtin_refuted",
    "C83_srp_client_refuted",
    "C83_srp_client",
    "C83_srp_server"
   ],
   "note": "REFUTED for the SRP client: C83_srp_constant_key, C83_srp_builtin_refuted, C83_srp_client_refuted. Proved for SPAKE2 and AuCPace. For SRP what remains is C83_srp_client and C83_srp_server, for safe primes with a generator and for equal scramblers."
  },
  {
   "property": "C84",
   "status": "proved",
   "theorems": [
    "C84_aucpace",
    "C84_aucpace_converse",
    "C84_spake2",
    "C84_spake2_converse",
    "C84_srp",
    "C84_srp_converse"
   ],
   "note": "the solver is explicit (solver_of, last32), so it costs what the attacker costs and a few group operations; nothing is claimed about how hard Diffie-Hellman is, nor about attackers that find the key without the hashed string"
  },
  {
   "property": "C85",
   "status": "partial",
   "theorems": [
    "C85_aucpace_explicit",
    "C85_aucpace_implicit",
    "C85_aucpace_accepted",
    "C85_aucpace_refuted",
    "C85_blinded_points_refuted",
    "C85_spake2",
    "C85_spake2_matching"
   ],
   "note": "REFUTED for AuCPace: C85_aucpace_refuted (every session), C85_blinded_points_refuted; exactly which alterations go unseen is C85_aucpace_explicit and C85_aucpace_implicit. Proved for SPAKE2 (C85_spake2, C85_spake2_matching). The SRP counterpart is refuted as C07_altered_messages_accepted_refuted."
  },
  {
   "property": "C86",
   "status": "proved",
   "theorems": [
    "C86_aucpace_nonces",
    "C86_aucpace",
    "C86_aucpace_chance",
    "C86_spake2",
    "C86_spake2_chance"
   ],
   "note": "SPAKE2: edwards25519 and SHA-256 as computed in the model; random bytes are 64 bytes per session. AuCPace: SSID from nonces (with a pre-established SSID nothing but the private keys tells sessions apart); whatever the augmentation layer gives is allowed as PRS"
  },
  {
   "property": "C87",
   "status": "proved",
   "theorems": [
    "C87_hasher",
    "C87_register",
    "C87_login",
    "C87_augmentation",
    "C87_tests",
    "C87_register_strong",
    "C87_login_strong",
    "C87_login_partial_aug",
    "C87_login_partial_strong",
    "C87_augmentation_strong",
    "C87_tests_partial_aug",
    "C87_tests_strong"
   ],
   "note": "scrypt, PBKDF2, HMAC, Salsa20/8 and the base64 decoder are executable definitions after their published sources, checked on the vectors of RFC 7914 (Aucpace/Scrypt.v). That scrypt may run out of memory is not modelled."
  },
  {
   "property": "C88",
   "status": "partial",
   "theorems": [
    "C88_hash",
    "C88_wrong_password",
    "C88_same_key_refuted",
    "C88_only_the_password_refuted",
    "C88_wrong_password_strong",
    "C88_wrong_password_partial_aug",
    "C88_same_key_partial_aug_refuted",
    "C88_wrong_password_partial_strong"
   ],
   "note": "REFUTED for the plain variant: with the registered password 'p' the login with 'p' followed by zero bytes succeeds (C88_only_the_password_refuted), because HMAC pads its key with zeros. Proved: exactly the passwords that are the same HMAC key are accepted, or a collision is exhibited at given strings; in the strong variant only the registered one."
  },
  {
   "property": "C89",
   "status": "partial",
   "theorems": [
    "C89_client_text",
    "C89_server_text",
    "C89_format",
    "C89_no_secret_refuted"
   ],
   "note": "REFUTED (C89_no_secret_refuted): the derived Debug of a strong registration prints the secret exponent. Proved: exactly what the text determines, for arbitrary texts of points, salts and parameters."
  },
  {
   "property": "C90",
   "status": "partial",
   "theorems": [
    "C90_hash",
    "C90_salt",
    "C90_mixing",
    "C90_index_refuted"
   ],
   "note": "REFUTED beyond 2^32 table entries (C90_index_refuted): the index comes from 32 bits, so the upper half of the table is never read. Proved: for up to 2^32 entries the word-level model equals the octet-level text of RFC 7914, for all passwords, salts and parameters; non-base64 salts are errors. HMAC-SHA-256 is shared with the specification and is the standards' by C92."
  },
  {
   "property": "C91",
   "status": "proved",
   "theorems": [
    "C91_disjoint",
    "C91_nonces"
   ],
   "note": "For a generator that goes through any stream of bytes. Calls that fail without giving a lent generator back end a history."
  },
  {
   "property": "C92",
   "status": "proved",
   "theorems": [
    "C92_sha1",
    "C92_sha256",
    "C92_sha512",
    "C92_octets",
    "C92_constants",
    "C92_hmac",
    "C92_hkdf",
    "C92_hkdf_length",
    "C92_salt",
    "C92_spake2_password",
    "C92_spake2_key"
   ],
   "note": "Hash.v against Fips180.v, which is written from the text of FIPS 180-4, RFC 2104 and RFC 5869 on bit strings and shares no definition with it; the length field is taken modulo 2^64 (2^128), which for lengths the standard admits is the length."
  },
  {
   "property": "C93",
   "status": "proved",
   "theorems": [
    "C93_client",
    "C93_server",
    "C93_sees",
    "C93_same_view",
    "C93_known",
    "C93_login",
    "C93_login_strong",
    "C93_consumed_client",
    "C93_consumed_server",
    "C93_once",
    "C93_honest",
    "C93_nonces"
   ],
   "note": "In the world of AucpaceWorld.v, where the Rust value of the server is shared and every event is one call; C93_login and C93_login_strong take the result of a login alone (C29, C31, C32), C93_honest puts it together with C29 from a new server."
  },
  {
   "property": "C94",
   "status": "partial",
   "theorems": [
    "C94_represents",
    "C94_represented",
    "C94_decode",
    "C94_base",
    "C94_derive",
    "C94_public_key",
    "C94_implicit",
    "C94_register",
    "C94_wire",
    "C94_login",
    "C94_login_strong",
    "C94_world",
    "C94_events",
    "C94_spake2_message",
    "C94_spake2_decode",
    "C94_spake2_finish",
    "C94_spake2_difference",
    "C94_spake2_strict_refuted",
    "C94_spake2_honest"
   ],
   "note": "REFUTED for SPAKE2 (C94_spake2_strict_refuted): the library accepts element encodings that RFC 8032's decoding refuses; C94_spake2_difference proves that these are the only received messages for which the result differs from the standard's. Proved in full for AuCPace: every login, wire string and network history over the model's group corresponds, byte for byte, to one over ristretto255 computed with RFC 9496's procedures on integers and FIPS SHA-512; and for SPAKE2 messages, honest runs, and canonical received messages."
  },
  {
   "property": "C95",
   "status": "partial",
   "theorems": [
    "C95_spake2_session",
    "C95_spake2_message",
    "C95_spake2_once",
    "C95_spake2_draws",
    "C95_spake2_agreement",
    "C95_spake2_denial",
    "C95_srp_one_guess_refuted",
    "C95_srp_early_proof_refuted",
    "C95_srp_calls"
   ],
   "note": "REFUTED for SRP: SrpServerVerifier::verify_client takes &self, so one session tests every password of a dictionary (C95_srp_one_guess_refuted), and proof() can be sent before the client is verified, after which the dictionary is tested without the server (C95_srp_early_proof_refuted). Proved in full for SPAKE2; for AuCPace see C93."
  },
  {
   "property": "C96",
   "status": "partial",
   "theorems": [
    "C96_results",
    "C96_client",
    "C96_server",
    "C96_rejected",
    "C96_shown",
    "C96_oblivious",
    "C96_ct_eq",
    "C96_early_exit",
    "C96_eq_shows",
    "C96_early_exit_count",
    "C96_password_refuted",
    "C96_srp_results",
    "C96_srp_server",
    "C96_srp_client",
    "C96_srp_server_attack",
    "C96_srp_client_attack",
    "C96_srp_shown"
   ],
   "note": "REFUTED for spake2's Password, whose derived == stops at the first difference (C96_password_refuted; the crate itself compares no passwords). Proved in full for the four comparisons of authenticators in aucpace and srp, in a model of branches and addresses; subtle's ct_eq is written out in it."
  },
  {
   "property": "C97",
   "status": "partial",
   "theorems": [
    "C97_results",
    "C97_work",
    "C97_same_work_refuted"
   ],
   "note": "REFUTED in one point: in every variant an observer of the operations tells for every name whether the user is registered (C97_same_work_refuted). Proved that the work depends on nothing else but the length of the name and the refusal (C97_work)."
  },
  {
   "property": "C98",
   "status": "partial",
   "theorems": [
    "C98_aucpace_results",
    "C98_aucpace_lengths",
    "C98_spake2_results",
    "C98_spake2_lengths",
    "C98_spake2_refusal",
    "C98_srp_results",
    "C98_srp_server",
    "C98_srp_client",
    "C98_srp_public_lengths_refuted",
    "C98_srp_leading_zero",
    "C98_srp_dictionary_refuted"
   ],
   "note": "REFUTED for SRP: one observer finds the length of the premaster secret from the lengths hashed, in every session of a client or of a server (C98_srp_public_lengths_refuted), and a dictionary is thinned out before a proof is sent (C98_srp_dictionary_refuted). Proved for SPAKE2 (C98_spake2_lengths, C98_spake2_refusal) and AuCPace (C98_aucpace_lengths)."
  },
  {
   "property": "C99",
   "status": "partial",
   "theorems": [
    "C99_precomputation_refuted",
    "C99_strong_unasked",
    "C99_strong_precomputation_refuted",
    "C99_strong_questions",
    "C99_strong_questions_enough",
    "C99_strong_watching",
    "C99_strong_partial_questions",
    "C99_srp_precomputation_refuted",
    "C99_srp_other_salt"
   ],
   "note": "REFUTED: the table made from one answer of a server (C99_precomputation_refuted), or from one unblinded request for each candidate in the strong variant (C99_strong_precomputation_refuted), finds the password when the verifier is stolen. Proved for the strong variant: no salt can be prepared without asking (C99_strong_unasked), and an attacker that adds and multiplies points, choosing its questions by the answers, gets the salt points of at most as many passwords as it asks questions (C99_strong_questions; the bound is reached, C99_strong_questions_enough; watching logins does not help, C99_strong_watching; the same with partial augmentation, C99_strong_partial_questions). For SRP refuted by the salt alone (C99_srp_precomputation_refuted); without the salt a table finds the verifier only with a collision (C99_srp_other_salt)."
  }
 ]
}