{
 "C01": {
  "note": "Any group with non-zero N and g not longer than N, any digest, any byte strings. The model's digest is a function of the concatenated input."
 },
 "C03": {
  "note": "Also every encoding of every multiple of N."
 },
 "C04": {
  "note": "Exact panic conditions of every method. Allocation failure is not modelled."
 },
 "C06": {
  "note": "The collision is the explicit pair of hashed strings. For the server proof the digest must have a fixed output length."
 },
 "C07": {
  "status": "partial",
  "note": "REFUTED in general: two different transcripts hash as the same message, and a concrete SHA-256 run where both messages are altered in transit and the proof is accepted (16-bit group). Proved when A and B have fixed lengths."
 },
 "C09": {
  "status": "partial",
  "note": "REFUTED: the code does not pad; concrete SHA-1 run whose key differs from the RFC's. Proved: with both encodings at full length u and both keys are the RFC's, and otherwise u is the RFC's only with a digest collision."
 },
 "C11": {
  "note": "Primality of the moduli is not proved; only coprimality of g and N is needed and proved."
 },
 "C12": {
  "status": "partial",
  "note": "REFUTED: with u = 0 the server completes with key A^b, whatever the verifier; witness digest is SHA-1 changed on two messages."
 },
 "C13": {
  "status": "partial",
  "note": "REFUTED in general (':' in user names); proved for user names without ':'."
 },
 "C14": {
  "status": "partial",
  "note": "REFUTED: key() is the premaster secret; whenever the digest is longer than N no session key is a digest at all."
 },
 "C19": {
  "status": "partial",
  "note": "REFUTED: a symmetric session always accepts its own reflected message (C19_reflection_accepted, for every session)."
 },
 "C26": {
  "status": "partial",
  "note": "REFUTED in general (hex without zero padding; unquoted identities in a side); proved for valid UTF-8 identities and for identities without bytes below 0x10."
 },
 "C27": {
  "status": "partial",
  "note": "REFUTED: every curve point is accepted, including the identity and all small-order points."
 },
 "C28": {
  "status": "partial",
  "note": "REFUTED for groups whose encoding is not 32 bytes (every finish that reaches the transcript panics); proved for 32 bytes."
 },
 "C29": {
  "note": "Any group satisfying the Ristretto laws, any 64-byte digest, any hasher, any database that returns the record stored; SSID from nonces or pre-established; fixed and allocated buffers."
 },
 "C35": {
  "status": "partial",
  "note": "REFUTED for the blinded salt in strong_generate_cpace (fixed-buffer variant): the identity is accepted there and refused by the alloc variant. Proved for every other point received."
 },
 "C37": {
  "note": "Over every history of the world of sessions (AucpaceWorld.v); collisions are explicit pairs of hashed strings."
 },
 "C38": {
  "note": "Over every history; the salt and exponent are given as a function of the first 64-bit draw of the server's generator."
 },
 "C39": {
  "status": "partial",
  "note": "REFUTED: salts of 22 and of 64 characters, empty parameters, and a server point that changes with partial augmentation. Proved of the strong variant: only the parameters differ."
 },
 "C40": {
  "note": "SaltString's own invariant (4 to 64 legal characters) is a hypothesis; it is what SaltString::generate/from_b64/encode_b64 give."
 },
 "C41": {
  "status": "partial",
  "note": "REFUTED: the documentation attributes the error to the alloc functions, which never return it; the fixed-buffer functions return it exactly when u+p+1 exceeds the buffer."
 },
 "C44": {
  "status": "partial",
  "note": "REFUTED: the fake-salt hash has no index word, and the strong variant's point and the CPace generator share H1. Proved for the authenticators, session keys and SSID."
 },
 "C46": {
  "status": "partial",
  "note": "REFUTED: user name and password are hashed with no separator, so different pairs give the same point; proved up to that boundary."
 },
 "C47": {
  "note": "Over every history of events, for any database that returns the latest record; the events include logins, stores and key-pair generation of any users."
 },
 "C48": {
  "note": "bincode and postcard; canonical in bincode only (postcard has redundant varints, C48_postcard_canonical_refuted). Which error is reported is not modelled."
 },
 "C49": {
  "status": "partial",
  "note": "REFUTED: every message after the second variant is never decoded as itself by the other build; a registration is decoded as an authenticator. Proved for the first two variants."
 },
 "C50": {
  "status": "partial",
  "note": "REFUTED for the strong variant on the identity blinded salt; proved otherwise."
 },
 "C51": {
  "status": "partial",
  "note": "REFUTED: some points have several accepted encodings. Proved: exactly which strings decode to each point, their number, when it is one, and that re-encoding a message changes the transcript."
 },
 "C52": {
  "status": "partial",
  "note": "REFUTED: a low-order or mixed point yields a shared element outside the prime-order group. Proved: the exact shared element and exactly when it is in the subgroup."
 },
 "C53": {
  "note": "Information-theoretic count; no claim about computational hardness."
 },
 "C54": {
  "note": "The logarithms exist but are not computed."
 },
 "C55": {
  "note": "The password hasher, the database and the random generators stay abstract."
 },
 "C56": {
  "note": "Given that the password hasher (a parameter) does not panic."
 },
 "C57": {
  "status": "partial",
  "note": "REFUTED: the fake salt of an unknown user is keyed by a secret drawn in AuCPaceServer::new, so it changes at a restart (or there is a collision in the digest) while a registered user's does not; unknown users can be told apart. Proved: replies for registered users are the same."
 },
 "C58": {
  "status": "partial",
  "note": "REFUTED for partial augmentation: the stored verifier and long-term private key give the PRS. Proved for a fresh server key: each group element is the PRS for exactly one key of the server, so the verifier alone leaves the PRS undetermined."
 },
 "C59": {
  "status": "partial",
  "note": "REFUTED: a pre-established SSID equal to the concatenated nonces gives the SSID of that session, and nonces of length 0 are accepted."
 },
 "C60": {
  "status": "partial",
  "note": "REFUTED for a generator that keeps returning zeros. Proved: terminates exactly when some draw is not zero, with the first such value."
 },
 "C62": {
  "note": "The connection keeps bytes in order and loses none while both ends are open; calls fail only when the other thread has ended."
 },
 "C63": {
  "status": "partial",
  "note": "REFUTED: messages are not framed. Every session whose first two client messages fit the buffer has an execution in which both threads wait for ever; in every session the server can panic on a short read; and a user name can be chosen so that the server answers for another user."
 },
 "C64": {
  "status": "partial",
  "note": "REFUTED for ends of different address families (which a TCP connection does not have). Proved when the families agree."
 },
 "C65": {
  "status": "partial",
  "note": "REFUTED: each store forgets the user before, and a user registered later inherits the earlier user's long-term key pair. Proved: the exact content after any history."
 },
 "C66": {
  "note": "The scrypt parameters' parser is a parameter of the statement."
 },
 "C67": {
  "status": "partial",
  "note": "Partial: primality of N and (N-1)/2 is a hypothesis of the theorem about the built-in groups; the other theorems hold of every group with a generator. Gauss's lemma is proved from scratch (Curve/GaussLemma.v), so no exponentiation modulo N is needed."
 },
 "C68": {
  "status": "partial",
  "note": "REFUTED in two parts: the reply for an unknown user has no parameters, so the client thread of each TCP example panics (and then the server's); and the client takes any cost the server sends that scrypt accepts, up to 2^63 bytes. Proved: round trip of the parameters, exactly which strings are read, completion of the example with scrypt."
 },
 "C69": {
  "note": "Every collision named in a disjunction is a pair of concrete, different messages of the two runs; messages between the honest parties are delivered unchanged (C37 treats the network)."
 },
 "C70": {
  "note": "The primality of n and (n-1)/2 is a hypothesis (not proved for the built-in groups, see C67). Collisions are exhibited, not assumed away; the count is per value of u."
 },
 "C71": {
  "note": "A fact about the scheme as implemented: stated with the logarithm as a hypothesis; nothing is claimed about how hard it is to find."
 },
 "C72": {
  "note": "The generator must not be the identity; the digest is arbitrary. About exact counts of scalars, not about a distribution (see C61 for that)."
 },
 "C73": {
  "note": "Collisions are exhibited, not assumed away. The public key the honest party sent must not be the identity (its scalar is then 0)."
 },
 "C74": {
  "note": "Probability = number of byte strings of the generator's output that pass, over 256^64 (one message) or 256^128 (both); the parties' generators are independent. Says nothing about what a party that takes part can learn (see C53)."
 },
 "C75": {
  "note": "Probability = number of byte strings that pass. In C75_login the server's long-term scalar is any fixed one, both verifiers are stored with the same salt and parameters, and the client holds the server's PRS. With explicit authentication the authenticators depend on the PRS (see C73)."
 },
 "C77": {
  "status": "partial",
  "note": "Proved for SPAKE2 and AuCPace (both directions). REFUTED for SRP as stated: M1 hashes the public keys without their lengths, so a recorded login can be accepted by a session with another private key whose public key has another length (C77_srp_replay_refuted, a SHA-256 instance in a 16-bit group); with equal lengths it holds (C77_srp_server, C77_srp_client)."
 },
 "C78": {
  "status": "partial",
  "note": "REFUTED for names with colons in SRP and AuCPace: `u:t` with password `p` is logged in as `u` if that user's password is `t:p` (C78_srp_refuted, C78_user_refuted); in the strong variant only colons can move (C78_user_strong_refuted, and C78_user_strong says nothing else can). Without colons names and passwords agree (C78_srp, C78_user)."
 },
 "C79": {
  "status": "partial",
  "note": "AuCPace, SPAKE2, SRP's good_password and bad_public: proved outright. SRP's good_password_fails_once and bad_password assume that the 2048-bit modulus is a safe prime (see C67). The hasher is a parameter that returns 32 bytes for base64 salts, as scrypt does (C87); a blinding value is found (C31)."
 },
 "C80": {
  "note": "base64 specified by bit groups in Base64Spec; SaltString::generate follows the published source of password-hash"
 },
 "C81": {
  "note": "collisions are explicit: two verifiers, one session, at a public key the attacker sends there; C81_dictionary_case has no collisions at all, so the bound there is unconditional"
 },
 "C82": {
  "note": "concrete: edwards25519 and SHA-256 as computed in the model, no group or digest hypothesis; a yes or no to a key guess stands for whatever later tells the attacker that its key is right"
 },
 "C83": {
  "status": "partial",
  "note": "REFUTED for the SRP client: C83_srp_constant_key, C83_srp_builtin_refuted, C83_srp_client_refuted. Proved for SPAKE2 and AuCPace. For SRP what remains is C83_srp_client and C83_srp_server, for safe primes with a generator and for equal scramblers."
 },
 "C84": {
  "note": "the solver is explicit (solver_of, last32), so it costs what the attacker costs and a few group operations; nothing is claimed about how hard Diffie-Hellman is, nor about attackers that find the key without the hashed string"
 },
 "C85": {
  "status": "partial",
  "note": "REFUTED for AuCPace: C85_aucpace_refuted (every session), C85_blinded_points_refuted; exactly which alterations go unseen is C85_aucpace_explicit and C85_aucpace_implicit. Proved for SPAKE2 (C85_spake2, C85_spake2_matching). The SRP counterpart is refuted as C07_altered_messages_accepted_refuted."
 },
 "C86": {
  "note": "SPAKE2: edwards25519 and SHA-256 as computed in the model; random bytes are 64 bytes per session. AuCPace: SSID from nonces (with a pre-established SSID nothing but the private keys tells sessions apart); whatever the augmentation layer gives is allowed as PRS"
 },
 "C87": {
  "note": "scrypt, PBKDF2, HMAC, Salsa20/8 and the base64 decoder are executable definitions after their published sources, checked on the vectors of RFC 7914 (Aucpace/Scrypt.v). That scrypt may run out of memory is not modelled."
 },
 "C88": {
  "status": "partial",
  "note": "REFUTED for the plain variant: with the registered password 'p' the login with 'p' followed by zero bytes succeeds (C88_only_the_password_refuted), because HMAC pads its key with zeros. Proved: exactly the passwords that are the same HMAC key are accepted, or a collision is exhibited at given strings; in the strong variant only the registered one."
 },
 "C89": {
  "status": "partial",
  "note": "REFUTED (C89_no_secret_refuted): the derived Debug of a strong registration prints the secret exponent. Proved: exactly what the text determines, for arbitrary texts of points, salts and parameters."
 },
 "C90": {
  "status": "partial",
  "note": "REFUTED beyond 2^32 table entries (C90_index_refuted): the index comes from 32 bits, so the upper half of the table is never read. Proved: for up to 2^32 entries the word-level model equals the octet-level text of RFC 7914, for all passwords, salts and parameters; non-base64 salts are errors. HMAC-SHA-256 is shared with the specification and is the standards' by C92."
 },
 "C91": {
  "note": "For a generator that goes through any stream of bytes. Calls that fail without giving a lent generator back end a history."
 },
 "C92": {
  "note": "Hash.v against Fips180.v, which is written from the text of FIPS 180-4, RFC 2104 and RFC 5869 on bit strings and shares no definition with it; the length field is taken modulo 2^64 (2^128), which for lengths the standard admits is the length."
 },
 "C93": {
  "note": "In the world of AucpaceWorld.v, where the Rust value of the server is shared and every event is one call; C93_login and C93_login_strong take the result of a login alone (C29, C31, C32), C93_honest puts it together with C29 from a new server."
 },
 "C94": {
  "status": "partial",
  "note": "REFUTED for SPAKE2 (C94_spake2_strict_refuted): the library accepts element encodings that RFC 8032's decoding refuses; C94_spake2_difference proves that these are the only received messages for which the result differs from the standard's. Proved in full for AuCPace: every login, wire string and network history over the model's group corresponds, byte for byte, to one over ristretto255 computed with RFC 9496's procedures on integers and FIPS SHA-512; and for SPAKE2 messages, honest runs, and canonical received messages."
 },
 "C95": {
  "status": "partial",
  "note": "REFUTED for SRP: SrpServerVerifier::verify_client takes &self, so one session tests every password of a dictionary (C95_srp_one_guess_refuted), and proof() can be sent before the client is verified, after which the dictionary is tested without the server (C95_srp_early_proof_refuted). Proved in full for SPAKE2; for AuCPace see C93."
 },
 "C96": {
  "status": "partial",
  "note": "REFUTED for spake2's Password, whose derived == stops at the first difference (C96_password_refuted; the crate itself compares no passwords). Proved in full for the four comparisons of authenticators in aucpace and srp, in a model of branches and addresses; subtle's ct_eq is written out in it."
 },
 "C97": {
  "status": "partial",
  "note": "REFUTED in one point: in every variant an observer of the operations tells for every name whether the user is registered (C97_same_work_refuted). Proved that the work depends on nothing else but the length of the name and the refusal (C97_work)."
 },
 "C98": {
  "status": "partial",
  "note": "REFUTED for SRP: one observer finds the length of the premaster secret from the lengths hashed, in every session of a client or of a server (C98_srp_public_lengths_refuted), and a dictionary is thinned out before a proof is sent (C98_srp_dictionary_refuted). Proved for SPAKE2 (C98_spake2_lengths, C98_spake2_refusal) and AuCPace (C98_aucpace_lengths)."
 },
 "C99": {
  "status": "partial",
  "note": "REFUTED: the table made from one answer of a server (C99_precomputation_refuted), or from one unblinded request for each candidate in the strong variant (C99_strong_precomputation_refuted), finds the password when the verifier is stolen. Proved for the strong variant: no salt can be prepared without asking (C99_strong_unasked), and an attacker that adds and multiplies points, choosing its questions by the answers, gets the salt points of at most as many passwords as it asks questions (C99_strong_questions; the bound is reached, C99_strong_questions_enough; watching logins does not help, C99_strong_watching; the same with partial augmentation, C99_strong_partial_questions). For SRP refuted by the salt alone (C99_srp_precomputation_refuted); without the salt a table finds the verifier only with a collision (C99_srp_other_salt)."
 }
}