{"id": "C01", "title": "SRP: an honest handshake agrees on the key and both proofs verify", "statement": "If a user is registered with compute_verifier(username, password, salt), the client answers the server's b_pub with the same username, password and salt, and neither public value is 0 modulo N, then both process_reply calls return Ok, SrpClientVerifier::key equals SrpServerVerifier::key, verify_client accepts the client's proof and verify_server accepts the server's proof.", "quantifier": "every group (N, g), every digest, every username, password, salt and every pair of ephemeral secrets a, b of any length", "why_tests_cant": "the algebra must hold for every modulus and exponent; the tests run one random handshake", "anchors": ["srp/src/client.rs:SrpClient::process_reply", "srp/src/client.rs:SrpClient::compute_verifier", "srp/src/server.rs:SrpServer::process_reply", "srp/src/server.rs:SrpServer::compute_public_ephemeral"]}
{"id": "C02", "title": "SRP: the shared key is the SRP-6a premaster secret", "statement": "In an honest handshake the bytes returned by key() on both sides are the minimal big-endian encoding of g^(b*(a+u*x)) mod N, and each side's premaster computation equals its SRP-6a formula, (B - k*g^x)^(a+u*x) mod N for the client and (A*v^u)^b mod N for the server, as integers modulo N.", "quantifier": "every N > 0, g, k, x, a, b, u and every received public value, reduced or not", "why_tests_cant": "the client formula has a subtraction that can go negative and needs the right modulus for every operand ordering", "anchors": ["srp/src/client.rs:SrpClient::compute_premaster_secret", "srp/src/server.rs:SrpServer::compute_premaster_secret", "srp/src/server.rs:SrpServer::compute_b_pub"]}
{"id": "C03", "title": "SRP: a public value congruent to 0 modulo N is always rejected, and nothing else is", "statement": "The client's process_reply returns Err(IllegalParameter(\"b_pub\")) exactly when the received bytes denote a multiple of N (including the empty string, 0, N, 2N, with any leading zeros), and otherwise returns Ok; symmetrically for the server with a_pub.", "quantifier": "every received byte string of any length and every well-formed group", "why_tests_cant": "there are infinitely many encodings of multiples of N; the tests try only 0", "anchors": ["srp/src/client.rs:SrpClient::process_reply", "srp/src/server.rs:SrpServer::process_reply", "srp/src/types.rs:SrpAuthError"]}
{"id": "C04", "title": "SRP: no input makes the API panic unless the group itself is malformed", "statement": "Every SrpClient and SrpServer method returns without panicking (no division by zero, no unsigned underflow, no out-of-range slice) for every argument if N is non-zero and g's encoding is not longer than N's; if either condition fails both process_reply methods panic on every input that reaches the failing operation.", "quantifier": "every byte-string argument and every group", "why_tests_cant": "panics hide at boundary values (subtraction underflow, slice ranges) that random tests do not reach", "anchors": ["srp/src/client.rs:SrpClient::compute_premaster_secret", "srp/src/utils.rs:compute_k", "srp/src/server.rs:SrpServer::process_reply"]}
{"id": "C05", "title": "SRP: a proof is accepted if and only if it is byte-for-byte the expected one", "statement": "verify_client (verify_server) returns Ok exactly when the reply equals the expected M1 (M2) in length and in every byte, and Err(BadRecordMac) otherwise; in particular a truncated, extended or empty proof is rejected.", "quantifier": "every reply of every length and every verifier state", "why_tests_cant": "the comparison is a branch-free bit trick over all byte pairs and all lengths", "anchors": ["srp/src/client.rs:SrpClientVerifier::verify_server", "srp/src/server.rs:SrpServerVerifier::verify_client"]}
{"id": "C06", "title": "SRP: an accepted proof means both sides hold the same key, unless a digest collision is exhibited", "statement": "If a server session accepts the proof made by a client session that saw the same A and B, then the two keys are equal or two concrete distinct messages with equal digest have been found; likewise for the client accepting a server's proof.", "quantifier": "every pair of client and server sessions with arbitrary secrets, passwords, salts and verifiers", "why_tests_cant": "it quantifies over all pairs of sessions, including ones run by an attacker", "anchors": ["srp/src/utils.rs:compute_m1", "srp/src/utils.rs:compute_m2", "srp/src/client.rs:SrpClientVerifier::verify_server", "srp/src/server.rs:SrpServerVerifier::verify_client"]}
{"id": "C07", "title": "SRP: the proof transcript determines A, B and the key", "statement": "compute_m1 hashes distinct (A, B, K) triples as distinct messages. (Expected to fail in general: the parts are concatenated without lengths. It must hold when A and B have fixed lengths.)", "quantifier": "every triple of byte strings", "why_tests_cant": "an ambiguous concatenation is invisible to any test that compares the two honest sides", "anchors": ["srp/src/utils.rs:compute_m1", "srp/src/utils.rs:compute_m2"]}
{"id": "C08", "title": "SRP: k, x and v follow RFC 5054 for every input", "statement": "compute_k is the digest of N followed by g left-padded with zeros to the length of N; compute_x is H(salt | H(username | ':' | password)); compute_verifier is g^x mod N; M1 = H(A|B|K) and M2 = H(A|M1|K).", "quantifier": "every group, username, password and salt", "why_tests_cant": "a known-answer test fixes one input; padding and ordering mistakes show only at other sizes", "anchors": ["srp/src/utils.rs:compute_k", "srp/src/client.rs:SrpClient::compute_x", "srp/src/client.rs:SrpClient::compute_identity_hash", "srp/src/client.rs:SrpClient::compute_verifier"]}
{"id": "C09", "title": "SRP: the scrambling parameter is u = H(PAD(A) | PAD(B))", "statement": "compute_u as used by process_reply equals RFC 5054's u, in which A and B are left-padded to the length of N. (Expected to fail: the code passes the unpadded encodings. It must hold when both encodings have full length.)", "quantifier": "every pair of public values", "why_tests_cant": "a random A has full length with probability 255/256, so tests pass while interoperability fails for the rest", "anchors": ["srp/src/utils.rs:compute_u", "srp/src/client.rs:SrpClient::process_reply", "srp/src/server.rs:SrpServer::process_reply"]}
{"id": "C10", "title": "SRP: byte arguments matter only through the number they encode", "statement": "Prepending zero bytes to a, b, v, a_pub or b_pub changes no result of any SRP method; every returned public value, verifier and key is the minimal big-endian encoding of a number below N, so it has no leading zero byte unless the value is 0, which is encoded as one zero byte, and it is never longer than N.", "quantifier": "every byte string and every amount of leading zeros", "why_tests_cant": "the canonicalisation has to commute with every later use of the value", "anchors": ["srp/src/client.rs:SrpClient::process_reply", "srp/src/server.rs:SrpServer::process_reply", "srp/src/client.rs:SrpClient::compute_public_ephemeral"]}
{"id": "C11", "title": "SRP: with the built-in groups the server never rejects an honest client", "statement": "Each built-in group has a modulus of the advertised bit length with its top bit set, equal to the RFC 5054 constant, and a generator below and coprime to N; hence compute_public_ephemeral(a) is never 0 modulo N and the server's process_reply accepts it for every a.", "quantifier": "every ephemeral secret a of every length, for all seven groups", "why_tests_cant": "it is a statement about all exponents", "anchors": ["srp/src/groups.rs:G_1024", "srp/src/groups.rs:G_8192", "srp/src/server.rs:SrpServer::process_reply"]}
{"id": "C12", "title": "SRP: the server's key always depends on the registered verifier", "statement": "A handshake whose scrambling parameter is 0 is aborted. (Expected to fail: SRP-6a tells the client to abort when u = 0; the code does not check, and then the server's key is A^b mod N whatever verifier is stored.)", "quantifier": "every digest and every handshake whose u is 0", "why_tests_cant": "u = 0 has negligible probability with a real digest, so no test reaches it", "anchors": ["srp/src/utils.rs:compute_u", "srp/src/client.rs:SrpClient::process_reply", "srp/src/server.rs:SrpServer::compute_premaster_secret"]}
{"id": "C13", "title": "SRP: different credentials give different digest inputs", "statement": "Distinct (username, password) pairs are hashed as distinct messages by compute_identity_hash. (Expected to fail: ':' may occur in both. It must hold when usernames contain no ':'.)", "quantifier": "every pair of username/password pairs", "why_tests_cant": "it ranges over pairs of inputs", "anchors": ["srp/src/client.rs:SrpClient::compute_identity_hash"]}
{"id": "C14", "title": "SRP: key() returns K = H(S) as the crate documentation says", "statement": "The value returned by key() and hashed into M1 and M2 is the digest of the premaster secret, as in the protocol table in the crate docs. (Expected to fail: the code uses the premaster secret itself.)", "quantifier": "every handshake", "why_tests_cant": "the two sides agree with each other either way", "anchors": ["srp/src/lib.rs", "srp/src/client.rs:SrpClientVerifier::key", "srp/src/server.rs:SrpServerVerifier::key"]}
{"id": "C15", "title": "SPAKE2: start_a and start_b with the same password and identities agree on the key", "statement": "If one side runs start_a and the other start_b with the same password and the same identity pair, and each finish receives the other's message, both return Ok with the same 32-byte key.", "quantifier": "every password, identity pair and pair of secret scalars", "why_tests_cant": "the group algebra, the byte encoding and the transcript order must all match for every scalar", "anchors": ["spake2/src/lib.rs:Spake2::start_a_with_rng", "spake2/src/lib.rs:Spake2::start_b_with_rng", "spake2/src/lib.rs:Spake2::finish", "spake2/src/ed25519.rs:hash_ab"]}
{"id": "C16", "title": "SPAKE2: two symmetric sides with the same password and identity agree on the key", "statement": "If both sides run start_symmetric with the same password and identity and exchange messages, both finish calls return Ok with the same 32-byte key, whichever message sorts first and also when the messages are equal.", "quantifier": "every password, identity and pair of secret scalars", "why_tests_cant": "the byte order of the two messages is decided at run time", "anchors": ["spake2/src/lib.rs:Spake2::start_symmetric_with_rng", "spake2/src/lib.rs:Spake2::finish", "spake2/src/ed25519.rs:hash_symmetric"]}
{"id": "C17", "title": "SPAKE2: finish is total and classifies every message", "statement": "With Ed25519Group finish never panics: it returns WrongLength exactly when the message is not 33 bytes, otherwise BadSide exactly when the first byte is not the peer's side byte, otherwise CorruptMessage exactly when the remaining 32 bytes do not decode to a curve point, and otherwise Ok with 32 bytes.", "quantifier": "every received byte string, every session state", "why_tests_cant": "it covers all byte strings, including every invalid point encoding", "anchors": ["spake2/src/lib.rs:Spake2::finish", "spake2/src/ed25519.rs:Ed25519Group::bytes_to_element", "spake2/src/error.rs"]}
{"id": "C18", "title": "SPAKE2: a message from the wrong role is refused", "statement": "A message made by start_a, start_b or start_symmetric is refused with BadSide by every session that does not expect that role; in particular A and B sessions refuse their own reflected message.", "quantifier": "every pair of sessions with any passwords, identities and scalars", "why_tests_cant": "it ranges over all pairs of sessions", "anchors": ["spake2/src/lib.rs:Spake2::finish", "spake2/src/lib.rs:Spake2::start_internal"]}
{"id": "C19", "title": "SPAKE2: a symmetric session refuses its own reflected message", "statement": "finish returns an error when given the message the same start_symmetric session produced. (Expected to fail: there is no such check, the reflected message is always accepted.)", "quantifier": "every symmetric session", "why_tests_cant": "the claim is about every session; the test suite covers only the A role", "anchors": ["spake2/src/lib.rs:Spake2::finish"]}
{"id": "C20", "title": "SPAKE2: equal keys imply equal passwords, identities, messages and group secret, or a SHA-256 collision", "statement": "If two finish calls of any two sessions return the same key, the two sessions are of the same kind (A/B or symmetric), used the same password and identities, saw the same pair of messages and computed the same shared element; otherwise the run exhibits two distinct byte strings with the same SHA-256 digest.", "quantifier": "every pair of completed sessions, with arbitrary adversarial messages", "why_tests_cant": "it ranges over all pairs of executions, including all wrong passwords", "anchors": ["spake2/src/ed25519.rs:hash_ab", "spake2/src/ed25519.rs:hash_symmetric", "spake2/src/lib.rs:Spake2::finish"]}
{"id": "C21", "title": "SPAKE2: outbound messages have the documented wire format", "statement": "Every start function returns 1 + 32 bytes: 'A', 'B' or 'S' followed by the encoding of x*B + pw*M (N, S for the other roles), and that encoding decodes back to the same element.", "quantifier": "every password, identity and scalar", "why_tests_cant": "round-trip of point compression for all points", "anchors": ["spake2/src/lib.rs:Spake2::start_internal", "spake2/src/ed25519.rs:Ed25519Group::element_to_bytes", "spake2/src/ed25519.rs:Ed25519Group::bytes_to_element"]}
{"id": "C22", "title": "SPAKE2: the password scalar is HKDF-SHA256 output reduced modulo the group order", "statement": "hash_to_scalar(s) is the 48-byte HKDF-SHA256(salt empty, ikm s, info \"SPAKE2 pw\") output read as a big-endian integer modulo the group order, as the Python implementation does.", "quantifier": "every password of every length", "why_tests_cant": "byte reversal and wide reduction must be right for all 2^384 outputs", "anchors": ["spake2/src/ed25519.rs:ed25519_hash_to_scalar"]}
{"id": "C23", "title": "SPAKE2: the blinding constants decode and lie in the prime-order subgroup", "statement": "const_m, const_n and const_s never panic, are three distinct non-identity points on the curve, and each is annihilated by the group order, so that pw and -pw multiples cancel.", "quantifier": "all uses of the constants (finitely many points, but a claim about exact group order)", "why_tests_cant": "a constant with a cofactor component would make keys disagree only for some passwords", "anchors": ["spake2/src/ed25519.rs:Ed25519Group::const_m", "spake2/src/ed25519.rs:Ed25519Group::const_n", "spake2/src/ed25519.rs:Ed25519Group::const_s"]}
{"id": "C24", "title": "SPAKE2: the outbound message reveals nothing about the password", "statement": "For every message some password and scalar produce in a role, and every other password, exactly one scalar produces the same message in that role; so with a uniform scalar the message distribution is the same for all passwords.", "quantifier": "every role, message, and pair of passwords", "why_tests_cant": "an information-theoretic claim about all scalars", "anchors": ["spake2/src/lib.rs:Spake2::start_internal"]}
{"id": "C25", "title": "SPAKE2: debug output does not depend on secrets", "statement": "The Debug rendering of a session depends only on the group name, the role and the identity strings: two sessions that differ in password, scalar or message print the same.", "quantifier": "all sessions", "why_tests_cant": "a non-interference claim over all secrets", "anchors": ["spake2/src/lib.rs:impl Debug for Spake2", "spake2/src/lib.rs:impl Debug for Side", "spake2/src/lib.rs:MaybeUtf8"]}
{"id": "C26", "title": "SPAKE2: debug output of distinct identities is distinct", "statement": "MaybeUtf8 prints distinct identity strings differently. (Expected to fail: bytes are printed in hex without zero padding. It must hold for identities that are valid UTF-8.) A text is printed as it is, any other byte string as the lower-case hexadecimal numbers of its bytes.", "quantifier": "every pair of identity strings", "why_tests_cant": "it ranges over pairs of byte strings", "anchors": ["spake2/src/lib.rs:MaybeUtf8"]}
{"id": "C27", "title": "SPAKE2: finish refuses degenerate points", "statement": "finish returns an error when the peer's message encodes the identity or another small-order point. (Expected to fail: any decodable point is accepted.)", "quantifier": "every session and each small-order point", "why_tests_cant": "tests do not send degenerate points", "anchors": ["spake2/src/lib.rs:Spake2::finish", "spake2/src/ed25519.rs:Ed25519Group::bytes_to_element"]}
{"id": "C28", "title": "SPAKE2: sessions over any Group implementation never panic", "statement": "finish does not panic for a user-supplied Group whose elements encode to element_length bytes. (Expected to fail: the transcript functions assert 32-byte messages, so every other length panics. It must hold for length 32.)", "quantifier": "every Group implementation", "why_tests_cant": "only one Group exists in the crate", "anchors": ["spake2/src/group.rs:Group", "spake2/src/ed25519.rs:hash_ab", "spake2/src/ed25519.rs:hash_symmetric"]}
{"id": "C29", "title": "AuCPace: an honest login with explicit authentication succeeds and agrees on the session key", "statement": "After register and store, if client and server agree the SSID (by nonces or pre-established), run the augmentation layer with the registered password, the CPace substep with the same channel identifier, and exchange authenticators, both return Ok with the same 64-byte session key, provided no exchanged point is the identity.", "quantifier": "every username, password, salt, hasher parameters, channel identifier, every random tape of client and server", "why_tests_cant": "six messages of algebra and hashing must line up for every random choice", "anchors": ["aucpace/src/client.rs:AuCPaceClientExpMutAuth::receive_server_authenticator", "aucpace/src/server.rs:AuCPaceServerExpMutAuth::receive_client_authenticator", "aucpace/src/client.rs:AuCPaceClient::register"]}
{"id": "C30", "title": "AuCPace: implicit authentication agrees with explicit authentication", "statement": "implicit_auth on both sides yields equal keys in the honest run, and each side's implicit key equals the key the explicit path would return.", "quantifier": "every state and every received public key", "why_tests_cant": "two code paths must coincide on all inputs", "anchors": ["aucpace/src/client.rs:AuCPaceClientRecvServerKey::implicit_auth", "aucpace/src/server.rs:AuCPaceServerRecvClientKey::implicit_auth"]}
{"id": "C31", "title": "AuCPace strong variant: the honest login succeeds and agrees on the session key", "statement": "After register_strong and store, the strong login completes with equal keys: the salt recovered by the client from the blinded exchange is the salt used at registration, whatever blinding value was drawn.", "quantifier": "every username, password, secret exponent, blinding value and random tape", "why_tests_cant": "needs scalar inversion to be right for every non-zero blinding value", "anchors": ["aucpace/src/client.rs:AuCPaceClientPreAug::start_augmentation_strong", "aucpace/src/client.rs:StrongAuCPaceClientAugLayer::generate_cpace", "aucpace/src/server.rs:AuCPaceServerAugLayer::generate_client_info_strong"]}
{"id": "C32", "title": "AuCPace partial augmentation: a login with the stored long-term key pair agrees on the session key", "statement": "With a long-term key pair made by generate_long_term_keypair and stored for the user, generate_client_info_partial_aug (and its strong form) leads to equal session keys in an honest run.", "quantifier": "every stored key pair, user and random tape", "why_tests_cant": "algebra over all key pairs", "anchors": ["aucpace/src/server.rs:AuCPaceServerAugLayer::generate_client_info_partial_aug", "aucpace/src/server.rs:AuCPaceServerAugLayer::generate_client_info_partial_strong", "aucpace/src/server.rs:AuCPaceServer::generate_long_term_keypair"]}
{"id": "C33", "title": "AuCPace: both sides derive the same SSID and it determines both nonces", "statement": "After exchanging nonces client and server hold the same SSID; two sessions with equal SSIDs used the same server and client nonces, or a digest collision is exhibited.", "quantifier": "every nonce pair of every nonce size", "why_tests_cant": "argument order and injectivity for all nonces", "anchors": ["aucpace/src/utils.rs:compute_ssid", "aucpace/src/client.rs:AuCPaceClientSsidEstablish::agree_ssid", "aucpace/src/server.rs:AuCPaceServerSsidEstablish::agree_ssid"]}
{"id": "C34", "title": "AuCPace: a pre-established SSID shorter than 16 bytes is refused on both sides, and no other", "statement": "begin_prestablished_ssid returns Err(InsecureSsid) exactly when the SSID has fewer than 16 bytes, on client and server alike, and otherwise both reach the same SSID hash. A whole session with such an SSID ends with that error, in the plain and the strong variant.", "quantifier": "every byte string", "why_tests_cant": "boundary over all lengths", "anchors": ["aucpace/src/client.rs:AuCPaceClient::begin_prestablished_ssid", "aucpace/src/server.rs:AuCPaceServer::begin_prestablished_ssid", "aucpace/src/constants.rs:MIN_SSID_LEN"]}
{"id": "C35", "title": "AuCPace: the identity point is refused wherever a peer's point is received", "statement": "Every method that takes a point from the peer returns Err(IllegalPointError) when that point, or the salt point derived from it, is the identity: x_pub, server and client public keys (explicit and implicit), the blinded username point and the blinded salt. (Expected to fail in one place: the non-alloc strong generate_cpace does not check the salt point.)", "quantifier": "every state and every API entry point", "why_tests_cant": "it is a claim about all entry points and all states", "anchors": ["aucpace/src/client.rs:StrongAuCPaceClientAugLayer::generate_cpace", "aucpace/src/client.rs:StrongAuCPaceClientAugLayer::generate_cpace_alloc", "aucpace/src/client.rs:AuCPaceClientRecvServerKey::receive_server_pubkey", "aucpace/src/server.rs:AuCPaceServerRecvClientKey::receive_client_pubkey", "aucpace/src/server.rs:AuCPaceServerAugLayer::generate_client_info_strong"]}
{"id": "C36", "title": "AuCPace: an authenticator is accepted if and only if it is the expected one", "statement": "receive_client_authenticator and receive_server_authenticator return Ok exactly when the 64 received bytes equal the expected authenticator, Err(MutualAuthFail) otherwise.", "quantifier": "every 64-byte string and every state", "why_tests_cant": "2^512 inputs", "anchors": ["aucpace/src/client.rs:AuCPaceClientExpMutAuth::receive_server_authenticator", "aucpace/src/server.rs:AuCPaceServerExpMutAuth::receive_client_authenticator"]}
{"id": "C37", "title": "AuCPace: accepted authentication means a shared session key, whatever the network did", "statement": "If a server session accepts an authenticator produced by a client session, or a client session accepts one produced by a server session, the two sessions have the same SSID and return the same session key, unless a digest collision is exhibited; an authenticator of one's own side is never accepted (no reflection) unless a collision is exhibited.", "quantifier": "every history of any number of client and server sessions, with an adversary choosing every received message and the order of all steps", "why_tests_cant": "it quantifies over all interleavings and all adversarial messages", "anchors": ["aucpace/src/utils.rs:compute_authenticator_messages", "aucpace/src/utils.rs:compute_session_key"]}
{"id": "C38", "title": "AuCPace: for one server, an unknown user name always gets the same fake salt", "statement": "For a given server instance the salt (or the fake blinding exponent in the strong variant) returned for a user name with no stored verifier depends only on the server secret and the user name, in every session and at every time until the name is registered.", "quantifier": "every history of server operations", "why_tests_cant": "it is about all histories of one server", "anchors": ["aucpace/src/server.rs:AuCPaceServerAugLayer::lookup_failed", "aucpace/src/server.rs:AuCPaceServerAugLayer::lookup_failed_strong", "aucpace/src/server.rs:ServerSecret"]}
{"id": "C39", "title": "AuCPace: the augmentation reply does not reveal whether the user exists", "statement": "The reply for an unknown user cannot be told from the reply for a registered user by its shape. (Expected to fail: registered salts are 22 characters and fake ones 64; fake parameters are empty; with partial augmentation the fake x_pub changes from session to session.)", "quantifier": "every registered user and every unknown user", "why_tests_cant": "it compares all pairs of replies", "anchors": ["aucpace/src/server.rs:AuCPaceServerAugLayer::lookup_failed", "aucpace/src/client.rs:AuCPaceClient::register", "aucpace/src/server.rs:AuCPaceServerAugLayer::generate_client_info_partial_aug"]}
{"id": "C40", "title": "AuCPace: password hashing is fed exactly username:password or fails cleanly", "statement": "The fixed-buffer hashing path hashes exactly username ':' password, never panics, and fails with UsernameOrPasswordTooLong exactly when len(username)+len(password)+1 > BUFSIZ; whenever it does not fail it behaves exactly like the alloc path.", "quantifier": "every username, password and BUFSIZ", "why_tests_cant": "slice arithmetic at every boundary length", "anchors": ["aucpace/src/client.rs:hash_password", "aucpace/src/client.rs:hash_password_alloc"]}
{"id": "C41", "title": "AuCPace: UsernameOrPasswordTooLong occurs only in the *_alloc APIs, as documented", "statement": "The error documentation says this error can only occur when using the *_alloc APIs. (Expected to fail: it is the other way round, the alloc APIs never return it.)", "quantifier": "every API entry point and every input", "why_tests_cant": "absence of an error over all inputs", "anchors": ["aucpace/src/errors.rs:Error::UsernameOrPasswordTooLong", "aucpace/src/client.rs:hash_password_alloc"]}
{"id": "C42", "title": "AuCPace: password hashes of 32 and 64 bytes map to the canonical scalar, everything else is an error", "statement": "scalar_from_hash returns HashEmpty for no hash, HashSizeInvalid for any length other than 32 and 64, and otherwise the little-endian integer modulo the group order; it never panics.", "quantifier": "every password hash output", "why_tests_cant": "all lengths and values", "anchors": ["aucpace/src/utils.rs:scalar_from_hash"]}
{"id": "C43", "title": "AuCPace strong variant: the blinded user message hides the password", "statement": "The blinding value is never zero, and for every blinded point some credentials can produce and every other credentials (with non-identity hash points) exactly one blinding value produces the same blinded point.", "quantifier": "every pair of credentials and every random tape", "why_tests_cant": "information-theoretic claim over all blinding values; retry loop over all tapes", "anchors": ["aucpace/src/client.rs:AuCPaceClientPreAug::start_augmentation_strong"]}
{"id": "C44", "title": "AuCPace: the six hash functions are domain separated", "statement": "No input of H_i is ever the same digest message as an input of H_j for i different from j, and the fake-salt hash is separated from all of them. (Expected to fail for the fake-salt hash, which has no prefix, and for the strong salt point, which shares H1 with the CPace generator.)", "quantifier": "every pair of calls with any inputs", "why_tests_cant": "it ranges over all pairs of hash calls", "anchors": ["aucpace/src/utils.rs:H", "aucpace/src/server.rs:AuCPaceServerAugLayer::lookup_failed", "aucpace/src/client.rs:AuCPaceClient::generate_salt_strong"]}
{"id": "C45", "title": "AuCPace: sessions on different channels or with different passwords get independent generators", "statement": "Two CPace substeps feed the same message to the generator hash exactly when SSID, password related string and channel identifier are all equal.", "quantifier": "every pair of sessions", "why_tests_cant": "injectivity over all inputs including variable-length channel identifiers", "anchors": ["aucpace/src/utils.rs:generate_keypair"]}
{"id": "C46", "title": "AuCPace strong variant: distinct credentials are hashed to distinct messages", "statement": "Distinct (username, password) pairs give distinct inputs to the point hash. (Expected to fail: username and password are concatenated without a separator.)", "quantifier": "every pair of credentials", "why_tests_cant": "it ranges over pairs of inputs", "anchors": ["aucpace/src/client.rs:AuCPaceClient::generate_salt_strong", "aucpace/src/client.rs:AuCPaceClientPreAug::start_augmentation_strong"]}
{"id": "C47", "title": "AuCPace: every registered user can log in after any history of operations", "statement": "With a database that returns the latest stored record, after any sequence of registrations, re-registrations and logins of any users, a login with the most recently registered password of a user agrees on a session key, and the verifier lookup of other users is unaffected.", "quantifier": "every history of operations over any number of users", "why_tests_cant": "histories are unbounded", "anchors": ["aucpace/src/database.rs:Database", "aucpace/src/server.rs:AuCPaceServerAugLayer::generate_client_info", "aucpace/src/client.rs:AuCPaceClient::register"]}
{"id": "C48", "title": "AuCPace: messages survive serialisation", "statement": "Deserialising a serialised ClientMessage or ServerMessage gives back the same message, in the bincode and postcard formats used by the examples, and decoding never accepts an invalid point, scalar, salt or parameter string.", "quantifier": "every message and every byte string", "why_tests_cant": "round trip over all messages", "anchors": ["aucpace/src/client.rs:ClientMessage", "aucpace/src/server.rs:ServerMessage", "aucpace/src/utils.rs:serde_saltstring", "aucpace/src/utils.rs:serde_paramsstring"]}
{"id": "C49", "title": "AuCPace: messages are understood by a peer built with other feature flags", "statement": "A message type that exists in both builds is decoded as the same message by a peer compiled with a different setting of strong_aucpace. (Expected to fail: the variant indices shift.)", "quantifier": "every message and every pair of feature sets", "why_tests_cant": "tests build both sides with the same features", "anchors": ["aucpace/src/client.rs:ClientMessage", "aucpace/src/server.rs:ServerMessage"]}
{"id": "C50", "title": "AuCPace: the strong client behaves the same with and without alloc", "statement": "For sufficient BUFSIZ generate_cpace and generate_cpace_alloc return the same result. (Holds for the plain client; expected to fail for the strong client when the salt point is the identity.)", "quantifier": "every state and every server reply", "why_tests_cant": "two code paths over all inputs", "anchors": ["aucpace/src/client.rs:AuCPaceClientAugLayer::generate_cpace", "aucpace/src/client.rs:AuCPaceClientAugLayer::generate_cpace_alloc", "aucpace/src/client.rs:StrongAuCPaceClientAugLayer::generate_cpace", "aucpace/src/client.rs:StrongAuCPaceClientAugLayer::generate_cpace_alloc"]}
{"id": "C51", "title": "SPAKE2: every point has exactly one accepted encoding", "statement": "If bytes_to_element accepts two byte strings with the same result, the strings are equal. (Expected to fail: y-coordinates of p or more and a set sign bit on x = 0 are accepted. Then: exactly which strings decode to each point, how many, and that replacing a message by another encoding of the same point changes the transcript.)", "quantifier": "every byte string, every curve point, every session", "why_tests_cant": "the non-canonical strings are about forty out of 2^256; no random test meets one", "anchors": ["spake2/src/ed25519.rs:Ed25519Group::bytes_to_element", "spake2/src/lib.rs:Spake2::finish"]}
{"id": "C52", "title": "SPAKE2: the shared element lies in the prime-order group", "statement": "Whatever point the peer sends, the element hashed into the key is in the subgroup generated by the base point. (Expected to fail: there is no subgroup check and no multiplication by the cofactor. Then: the exact shared element for every received point, split into its prime-order and its 8-torsion part.)", "quantifier": "every session and every received point of the whole curve group", "why_tests_cant": "needs the structure of the full curve group of order 8l", "anchors": ["spake2/src/lib.rs:Spake2::finish", "spake2/src/ed25519.rs:Ed25519Group::scalarmult"]}
{"id": "C53", "title": "SPAKE2: an active attacker tests one password per session", "statement": "If the peer runs the protocol with another password (different as a scalar), both sides obtain the same group element for exactly one value of the peer's secret scalar.", "quantifier": "every pair of passwords, every role and every secret scalar of the victim", "why_tests_cant": "a counting statement over all 2^252 scalars", "anchors": ["spake2/src/lib.rs:Spake2::start_internal", "spake2/src/lib.rs:Spake2::finish"]}
{"id": "C54", "title": "SPAKE2: a discrete logarithm of a blinding constant is a trapdoor", "statement": "Whoever knows n with N = n*B can, after one session in which it sent y*B, compute the victim's key as a function of the candidate password alone; such an n exists and is unique modulo the group order for each of M, N and S.", "quantifier": "every password, identity, secret scalar and every y", "why_tests_cant": "the logarithms are unknown", "anchors": ["spake2/src/ed25519.rs:Ed25519Group::const_m", "spake2/src/ed25519.rs:Ed25519Group::const_n", "spake2/src/ed25519.rs:Ed25519Group::const_s", "spake2/src/lib.rs:Spake2::finish"]}
{"id": "C55", "title": "AuCPace over ristretto255 with SHA-512", "statement": "With the concrete group and digest: the elements form a group of prime order generated by the base point; a byte string decodes to an element exactly when it is its encoding; encoding and equality do not depend on the internal representative; and registration followed by login returns the specification's key on both sides when the private keys and the generator are not zero.", "quantifier": "every element, byte string, representative, user, password, hasher, generator state and lawful database", "why_tests_cant": "the group has 2^252 elements and each has four representatives with arbitrary projective coordinates", "anchors": ["aucpace/src/utils.rs:generate_server_keypair", "aucpace/src/utils.rs:H", "aucpace/src/client.rs:AuCPaceClientRecvServerKey::receive_server_pubkey", "aucpace/src/server.rs:AuCPaceServerRecvClientKey::receive_client_pubkey"]}
{"id": "C56", "title": "AuCPace: no function of the protocol panics", "statement": "Every state transition of client and server returns a value or an error, never a panic, provided the password hasher does not panic.", "quantifier": "every state, message, point, authenticator, salt of a valid SaltString, database and generator", "why_tests_cant": "the unwraps and expects are reached with attacker-chosen messages", "anchors": ["aucpace/src/client.rs", "aucpace/src/server.rs"]}
{"id": "C57", "title": "AuCPace: a server's reply does not change when the server restarts", "statement": "Two servers over the same database give the same salt and parameters for the same user name.", "quantifier": "every user name, database and pair of servers", "why_tests_cant": "compares runs of two server processes for all names", "anchors": ["aucpace/src/server.rs:AuCPaceServer::new", "aucpace/src/server.rs:AuCPaceServerAugLayer::lookup_failed"]}
{"id": "C58", "title": "AuCPace: a stolen database does not let the thief log in as a client", "statement": "Whoever knows the database (verifier, salt, and with partial augmentation the server's long-term key pair) but not the password cannot complete a session as the client.", "quantifier": "every registered user and every session", "why_tests_cant": "a statement about every client-side program, refuted by one attack", "anchors": ["aucpace/src/server.rs:AuCPaceServerAugLayer::generate_client_info_partial_aug", "aucpace/src/database.rs:PartialAugDatabase"]}
{"id": "C59", "title": "AuCPace: session identifiers of different sessions differ", "statement": "A session with a pre-established SSID never has the SSID of a session with nonces, and sessions with different server nonces have different SSIDs.", "quantifier": "every nonce length, every pair of generator states, every pre-established SSID", "why_tests_cant": "needs all nonce lengths, including 0", "anchors": ["aucpace/src/utils.rs:compute_ssid", "aucpace/src/client.rs:AuCPaceClient::begin_prestablished_ssid", "aucpace/src/server.rs:AuCPaceServer::begin_prestablished_ssid"]}
{"id": "C60", "title": "Strong AuCPace: drawing the blinding value terminates", "statement": "start_augmentation_strong terminates for every random generator, with a value that is not zero.", "quantifier": "every generator and generator state", "why_tests_cant": "non-termination needs a generator no test uses", "anchors": ["aucpace/src/client.rs:AuCPaceClientPreAug::start_augmentation_strong"]}
{"id": "C61", "title": "AuCPace: private scalars are nearly uniform", "statement": "Each scalar is the reduction of almost exactly 2^512/l of the 64-byte strings (the counts differ from the mean by at most 1), so a uniform generator gives scalars within statistical distance l/2^512 of uniform; and when the generator of the session is not the identity each group element is the public key of exactly one scalar.", "quantifier": "every scalar, every string length", "why_tests_cant": "a count over 2^512 strings", "anchors": ["aucpace/src/utils.rs:generate_keypair", "aucpace/src/utils.rs:generate_server_keypair"]}
{"id": "C62", "title": "AuCPace examples over TCP: agreement", "statement": "In every execution of the client and server threads of the three TCP examples, however the connection cuts the bytes into reads, a client that ends with a key ends after the server has ended with the same key (or the digest has a collision at two values the reads determine), having read all the server wrote; and whenever the protocol run with whole messages succeeds there is an execution that ends with its keys, in particular after registration in the example's database. A thread that ends with an error ends with the one its messages call for, a thread that has read messages that call for an error has ended with it, and a protocol run that is refused (a wrong password) has an execution that is refused.", "quantifier": "all interleavings of two threads, all partial writes and reads, all databases of valid records, all generators, all user names and passwords", "why_tests_cant": "the examples run once over the loopback interface, where reads usually return one message", "anchors": ["aucpace/examples/key_agreement.rs:main", "aucpace/examples/key_agreement_partial_aug.rs:main", "aucpace/examples/key_agreement_strong.rs:main"]}
{"id": "C63", "title": "AuCPace examples over TCP: every read is one message", "statement": "The threads of the TCP examples always end, each read returns one message, and the server looks up the user name the client sent.", "quantifier": "all interleavings, partial writes and reads", "why_tests_cant": "depends on how the operating system cuts the stream", "anchors": ["aucpace/examples/key_agreement.rs:recv", "aucpace/examples/key_agreement.rs:main", "aucpace/examples/key_agreement_partial_aug.rs:main", "aucpace/examples/key_agreement_strong.rs:main"]}
{"id": "C64", "title": "AuCPace examples: channel identifiers", "statement": "TcpChannelIdentifier::new gives different identifiers to different pairs of socket addresses.", "quantifier": "all pairs of IPv4 or IPv6 socket addresses", "why_tests_cant": "the examples use one address", "anchors": ["aucpace/examples/key_agreement.rs:TcpChannelIdentifier::new"]}
{"id": "C65", "title": "AuCPace examples: the databases keep what was stored", "statement": "After any history of stores, the example databases return for each user the record stored last for that user, and a long-term key pair only for the user it was stored for.", "quantifier": "all histories of stores, all users", "why_tests_cant": "the examples register one user", "anchors": ["aucpace/examples/key_agreement.rs:SingleUserDatabase", "aucpace/examples/key_agreement_partial_aug.rs:SingleUserDatabase", "aucpace/examples/key_agreement_strong.rs:SingleUserDatabase", "aucpace/examples/key_agreement_no_std.rs:SingleUserDatabase"]}
{"id": "C66", "title": "AuCPace no_std example: buffers and result", "statement": "A message written with postcard to the 1024-byte buffer is read back from the whole buffer unchanged, or does not fit and panics; the login of the example is the protocol run with the 100-byte hashing buffer; after a successful registration the example prints the session key of the protocol, or returns IllegalPointError when an exchanged point is the identity, and its assertion never fails.", "quantifier": "all messages, user names, passwords, hashers and generators", "why_tests_cant": "the example runs one user name and password", "anchors": ["aucpace/examples/key_agreement_no_std.rs:main", "aucpace/examples/key_agreement_no_std.rs:SingleUserDatabase"]}
{"id": "C67", "title": "SRP: g generates the group, public keys hide the verifier", "statement": "For the seven built-in groups, if N and (N-1)/2 are prime then g is a generator modulo N, as the documentation requires. In any group with such a g every non-zero residue is the public key of a client, every residue except k*v is a public key of the server whatever the verifier v, and exponents below N-1 give distinct keys. When g is a square (which nothing checks) every server key satisfies an equation that rules out verifiers.", "quantifier": "all groups with a generator, all verifiers, all residues", "why_tests_cant": "the groups have 1024 to 8192 bits; the claim is about every residue", "anchors": ["srp/src/lib.rs", "srp/src/groups.rs", "srp/src/client.rs:compute_public_ephemeral", "srp/src/server.rs:compute_b_pub"]}
{"id": "C68", "title": "AuCPace examples: the hashing parameters", "statement": "The scrypt parameters with which a user registers are the ones the client hashes with at every login, so the example with scrypt ends with equal keys for all parameters scrypt accepts. From a valid parameter string the client reads exactly the decimal numerals in the first pairs named ln, r and p. A login for a user the server does not know returns an error in the client, and a server cannot make the client use more memory than the client allows.", "quantifier": "all scrypt parameters, all parameter strings a message can carry, all databases and sessions", "why_tests_cant": "the examples run with one set of parameters and a registered user", "anchors": ["aucpace/examples/key_agreement.rs:main", "aucpace/examples/key_agreement_partial_aug.rs:main", "aucpace/examples/key_agreement_strong.rs:main", "aucpace/src/server.rs:lookup_failed"]}
{"id": "C69", "title": "AuCPace: a login with a wrong password is refused", "statement": "A login ends in agreement (explicit authentication succeeds, or with implicit authentication both sides hold equal keys) only if both sides used the same SSID, the same PRS and the same channel identifier, hence only with a password whose scalar w gives the stored verifier W = B^w; anything else exhibits a collision of the password scalar, of the map to the generator, or of the digest at the first session key or the authenticator. In particular a password other than the registered one is refused, in the plain, strong and partially augmented variants, two different channel identifiers are refused, and a user the server does not know is refused unless the 32 random bytes drawn by the server are the client's PRS. A refusal is IllegalPointError or MutualAuthFail, never a panic.", "quantifier": "all verifiers, passwords, parameters, hashers, SSIDs, channel identifiers, random generators and databases", "why_tests_cant": "the crate has no test with a wrong password; a test tries one", "anchors": ["aucpace/src/client.rs:generate_cpace", "aucpace/src/client.rs:generate_public_key", "aucpace/src/client.rs:receive_server_pubkey", "aucpace/src/client.rs:receive_server_authenticator", "aucpace/src/server.rs:generate_client_info", "aucpace/src/server.rs:receive_client_pubkey", "aucpace/src/server.rs:receive_client_authenticator"]}
{"id": "C70", "title": "SRP: a login with a wrong password is refused", "statement": "In a group with a safe prime and a generator, passwords with equal verifiers are equal or give a collision of the digest. A server with the verifier of one password accepts a client with another password only if the digest collides, or the server's private key is the one exception below n-1, or the client's private key is one of at most two (differing by (n-1)/2) for each value of the scrambling parameter u.", "quantifier": "all digests shorter than the modulus, all groups with a safe prime and a generator, all users, passwords, salts and private keys", "why_tests_cant": "a test tries one wrong password with one pair of private keys; the claim counts the exceptions among all private keys", "anchors": ["srp/src/client.rs:process_reply", "srp/src/server.rs:process_reply", "srp/src/server.rs:verify_client", "srp/src/client.rs:compute_verifier"]}
{"id": "C71", "title": "SRP: whoever knows a discrete logarithm of k tests two passwords per session", "statement": "If g^e = k mod n for a known e then one public key B and two private keys exist with which the server's own functions reach the key of a client that uses either of two passwords, and accept its proof: the protection against testing two passwords with one session rests on k (the digest of n and g) having no known logarithm.", "quantifier": "all groups, digests, users, salts, pairs of passwords and client keys", "why_tests_cant": "tests do not run a dishonest server", "anchors": ["srp/src/utils.rs:compute_k", "srp/src/server.rs:compute_b_pub", "srp/src/server.rs:process_reply"]}
{"id": "C72", "title": "AuCPace: without authenticators the messages hide the password", "statement": "A client's or server's CPace public key says nothing about the PRS: with any other PRS whose generator is not the identity the same public key is sent for exactly one value of the scalar drawn. So with implicit authentication the whole exchange an eavesdropper sees (reply to the user name and both public keys) arises for every stored verifier from exactly one pair of private keys.", "quantifier": "all SSIDs, PRSs, channel identifiers, public keys, verifiers, databases and random generators", "why_tests_cant": "the claim counts scalars among about 2^252", "anchors": ["aucpace/src/utils.rs:generate_keypair", "aucpace/src/client.rs:generate_public_key", "aucpace/src/server.rs:generate_public_key", "aucpace/src/server.rs:generate_client_info"]}
{"id": "C73", "title": "AuCPace: an active attacker tests one password per session", "statement": "Fix the SSID, the channel, the public key a party sent and the public key and authenticator it is sent by an attacker. At most one PRS makes the party accept (with implicit authentication: derive a given key), and a client's authenticator fits at most one PRS; otherwise a collision of the generator map or of the digest is exhibited. Equal PRSs mean equal password scalars for a client, whatever key and salt the server sent, and equal verifiers for a server.", "quantifier": "all SSIDs, channels, PRSs, private keys, public keys, authenticators, passwords, verifiers, hashers and databases", "why_tests_cant": "tests do not run a dishonest party; the claim is about every PRS", "anchors": ["aucpace/src/client.rs:receive_server_pubkey", "aucpace/src/client.rs:implicit_auth", "aucpace/src/server.rs:receive_client_pubkey", "aucpace/src/server.rs:receive_client_authenticator", "aucpace/src/server.rs:implicit_auth", "aucpace/src/client.rs:generate_cpace"]}
{"id": "C74", "title": "SPAKE2: no test of the messages tells passwords apart", "statement": "Let the parties draw their scalars from 64 uniform random bytes each. For every test of a message, however expensive, the probabilities that it passes with two passwords (and two identities of the same role) differ by less than 2^-259; for every test of both messages of a session, by less than 2^-258. The role is visible: one test tells A's messages from B's with certainty.", "quantifier": "all tests, passwords, identities and roles; the probabilities count all 64- and 128-byte strings", "why_tests_cant": "the claim counts 2^512 and 2^1024 strings and quantifies over all distinguishers", "anchors": ["spake2/src/lib.rs:start_a_with_rng", "spake2/src/lib.rs:start_b_with_rng", "spake2/src/lib.rs:start_symmetric_with_rng", "spake2/src/lib.rs:start_internal", "spake2/src/ed25519.rs:random_scalar"]}
{"id": "C75", "title": "AuCPace: no test of a login without authenticators tells verifiers apart", "statement": "Let the parties draw their CPace scalars from 64 uniform random bytes each. For every test of a client's or server's public key the probabilities that it passes with two PRSs differ by less than 2^-259, and for every test of the whole exchange of a login with implicit authentication (reply to the user name, both public keys) the probabilities with two stored verifiers differ by less than 2^-258 (in the strong variant, where the blinded point is seen too and two passwords are compared, by less than 2^-257), as long as the generators are not the identity. A session whose generator is the identity is visible.", "quantifier": "all groups with the laws, digests, tests, SSIDs, PRSs, channels, databases, users and verifiers; the probabilities count all 64- and 128-byte strings", "why_tests_cant": "the claim counts 2^512 and 2^1024 strings and quantifies over all distinguishers", "anchors": ["aucpace/src/utils.rs:generate_keypair", "aucpace/src/client.rs:generate_public_key", "aucpace/src/server.rs:generate_public_key", "aucpace/src/server.rs:generate_client_info", "aucpace/src/client.rs:start_augmentation_strong", "aucpace/src/server.rs:generate_client_info_strong"]}
{"id": "C76", "title": "Different errors have different texts", "statement": "In each of the three crates the texts printed for two different errors differ (in aucpace up to equal texts of the wrapped password-hash error), and the functions of the srp crate produce only four texts: a refused reply names the public value that was refused, a refused proof names the party whose proof it was.", "quantifier": "all errors, all groups, digests and messages", "why_tests_cant": "the crates never test their error texts", "anchors": ["aucpace/src/errors.rs:Error", "srp/src/types.rs:SrpAuthError", "spake2/src/error.rs:Error", "srp/src/client.rs:process_reply", "srp/src/server.rs:process_reply"]}
{"id": "C77", "title": "Recorded messages are accepted only by the session they were made for", "statement": "If two sessions of one party accept the same recorded messages of a peer (AuCPace: public key and authenticator; SRP: public key and proof; SPAKE2: one message, with the same resulting key), then the sessions drew the same private key (and have the same SSID, in AuCPace), or a hash collision is exhibited. In SRP this holds only if the session's own public keys have the same length.", "quantifier": "all groups, digests, passwords, private keys, SSIDs and recorded messages", "why_tests_cant": "the tests never run a second session with the messages of the first, and the claim is about all pairs of sessions", "anchors": ["aucpace/src/server.rs:receive_client_authenticator", "aucpace/src/client.rs:receive_server_authenticator", "srp/src/server.rs:verify_client", "srp/src/client.rs:verify_server", "spake2/src/lib.rs:finish"]}
{"id": "C78", "title": "Client and server agree on the user name", "statement": "If an attacker changes the user name on its way to the server and the login still succeeds, then the name the server looked up is the name the client used, or a collision or one of the exceptional private keys is exhibited.", "quantifier": "all groups, digests, hashers, databases, names, passwords and generators", "why_tests_cant": "the tests deliver every message unchanged; which names and passwords are confused is a statement about all strings", "anchors": ["srp/src/client.rs:compute_identity_hash", "srp/src/server.rs:process_reply", "aucpace/src/client.rs:hash_password", "aucpace/src/client.rs:start_augmentation", "aucpace/src/client.rs:start_augmentation_strong", "aucpace/src/server.rs:generate_client_info", "aucpace/src/server.rs:generate_client_info_strong"]}
{"id": "C79", "title": "The repository's tests pass for every output of the generator", "statement": "Each integration test and each unit test of the protocols that draws random values passes whatever the generator yields, except on exactly the listed events: a zero scalar or an identity point (AuCPace, then IllegalPointError and never a panic), a zero public key of the server (SRP), a wrong password accepted only with a collision, an exceptional private key or a repeated one (SRP, SPAKE2). The examples in the documentation of spake2 and its benchmark run likewise, and the two sides of the examples get one key.", "quantifier": "all generator states, all digests of 64 bytes and hashers of 32 bytes for AuCPace, SHA-256 and the built-in groups for SRP and SPAKE2", "why_tests_cant": "each run of a test sees one output of the generator", "anchors": ["srp/tests/srp.rs", "srp/tests/bad_public.rs", "spake2/tests/spake2.rs", "spake2/src/lib.rs:tests", "aucpace/tests/test_key_agreement.rs", "aucpace/tests/test_key_agreement_partial_aug.rs", "aucpace/tests/test_key_agreement_strong.rs", "aucpace/tests/test_key_agreement_strong_partial_aug.rs", "aucpace/src/client.rs:tests", "aucpace/src/server.rs:tests", "spake2/src/lib.rs:documentation", "spake2/benches/spake2.rs"]}
{"id": "C80", "title": "AuCPace: salts carry all the randomness they are made of", "statement": "The salt of a registration is the base64 encoding (RFC 4648, no padding) of the next 16 bytes of the client's generator, that of a strong registration the encoding of the blinded credential point for the next scalar; the generator advances by exactly these bytes even when the registration fails; different bytes or exponents give different salts.", "quantifier": "every byte string, generator, hasher, password and buffer size", "why_tests_cant": "tests register one user and never look at the salt", "anchors": ["aucpace/src/client.rs:register", "aucpace/src/client.rs:register_strong", "aucpace/src/client.rs:generate_salt_strong"]}
{"id": "C81", "title": "AuCPace: every online attempt tests at most one password", "statement": "A server that authenticates the client (any of the four kinds of session, any number of sessions for one user) can be driven by an attacker that sees its messages and chooses each public key and authenticator as it likes. Among the verifiers with which the server could have sent these messages, n attempts succeed for at most n; and for a verifier drawn from a dictionary, m attempts in n sessions succeed for at most a fraction m/|dictionary| + n/2^252 of the verifiers and random bytes; or two verifiers of the dictionary give an explicit collision of the digest or of the map to generators at an attempt. The bound is met by guessing, and the part n/2^252 comes from the server's exponent zero, with which it accepts a client without a password.", "quantifier": "every digest of 64 bytes, every group satisfying the laws, every database, verifier list, session list and adaptive attacker", "why_tests_cant": "a statement about all strategies, all dictionaries and the number of random strings, 2^512 per session", "anchors": ["aucpace/src/server.rs:generate_client_info", "aucpace/src/server.rs:generate_client_info_partial_aug", "aucpace/src/server.rs:generate_client_info_strong", "aucpace/src/server.rs:generate_client_info_partial_strong", "aucpace/src/server.rs:generate_public_key", "aucpace/src/server.rs:receive_client_pubkey", "aucpace/src/server.rs:receive_client_authenticator"]}
{"id": "C82", "title": "SPAKE2: every message and key guess tests at most one password", "statement": "Any number of SPAKE2 sessions of any roles and identities that share one password are started with the public functions. An attacker sees their messages and then, adaptively, sends messages to them and guesses the resulting keys. For a password drawn from a dictionary, m such guesses against n sessions are right for at most a fraction (m/|dictionary|)(1+2^-259)^n of the passwords and random bytes, or two passwords of the dictionary give an explicit SHA-256 collision at one of the guesses. The bound is met by an attacker that plays the peer with the passwords of the dictionary in turn.", "quantifier": "every list of sides, every dictionary without repetition, every adaptive attacker (no bound on its computations), every number of guesses", "why_tests_cant": "a statement about all strategies, all dictionaries and the number of random strings, 2^512 per session", "anchors": ["spake2/src/lib.rs:start_a_with_rng", "spake2/src/lib.rs:start_b_with_rng", "spake2/src/lib.rs:start_symmetric_with_rng", "spake2/src/lib.rs:finish"]}
{"id": "C83", "title": "No peer chooses the session key", "statement": "A peer whose message does not depend on the random bytes of the other party cannot determine that party's session key: for SPAKE2 and both sides of AuCPace, whatever is received and however the session ends, at most a 2^-252 part of the random bytes lead to any given key, or two of them collide. For SRP this is false of the client: a server that sends k*v (v being the verifier, k the multiplier) instead of k*v + g^b is accepted, and the client's key is then 0 for every private key, as is the key with which it checks the server's proof. For any server value other than k*v, k*v + 1 and k*v - 1, private keys that give one key with one scrambler are equal or (N-1)/2 apart, and likewise for the server.", "quantifier": "every received message, every key, every password, identity, session state and digest; for the SRP part every user, password, salt and private key, in every built-in group where the multiplier is not 0 modulo N", "why_tests_cant": "it is about all private keys and about a peer that does not follow the protocol; the tests only run the two honest sides against each other", "anchors": ["srp/src/client.rs:process_reply", "srp/src/client.rs:compute_premaster_secret", "srp/src/server.rs:process_reply", "spake2/src/lib.rs:finish", "aucpace/src/client.rs:receive_server_pubkey", "aucpace/src/client.rs:implicit_auth", "aucpace/src/server.rs:receive_client_pubkey", "aucpace/src/server.rs:implicit_auth"]}
{"id": "C84", "title": "A leaked password does not open recorded sessions without Diffie-Hellman", "statement": "Take a session between two honest parties, the two messages as recorded and everything but the private keys, the password included. Whoever makes of these the string that is hashed into the session key (in SRP: the key itself, which is not hashed) solves Diffie-Hellman for the two private keys by an explicit construction, or shows a hash collision; and every solver that is right about these two values gives the key.", "quantifier": "every function of the recorded messages (no bound on its computations), every password, identity, session and pair of private keys; every digest and group with the laws for AuCPace, every prime modulus for SRP", "why_tests_cant": "a reduction: for every attacker there is a solver that is right on exactly the same sessions", "anchors": ["spake2/src/lib.rs:finish", "spake2/src/lib.rs:start_internal", "aucpace/src/utils.rs:compute_first_session_key", "aucpace/src/utils.rs:compute_session_key", "srp/src/client.rs:compute_premaster_secret", "srp/src/server.rs:compute_premaster_secret"]}
{"id": "C85", "title": "Two ends with one key received what the other end sent", "statement": "If two sessions end with the same session key, each received exactly the message the other sent. True of SPAKE2: two sessions with one key have the same password and identities and either opposite roles and exchanged messages, or one role, the same private value and the same received message; or there is a collision. And such sessions always have one key. False of AuCPace, where the session key covers the SSID and the shared point but not the public keys: both ends complete, with one key, exactly when the public keys arrive multiplied by one number other than 0 and the authenticators unchanged, or there is a collision; the key is then not that of the undisturbed session. In the strong variant the blinded points can be altered in the same way. (For SRP see C07.)", "quantifier": "every network that replaces each message by any function of everything sent so far; every session, password, SSID, channel identifier, private key and digest", "why_tests_cant": "it is about every possible alteration in transit; the tests deliver all messages unchanged", "anchors": ["spake2/src/lib.rs:finish", "aucpace/src/utils.rs:compute_first_session_key", "aucpace/src/utils.rs:compute_session_key", "aucpace/src/client.rs:receive_server_pubkey", "aucpace/src/server.rs:receive_client_pubkey", "aucpace/src/client.rs:start_augmentation_strong"]}
{"id": "C86", "title": "At most two sessions have any one key", "statement": "Three sessions that drew three different random values (SPAKE2: private values; AuCPace: nonces) do not all have one key, or two of them collide. So among n sessions, however their messages are exchanged, dropped, replaced or invented, some key is held by three with probability at most n(n-1)/2^253 for SPAKE2 and n(n-1)/(2*256^K1) for AuCPace with K1-byte nonces, or two of the sessions collide.", "quantifier": "every number of sessions with any sides, passwords and identities, every way of choosing the messages they receive, even one that depends on all their random bytes", "why_tests_cant": "a count over all random strings of all sessions", "anchors": ["spake2/src/lib.rs:start_internal", "spake2/src/lib.rs:finish", "aucpace/src/utils.rs:generate_nonce", "aucpace/src/utils.rs:compute_ssid", "aucpace/src/utils.rs:compute_session_key", "aucpace/src/client.rs:begin", "aucpace/src/server.rs:begin"]}
{"id": "C87", "title": "AuCPace: the default client and server, with scrypt", "statement": "With SHA-512, scrypt and ristretto255 as in the type aliases Client and Server: scrypt fails exactly for salts that are not base64, with an error, and else returns 32 bytes; registration succeeds for every name, password and accepted parameters; the login that follows ends with one 64-byte key on both sides or, exactly when a secret scalar is zero or the CPace generator is the identity, with IllegalPointError; the same of the strong variant (where in addition the secret exponent must not be zero and the point hashed from name and password must not be the identity), of partial augmentation and of both; the client answers a salt that is not base64 with PasswordHashing(B64Encoding), the strong client never does; the crate's tests of this configuration pass except on these events.", "quantifier": "all names, passwords, scrypt parameters, salts, generators, SSIDs, channel identifiers and databases that return what was stored; no hypothesis on the digest, the hasher or the group", "why_tests_cant": "the tests run the default configuration with one name, one password and one set of parameters", "anchors": ["aucpace/src/lib.rs:Client", "aucpace/src/lib.rs:Server", "aucpace/src/client.rs:register_alloc", "aucpace/src/client.rs:generate_cpace_alloc", "aucpace/src/client.rs:hash_password_alloc", "aucpace/src/utils.rs:scalar_from_hash"]}
{"id": "C88", "title": "AuCPace: the default client accepts only the registered password", "statement": "With scrypt as hasher, a login with a password other than the registered one does not succeed unless a collision is exhibited. False of the plain variant, with or without a long-term key pair: scrypt uses 'user:password' as an HMAC key, so the password followed by zero bytes (within 64 bytes in all) is accepted in its place, as is any password that is the same HMAC key; and exactly these are, unless there is a collision of SHA-256 at one of four strings, of the mixing function at one, or of CPace. True of the strong variant, where the password is also hashed into the salt.", "quantifier": "all names, passwords, accepted scrypt parameters, generators, SSIDs, channel identifiers, databases, groups with the laws and 64-byte digests", "why_tests_cant": "no test tries a second password; which ones are accepted depends on the inside of the hasher, for all of infinitely many passwords", "anchors": ["aucpace/src/lib.rs:Client", "aucpace/src/client.rs:hash_password", "aucpace/src/client.rs:hash_password_alloc", "aucpace/src/client.rs:generate_cpace", "aucpace/src/client.rs:generate_salt_strong"]}
{"id": "C89", "title": "AuCPace: debug output of messages does not depend on secrets", "statement": "The Debug text of a client or server message (printed by the panics of the examples) does not depend on a secret. False: whatever the texts of points, salts and parameters are, the text determines the kind of message, the nonce, the user name, the authenticator and, in a strong registration, the secret exponent; two strong registrations that differ in the secret exponent never have the same text. Every field is printed after its own name, in the order of its declaration.", "quantifier": "all messages of both sides, all renderings of points, group names, salts and parameters", "why_tests_cant": "no test formats a message; injectivity ranges over all pairs of messages", "anchors": ["aucpace/src/client.rs:ClientMessage", "aucpace/src/server.rs:ServerMessage", "aucpace/examples/key_agreement_strong.rs:main"]}
{"id": "C90", "title": "AuCPace: the default hasher is scrypt as in RFC 7914", "statement": "For every password, every salt and all accepted parameters with at most 2^32 table entries, the hash that Scrypt returns (as modelled word by word: quarter rounds on tuples, in-place block mixing, a table filled in one pass) is the 32 octets RFC 7914 defines on octet strings (indexed steps of the Salsa20/8 core, Y[i], V[i], Integerify, PBKDF2 by octet position); a salt string that is not canonical base64 is an error. The mixing function of C88 is scryptROMix on each part. False for more than 2^32 entries, which the parameter check admits: the index is taken from 32 bits, the upper part of the table is never read, while RFC 7914 reads it.", "quantifier": "all passwords, salts, accepted parameters, states", "why_tests_cant": "known answers are a few inputs with small parameters; a state that distinguishes 32-bit from full indices needs 2^33 table entries", "anchors": ["aucpace/src/lib.rs:Client", "aucpace/src/client.rs:hash_password", "aucpace/src/client.rs:hash_password_alloc"]}
{"id": "C91", "title": "AuCPace: no randomness is used twice", "statement": "In any history of calls over one random generator (beginning sessions on either side, both registrations, making a server, long-term key pairs, blinding, both CPace key pairs, the server's four replies to known and unknown users), each nonce, salt, exponent, private scalar, random point, random PRS and server secret is made of a segment of the generator's stream of its own, of the documented length and by the documented conversion; the segments follow one another without overlap up to the generator's final position. Hence no nonce is sent twice unless the generator repeats itself.", "quantifier": "all histories, streams, databases, hashers, parameters, groups with the laws, 64-byte digests", "why_tests_cant": "tests use the operating system's generator and look at one session at a time; a state that is not advanced, or advanced on one path only, shows in no single session", "anchors": ["aucpace/src/client.rs:begin", "aucpace/src/server.rs:begin", "aucpace/src/server.rs:generate_long_term_keypair", "aucpace/src/utils.rs:generate_nonce", "aucpace/src/utils.rs:generate_keypair", "aucpace/src/utils.rs:generate_server_keypair"]}
{"id": "C92", "title": "The hash functions are those of the standards", "statement": "For every message, the executable SHA-1, SHA-256 and SHA-512 that stand for the sha1 and sha2 crates return, bit for bit, what FIPS 180-4 defines on bit strings (padding by the smallest solution of a congruence, words described by their bits, the schedule by index, the constants as first bits of the fractional parts of square and cube roots of the first primes); HMAC-SHA-256 is RFC 2104's, HKDF-SHA-256 is RFC 5869's (more than 255 blocks are refused, an empty salt counts as HashLen zeros). Hence the SPAKE2 password scalar is the number expressed by the 48 octets of HKDF modulo the group order, and every SPAKE2 key is FIPS 180-4's SHA-256 of the concatenation of the hashes of the password and identities, the two messages and the shared element.", "quantifier": "all messages, keys, salts, infos, output lengths, sides, passwords, secrets, received messages", "why_tests_cant": "known answers try a few messages; an error in padding at one length modulo the block size, a constant or a carry shows for few inputs", "anchors": ["spake2/src/ed25519.rs:ed25519_hash_to_scalar", "spake2/src/ed25519.rs:hash_ab", "spake2/src/ed25519.rs:hash_symmetric", "srp/src/utils.rs:compute_u", "aucpace/src/utils.rs:compute_ssid"]}
{"id": "C93", "title": "Sessions of one AuCPace server do not interfere", "statement": "In every history in which a network interleaves the steps of any number of client and server sessions with stores to the databases: a session ends up in the state, and returns what, its own events alone lead to; all a server session takes from the server is the nonce and the secret when it begins and the databases when it is asked for a user; two histories that agree on this are the same for the session. If a login alone (any of the four variants, nonces or a pre-established SSID) returns two keys, both sessions accept with these keys in every interleaving that delivers its messages; for a registered user they are one key of 64 bytes. Every call on a session takes it to a later stage whether it fails or not, so a session replies, sends an authenticator and returns a key at most once each: one session, one guess. A reply is one for a known user exactly if the database had the user at that time, and nonces of different sessions come from parts of the generator's stream that do not overlap.", "quantifier": "all histories of events, sessions, generators, databases, users, passwords, variants, hashers", "why_tests_cant": "tests run one login at a time; state that leaks from one session into another shows in some interleavings of many sessions", "anchors": ["aucpace/src/server.rs:begin", "aucpace/src/server.rs:agree_ssid", "aucpace/src/server.rs:generate_client_info", "aucpace/src/server.rs:receive_client_authenticator", "aucpace/src/client.rs:begin", "aucpace/src/client.rs:start_augmentation", "aucpace/src/client.rs:receive_server_authenticator"]}
{"id": "C94", "title": "AuCPace and SPAKE2 computed with the procedures of RFC 8032 and RFC 9496 give the same bytes", "statement": "Compute the protocols with nothing but the integer procedures of the standards: RFC 8032's addition, encoding and decoding of edwards25519 and RFC 9496's Decode, Encode, Derive and Equals of ristretto255, with FIPS SHA-512 and SHA-256 and HKDF. Then every AuCPace public key, login, registration, wire string and network history, and every SPAKE2 message and key, is the same byte string, and every refusal is the same refusal. Expected to fail for SPAKE2: the library accepts encodings of elements that RFC 8032 refuses; exactly those make a difference.", "quantifier": "all passwords, identities, generator outputs, received byte strings, databases, logins and histories of any length", "why_tests_cant": "Test vectors compare a few elements and keys with the standard. The agreement is over all 2^256 received strings, all scalars and all histories, and the difference for non-canonical encodings concerns only a few dozen strings.", "anchors": ["spake2/src/ed25519.rs:bytes_to_element", "spake2/src/ed25519.rs:element_to_bytes", "spake2/src/lib.rs:finish", "aucpace/src/utils.rs:generate_keypair", "aucpace/src/utils.rs:compute_first_session_key", "aucpace/src/client.rs:AuCPaceClient", "aucpace/src/server.rs:AuCPaceServer"]}
{"id": "C95", "title": "One session, one guess", "statement": "Any number of SPAKE2 sessions are started on one generator and messages are handed to them in any order. What a session returns is a function of the arguments of its start, of its own 64 bytes of the generator's stream and of the first message handed to it; it returns at most one result; two matching sessions that are first handed each other's messages return one key whatever else happens; and a first message of the wrong length ends a session for good. For SRP it is expected to fail: verify_client may be called any number of times and proof() before it, so one run of process_reply tests every password of a dictionary.", "quantifier": "every history of starts and finishes of any length, every generator, group, digest, dictionary", "why_tests_cant": "A test runs one session to its end. The claim is about every interleaving of any number of sessions, and its failure for SRP about calls the API allows but no test makes.", "anchors": ["spake2/src/lib.rs:finish", "spake2/src/lib.rs:start_a_with_rng", "srp/src/server.rs:verify_client", "srp/src/server.rs:proof"]}
{"id": "C96", "title": "Comparing authenticators shows nothing but the verdict", "statement": "Authenticators are \"compared in constant time\" (the documentation of receive_server_authenticator and receive_client_authenticator; SRP's verify_client and verify_server use the same ct_eq): the branches taken and the addresses read depend only on lengths and on whether the authenticator is the expected one. So an attacker who sees them, and chooses each question by what it saw, learns from n wrong authenticators of a session only that these n are wrong. For spake2's Password the claim is expected to fail: its == is derived and stops at the first difference.", "quantifier": "all expected and received authenticators, all session secrets, all adaptive strategies of any number of questions", "why_tests_cant": "An early exit changes no result, so no functional test sees it; measuring times on a few inputs says nothing about all of them.", "anchors": ["aucpace/src/client.rs:receive_server_authenticator", "aucpace/src/server.rs:receive_client_authenticator", "srp/src/server.rs:verify_client", "srp/src/client.rs:verify_server", "spake2/src/lib.rs:Password"]}
{"id": "C97", "title": "The work for an unknown user", "statement": "A server that answers a username with made-up data when the lookup fails (lookup_failed, lookup_failed_strong) should not do recognisably different work. The list of operations it performs (bytes drawn, digests, multiplications, encodings) should depend on nothing but the length of the name and, in the strong variants, on whether the request is refused. Expected to fail in one point: whether the user is registered shows in every variant.", "quantifier": "all names, databases, verifiers, salts, secrets, generators and blinded points, in the four variants", "why_tests_cant": "The answers of a test have the right form in both cases; the difference is in the steps, and that nothing else shows is a statement about all databases and secrets.", "anchors": ["aucpace/src/server.rs:generate_client_info", "aucpace/src/server.rs:generate_prs", "aucpace/src/server.rs:generate_prs_strong", "aucpace/src/server.rs:lookup_failed", "aucpace/src/server.rs:lookup_failed_strong"]}
{"id": "C98", "title": "The lengths hashed do not depend on secrets", "statement": "A digest takes time that depends on the length of its input. The number of bytes given to each digest by the functions that hash a shared secret (SRP process_reply on both sides, SPAKE2 finish, AuCPace key generation and the two ends of the CPace step) should depend only on the lengths of public values and of the user's own inputs. Expected to fail for SRP: the premaster secret is hashed without its leading zero bytes, so the lengths show how many it has, and a dictionary can be thinned out before a proof is sent.", "quantifier": "all groups, digests, private keys, verifiers, messages and passwords", "why_tests_cant": "A secret with leading zeros occurs once in 256 sessions and changes no result; that the lengths are the same for all secrets is a statement about all of them.", "anchors": ["srp/src/client.rs:process_reply", "srp/src/server.rs:process_reply", "srp/src/utils.rs:compute_m1", "srp/src/utils.rs:compute_m2", "spake2/src/ed25519.rs:hash_ab", "spake2/src/ed25519.rs:hash_symmetric", "spake2/src/lib.rs:finish", "aucpace/src/utils.rs:compute_first_session_key", "aucpace/src/utils.rs:generate_keypair"]}
{"id": "C99", "title": "No precomputation before the verifier database is stolen", "statement": "Of the strong variant of AuCPace the documentation says that it is impossible to do any precomputation to attack a user's password before the verifier database is compromised. So an attacker that talks to the server, but has not seen the database, should not be able to prepare a table of a dictionary in which a verifier stolen later is only looked up. Expected to fail: without the strong variant one answer of the server is enough; with it, the server answers a request that is not blinded with the salt of a candidate, so one request for each candidate is enough. For the strong variant it should hold that nothing can be prepared without asking, and that no fewer questions than candidates are enough. The same question for SRP: the server sends the salt to anybody who names a user, so a table can be prepared from it; a table made with another salt should be of no use.", "quantifier": "all groups, digests, password hashers, registrations, databases, dictionaries, sequences of questions chosen from the answers before", "why_tests_cant": "A test of a login never asks what a stranger can learn from the server, and that fewer questions are not enough is a statement about all ways of asking.", "anchors": ["aucpace/src/server.rs:generate_client_info", "aucpace/src/server.rs:generate_client_info_strong", "aucpace/src/server.rs:generate_client_info_partial_aug", "aucpace/src/server.rs:generate_client_info_partial_strong", "aucpace/src/client.rs:register_alloc_strong", "aucpace/README.md", "srp/src/client.rs:compute_verifier", "srp/src/server.rs"]}
