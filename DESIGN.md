# Formal model of RustCrypto/PAKEs in Rocq (Coq 8.16.1)

The three crates `srp`, `spake2` and `aucpace` are modelled. `/repo` is read as text only.

* `properties.jsonl`: the properties, C01 onwards.
* `MANIFEST.json`: for each property its status and the exact theorem names (made by `tools/manifest.py`).
* `rocq/theories`: the model, the specifications and the proofs.
* `seeded/`: the mutation tests of the theorems (`LOG.jsonl` and the lists of edits).

## Trusted base

1. The kernel of Coq 8.16.1 (with its virtual machine, used by `vm_compute`; `vcheck` re-checks every
   proof with `coqchk`, which does not use the virtual machine).
2. Axioms: none. `Print Assumptions` says "Closed under the global context" for every theorem named in
   `MANIFEST.json`; `python3 tools/assumptions.py` repeats this for all of them in a built checkout.
   (`vcheck` also lists seven constants `Coq.ssr.ssrunder.Under_rel.*`: they are fields of a module type in
   the standard library's ssreflect plugin, loaded with `ring`/`field`/`lia`; no theorem uses them.)
3. That the definitions in the `*Model.v` files say what the Rust code does. Each cites file and lines.
   They were compared with the code in two ways: by hand, and by known answers (below).
4. That the theorem statements say what the English properties say. This is what the mutation tests probe.

No axioms, no `Admitted`, no functors or module types, no `Variable`/`Hypothesis` outside sections, no flags
that switch off a check, only the standard library.

## How the code is modelled

* A Rust function is a total Gallina function on `list byte`, `N`, `Z`, and records.
* Failure is explicit: `outcome E A := Ok | Err | Panic`. Every panic path (division by zero, unsigned
  underflow, slice ranges, `assert_eq!`, `unwrap`, `expect`, array conversion) is the value `Panic`. No theorem
  is true because a panic was made total.
* `&mut` arguments and random generators are state passed and returned. A generator (`Base/Rng.v`) is a
  state and a function that fills a buffer of any length; theorems quantify over all generators.
* Loops that may not end take a number of steps (`fuel`); "none yet" is the value `None`, and theorems
  about the result quantify over every number of steps (C60).
* The session states of AuCPace are separate record types, as in the code, so that only the calls the Rust
  type system allows can be written.

External crates, at their documented behaviour:

| crate | model |
|---|---|
| `num-bigint` | `BigUint` is `N`; `to_bytes_be`, `from_bytes_be`, `modpow` are executable (`Base/BigUint.v`) |
| `digest` | a function on byte strings; `update`s concatenate. SRP and AuCPace theorems hold of every digest (of 64 bytes output for AuCPace) |
| `sha1`, `sha2`, `hmac`, `hkdf` | written out in full and executable (`Hash/Hash.v`); proved equal to FIPS 180-4, RFC 2104 and RFC 5869 for all inputs (C92) |
| `subtle` | the bit operations of `ct_eq`, folded over slices (`Base/CtEq.v`) |
| `curve25519-dalek` (Edwards) | field, complete addition law, compression, decompression, scalar arithmetic: `Curve/*`. The group laws, primality of p and l, and the structure of the whole curve group (order 8l, generated by B and a point of order 8) are proved. Related to RFC 8032's procedures on integers (C94) |
| `curve25519-dalek` (Ristretto) | `compress`, `decompress`, `ct_eq`, the Elligator map: `Curve/Ristretto*.v`. Proved to be a group of prime order l with a canonical encoding, and equal to RFC 9496's procedures on integers (C94) |
| `password-hash` | `SaltString`, `ParamsString`, B64: `Aucpace/PwHash.v`; `get_str`, number parsing and `scrypt::Params`: `Aucpace/ScryptParams.v`. The hasher is a parameter that may fail |
| `scrypt` (with `pbkdf2`, `salsa20`, `base64ct`) | written out in full and executable (`Aucpace/Scrypt.v`), the hasher of C87 and C88; proved equal to RFC 7914 up to 2^32 table entries (C90) |
| `serde` with `bincode`, `postcard` | encodings of the message types: `Aucpace/Wire.v` |
| `rand_core` | see above |

Known answers: the model is executed against every vector in the repository (RFC 5054, SPAKE2 transcripts,
`k` for SHA-1, password scalars) and against vectors of FIPS 180, RFC 2104, RFC 5869, RFC 7914, RFC 8032 and RFC 9496;
one AuCPace session over ristretto255 with SHA-512 is compared with a key computed by an independent program.
These are `Check (test a b)`, which fails the build if `a` and `b` differ. They are tests of the model,
not proofs, and no property rests on them.

## Files

| directory | content |
|---|---|
| `Base` | bytes, outcomes, numbers as bytes, constant-time equality, hexadecimal, generators, UTF-8, counting (`Count`, `Guess`, `Dictionary`, `Birthday`), test programs (`RustTest`), a small language with leakage for comparisons (`Leak`, `LeakShown`, `LeakProps`, `LeakProps2`), results with the lengths hashed (`Hashed`) |
| `Hash` | SHA-1, SHA-256, SHA-512, HMAC, HKDF; their standards as specification (`Fips180`) |
| `Srp` | `SrpModel` (all of `client.rs`, `server.rs`, `utils.rs`, `types.rs`), `SrpGroups` (the seven moduli), `SrpSpec` (RFC 5054), proofs, `SrpSession` (whole sessions), `SrpGenerator` (generators), `SrpWrongPassword` (exponents of wrong passwords), `SrpWork` (the lengths hashed), `SrpProps` to `SrpProps13` |
| `Curve` | number theory, primality certificates, Edwards curves over a field, edwards25519, subgroups, ristretto255, scalars from 64 random bytes (`NearUniform`, `Strings64`); RFC 8032 and RFC 9496 on integers as specification (`Rfc`, `RfcProofs`) |
| `Spake2` | `Spake2Model` (generic in the `Group` trait), `Ed25519Group`, `Spake2Debug` (the `Debug` output), `Spake2Spec`, proofs, `Spake2World` (any number of sessions), `Spake2Props` to `Spake2Props14` |
| `Aucpace` | `AucpaceModel` (all of `client.rs`, `server.rs`, `utils.rs`, `database.rs`, `errors.rs`), `AucpaceSpec` (the protocol as in the paper), `AucpaceRun` (one session), `AucpaceWorld` (any number of clients, servers and sessions with an adversary that delivers, drops, reorders, replays and forges messages), `Wire` (serialisation), `Net`, `TcpExample`, `NoStdExample` (the four example programs), `ScryptParams` (their parameter block), `Scrypt` (the default hasher) and `ScryptProofs` (its equal hashes), `Base64Spec` (RFC 4648), `PhcSpec` (salts and parameters of PHC strings), `MessageDebug` (the `Debug` output of messages), `GroupSim` (two groups with equal encodings give equal runs), `AucpaceWork` (the operations of an answer to a username), `AucpaceProps` to `AucpaceProps35` |

`*Model.v` is the code, `*Spec.v` the specification written separately, `*Props*.v` the property theorems and
their cases. `ToyGroup`/`AucpaceToy` are small instances used only for cases.

## Properties

"Refuted" means: the property is false of the code, a theorem `…_refuted` shows it, and further theorems prove
the part that is true. Such properties have status `partial`.

| id | how it is stated and proved |
|----|-------|
| C01, C02 | SRP client and server over `N`; exponent algebra modulo N for any N > 0. Both whole sessions (user name, salt, verifier) and the single calls |
| C03, C04 | every method; exact conditions for each error and each panic |
| C05 | bit operations of `ct_eq` proved to be equality on slices of any length |
| C06, C07 | equal proofs imply equal transcripts or an explicit collision. C07 refuted: A and B are concatenated without lengths |
| C08, C09 | equality with RFC 5054 formulas. C09 refuted: `u` and `k` use unpadded values; exact condition under which they agree |
| C10 | big-endian codec, canonical forms |
| C11 | the seven moduli are those of the RFC; g and N coprime, hence every public key is invertible |
| C12 | refuted: u = 0 gives a key independent of the verifier |
| C13, C14 | refuted: ':' in user names; the session key is not hashed |
| C15, C16, C18, C21 | SPAKE2 for every instance of the `Group` trait that satisfies abelian group laws, and for edwards25519 |
| C17 | classification of every result of `finish` |
| C19, C27 | refuted for every session: reflection in the symmetric mode, small-order points |
| C20 | equal keys imply equal transcripts or a SHA-256 collision; different passwords give different keys |
| C22, C23 | HKDF and reduction of the password; constants M, N, S decode to points of order l |
| C24 | for every message and pair of passwords a bijection of the secret scalars |
| C25, C26 | `Debug` renders no secret; C26 refuted (renderings of different identities can be equal); which strings are shown as text is stated with UTF-8 as encodings of scalar values (`Base/Utf8Spec.v`) |
| C28 | refuted for groups whose encoding is not 32 bytes long |
| C29–C32 | honest sessions of the four variants agree; wrong passwords fail or give an explicit collision |
| C33, C34 | SSIDs |
| C35, C36, C50 | all receiving methods; C35 and C50 refuted for the fixed-buffer strong client |
| C37, C38, C47 | invariants over every history of the world of sessions |
| C39 | refuted: unknown users can be recognised by the salt length |
| C40–C42 | buffers and scalar reduction; registration never panics |
| C43 | blinding: for each password a unique blinding value explains a message |
| C44–C46 | domain separation: what is separated, and refutations for what is not; public keys determine SSID, PRS and channel identifier |
| C48, C49 | round trips of all messages in both formats; C49 refuted between builds with different features |
| C51 | which byte strings decode to each curve point and how many; refuted uniqueness |
| C52 | the exact shared element for every received point; refuted that it is in the subgroup |
| C53, C54 | one guess per session (a count of scalars); the constants' logarithms are a trapdoor |
| C55 | the laws of ristretto255, the map from uniform bytes by its equations, and the honest session with nothing abstract but hasher, database and generators |
| C56 | no transition panics |
| C57 | refuted: fake salts change at a restart |
| C58 | refuted for partial augmentation: stored key pair and verifier suffice to impersonate the client |
| C59 | refuted: one digest for nonces and pre-established SSIDs, empty nonces accepted |
| C60 | refuted: the blinding loop does not end with a generator of zeros; exact condition |
| C61 | number of 64-byte strings that reduce to each scalar |
| C62 | invariant over every execution of two threads and two byte streams (`Net`, `TcpExample`): what a thread wrote, and the error it ended with, is a function of its reads |
| C63 | refuted: reads are not messages (deadlock, panic, another user looked up) |
| C64 | injectivity on socket addresses of one family; refuted for mixed families |
| C65 | content after every history of stores; refuted for more than one user |
| C66 | round trip through the zero-padded buffer; the program equals the protocol run, or panics with a collision at the two strings the client's authenticator is hashed from |
| C67 | Gauss's lemma: whether g is a non-residue is read off N without exponentiation; then orders in a group of order 2q. Partial: primality of N and (N-1)/2 assumed |
| C68 | parameter strings as lists of pairs, numerals; round trip, then C62 with scrypt; unknown users and cost refuted |
| C69 | the substep between parties with any two inputs computed in closed form; then equal end messages are traced back through sk1, K and G (scalars are non-zero because both public keys were checked) to equal inputs or a named collision |
| C70 | equal keys turned into an equation between exponents modulo n - 1 by discrete logarithms to the base g; the order 2q of the group leaves at most two solutions unless the base is plus or minus g^b, which is the exceptional private key |
| C71 | with b = log k + x' the server's public key is k(g^x + g^x'), symmetric in the two passwords; then C01 |
| C72 | in a group of prime order each element is exactly one multiple of a generator; the reply to the user name does not contain the verifier |
| C73 | one public key and one first session key force equal private keys, hence equal generators, hence equal PRSs or a named collision |
| C74 | counting (`Base/Count.v`, `Curve/NearUniform.v`): changing the password adds a constant to the scalar, so the tapes that pass a test before and after correspond, but for the last incomplete round of 2^512 modulo the order |
| C75 | the same count; changing the generator multiplies the scalar by a constant |
| C76 | `Display` of the three error types as functions to byte strings (`inner`, the text of a password-hash error, is a parameter); case analysis |
| C77 | acceptance by a session in closed form; equal authenticators are traced back to equal SSIDs and private keys or a named collision; SRP refuted by an instance where the public keys have different lengths |
| C78 | C69 and C70 with two user names; "name:password" determines both if names have no colon. Refuted otherwise, for every run: with equal strings the redirected login is the honest one |
| C79 | every test as a program over the model (`unwrap` and `assert!` in `RustTest`), each generator a parameter; the honest-run theorems give the outcome in closed form, C70 the wrong password. The two SRP theorems that use the order of the group assume the modulus a safe prime |
| C80 | base64 specified over bits (`Base64Spec`): an output is an encoding iff its 6-bit groups spell the input and fewer than six zeros; the encoder is shown to be that relation, and injective; then the salts of both registrations, and the generator after them |
| C81 | a server that could have sent the messages it sent is a verifier with a private key per session; two of them that accept one public key and authenticator have equal generators or collide; hence an adaptive attacker with n attempts succeeds in at most n of them (`Base/Guess.v`: after its last refusal it has asked n questions). Counting random strings of 64 bytes by the public keys they lead to gives the dictionary bound. The collisions are at the terms of the attack, not mere existence |
| C82 | the counting of C81, now in `Base/Dictionary.v` for any protocol: few random strings give one message (`Curve/Strings64.v`), any password can have sent any message, and two passwords with one key for one received message collide. Here the messages of all passwords are the same points, so nothing is lost to exceptional scalars but the bias of reduction, 2^-259 for each session |
| C83 | for SPAKE2 and AuCPace: a key determines the own message or the shared point, hence the private key, or two private keys collide; then counting over the random bytes (`few_with` in `Curve/Strings64.v`). SRP is refuted: with the server's value `k v` the base of the client's power is 0. What remains for SRP: powers of a base other than 0, 1 and -1 have exponents equal modulo (N-1)/2 (`SrpProps7`) |
| C84 | the shared element is the end of the hashed string, and blinding can be undone with the password; for SRP, dividing by the power `Q^(ux)` with Fermat. Attackers are functions of the two messages |
| C85 | SPAKE2: the key hashes both messages, so equal keys give equal exchanges or a collision (`key_binds`); the converse is agreement. AuCPace: a network is four functions of what was sent so far; the ends' hashed strings are equal exactly when both public keys carry the same factor. Refuted for AuCPace by the network that multiplies both |
| C86 | of three sessions two would both have received the third one's message (SPAKE2) or have one role and hence one nonce (AuCPace); then a birthday count over the random bytes of all sessions (`Base/Birthday.v`) |
| C87 | the base64 decoder inverts the encoder of C80 exactly; scrypt returns 32 bytes; then C29, C31, C32, C48 and C79 at SHA-512, scrypt and ristretto255, where every hypothesis on these is proved, in all four variants |
| C88 | equal outputs of scrypt are traced back through its two HMACs and the mixing function to the HMAC keys, or a collision; then C69. Refuted by zeros appended to a short password; proved for the strong variant; both also with long-term keys |
| C89 | decimal numerals and their separators are read back uniquely from the text, whatever follows; texts of points, salts and parameters are arbitrary. Refuted: the secret exponent is printed |
| C90 | `ScryptSpec` writes RFC 7914 on octet strings; `ScryptRfc` shows by induction that blocks of words and octet strings correspond through the Salsa20/8 core, BlockMix, ROMix and PBKDF2. Refuted beyond 2^32 table entries |
| C91 | histories of all calls that use a generator, over a generator that goes through an arbitrary stream; by induction each value has a segment of its own, in order. A generator state that is not advanced was a survivor of the mutation test |
| C92 | `Fips180` writes FIPS 180-4 on bit strings with constants computed from roots of primes, and RFC 2104 and RFC 5869; `Fips180Proofs` relates octets to bits, folds over blocks to the indexed recursion, and the constants to the roots by a checked inequality |
| C93 | the world of `AucpaceWorld`: a session's state and log are a function of its own events and of what it sees of the server, by induction on the history; a login is cut into the SSID, augmentation and CPace stages, each shown to give the log entries; the nonces by an invariant that assigns each session its part of the stream |
| C94 | `Rfc` writes the two RFCs on plain integers, in extended coordinates; `RfcProofs` relates quadruples of integers to the model's points. `GroupSim` proves, for any two groups related by a simulation (equal encodings, related results), that logins, wire strings and histories are related, by induction on the history; ristretto255 of the RFC is one of them. Refuted for SPAKE2: non-canonical encodings, and only those |
| C95 | `Spake2World`: sessions in a table, `finish` removes one; closed form of a session's results by induction on the history. Refuted for SRP, whose verifier is not consumed: with the proofs of all candidates (C01, C06) |
| C96 | `Leak`: a small imperative language whose branches and addresses are shown, with a check (branches and addresses public) proved sound for all programs; subtle's `ct_eq` is written in it, passes the check and computes the model's comparison. The four functions that compare authenticators are written again with what they show, and proved to return what the model's do and to leave nothing out (closed forms of all they show). An observer that chooses its questions by what it saw is followed by induction on the number of questions. Refuted for SPAKE2's `Password`, whose derived `==` stops at the first difference |
| C97 | `AucpaceWork` writes the four functions that answer a username again with the list of costly operations they perform, and proves that they return what the model's do; the lists are then computed and compared. Refuted that unknown users get the same work; proved that nothing else shows |
| C98 | `Hashed`: results with the number of bytes given to each digest. `SrpWork`, `Spake2Props14` and `AucpaceProps30` write the functions that hash a shared secret again with these lengths, and prove that they return what the model's do; the lengths are then computed for all sessions. Proved for SPAKE2 and AuCPace that they do not depend on the secrets; refuted for SRP, whose premaster secret is hashed without its leading zeros |
| C99 | the attacker's table of a dictionary is built from answers of the model's own functions and looked up with the stolen verifier. Refuted without the strong variant by one answer, and with it by one unblinded request for each candidate. Proved for the strong variant: nothing without a question, and at most as many salt points as questions for an attacker that only adds and multiplies points (`Questions`: answers as polynomials in the secret exponent, then a bound on independent vectors), however many logins it has watched. For SRP, refuted by the salt that the server sends to anybody; a table for another salt finds the verifier only with a collision |

## Findings

Things in the code that contradict its documentation or what a user would expect (theorem in brackets):

* SRP: `u` and `k` hash unpadded values, contrary to RFC 5054 and the crate's documentation (C09).
* SRP: transcripts of different sessions can be the same hash input; a concrete altered session is accepted (C07).
* SRP: the server accepts u = 0 (C12); `key()` returns the premaster secret, not a digest (C14).
* SRP: nothing checks that g is a generator; with a square, the server's public key rules out about half of the passwords (C67).
* SRP: user `a` with password `b:c` and user `a:b` with password `c` have the same verifier for a salt (C13).
  An attacker who shortens the name `a:b` to `a` on its way logs the second user in as the first (C78); AuCPace has the same
  flaw, and in the strong variant only colons can be moved.
* SRP: a recorded login can be accepted again by a session with another private key, because the proof hashes the public keys
  without their lengths (C77).
* SRP: the client accepts the server value `k v`; its premaster secret is then 0 whatever its private key, so that whoever has
  the verifier can make every session of the user have one known key, without a private key of its own (C83).
* SRP: `verify_client` can be called again after a refusal, and `proof()` before it; an application that does either lets one
  session test a whole dictionary (C95).
* AuCPace: `server.rs` says of the strong variant that no precomputation is possible before the database is stolen. A server
  answers unblinded requests of anybody, so one request for each candidate is enough; it takes no fewer (C99).
* SRP: the premaster secret is hashed without its leading zero bytes, so that the time of the digests shows its length, and an
  attacker that plays the client can drop passwords of a dictionary before it sends a proof (C98).
* SPAKE2: `Password` derives `PartialEq`; its `==` stops at the first difference, so that an observer of the time finds a password
  byte by byte (C96).  The crate itself compares no passwords.
* SPAKE2: a symmetric session accepts its own message (C19); every curve point, also of small order, is accepted (C27, C52).
* SPAKE2: some points have several accepted encodings (C51).
* SPAKE2: `finish` panics for groups with encodings that are not 32 bytes, although the trait allows them (C28).
* SPAKE2: `Debug` prints bytes below 16 with one digit, so that different identities look the same (C26).
* AuCPace: `StrongAuCPaceClientAugLayer::generate_cpace` accepts the identity where `generate_cpace_alloc` refuses it (C35, C50).
* AuCPace: unknown users are recognisable by the salt length (64 characters instead of 22), by empty parameters, by a server
  point that changes between sessions with partial augmentation, and by a salt that changes when the server restarts (C39, C57).
* AuCPace: a digest is computed for an unknown user only, and two multiplications of points for a known one only, so that the time
  of the answer tells them apart in every variant (C97).
* AuCPace: the documentation of `UsernameOrPasswordTooLong` names the wrong functions (C41).
* AuCPace: the fake salt and the strong variant's point are hashed without a domain of their own (C44); user name and password
  are concatenated without a separator in the strong variant (C46).
* AuCPace: builds with and without the optional features do not understand each other's messages, and take one for another (C49).
* AuCPace: with partial augmentation the server's database suffices to log in as any user (C58).
* AuCPace: whoever multiplies both public keys in transit by one number is not noticed: both ends accept and share a key, but
  not the one they would have had, because the key covers the SSID and the shared point only (C85). The blinded points of the
  strong variant can be altered likewise. The `group` field of the server's reply is not an input of any client function.
* AuCPace: with scrypt, the default hasher, a short password followed by zero bytes is as good as the password, because HMAC
  pads its key with zeros (C88). The strong variant hashes the password a second time and does not have this.
* AuCPace: the derived `Debug` of a strong registration, which the examples print when they refuse a message, contains the
  secret exponent (C89).
* The hasher's index into its table is taken from 32 bits, so with more than 2^32 entries (which are accepted) the
  hash differs from RFC 7914's: the upper part of the table is never read (C90).
* AuCPace examples: `recv!` takes one `read` for one message. The two threads can wait for each other for ever, or the
  server can panic or answer for a user that was not named (C63).
* AuCPace examples: the reply for an unknown user has no hashing parameters, and the client unwraps them: a wrong user name
  crashes the client instead of failing the login; and the client accepts any scrypt cost the server sends (C68).
* AuCPace examples: in the partially augmented example a user who registers later inherits the long-term key pair of the user
  before (C65).

## Not modelled

* Timing, except the branches and addresses of the four comparisons of authenticators (C96: arithmetic on words is taken to
  need constant time, a digest to need time that depends on the length of its input, and the compiler to keep the code's shape;
  `BigUint`, curve and scalar arithmetic are not covered), the list of operations of an answer to a username (C97), and the
  lengths hashed (C98); memory zeroisation, allocation failure, stack use.
* Computational hardness. Security claims are reductions ("equal, or here is a collision") or counts.
* The quality of random generators (a parameter); password hashers other than scrypt (a parameter, except in C87 and C88).
* The text of serde error messages; deserialisers other than bincode 1 and postcard 1.
* In the examples: printing and timing, calls on a socket that fail while both ends are open, `write_all` that waits for room.
* `Display` of `password_hash::Error`; `Debug` of points, salts and parameter strings; CI.
* Primality of the SRP moduli: proved is that g and N are coprime; C67 takes primality of N and (N-1)/2 as a hypothesis.

## Cost

`coqchk` runs without the virtual machine, 20 to 50 times slower than `vm_compute`. Large computations inside
proofs are therefore stated as a boolean computed by functions on plain integers (`Curve/Ed25519Fast.v`,
`Base/HexMul.v`), proved equal to the model's definitions. Known answers are stored nowhere.

## Mutation tests

`tools/mutate.py` applies one edit to a model file of a scratch copy, rebuilds everything that depends on it, and
reports the theorems whose proofs (or whose dependencies) no longer go through. An edit counts as survived when a theorem
of a property whose English claim it breaks still holds. Each attempt is a line of `seeded/LOG.jsonl`.
