# Design of the model and proofs for rust-stratum-v2

The code under study is in `/repo` (crate `stratumv2` and the generated crate
`stratumv2/nx-noise`).  It is read as text only; nothing of it is compiled or
run.  The model is written in Coq 8.16.1 with the standard library only.

## 1. Shape of the model

Model files contain definitions only, each with a comment citing the `/repo`
file and lines it transcribes.  Specification files (`Spec*.v`) are independent
of the model: they have their own little-endian encoder, UTF-8 encoder, message
layouts, HMAC/HKDF and Noise interpreter.  Proof files prove lemmas.  Property
files (`Prop*.v`) hold only the property theorems (`exact lemma`), a
`Print Assumptions` under each and an `Example` meeting its hypotheses.

Model files:

* `Base`      bytes (`Coq.Init.Byte.byte`), `outcome` = Ok / Err e / Panic, LE integers, `usize` limits.
* `Codec`     `ByteParser` (cursor, overflow of `start + step` in both build profiles), deserializer
              monad (cursor kept on failure too), arbitrary `io::Write` (state + `write` function that may
              take only part of the buffer or fail), serializer monad.
* `Types`     bool,u8,u16,u32,f32 (as bit patterns),U24,U256,B0_*,STR0_*,UTF-8 validation (the Rust
              std state machine), flags, error codes, Protocol, MessageType table, unix timestamp.
* `Messages`  the 14 protocol messages (`impl_message!` expanded by hand), their constructors with
              validation, the common `SetupConnection` enum, derived `PartialEq`.
* `Frame`     `Message`, `Frameable` instances, `frame`, `unframe`.  `Catalog` lists all wire types.
* `Certs`     SignedCertificate, SignatureNoiseMessage, CertificateFormat; ed25519 as a record
              of functions (`ed_ops`); base58 decoding.
* `Noise`     nx-noise: Key/PublicKey/Nonce/Keypair, prims (hmac, hkdf), CipherState, SymmetricState,
              HandshakeState, NoiseSession; hash, AEAD and Diffie-Hellman as a record of functions
              (`crypto`); every function returns the new state and the new contents of the mutable buffer
              also when it fails; slice-range and subtraction panics are explicit.
* `Crypto`    reference BLAKE2s (RFC 7693), ChaCha20-Poly1305 (RFC 8439), X25519 (RFC 7748): the
              instance `real_crypto` of `crypto`, shown to satisfy the laws.  Supporting mathematics:
              `NumberTheory` (Fermat, Pocklington, chain of primes), `GroupOrder` (the order of the base
              point and the one of the twist are prime), `Edwards` (group law of a complete Edwards curve over any field),
              `Field25519` (2^255-19 is prime; `fmul`, `fadd`, ... form a field), `LadderProofs` (the ladder
              is scalar multiplication), `KeyProofs` (agreement, no low-order public keys), `FiniteGroup`,
              `Squares`, `CurveOrder` (number of points of the curve and of its twist), `TwistProofs` (the
              ladder on the twist), `ZeroSecret` (which keys give zero).
* `Counter`   the session of `Noise` with its message counter as a u128, with and without overflow checks
* `Word`      the decoders and the frame encoder with a `usize` of 32 or 64 bits; C132 only (all other files: 64 bits; nx-noise
              does no arithmetic on usize that could overflow with 32 bits)
* `Generated` the tests that `impl_message_tests!` generates, as booleans
* `Heap`      the decoders again, with the reads they make and the buffers they put on the heap
* `Index`     nx-noise again, with every index, slice, copy, subtraction of lengths and nonce increment able to fail; C135
* `Locals`    nx-noise again, with what the arrays declared in each function hold when it returns; C138
              (the results are those of `Noise`, so all theorems about sessions hold with these checks)
* `Mains`     `main` of setup_connection.rs and noise_handshake.rs: pool and miner side by side under a schedule; C140, C141
* `Cuts`      `main` of setup_connection.rs with what is sent arriving in pieces; C142
* `DebugTexts`  the texts derive(Debug) gives messages, frames and their fields; C143
* `NoiseCuts`  `main` of noise_handshake.rs with what is sent arriving in pieces; C145
* `ErrorDebug`  the texts derive(Debug) gives the errors; C144
* `Channels`  several calls of `new_channel_id` on one generator; C139
* `Sum`       the serializers again, with every addition of counts on a usize of 32 or 64 bits; C136
* `Ed25519`   reference SHA-512 (FIPS 180-4) and Ed25519 (RFC 8032; point decoding as liberal as
              curve25519-dalek): the instance `real_ed` of `ed_ops`.  `EdCurve`, `EdProofs`, `EdExact`:
              extended coordinates, order of the base point, point encoding, signatures, acceptance.
* `Keys`      `end_session` (field contents when dropped), `Error::source`, key pair constructors.
* `Network`   ConnectionEncryptor, new_channel_id, Peer queue (threads, lock, scheduler, poisoning).
* `Apps`      the message handlers of `examples/*.rs`; for noise_handshake.rs also the accept loops and the
              reused buffer (a connection is what its one successful `try_read` returns; failed accepts and
              reads that would block change nothing and are left out).
* `Display`   the texts of `NoiseError` and `stratumv2::Error` (the texts of wrapped errors of other crates and
              the payload strings are a parameter) and the `Debug` text of flags.
* `Reasons`   decoders and constructors of stratumv2 once more, with the text each error carries (proved equal to the
              others when texts are dropped); C115-C118 only.
* `Macro`     `impl_message!` as a function of the declared field types and of `new`; C119-C121 only (the messages of
              the crate in `Messages` are proved to be instances).
* `Nest`      declarations whose fields are declarations, any depth; C124-C125 only (`C124_flat`: one level is `Macro`).
* `Compare`   == between wire values and plain values, conversions back, `Display` of error codes.
* `Fuzz`      the programs of `fuzz/src/bin`. honggfuzz is not in the repository; assumed: `fuzz!` runs its
  closure once on arbitrary bytes. `fed` covers the other reading, one encryptor run on many inputs.

Specification files: `SpecWire` (layouts, UTF-8, slices), `SpecTypes` (decoding tables, constructed
messages), `SpecNoise` (HMAC, HKDF, Noise interpreter, laws of `crypto`), `SpecSession` (sessions,
pipes, call histories), `SpecReply` (result tables of the handshake calls), `SpecStory` (sessions from creation, call by call), `SpecAltered` (key of the second payload), `SpecTalk` (messages said and understood, longest frames), `SpecSig` (challenge of a signature, weak keys), `SpecScalar` (scalar of a private key), `SpecTwin` (number of a public key), `SpecReuse` (key and counter of every message, from the calls), `SpecEnd` (calls that got as far as a public key), `SpecLockstep` (attempts at the reply, each delivered), `SpecLocals` (what local arrays hold), `SpecChannels` (ids from draws), `SpecMains` (schedules of two tasks), `SpecCuts` (arrival in pieces), `SpecDebugTexts` (escapes, laws of f32 texts), `SpecErrorDebug` (errors that wrap errors), `SpecNoiseCuts` (what the pool sends, parts that arrive), `SpecSize` (smallest and largest sizes), `SpecSum` (sums on a machine, the contract of io::Write), `SpecIndex` (sizes of the arrays of a session), `SpecHeap` (sums over a record of reads and buffers, the fixed part of each type), `SpecGenerated` (two fields of a declaration exchanged), `SpecCounter` (histories with a counter of 128 bits), `SpecWord` (slices on a 32-bit and a 64-bit machine), `SpecPanic` (which buffers make a session panic at a stage), `SpecPass` (any calls on an encryptor; two encryptors that pass answers on), `SpecHistory` (what any history of calls puts into the handshake hash), `SpecPieces` (bytes enough for a type, receiving loop over pieces), `SpecNest` (values, images and readings of nested declarations), `SpecMacro` (fields one after the other, readings of every wire type, declarations of the crate), `SpecReason` (where a string stops being UTF-8, readings with the text of the error, complaints of a setup message), `SpecCerts` (certificate layouts, base58 as positional notation, laws of
`ed_ops`), `SpecKeys` (secret fields, error chains), `SpecEd` (Ed25519 points in integers modulo p), `SpecNetwork` (transport keys, events of the queue, seconds), `SpecBinding` (finished sessions, hashed strings), `SpecDecode` (reading of every message type), `SpecPool` (behaviour of the example pool), `SpecRetry` (what failed attempts leave behind), `SpecMiner` (both programs of the noise example), `SpecTransport` (calls on an established session), `SpecForgery` (multiplier of the one-time key), `SpecAnswer` (the miner of the setup_connection example), `SpecTexts` (texts of flags and errors), `SpecMix` (sequences of mixing calls), `SpecSetup` (versions of a setup message), `SpecActive` (peers, calls that keep the keys, rekeys counted), `SpecLive` (fair schedules).

`RepoTests` runs the unit tests of the repository, with their literal values, on the model: a check of the
transcription only, no claim rests on it.

Property files: `PropTypes` C01-C08; `PropCodec` C09-C17,C69; `PropFrame` C18-C25;
`PropMessages` C26-C34; `PropCerts` C35-C40,C74; `PropNoise` C41-C50; `PropSession` C51-C61,C70-C73;
`PropNetwork` C62-C68,C75; `PropCrypto` C76-C77,C84; `PropKeys` C78-C81; `PropEd` C82-C83;
`PropFuzz` C85-C87; `PropBinding` C88-C89; `PropDecode` C90-C93; `PropRetry` C94 (and C59, C72);
`PropMiner` C95-C97; `PropTransport` C98 (and C53, C71); `PropForgery` C99;
`PropAnswer` C100-C101; `PropTexts` C102-C103; `PropMix` C104; `PropActive` C105-C106; `PropLive` C107; `PropCompare` C108; `PropStory` C109 (and C87); `PropAltered` C110; `PropTalk` C111; `PropSig` C112; `PropScalar` C113; `PropTwin` C114; `PropReason` C115-C118; `PropMacro` C119-C121; `PropPieces` C122-C123; `PropNest` C124-C125; `PropHistory` C126-C127; `PropLockstep` C128; `PropEnd` C79 (exactly); `PropReuse` C71 (exactly); `PropPass` C129-C130; `PropFamily` C25, C121 (exactly); `PropPanic` C51, C75 (exactly); `PropCounter` C131; `PropGenerated` C133; `PropHeap` C134; `PropIndex` C135; `PropSum` C136; `PropSize` C137; `PropLocals` C138; `PropChannels` C139; `PropMains` C140; `PropNoiseMain` C141; `PropCuts` C142; `PropDebugTexts` C143; `PropErrorDebug` C144; `PropNoiseCuts` C145; `PropWord` C132.

Deliberate simplifications (also marked in the files): error payload strings are
dropped except in `Reasons`; lengths are unbounded `N` except where a cast or `usize` addition can
lose information (`payload.len() as u32`, `start + step`, `as_secs() as u32`),
which are modelled exactly; sums of byte counts are natural numbers except in `Sum` (C136); the `u128` message
counter is unbounded in `Noise` and exact in `Counter` (C131: the two agree below 2^128 successes); `f32` is its 32-bit pattern; `String` is its byte
vector (a precondition "valid UTF-8" stands for the type invariant);
zeroization of local arrays has no effect on results and is modelled in `Locals` only (C138); RNG output is an explicit argument.

## 2. Trusted base

* The Coq kernel (8.16.1) and `coqc`/`coqchk`.
* `Print Assumptions` of every property theorem: expected "Closed under the
  global context" (no axioms at all).  Any exception will be listed in section 4.
* That the model transcribes the Rust text correctly (cited line by line), with
  the meaning of Rust primitives: `to_le_bytes`, slices' `get`/`split_at_mut`
  (panic when out of range), `as` casts, `?`, `Vec`, `Mutex`.
* Facts about dependencies, always explicit parameters or hypotheses, never axioms:
  `crypto` laws (output lengths, Diffie-Hellman commutes for the keys at hand, AEAD
  open inverts seal; all of them proved for the RFC primitives), `ed_ops` (verify accepts what sign produced; proved for the Ed25519 of RFC 8032), base58 decoding,
  bitflags 1.x `from_bits`, `ed25519::Signature::new` (either total or panicking
  on non-canonical signatures, depending on the dependency version: both are
  modelled through a parameter).
* The form of the texts made by `derive(Debug)` (structs, tuple structs, unit variants, byte slices, decimal
  integers, string escapes) is written down in `DebugTexts` from the standard library; which code points count as
  unprintable is any predicate, and the text of an f32 any function with the laws `f32_text_ok` (hypotheses of C143).
* The texts made by `thiserror` (the format string of each variant), by bitflags 1.x `Debug` (names in order of
  declaration joined by ` | `, `(empty)` for no flags) and by `{}` for integers (decimal digits), and by core for
  `Utf8Error` (its two sentences, `valid_up_to` and `error_len`).
* Not modelled: tokio/TCP, the `Debug` of channels, keys and signatures, serde-like traits not in
  the crate, `NetworkConfig`/`NoiseConfig` plain constructors, memory zeroization
  (Drop), the cryptographic strength of the primitives, the benches (`benches/mining_benchmark.rs` imports a module
  `stratumv2::parse` that `lib.rs` does not have).

## 3. Properties and plan

| id | modelled as | plan |
|----|-------------|------|
| C01 | `ser_*`,`de_*` for scalars vs spec LE | per-type lemma, arithmetic |
| C02 | `de_bool` | case analysis |
| C03 | `u24_new`, `u24_try_from_usize`, `de_u24` | arithmetic |
| C04 | `b0_new` with the `try_into().unwrap()` panic | case analysis |
| C05 | `ser_b0`,`de_b0` vs a decision table | exact `next_by` lemma |
| C06 | `str0_new` | case analysis |
| C07 | `ser_str0`,`de_str0` vs a decision table | as C05 |
| C08 | UTF-8 automaton vs "encoding of scalar values" | induction both ways |
| C09 | `outcome` with explicit `Panic`, both profiles | invariant `start <= len <= isize::MAX` |
| C10 | `next_by`, lists of steps | induction |
| C11 | all deserializers | compositional predicate (monotone, in bounds, local) on the monad |
| C12 | all deserializers | compositional "consumed = encoding" predicate |
| C13 | lists of frames | induction using C19; prefix via C12 |
| C14 | serializers on the Vec writer | layout lemma per message |
| C15 | hand-built STR0 | refutation witness, plus the exact condition |
| C16 | arbitrary writers | refutation witness (writer taking 1 byte per call), plus what holds for whole-buffer writers; exact result for every writer (`offer`), counts below 2^64 - 6 |
| C17 | failing whole-buffer writers | compositional predicate on serializers |
| C18-C20 | `ser_message`,`de_message` | arithmetic + next_by lemma |
| C21 | `as u32` truncation | refutation with a payload of 2^32 bytes; partial theorem below 2^32; exact outcome for every length |
| C22 | table | exhaustive on constructors, universally on pairs |
| C23-C25 | `frame`,`unframe` for all Frameable instances | C12/C14; refutations for C24 (error payload) and C25 |
| C26 | layouts in `SpecWire` | computation on the serializer monad |
| C27-C28 | constructors and decoders | case analysis; refutation for C28 |
| C29 | constructor and decoder | case analysis |
| C30 | bitflags as masks | bitwise lemmas |
| C31 | string tables | case analysis |
| C32 | dispatch | case analysis |
| C33 | derived PartialEq with IEEE equality on bits | refuted (NaN, -0.0), partial without them |
| C34 | seconds/nanos before or after epoch | arithmetic; partial: wraps after 2^32 |
| C35-C40 | `Certs` | arithmetic, C01, injectivity of the layout; C38 refuted (valid_from never read, clock wraps) |
| C41 | `crypto` laws | symbolic execution of both sides |
| C42 | independent Noise interpreter | step-by-step refinement |
| C43 | independent HMAC/HKDF | list lemmas |
| C44 | schedules of sends/deliveries | invariant relating counters to queue in flight |
| C45-C47 | transport steps, traces of AEAD calls | case analysis, invariants |
| C48-C50 | reachable sessions | invariant by induction on call histories |
| C51 | refuted: message 2 of 80..95 bytes or longer than 2128 bytes | witnesses for every honest handshake; exact panic condition |
| C52-C55 | clear/rekey | case analysis; C53, C54 refuted |
| C56-C58 | key parsing | case analysis; C57 refuted |
| C59-C61 | handshake retry, responder's remote key, documented zero bytes | refuted with witnesses over a concrete `crypto` instance |
| C62-C63 | encryptor | from C41; C63 refuted: the initiator's own recv_handshake consumes counter 0 |
| C64 | stubs | refuted |
| C65 | threads, lock, scheduler | invariant over all schedules; behaviour after a panic under the lock |
| C66 | `gen_range(0, MAX)` | arithmetic |
| C67 | example handlers | from C23 |
| C68 | composition C36+C41+C44 | composition |
| C69 | `next_by` with overflow | refuted in debug builds; exact panic condition |
| C70 | `real_crypto` | refuted: 2^255 is accepted and has order two |
| C71-C73 | clear/rekey/send histories, failing buffers | refuted, partial theorems |
| C74 | `Signature::new` | refuted for versions that check; exact condition |
| C75 | encryptor | refuted from C51; exact condition |
| C76 | `real_crypto` | Edwards curve group law, ladder invariant, prime order of the base point |
| C77 | `real_crypto` | C41 and C44 with the hypotheses discharged by C76 |
| C78-C79 | fields of the session after histories, `end_session` | invariant by induction on call histories; C79 refuted |
| C80 | `source` as a function on error values | refuted: cycle |
| C81 | `keypair_from_private_key` | case analysis, C76 |
| C82 | `ed25519_sign`, `ed25519_verify`, `decompress`, `compress` | extended coordinates compute in the Edwards group, order of the base point, square roots modulo p |
| C83 | `real_ed`, `real_crypto` | C36 and C68 with the hypotheses discharged by C76 and C82 |
| C84 | `real_crypto` | orders of the curve (8L) and the twist (4L'), both ladders, points of order dividing 8 |
| C85 | `SpecReply`: tables over lengths, `low_order`, `read_tokens`, `write_tokens` | case by case along the tokens; uniqueness of each table |
| C86 | no `Panic`; `canonical_sig` for noise.rs | from C09, C74, C75; noise.rs may panic, exact condition |
| C87 | no `Panic` in `fed` | refuted with two inputs; necessary condition by induction on the inputs |
| C88-C89 | `chain` over `pieces`; `collide` names the strings | hash of every finished run computed symbolically; chain injective up to listed strings |
| C90 | `reading_of`: relation per message type, built from `raw`, `next`, `check` | decoders follow readings compositionally; readings are functional |
| C91 | `pool_does` | C20 and C90; refuted by the empty read |
| C92 | `firmware_at`, `remains` | zero padding is valid UTF-8; positions of the length bytes; refuted |
| C93 | `noise_display` | case analysis; refuted |
| C94 | `kept_read`, `kept_write` in Noise tokens, tables of C85 | simulation of each attempt; both relations are functional |
| C95 | `miner_does`: `ReadMessage`, `DECRYPT`, certificate layout over the overlaid buffer | induction on the connections; functional; C68 for the honest pair |
| C96 | `pool_answers` | C85, C36; functional |
| C97 | same | refuted by the empty read, for all keys |
| C98 | `served`: table over two (key, counter) pairs | `send_cases`, `recv_cases`; induction on the history; functional |
| C99 | `one_time_r`, `clamped` byte by byte (RFC 8439, 2.5) | 2^130-5 prime (Pocklington); a nonzero polynomial has at most degree many roots; 8 integer differences per tag difference |
| C100-C101 | `sc_miner_listen`: lines printed, panicked or not | C90's exact decoding; refuted with an unknown flag and with a cut answer |
| C102 | `flags_debug` | computation on the finitely many sets of flags |
| C103 | `error_display` | texts compared constructor by constructor, decimal digits by induction; refuted |
| C104 | `mix_key_and_hash`, `initialize_symmetric` on any name | relation of C42 extended, induction on calls |
| C105 | `started` sessions given any messages | C85 tables give the bounds, C88/C89 the equal transcript, then `completed` |
| C106 | `transport_sends`, `transport_recvs` of both ends | induction on both histories over C98's steps; C99 for the multipliers |
| C107 | `peer_step`, schedules as lists and as functions | a weight that decreases with every move; the holder of the lock can always move |
| C108 | `b0_eq_vec`, `str0_eq_string`, `u24_eq_u32`, ... | case analysis; refuted with a wrong length field |
| C109 | `SpecStory`: table over `WriteMessage`, `ReadMessage`, `write_tokens`, `read_tokens` and C98's table | simulation relation between sessions and stages, one step per call; functional |
| C110 | `chain`, `collide`, `one_time_r`, `es_key` (`SpecAltered`) | boxes of the second message as `ENCRYPT`/`DECRYPT`; C99 per box |
| C111 | `said`, `carries`, `understood`, `longest` (`SpecTalk`) | network theorem of the sessions (C30) composed with C02/C21 per message kind |
| C112 | refuted: keys of small order; `challenge`, `weak` (`SpecSig`) | injectivity of point encodings, order of the base point and of the curve; 8-torsion exactly |
| C113 | `scalar`, `order_curve`, `order_twist` (`SpecScalar`) | equal u-coordinates are equal or opposite points; prime orders of curve and twist |
| C114 | `u_value`, `twins` (`SpecTwin`) | points with the same multiple differ by a point of order dividing 8; the eight points on the curve and four on the twist; no number but zero is on both |
| C115 | `sc_new_t` (`Reasons`), `setup_complaints` (`SpecReason`) | refutation with two strings that are too long; table of the first violated requirement |
| C116 | `de_kind_t`, `de_message_t`, `utf8_run` (`Reasons`), `telling_of`, `utf8_fault` (`SpecReason`) | readings with texts compose like the readings of C90; longest prefix that is a text |
| C117 | `shown`, `arises` | every failure is one of 17 or a UTF-8 text or a message type; texts compared pairwise |
| C118 | `cf_new_t`, `cf_verify_t`, `cert_new_t` (`Reasons`) | C37, C40 with texts |
| C119 | `im_ser`, `im_frameable` (`Macro`), `fields_lay`, `declaration` (`SpecMacro`) | induction over the field types with the layouts of C01-C05; instances by computation on abstract writers |
| C120 | `im_de` (`Macro`), `reading_fields` (`SpecMacro`) | readings of every wire type (C90 extended) composed by induction |
| C121 | `im_frameable`, `frame`, `unframe` | C119, C120 with the round trip of frames; refutation by a B0_16M of full length |
| C122 | `de_of`, `im_de`, `enough_for` (`SpecPieces`) | the readings of C90/C120 never give ParseError once a type's number of bytes is there; composition over fields; the other direction is that no other result changes when bytes are appended |
| C123 | `de_message`, `waiting`, `receiving` (`SpecPieces`) | C122 for frames, induction over the frames taken and over the pieces |
| C124 | `shape_ser`, `shape_de` (`Nest`), `shape_lay` (`SpecNest`) | mutual induction over nested declarations |
| C125 | `shape_de` (`Nest`), `shape_reading` (`SpecNest`) | mutual induction over nested declarations; C122 for the leaves |
| C126 | `init_session`, `results`, `transcript`, `taken` (`SpecHistory`) | the stages of C109, each step adds its pieces to the chain; chains of equal length by C88, of different length by the shift argument of C59/C72 |
| C127 | as C126, `pair_used`, `listens`, `answers` (`SpecHistory`) | both sides as machines that consume the same list of pieces from the same hash and chaining key; keys of 32 and boxes of 48 bytes make the parsing unambiguous |
| C128 | `honest` (`SpecSession`), `attempts`, `in_step`, `same_success` (`SpecLockstep`) | after every such attempt both sides have hashed the same pieces and hold the same key; a success is then read as in C01 |
| C129 | `enc_run`, `handling` (`SpecPass`) over `asked` (`SpecStory`) | one call at a time from C109; the table is deterministic; a stage `Done` stays `Done` |
| C130 | `passing`, `message` (`SpecPass`) | invariant: both channels equal except for the one message in flight |
| C131 | `step_u128`, `run_u128` (`Counter`), `clears`, `results_u128` (`SpecCounter`) | what is left of the two nonce counters bounds the successes; clear-rekey-send laps reach 2^128 |
| C132 | `next_by_w`, `de_of_w`, `im_de_w`, `ser_message_w` (`Word`), `reading_ty` (`SpecMacro`) | announced lengths are below 2^24, so the cursor stays below 2^32; then C90/C120 |
| C133 | `generated_tests` (`Generated`), `fields_lay`, `layout`, `exchange` (`SpecGenerated`) | the four tests reduce to: the bytes are the layout, the constructor rebuilds an equal value, fewer than 2^24 bytes |
| C134 | `de_of_h`, `shape_de_h`, `receive_h` (`Heap`), `buffered`, `fixed_part`, `parts` (`SpecHeap`) | an instrumented decoder; one lemma for bind, one for a read whose bytes are copied |
| C135 | `init_session_x`, `run_x`, `step_x` (`Index`), `typed` (`SpecIndex`), `bursts` (`SpecPanic`) | each function equals its counterpart of `Noise` on values of the right sizes, sizes kept; then C51 |
| C136 | `ser_of_x`, `shape_ser_x` (`Sum`), `shown`, `honest` (`SpecSum`), `offer`, `lay` (`SpecTypes`), `shape_ser` (`Nest`) | the two programs make the same calls and their counts agree modulo the width, or the exact one has panicked where every result is too large; induction on the nesting |
| C137 | `ser_of`, `de_of` (`Catalog`), `im_ser`, `im_de` (`Macro`), `fewest`, `most`, `asks` (`SpecSize`), `enough_for` (`SpecPieces`) | sizes of the images; a value for each end of each range; induction on the fields |
| C138 | `step_l`, `mix_key_and_hash_l` (`Locals`), `wiped`, `quiet`, `trail_send`, `trail_recv`, `keys_left` (`SpecLocals`) | the functions of `Noise` with their local arrays listed; the lists follow the steps, the keys are found at the end of the last |
| C139 | `channel_ids` (`Channels`), `used`, `id_of`, `words`, `falling`, `counted` (`SpecChannels`) | each draw but 1 gives its own id; lists without repetition counted by adding one element in front |
| C140 | `sc_main` (`Mains`), `fair`, `start_of`, `opening`, `pool_ahead`, `in_order` (`SpecMains`) | states after the opening enumerated; the rest by induction on the schedule |
| C141 | `nh_main` (`Mains`), `progress`, `in_time`, `clock_ok`, `programs_ready` (`SpecMains`) | simulation: every state after the opening is the one `progress` says; contents from C95 |
| C142 | `pc_main` (`Cuts`), `enough`, `fair_events`, `to_reading`, `to_showing` (`SpecCuts`) | inductive set of reachable states; contents from C92 and C101; the end by a bounded measure that grows |
| C143 | `debug_message`, `debug_frame`, `debug_str` (`DebugTexts`), `same_but_nan`, `shown_as`, `f32_text_ok` (`SpecDebugTexts`) | texts are split off from the front, one field after the other; what may follow a field cannot continue it |
| C144 | `error_debug`, `noise_debug` (`ErrorDebug`), `wraps`, `text_ok` (`SpecErrorDebug`) | names end at a bracket or at the end; then C143's strings and numbers |
| C145 | `nc_main` (`NoiseCuts`), `pool_sends`, `delivered`, `to_answers`, `to_verdict`, `fair_happenings` (`SpecNoiseCuts`) | inductive sets of reachable states of pool, connections and miner; contents from C95 and C96; the end by a bounded measure that grows |

Cannot be expressed here: confidentiality/unforgeability in the computational
sense (needs a probabilistic model of the primitives); copies of secrets left in
memory by moves, parameters and unnamed temporaries (C138 speaks about the arrays declared by `let`,
C78/C79 about the fields of the session).

## 4. Status of assumptions

Every property theorem is followed by `Print Assumptions`; each of them prints
"Closed under the global context".  No axiom of the standard library is used.
(`vcheck` lists seven `Coq.ssr.ssrunder.Under_rel.*` names: they are the opaque
fields of a sealed standard-library module loaded with `lia`, not axioms any of
our theorems depend on.)

What the theorems assume explicitly, as hypotheses:

| hypothesis | contents | where shown satisfiable |
|---|---|---|
| `crypto_ok C` | hash, DH, public keys 32 bytes; sealed text as long as the plain text, tag 16 bytes; open inverts seal; open accepts only what seal produces | proved for `real_crypto` (reference BLAKE2s, ChaCha20-Poly1305, X25519) and for `demo_crypto` (same hash and AEAD, toy DH) |
| `dh_agree` (inside `honest`) | the two key pairs at hand agree on the shared secret | proved for all pairs of `real_crypto` (C76, `KeyProofs.real_agree`) and of `demo_crypto` |
| `~ low_order` (inside `honest`) | public keys that `PublicKey::from_bytes` accepts | proved for every derived key of `real_crypto` (C76) |
| no all-zero cipher key | `nx_keys`, `nx_transport_keys`: the code treats the zero key as "no key" | concrete handshake |
| `ed_ok E`, `ed_pair E kp` | signatures have 64 canonical bytes; keys 32 bytes; verify accepts what sign produced | proved for every seed of `real_ed` (Ed25519 of RFC 8032, C82) and for `demo_ed` |
| unforgeability (one theorem, `C37_accepts_only_issued`) | the authority key verifies only encodings of issued certificates | stated as hypothesis |
| `rust_slice bs` | a slice has at most isize::MAX bytes | all concrete slices |

Dependencies not contained in `/repo` whose behaviour is transcribed: base58 of
`bitcoin` 0.26 (C40 proves it equal to positional notation), `gen_range` of
`rand` 0.7, UTF-8 validation of std (C08 proves it equal to RFC 3629), `bitflags`
`from_bits`, `hacl-star` primitives (through `crypto`), `ed25519-dalek` (through
`ed_ops`).

Simplifications inside the model, repeated in the files: the message counter
`mc` of a session is unbounded (u128 in Rust; `Counter` has it exactly, see C131); `Hash::from_slice`-style copies of
fixed size are list functions and HMAC keys at most 64 bytes, as in all calls (C135 has them with the checks);
sockets are byte strings that arrive whole (in `Mains`: what is written arrives at once, `bind` succeeds, `connect` is
refused exactly if the other side does not listen, one turn of a schedule is one operation on the network, and the
sleep of noise_handshake.rs:28 bounds nothing; how tokio chooses a schedule is not modelled; in `Cuts` and `NoiseCuts`:
what is written arrives in order, complete in the end, in pieces of any size at any time); threads interleave at the
granularity of taking the lock, the work under it and releasing it.
