{"id": "C01", "title": "Scalar wire format and round trip", "statement": "Serializing a u8, u16, u32, f32, bool, U24 (in range) or U256 into a Vec succeeds, appends exactly the little-endian (1/2/4/4/1/3/32-byte) image of the value, and returns that number of bytes; deserializing those bytes, whatever bytes follow them, returns the same value (f32: same bit pattern) and leaves the cursor right after them.", "quantifier": "every value of each scalar type, every Vec prefix, every byte suffix", "why_tests_cant": "the unit tests use one or two literals per type; 2^32 (or 2^256) values and every surrounding buffer are out of reach", "anchors": ["stratumv2/src/types/primitives.rs: Serializable/Deserializable for bool,u8,u16,u32,f32", "stratumv2/src/types/fixed.rs: U24, U256"]}
{"id": "C02", "title": "Bool decoding looks only at the least significant bit", "statement": "Deserializing a bool from a byte b followed by anything succeeds and returns true exactly when b is odd; serializing a bool emits 0x01 or 0x00.", "quantifier": "all 256 byte values and all suffixes", "why_tests_cant": "tests check six byte values and no suffix", "anchors": ["stratumv2/src/types/primitives.rs: Deserializable for bool"]}
{"id": "C03", "title": "U24 range is enforced exactly at construction", "statement": "U24::new / U24::try_from accept a number exactly when it is at most 2^24-1, keep its value, and otherwise return RequirementError; a U24 obtained from the wire is always in range.", "quantifier": "every u32 / usize value; every 3-byte wire image", "why_tests_cant": "boundary tests cover five values", "anchors": ["stratumv2/src/types/fixed.rs: U24::new, TryFrom<u32>, TryFrom<usize>, Deserializable for U24"]}
{"id": "C04", "title": "B0 byte strings: construction limit", "statement": "B0_31, B0_32, B0_255, B0_64K, B0_16M::new never panic; they accept a byte vector exactly when its length is at most 31, 32, 255, 65535, 2^24-1 respectively, store the data unchanged with the right length header, and otherwise return RequirementError.", "quantifier": "every byte vector of every length, all five types", "why_tests_cant": "the tests skip the large variants entirely and try one over-limit length for the others", "anchors": ["stratumv2/src/types/bytes.rs: impl_sized_B0::new"]}
{"id": "C05", "title": "B0 byte strings: wire format, round trip, exact rejection", "statement": "A B0 value built by new serializes to its little-endian length header followed by its data, and deserializes back from that image followed by anything; deserialization of arbitrary bytes returns the value when header and data are present and within the limit, ParseError when bytes are missing, RequirementError when the announced length exceeds the limit - and nothing else.", "quantifier": "every byte slice and every start offset, all five types", "why_tests_cant": "tests use three malformed inputs per type", "anchors": ["stratumv2/src/types/bytes.rs: Serializable/Deserializable in impl_sized_B0"]}
{"id": "C06", "title": "STR0 strings: construction limit", "statement": "STR0_32::new / STR0_255::new accept a String exactly when its UTF-8 byte length is at most 32 / 255, keep it unchanged with the right length header, and otherwise return RequirementError.", "quantifier": "every String", "why_tests_cant": "tests only use ASCII strings of four lengths", "anchors": ["stratumv2/src/types/strings.rs: impl_sized_STR0::new"]}
{"id": "C07", "title": "STR0 strings: wire format, round trip, exact rejection", "statement": "A STR0 value built by new serializes to a one-byte length followed by the UTF-8 bytes and deserializes back from that image followed by anything; deserialization of arbitrary bytes returns the string when complete, valid UTF-8 and within the limit, ParseError when bytes are missing, FromUtf8Error when the bytes are not UTF-8, RequirementError when too long - checked in that order - and nothing else.", "quantifier": "every byte slice and every start offset, both types", "why_tests_cant": "tests use four malformed inputs", "anchors": ["stratumv2/src/types/strings.rs: Serializable/Deserializable in impl_sized_STR0"]}
{"id": "C08", "title": "Strings accepted from the wire are exactly the encodings of Unicode scalar values", "statement": "A STR0 deserialization accepts the announced bytes (length permitting) exactly when they are the UTF-8 encoding of some sequence of Unicode scalar values (no overlong forms, no surrogates, nothing above U+10FFFF).", "quantifier": "every byte string", "why_tests_cant": "one non-UTF-8 sample is tested; the space is infinite", "anchors": ["stratumv2/src/types/strings.rs: Deserializable (String::from_utf8)"]}
{"id": "C09", "title": "Deserialization never panics", "statement": "deserialize::<T>(bytes) returns Ok or Err - never panics - for every T of the crate: scalars, B0/STR0 types, flags, error codes, Protocol, the frame Message and every protocol message; with or without overflow checks.", "quantifier": "every byte slice (of any length a Rust slice can have), every type, both build profiles", "why_tests_cant": "fuzzing samples a vanishing part of the inputs and CI stops after 10000 runs", "anchors": ["stratumv2/src/codec/deserialize.rs", "fuzz/src/bin", "stratumv2/src/macro_message/message.rs: impl_message"]}
{"id": "C10", "title": "Parser cursor discipline", "statement": "ByteParser::next_by(step) either returns exactly the next step bytes and advances by step, or returns ParseError and leaves the cursor where it was; it fails exactly when fewer than step bytes remain (or the start offset is past the end). Any sequence of successful calls returns consecutive, non-overlapping segments whose concatenation is a contiguous part of the input.", "quantifier": "every slice, every start offset and step size whose sum fits a usize (in release builds: any), every sequence of step sizes", "why_tests_cant": "the parser has no unit test at all", "anchors": ["stratumv2/src/codec/parser.rs: ByteParser::next_by"]}
{"id": "C11", "title": "Deserializers only move forward and stay in bounds", "statement": "For every message type, whether deserialization succeeds or fails the cursor ends between its old position and the end of the slice; the result depends only on the bytes it consumed (same consumed bytes followed by any other suffix give the same value).", "quantifier": "every type, every slice, every suffix", "why_tests_cant": "needs all suffixes of all inputs", "anchors": ["stratumv2/src/codec/parser.rs", "stratumv2/src/macro_message/message.rs: impl_message deserialize"]}
{"id": "C12", "title": "Decoding is canonical (no malleability)", "statement": "If deserializing a message (or frame) from bytes succeeds, serializing the result reproduces exactly the bytes consumed; so two different byte strings never decode to the same message.", "quantifier": "every message type and every accepted byte string", "why_tests_cant": "quantifies over all accepted inputs", "anchors": ["stratumv2/src/macro_message/message.rs: impl_message", "stratumv2/src/codec/frame.rs"]}
{"id": "C13", "title": "Encodings are self-delimiting; streams split uniquely", "statement": "Serializing any list of frames back to back and deserializing repeatedly from one cursor returns exactly that list; no encoding of a message is a proper prefix of another encoding of the same type.", "quantifier": "every list of frames of any length; every pair of messages of one type", "why_tests_cant": "needs arbitrary sequences", "anchors": ["stratumv2/src/codec/frame.rs: Message", "stratumv2/src/codec/parser.rs"]}
{"id": "C14", "title": "Reported byte count equals bytes written", "statement": "Serializing into a Vec any value produced by the crate's constructors or deserializers returns exactly the number of bytes appended, and never disturbs what was already in the Vec.", "quantifier": "every message type, every constructed value, every initial buffer", "why_tests_cant": "tests never look at the returned count", "anchors": ["stratumv2/src/codec/serialize.rs", "stratumv2/src/macro_message/message.rs: impl_message serialize"]}
{"id": "C15", "title": "Reported byte count is right even for hand-built STR0 values", "statement": "serialize of any STR0_32/STR0_255 value returns the number of bytes written (its fields are public).", "quantifier": "every {length,data} pair", "why_tests_cant": "tests never build an inconsistent value", "anchors": ["stratumv2/src/types/strings.rs: Serializable"]}
{"id": "C16", "title": "serialize succeeds only if the writer took everything", "statement": "If serialize(&mut writer) returns Ok(n) then the writer accepted the complete encoding.", "quantifier": "every io::Write implementation, including ones that accept only part of a buffer per call", "why_tests_cant": "tests only ever write into Vec", "anchors": ["stratumv2/src/types/primitives.rs: writer.write", "stratumv2/src/types/bytes.rs", "stratumv2/src/codec/frame.rs"]}
{"id": "C17", "title": "A failing writer surfaces as IOError with a prefix written", "statement": "With a writer that accepts whole buffers until some call fails, serialize returns an IOError exactly when a write failed, and what was accepted is a prefix of the encoding.", "quantifier": "every message type, every value, every failure point", "why_tests_cant": "no test injects write errors", "anchors": ["stratumv2/src/macro_message/message.rs: serialize"]}
{"id": "C18", "title": "Frame layout", "statement": "Serializing Message{type,payload} with a payload of at most 2^24-1 bytes yields a 6-byte header - extension type (15 bits) with the channel bit in the top bit, little-endian; message type byte; 24-bit little-endian payload length - followed by the payload, and reports 6+length bytes.", "quantifier": "every message type, every payload", "why_tests_cant": "tests use two one-byte payloads", "anchors": ["stratumv2/src/codec/frame.rs: Serializable for Message"]}
{"id": "C19", "title": "Frame round trip", "statement": "Deserializing the serialization of a frame, followed by any bytes, returns the same frame and stops right after it.", "quantifier": "every message type, every payload up to 2^24-1 bytes, every suffix", "why_tests_cant": "payload/suffix space unbounded", "anchors": ["stratumv2/src/codec/frame.rs: Message"]}
{"id": "C20", "title": "Frame rejection is exact", "statement": "Deserializing a frame from arbitrary bytes fails with ParseError when bytes are missing, UnknownMessageType when the (extension,type) pair is not in the table, UnexpectedChannelBit when the channel bit disagrees with the type, and otherwise succeeds with the type and exactly the announced payload.", "quantifier": "every byte slice", "why_tests_cant": "only happy paths are tested", "anchors": ["stratumv2/src/codec/frame.rs: Deserializable for Message"]}
{"id": "C21", "title": "Oversized payloads are refused", "statement": "Serializing a frame whose payload is longer than 2^24-1 bytes returns RequirementError and writes nothing.", "quantifier": "every payload longer than 2^24-1 bytes", "why_tests_cant": "nobody allocates 4 GiB in a unit test", "anchors": ["stratumv2/src/codec/frame.rs: `self.payload.len() as u32`", "stratumv2/src/types/fixed.rs: U24::new"]}
{"id": "C22", "title": "Message type table is a bijection", "statement": "MessageType::new(ext_type(t), msg_type(t)) = t for every type; new(e,m) succeeds only for the pair of the returned type and fails with UnknownMessageType otherwise; no two types share a pair; no extension type uses the channel bit.", "quantifier": "all 29 types and all 2^24 (ext,msg) pairs", "why_tests_cant": "tests check one type at a time, never the absence of collisions", "anchors": ["stratumv2/src/types/message_type.rs"]}
{"id": "C23", "title": "frame/unframe are inverse for every protocol message", "statement": "unframe::<T>(frame(&m)) returns m for every message of every type, also after the frame went through serialize/deserialize with arbitrary bytes following.", "quantifier": "all 14 protocol message types (and the common SetupConnection), every constructible message", "why_tests_cant": "one sample message per type is tested", "anchors": ["stratumv2/src/codec/frame.rs: frame, unframe", "stratumv2/src/macro_message/message.rs"]}
{"id": "C24", "title": "unframe refuses other message types", "statement": "unframe::<T>(msg) with msg.message_type different from T's type returns UnexpectedMessageType whatever the payload, and its error carries the type that was received (per its message text 'parsed message type').", "quantifier": "every target type, every frame", "why_tests_cant": "never tested", "anchors": ["stratumv2/src/codec/frame.rs: unframe", "stratumv2/src/error.rs: UnexpectedMessageType"]}
{"id": "C25", "title": "A frame determines its message type in Rust", "statement": "A received frame can be unframed as at most one Rust message type.", "quantifier": "every frame, every pair of Frameable types", "why_tests_cant": "cross-type decoding is not tested", "anchors": ["stratumv2/src/common/setup_connection.rs", "stratumv2/src/mining/setup_connection.rs", "stratumv2/src/job_negotiation/setup_connection.rs"]}
{"id": "C26", "title": "Wire layout of every protocol message", "statement": "Each of the 14 protocol messages serializes to the concatenation of its fields in specification order with the specified field encodings.", "quantifier": "every message of every type", "why_tests_cant": "one literal per type in tests", "anchors": ["stratumv2/src/mining", "stratumv2/src/job_negotiation", "stratumv2/src/common"]}
{"id": "C27", "title": "SetupConnection validation, constructor and wire", "statement": "Both SetupConnection constructors and both wire decoders only ever produce messages with non-empty vendor and firmware, min_version >= 2, max_version >= 2, and strings of at most 255 bytes; the constructor accepts exactly those inputs, and classifies the failure (RequirementError / VersionError) in the documented order.", "quantifier": "every combination of arguments; every byte slice", "why_tests_cant": "four single-fault samples are tested", "anchors": ["stratumv2/src/macro_message/setup_connection.rs: new"]}
{"id": "C28", "title": "Negotiable version range is well formed", "statement": "A SetupConnection accepted by the constructor or decoder has min_version <= max_version.", "quantifier": "every accepted message", "why_tests_cant": "tests only use equal versions", "anchors": ["stratumv2/src/macro_message/setup_connection.rs: new"]}
{"id": "C29", "title": "SetupConnectionError always names the unsupported flags", "statement": "No SetupConnectionError with error code unsupported-feature-flags and empty flags can be constructed or decoded; every other combination is accepted.", "quantifier": "every flags/code combination, every byte slice", "why_tests_cant": "one sample tested", "anchors": ["stratumv2/src/macro_message/setup_connection_error.rs: new"]}
{"id": "C30", "title": "Feature flags: exactly the defined bits travel", "statement": "For each of the four flag types: decoding a u32 succeeds exactly when it has no undefined bit set (UnknownFlags otherwise), and returns flags with those bits; encoding emits them; every union, intersection, difference and complement of flags stays encodable and decodable.", "quantifier": "all 2^32 wire values for each type, all flag operations", "why_tests_cant": "a handful of literals tested", "anchors": ["stratumv2/src/types/flags.rs", "stratumv2/src/mining/setup_connection.rs", "stratumv2/src/mining/setup_connection_success.rs", "stratumv2/src/job_negotiation"]}
{"id": "C31", "title": "Error codes: exactly the registered strings", "statement": "Each error code converts to its registered string, fits the documented STR0_32 limit, and parses back; any other string is rejected with UnknownErrorCode; conversion to text is injective.", "quantifier": "every error code, every string", "why_tests_cant": "tests touch two codes", "anchors": ["stratumv2/src/types/error_code.rs", "stratumv2/src/common/setup_connection_error_code.rs", "stratumv2/src/mining/open_mining_channel_error.rs"]}
{"id": "C32", "title": "Sub protocol dispatch", "statement": "The common SetupConnection message starts with the protocol byte (0 mining, 1 job negotiation); decoding dispatches on it, answers Unimplemented for 2 and 3, DeserializationError for every other byte, and never yields a message of the wrong sub protocol.", "quantifier": "all 256 protocol bytes, all payloads", "why_tests_cant": "two literals tested", "anchors": ["stratumv2/src/common/setup_connection.rs: Protocol, SetupConnection"]}
{"id": "C33", "title": "Message equality agrees with the wire", "statement": "Two messages are == exactly when their encodings are identical; in particular a decoded message is == to the one sent.", "quantifier": "every pair of messages of one type", "why_tests_cant": "tests avoid NaN and -0.0", "anchors": ["stratumv2/src/mining/update_channel.rs", "stratumv2/src/mining/open_standard_mining_channel.rs", "stratumv2/src/mining/open_extended_mining_channel.rs"]}
{"id": "C34", "title": "Unix timestamp conversion", "statement": "system_unix_time_to_u32 returns the whole seconds since the epoch for every time from 1970 up to (not including) second 2^32, and SystemTimeError for every time before the epoch.", "quantifier": "every SystemTime", "why_tests_cant": "three samples tested", "anchors": ["stratumv2/src/types/unix_timestamp.rs"]}
{"id": "C35", "title": "Certificates always have a non-empty validity window", "statement": "SignedCertificate::new succeeds exactly when valid_from < not_valid_after and then carries the given fields.", "quantifier": "every version, pair of times and key", "why_tests_cant": "two samples tested", "anchors": ["stratumv2/src/noise/signed_certificate.rs"]}
{"id": "C36", "title": "A certificate signed by the pool verifies at the client", "statement": "For every authority key, static key, version and times with now < not_valid_after: sending SignatureNoiseMessage::from_auth_key over the wire, decoding it and verifying it in a CertificateFormat with the server's static key succeeds - given only that ed25519 verifies its own signatures.", "quantifier": "every key pair, certificate and current time before 2106", "why_tests_cant": "one run with random keys and a real clock", "anchors": ["stratumv2/src/noise/signature_noise_message.rs", "stratumv2/src/noise/certificate_format.rs", "stratumv2/src/noise/signed_certificate.rs"]}
{"id": "C37", "title": "Verification decides exactly signature and expiry, and binds every field", "statement": "CertificateFormat::verify succeeds exactly when the current time is before not_valid_after and the authority key verifies the signature over the 42-byte encoding of version, valid_from, not_valid_after and static key; changing any one of these four changes the signed bytes.", "quantifier": "every message, key and time", "why_tests_cant": "tests cannot mock the clock", "anchors": ["stratumv2/src/noise/certificate_format.rs: verify, serialize"]}
{"id": "C38", "title": "Certificates are only accepted inside their validity window", "statement": "verify succeeds only if valid_from <= now < not_valid_after, for the real current time.", "quantifier": "every certificate and every current time", "why_tests_cant": "the test-suite notes it cannot mock the system time", "anchors": ["stratumv2/src/noise/certificate_format.rs: verify", "stratumv2/src/types/unix_timestamp.rs: as u32"]}
{"id": "C39", "title": "SignatureNoiseMessage wire format", "statement": "SignatureNoiseMessage serializes to exactly 74 bytes (version, valid_from, not_valid_after, 64-byte signature), decodes back from them followed by anything, and fails with ParseError on fewer than 74 bytes.", "quantifier": "every message, every suffix, every short slice", "why_tests_cant": "one random sample tested", "anchors": ["stratumv2/src/noise/signature_noise_message.rs", "stratumv2/src/noise/types.rs"]}
{"id": "C40", "title": "Authority key decoding", "statement": "CertificateFormat::new succeeds exactly when the text is base58 for exactly 32 bytes that form a valid ed25519 key, with the matching error otherwise.", "quantifier": "every text", "why_tests_cant": "two samples tested", "anchors": ["stratumv2/src/noise/certificate_format.rs: new"]}
{"id": "C41", "title": "Noise NX handshake agreement", "statement": "For every pair of key pairs (public keys not among the refused low-order values) and every message buffers of admissible size, unless one of the derived handshake keys happens to be all zero, the two-message exchange initiator.send / responder.recv / responder.send / initiator.recv completes on both sides with equal handshake hashes, mirrored transport keys, and the initiator's get_remote_static_public_key equal to the responder's static public key; the payload bytes of both messages arrive unchanged.", "quantifier": "every static and ephemeral key pair, every payload of every size the session accepts (32..65535 bytes for message 1 with at least 48, 96..2128 for message 2)", "why_tests_cant": "one run with random keys and 1024-byte zero buffers", "anchors": ["stratumv2/nx-noise/src/noisesession.rs", "stratumv2/nx-noise/src/state.rs", "stratumv2/src/noise/noise_session.rs"]}
{"id": "C42", "title": "The handshake implements the Noise NX pattern", "statement": "The bytes written and the keys/hash derived by the code are those the Noise specification prescribes for pattern NX (-> e; <- e, ee, s, es) with 25519/ChaChaPoly/BLAKE2s.", "quantifier": "every key pair, prologue-less, every payload", "why_tests_cant": "needs a reference model for all inputs", "anchors": ["stratumv2/nx-noise/src/state.rs", "stratumv2/nx-noise/src/prims.rs"]}
{"id": "C43", "title": "HMAC and HKDF follow RFC 2104 / the Noise specification", "statement": "hmac(key,data) is BLAKE2s((K xor opad) || BLAKE2s((K xor ipad) || data)) with K the key zero-padded to 64 bytes, and hkdf chains it as in Noise section 4.3 for two and three outputs.", "quantifier": "every key up to 64 bytes, every data", "why_tests_cant": "no test", "anchors": ["stratumv2/nx-noise/src/prims.rs: hmac, hkdf"]}
{"id": "C44", "title": "Transport channel delivers every message in order", "statement": "After a completed handshake with non-zero transport keys, for every interleaving of at most 2^64-1 sends per side and in-order deliveries, each delivered buffer carries exactly the plaintext sent, none lost, duplicated or reordered.", "quantifier": "every finite history of sends/deliveries in both directions, every message content and size 16..65535", "why_tests_cant": "one message in one direction is tested", "anchors": ["stratumv2/nx-noise/src/noisesession.rs: send_message, recv_message"]}
{"id": "C45", "title": "A rejected transport message has no effect on the session", "statement": "In transport mode, a recv_message that returns an error leaves the session state unchanged, so junk, replayed or out-of-order ciphertexts never prevent the next genuine message from being accepted.", "quantifier": "every session state in transport mode, every buffer", "why_tests_cant": "needs all junk inputs and all histories", "anchors": ["stratumv2/nx-noise/src/state.rs: decrypt_with_ad, read_message_regular", "stratumv2/nx-noise/src/noisesession.rs: recv_message"]}
{"id": "C46", "title": "What recv accepts is what the peer sealed next", "statement": "In transport mode recv_message accepts a buffer only if it is the AEAD sealing, under the receive key and the next expected counter value, of the plaintext it delivers; after the counter moved on, the same buffer is accepted again only if it is also a valid sealing for a later counter (a forgery).", "quantifier": "every state, every buffer, every history", "why_tests_cant": "replay/reorder space unbounded", "anchors": ["stratumv2/nx-noise/src/state.rs: decrypt_with_ad"]}
{"id": "C47", "title": "No nonce is used twice under one key", "statement": "Over any history of API calls on a session (without rekeying or clearing), all AEAD encryptions performed by send_message in transport mode use pairwise distinct counter values, the counter never wraps (ExhaustedNonceError at 2^64-1), and distinct counters give distinct 12-byte nonces.", "quantifier": "every finite call history", "why_tests_cant": "2^64 messages cannot be sent in a test", "anchors": ["stratumv2/nx-noise/src/types.rs: Nonce", "stratumv2/nx-noise/src/state.rs: encrypt_with_ad", "stratumv2/nx-noise/src/utils.rs: prep_nonce"]}
{"id": "C48", "title": "Handshake gating of session accessors", "statement": "is_transport is false for the first message and true from the second successful message on (message count >= 2), never goes back; get_handshake_hash and get_remote_static_public_key return None exactly while is_transport is false; failed calls never advance the message count.", "quantifier": "every history of API calls", "why_tests_cant": "one history tested", "anchors": ["stratumv2/nx-noise/src/noisesession.rs"]}
{"id": "C49", "title": "Message size limits", "statement": "send_message and recv_message refuse every buffer shorter than 16 or longer than 65535 bytes with UnsupportedMessageLengthError, leaving session and buffer untouched.", "quantifier": "every session state, every buffer", "why_tests_cant": "not tested", "anchors": ["stratumv2/nx-noise/src/noisesession.rs: send_message, recv_message"]}
{"id": "C50", "title": "send_message never panics", "statement": "send_message returns Ok or Err for every session state reachable through the API and every buffer.", "quantifier": "every reachable session, every buffer", "why_tests_cant": "fuzz issue #190 showed samples miss cases", "anchors": ["stratumv2/nx-noise/src/noisesession.rs: send_message", "stratumv2/nx-noise/src/state.rs: write_message_a, write_message_b"]}
{"id": "C51", "title": "recv_message never panics", "statement": "recv_message returns Ok or Err for every session state reachable through the API and every buffer a peer may send.", "quantifier": "every reachable session, every buffer", "why_tests_cant": "fuzzing cannot produce authenticated messages", "anchors": ["stratumv2/nx-noise/src/state.rs: decrypt_and_hash", "stratumv2/nx-noise/src/noisesession.rs: recv_message"]}
{"id": "C52", "title": "Cleared cipher states refuse to work", "statement": "After clear_local_cipherstate / clear_remote_cipherstate the corresponding direction returns EmptyKeyError for every buffer of legal length, until it is rekeyed (C53); buffers are left untouched, and no message is ever encrypted under the all-zero key.", "quantifier": "every session, every buffer, every history", "why_tests_cant": "not tested", "anchors": ["stratumv2/nx-noise/src/state.rs: has_key, clear", "stratumv2/nx-noise/src/noisesession.rs"]}
{"id": "C53", "title": "Cleared sessions cannot come back with a predictable key", "statement": "After clear_local_cipherstate, no further API call makes the session encrypt under a key that does not depend on the handshake.", "quantifier": "every history after clear", "why_tests_cant": "not tested", "anchors": ["stratumv2/nx-noise/src/state.rs: rekey", "stratumv2/nx-noise/src/noisesession.rs: rekey_local_cipherstate"]}
{"id": "C54", "title": "Rekeying the remote state rekeys the receive direction", "statement": "rekey_remote_cipherstate rekeys the cipher state the documentation calls remote (cs2) and leaves the local one alone, so that peers calling rekey_local / rekey_remote stay in sync in either direction.", "quantifier": "every session in transport mode", "why_tests_cant": "not tested", "anchors": ["stratumv2/nx-noise/src/noisesession.rs: rekey_remote_cipherstate"]}
{"id": "C55", "title": "Rekeying both ends of the initiator-to-responder direction keeps it working", "statement": "If initiator and responder both rekey the initiator-to-responder cipher at the same point of the stream, all later messages in that direction are still delivered, and the other direction is unaffected.", "quantifier": "every handshake, every number of rekeys, every later history", "why_tests_cant": "not tested", "anchors": ["stratumv2/nx-noise/src/state.rs: rekey", "stratumv2/nx-noise/src/noisesession.rs: rekey_local_cipherstate"]}
{"id": "C56", "title": "Low-order public keys are refused", "statement": "PublicKey::from_bytes rejects exactly the 12 listed low-order points; a handshake message carrying one as ephemeral key is refused with InvalidPublicKeyError and leaves message count and transport flag unchanged.", "quantifier": "all 2^256 keys, every handshake message", "why_tests_cant": "12 samples tested", "anchors": ["stratumv2/nx-noise/src/types.rs: PublicKey::from_bytes", "stratumv2/nx-noise/src/consts.rs: forbidden_curve_values", "stratumv2/nx-noise/src/state.rs: read_message_a, read_message_b"]}
{"id": "C57", "title": "Every public way to make a PublicKey refuses low-order points", "statement": "PublicKey::from_str never yields one of the forbidden values.", "quantifier": "every string", "why_tests_cant": "not tested", "anchors": ["stratumv2/nx-noise/src/types.rs: FromStr for PublicKey"]}
{"id": "C58", "title": "Hex key parsing", "statement": "Key/Psk/PrivateKey/PublicKey::from_str accept exactly the 64-digit hexadecimal strings (upper or lower case) and return the 32 bytes they denote; everything else is InvalidInputError.", "quantifier": "every string", "why_tests_cant": "doc examples only", "anchors": ["stratumv2/nx-noise/src/types.rs: decode_str_32"]}
{"id": "C59", "title": "A garbled handshake reply can be retried", "statement": "If the initiator receives a corrupted second handshake message and returns an error, the genuine second message delivered afterwards still completes the handshake.", "quantifier": "every corrupted buffer", "why_tests_cant": "not tested", "anchors": ["stratumv2/nx-noise/src/state.rs: read_message_b"]}
{"id": "C60", "title": "Remote key reported to the responder", "statement": "get_remote_static_public_key on a responder in transport mode does not claim a key the peer never sent.", "quantifier": "every completed handshake", "why_tests_cant": "not tested", "anchors": ["stratumv2/nx-noise/src/noisesession.rs: get_remote_static_public_key", "stratumv2/src/network/encryptor.rs: get_remote_pubkey"]}
{"id": "C61", "title": "Plaintext buffer after recv_message", "statement": "After a successful transport recv_message the last 16 bytes of the buffer are zero bytes (as documented).", "quantifier": "every message", "why_tests_cant": "not tested", "anchors": ["stratumv2/nx-noise/src/noisesession.rs: recv_message docs", "stratumv2/nx-noise/src/state.rs: read_message_regular"]}
{"id": "C62", "title": "ConnectionEncryptor handshake completes", "statement": "init_handshake on a fresh outbound encryptor succeeds with 1024 bytes; feeding them to recv_handshake of any fresh inbound encryptor and its result back to the initiator's recv_handshake succeeds, both report is_handshake_complete, and the initiator's get_remote_pubkey is the inbound static key.", "quantifier": "every key", "why_tests_cant": "one run with random keys", "anchors": ["stratumv2/src/network/encryptor.rs"]}
{"id": "C63", "title": "Once the encryptor handshake is complete both directions work", "statement": "When both encryptors report is_handshake_complete, the next message sealed by either side is accepted by the other.", "quantifier": "every completed encryptor handshake", "why_tests_cant": "the unit test stops at is_handshake_complete", "anchors": ["stratumv2/src/network/encryptor.rs: recv_handshake"]}
{"id": "C64", "title": "Encryptor encrypt/decrypt are inverse", "statement": "decrypt_message(encrypt_message(b)) returns b.", "quantifier": "every byte string", "why_tests_cant": "not tested", "anchors": ["stratumv2/src/network/encryptor.rs: encrypt_message, decrypt_message"]}
{"id": "C65", "title": "Pending message queue delivers exactly once, in order", "statement": "Whatever the interleaving of threads pushing to pending_msg_buffer under its lock and threads calling get_pending_msgs, every pushed message is returned by exactly one get_pending_msgs call or still queued, in lock-acquisition order, and a drain leaves the queue empty.", "quantifier": "every schedule of any number of threads, any operations", "why_tests_cant": "thread schedules cannot be enumerated by tests", "anchors": ["stratumv2/src/network/peer.rs: get_pending_msgs"]}
{"id": "C66", "title": "Channel ids are in range", "statement": "new_channel_id returns an id strictly below u32::MAX whatever the random source yields.", "quantifier": "every random draw", "why_tests_cant": "one draw tested", "anchors": ["stratumv2/src/network/channel.rs: new_channel_id"]}
{"id": "C67", "title": "Example pool answers every SetupConnection that fits its buffer", "statement": "In the setup_connection example, for every mining SetupConnection whose frame fits the 1024-byte buffer the pool answers with a frame that the miner decodes to SetupConnectionSuccess with the miner's min_version and the pool's flags.", "quantifier": "every SetupConnection message", "why_tests_cant": "one literal in the example", "anchors": ["examples/setup_connection.rs"]}
{"id": "C68", "title": "End-to-end authentication of the pool", "statement": "In the noise_handshake flow, for every key and every certificate valid now: after the handshake the pool's SignatureNoiseMessage sent in a 1024-byte transport message is decrypted, decoded and verified by the miner against the static key it learnt in the handshake.", "quantifier": "all keys, versions and validity windows, current time before expiry", "why_tests_cant": "one run with random keys", "anchors": ["examples/noise_handshake.rs", "stratumv2/src/noise/mod.rs: noise_nx test"]}
{"id": "C69", "title": "next_by never panics", "statement": "ByteParser::next_by(step) never panics, whatever the slice, the start offset and the step; in particular an absurd announced length is a ParseError.", "quantifier": "every slice, every start, every step, both build profiles", "why_tests_cant": "the parser has no unit test; an overflow needs start + step >= 2^64", "anchors": ["stratumv2/src/codec/parser.rs: ByteParser::next_by"]}
{"id": "C70", "title": "Accepted public keys never give the all-zero shared secret", "statement": "For every public key accepted by PublicKey::from_bytes and every private key, the X25519 shared secret computed by the handshake is not all zero.", "quantifier": "all accepted public keys, all private keys", "why_tests_cant": "no test uses crafted public keys", "anchors": ["stratumv2/nx-noise/src/types.rs: PublicKey::from_bytes", "stratumv2/nx-noise/src/state.rs: read_message_a, read_message_b"]}
{"id": "C71", "title": "No nonce reuse whatever the API calls", "statement": "In no history of API calls (including clear and rekey) do two transport messages leave the session sealed under the same key and counter.", "quantifier": "every finite call history", "why_tests_cant": "needs histories mixing clear, rekey and send", "anchors": ["stratumv2/nx-noise/src/noisesession.rs: clear_local_cipherstate, rekey_local_cipherstate, send_message"]}
{"id": "C72", "title": "A failed send_message can be repeated", "statement": "A send_message that returns an error leaves the session unchanged, so that the call can be repeated with a proper buffer.", "quantifier": "every reachable session, every buffer", "why_tests_cant": "tests never use failing buffers", "anchors": ["stratumv2/nx-noise/src/noisesession.rs: send_message", "stratumv2/nx-noise/src/state.rs: write_message_b"]}
{"id": "C73", "title": "A first message that can be sent can be received", "statement": "Whenever the initiator's first send_message succeeds, the responder's recv_message accepts the result.", "quantifier": "every key pair, every buffer", "why_tests_cant": "tests use one buffer size", "anchors": ["stratumv2/nx-noise/src/state.rs: write_message_a, read_message_a"]}
{"id": "C74", "title": "Decoding a SignatureNoiseMessage never panics", "statement": "deserialize::<SignatureNoiseMessage> returns Ok or Err - never panics - for every byte slice.", "quantifier": "every slice and start offset, both build profiles, any version of the ed25519 crate", "why_tests_cant": "not tested", "anchors": ["stratumv2/src/noise/types.rs: Deserializable for Signature", "stratumv2/src/noise/signature_noise_message.rs"]}
{"id": "C75", "title": "ConnectionEncryptor::recv_handshake never panics", "statement": "recv_handshake and init_handshake return Ok or Err - never panic - whatever the state of the encryptor and the bytes received.", "quantifier": "every encryptor state, every buffer", "why_tests_cant": "the fuzz target feeds one message to a fresh encryptor", "anchors": ["stratumv2/src/network/encryptor.rs: recv_handshake, init_handshake", "fuzz/src/bin"]}
{"id": "C76", "title": "X25519 key pairs always agree", "statement": "For the X25519 of RFC 7748, any two private keys (of any bytes) give the same shared secret on both sides, the secret is never all zero, and PublicKey::from_bytes accepts every derived public key.", "quantifier": "all pairs of private keys", "why_tests_cant": "2^512 pairs; the tests draw one", "anchors": ["stratumv2/nx-noise/src/types.rs: Keypair::default, Keypair::dh, PublicKey::from_bytes"]}
{"id": "C77", "title": "The handshake works for every choice of private keys", "statement": "With BLAKE2s, ChaCha20-Poly1305 and X25519 as in the RFCs: for all static and ephemeral private keys, every prologue and all payloads within the limits, the NX handshake completes with equal keys and hash on both sides, and the channel then delivers everything in order.", "quantifier": "all private keys, prologues, payloads and schedules", "why_tests_cant": "one run with random keys", "anchors": ["stratumv2/nx-noise/src/noisesession.rs: send_message, recv_message", "stratumv2/nx-noise/src/state.rs"]}
{"id": "C78", "title": "A session in transport mode holds no handshake secret", "statement": "Once is_transport is true, the static private key, the pre-shared key, the chaining key and the handshake cipher key stored in the session are all zero whatever calls are made before and after; the ephemeral private key too unless the caller installs a new one.", "quantifier": "every finite call history", "why_tests_cant": "no test looks at the fields after the handshake", "anchors": ["stratumv2/nx-noise/src/noisesession.rs: send_message, recv_message", "stratumv2/nx-noise/src/state.rs: HandshakeState::clear, SymmetricState::clear"]}
{"id": "C79", "title": "end_session erases all secrets", "statement": "After end_session every key field of the session (private keys, pre-shared key, chaining key, handshake and transport cipher keys) holds zeros or the public initial value, whatever the history of the session.", "quantifier": "every finite call history", "why_tests_cant": "the method consumes the session, so a test cannot look at it", "anchors": ["stratumv2/nx-noise/src/noisesession.rs: end_session", "stratumv2/nx-noise/src/state.rs: HandshakeState::clear"]}
{"id": "C80", "title": "Walking the sources of an error ends", "statement": "For every error of the library, following Error::source repeatedly reaches an error without source.", "quantifier": "every error value", "why_tests_cant": "tests compare the variant only; a non-terminating chain hangs error reporters", "anchors": ["stratumv2/nx-noise/src/error.rs: impl Error for NoiseError", "stratumv2/src/error.rs"]}
{"id": "C81", "title": "Key pair construction", "statement": "Keypair::from_private_key and PrivateKey::generate_public_key refuse exactly the all-zero key; otherwise the public key is the X25519 image of the private key, accepted by PublicKey::from_bytes, and any two such pairs agree.", "quantifier": "every 32-byte private key", "why_tests_cant": "one key tested", "anchors": ["stratumv2/nx-noise/src/types.rs: Keypair::from_private_key, PrivateKey::generate_public_key"]}
{"id": "C82", "title": "Ed25519 signatures verify", "statement": "For the Ed25519 of RFC 8032: for every seed and every message the signature made by the key pair verifies under its public key and the key is accepted; a key is accepted exactly when its bytes name a point of the curve, a signature exactly when S is reduced and R encodes [S]B - [k]A.", "quantifier": "all seeds, all messages, all keys and signatures", "why_tests_cant": "the tests draw one key pair", "anchors": ["stratumv2/src/noise/signed_certificate.rs: authority_sign_cert", "stratumv2/src/noise/certificate_format.rs: verify"]}
{"id": "C83", "title": "The pool is authenticated for every choice of keys", "statement": "With Ed25519, BLAKE2s, ChaCha20-Poly1305 and X25519 as in the RFCs: for every authority seed, all static and ephemeral private keys and any clock readings, the miner's verdict on the pool's certificate in the noise_handshake flow is true exactly until the certificate expires.", "quantifier": "all seeds, all private keys, all times", "why_tests_cant": "one run with random keys", "anchors": ["examples/noise_handshake.rs", "stratumv2/src/noise/certificate_format.rs"]}
{"id": "C84", "title": "Exactly which public keys give a zero shared secret", "statement": "For the X25519 of RFC 7748 and every private key, a 32-byte public key gives the all-zero secret exactly when its value without the top bit is one of seven numbers; hence the check of PublicKey::from_bytes misses exactly the seven keys with the top bit set and refuses five keys that never give zero.", "quantifier": "all private keys, all 32-byte public keys", "why_tests_cant": "2^512 pairs; needs the number of points of the curve and of its twist", "anchors": ["stratumv2/nx-noise/src/types.rs: PublicKey::from_bytes, Keypair::dh"]}
{"id": "C85", "title": "Every handshake call returns exactly the specified result", "statement": "In a handshake whose earlier calls succeeded, for every buffer of any length, each of the four handshake calls (write and read the first message, write and read the second) returns the one result given by a table over the length, the low-order check and, for the second message, the Noise specification's own reader and writer stopped at each token; panics included.", "quantifier": "every buffer, prologue and consistent key pair; every primitive record satisfying the laws", "why_tests_cant": "tests use a few fixed buffer lengths and honest peers", "anchors": ["stratumv2/nx-noise/src/state.rs: write_message_a, read_message_a, write_message_b, read_message_b", "stratumv2/nx-noise/src/noisesession.rs: send_message, recv_message"]}
{"id": "C86", "title": "Which inputs crash the fuzz programs", "statement": "With each closure run once, on every input, the fuzz programs for mining messages, setup messages, network frames and connection encryptors run to their end without a panic; noise.rs panics exactly when the ed25519 crate checks signatures on construction and the input has at least 74 bytes whose signature field is not canonical (C74).", "quantifier": "every input", "why_tests_cant": "fuzzing samples the inputs", "anchors": ["fuzz/src/bin/mining_messages.rs", "fuzz/src/bin/setup_connection.rs", "fuzz/src/bin/network_frame.rs", "fuzz/src/bin/connection_encryptor.rs", "fuzz/src/bin/noise.rs"]}
{"id": "C87", "title": "One encryptor fed any inputs one after another never panics", "statement": "Calling recv_handshake on a fresh ConnectionEncryptor with any sequence of byte strings, ignoring errors, never panics.", "quantifier": "every sequence of inputs; inbound and outbound encryptors", "why_tests_cant": "needs two related inputs, the second authenticated under a derived key", "anchors": ["stratumv2/src/network/encryptor.rs: recv_handshake", "fuzz/src/bin/connection_encryptor.rs"]}
{"id": "C88", "title": "The handshake hash binds the transcript", "statement": "A session that has finished the handshake reports the hash chained over the protocol name, its prologue and the exact bytes of both messages it saw; so two finished sessions of any role that report the same hash agree on the prologue and on every byte of both messages, unless two strings hashed by these very runs collide.", "quantifier": "all prologues, keys, payloads and bytes delivered by the network", "why_tests_cant": "only equality in honest runs is tested; the converse needs every altered run", "anchors": ["stratumv2/nx-noise/src/noisesession.rs: send_message, recv_message, get_handshake_hash", "stratumv2/nx-noise/src/state.rs: mix_hash"]}
{"id": "C89", "title": "The opening message is authenticated by the reply", "statement": "If an initiator accepts the reply of a responder, the responder was started with the same prologue and read exactly the bytes the initiator sent, unless two strings hashed by these runs collide or a box sealed for one hash opens for a different one; when the ephemeral key arrived unchanged both boxes are under the same key.", "quantifier": "all alterations of the first message, all prologues, keys and payloads", "why_tests_cant": "tests alter no message", "anchors": ["stratumv2/nx-noise/src/noisesession.rs: send_message, recv_message", "stratumv2/nx-noise/src/state.rs: read_message_b, write_message_b"]}
{"id": "C90", "title": "Decoding any bytes as any message has exactly the specified outcome", "statement": "For every message type and every byte string, at any position of the parser and in both build profiles, decoding gives the value and the position, or the error, that a field-by-field reading of the bytes prescribes: the first field in wire order that fails decides the error, checks of the whole message come last; the reading allows one outcome only. The same holds for unframe on a frame of the right type.", "quantifier": "all message types, all byte strings", "why_tests_cant": "the error of a malformed message depends on all fields before it", "anchors": ["stratumv2/src/macro_message/message.rs", "stratumv2/src/macro_message/setup_connection.rs", "stratumv2/src/common/setup_connection.rs", "stratumv2/src/mining/", "stratumv2/src/codec/frame.rs: unframe"]}
{"id": "C91", "title": "The example pool survives any client", "statement": "Whatever bytes a client sends (or none), the pool of the setup_connection example does not panic.", "quantifier": "every byte string read in one call", "why_tests_cant": "the example runs against its own miner only", "anchors": ["examples/setup_connection.rs: Pool::handle_recv_bytes"]}
{"id": "C92", "title": "The example pool answers only complete requests", "statement": "If only the first bytes of the frame of a mining SetupConnection have arrived when the pool reads, it does not answer.", "quantifier": "every constructible SetupConnection, every prefix of its frame", "why_tests_cant": "loopback connections deliver small writes whole", "anchors": ["examples/setup_connection.rs: Pool::listen, Pool::handle_recv_bytes"]}
{"id": "C93", "title": "The text of a Noise error identifies it", "statement": "Different errors of nx-noise are displayed with different texts.", "quantifier": "all pairs of errors", "why_tests_cant": "no test prints errors", "anchors": ["stratumv2/nx-noise/src/error.rs: impl Display for NoiseError"]}
{"id": "C94", "title": "Every history of attempts at the second message has exactly the specified results", "statement": "After any list of second messages refused with an error (or of reply buffers that were too small) the session is in the state the Noise tokens processed so far prescribe, uniquely determined, and the next attempt with any bytes has exactly the result of the table for that state.", "quantifier": "all histories of failed attempts, all next messages or buffers", "why_tests_cant": "tests make at most one attempt", "anchors": ["stratumv2/nx-noise/src/noisesession.rs: send_message, recv_message", "stratumv2/nx-noise/src/state.rs: read_message_b, write_message_b"]}
{"id": "C95", "title": "The noise example's miner does exactly the specified thing on any connections", "statement": "For any sequence of connections, each sending any bytes (or closing at once) at any clock reading, the miner of the noise_handshake example prints the verdicts, and panics where, the Noise specification and the certificate layout prescribe over its one reused buffer; the prescription allows one behaviour. It prints true only for a certificate of the peer's static key that the authority's key verifies, received under the key of that handshake before its expiry; with the example's pool it prints whether the certificate has expired.", "quantifier": "every list of connections, every clock, every primitive record satisfying the laws", "why_tests_cant": "the example meets only its own pool, once", "anchors": ["examples/noise_handshake.rs: main, Miner::listen, Miner::handle_recv_bytes"]}
{"id": "C96", "title": "The noise example's pool does exactly the specified thing with any client", "statement": "For any bytes sent by its one client and any clock readings, the pool of the noise_handshake example either sends the second handshake message of the Noise specification over the padded buffer followed by the encrypted certificate message for its static key, or panics, exactly as a table prescribes; the table allows one outcome.", "quantifier": "every byte string read in one call, every clock, every key", "why_tests_cant": "the example meets only its own miner", "anchors": ["examples/noise_handshake.rs: Pool::new, Pool::listen, Pool::handle_recv_bytes"]}
{"id": "C97", "title": "A stray connection does not stop the noise example programs", "statement": "Whatever its connections send, or if they send nothing, neither program of the noise_handshake example panics.", "quantifier": "every list of connections", "why_tests_cant": "the example accepts no foreign connection", "anchors": ["examples/noise_handshake.rs: Pool::listen, Miner::listen"]}
{"id": "C98", "title": "Every history of calls on an established session has exactly the specified results", "statement": "After the handshake, for every finite history of send, receive, clear, rekey and set-ephemeral calls with any buffers, each call returns the result and buffer, and leaves the two keys and counters, that a table over (key, counter) pairs prescribes; the table allows one outcome (up to the garbage a refused message leaves before its tag).", "quantifier": "every reachable session, every finite call history", "why_tests_cant": "a history mixes all calls in any order", "anchors": ["stratumv2/nx-noise/src/noisesession.rs: send_message, recv_message, clear_*_cipherstate, rekey_*_cipherstate", "stratumv2/nx-noise/src/state.rs: CipherState"]}
{"id": "C99", "title": "An altered message passes for few one-time keys only", "statement": "For a sealed message and any other message (other ciphertext, tag or associated data), the Poly1305 multipliers for which the other one is accepted in its place are at most eight per 16-byte block; at an established session at most 2^15 of the 2^106 possible multipliers, and none if only the tag differs. Without a sealed message at hand each multiplier leaves exactly one of the 2^128 pads.", "quantifier": "all pairs of messages, all cipher keys, nonces and plaintexts, every reachable session in transport mode", "why_tests_cant": "the exceptional keys cannot be met by testing", "anchors": ["stratumv2/nx-noise/src/noisesession.rs: recv_message", "stratumv2/nx-noise/src/prims.rs: decrypt", "stratumv2/nx-noise/src/state.rs: CipherState::decrypt_with_ad"]}
{"id": "C100", "title": "The example miner survives any answer", "statement": "Whatever bytes arrive at the miner of the setup_connection example (or none), it does not panic.", "quantifier": "every byte string read in one call", "why_tests_cant": "the example runs against its own pool only", "anchors": ["examples/setup_connection.rs: Miner::listen, Miner::handle_recv_bytes"]}
{"id": "C101", "title": "The flags the example miner prints are those of the pool's answer", "statement": "However many bytes of the pool's answer the one read returns, the miner of the setup_connection example prints no flags other than those the pool sent.", "quantifier": "every request the pool answers, every set of flags, every prefix of the answer", "why_tests_cant": "loopback connections deliver small writes whole", "anchors": ["examples/setup_connection.rs: Miner::listen, Miner::handle_recv_bytes"]}
{"id": "C102", "title": "The text of flags names exactly the flags set", "statement": "For every set of known flags of each of the four flag types, the Debug text is the names of the flags set, in the order of their bits, joined by ' | ', or the text for the empty set; different sets have different texts.", "quantifier": "all flag types, all sets of known flags", "why_tests_cant": "no test prints flags", "anchors": ["stratumv2/src/mining/setup_connection.rs", "stratumv2/src/mining/setup_connection_success.rs", "stratumv2/src/job_negotiation/setup_connection.rs", "stratumv2/src/job_negotiation/setup_connection_success.rs"]}
{"id": "C103", "title": "The text of an error of the library identifies it", "statement": "Different errors of stratumv2 are displayed with different texts.", "quantifier": "all pairs of errors, all payload strings", "why_tests_cant": "no test prints errors", "anchors": ["stratumv2/src/error.rs: Error"]}
{"id": "C104", "title": "Key and hash mixing follow the Noise specification for any names and calls", "statement": "For a protocol name of any length and any sequence of mix_key, mix_hash and mix_key_and_hash calls with any data, the chaining key, hash, cipher key and counter, and the two keys split from them, are those of section 5.2 of the Noise specification (the all-zero key standing for no key).", "quantifier": "all names, all sequences of calls, every primitive record satisfying the laws", "why_tests_cant": "the code runs with one fixed name; mix_key_and_hash is never called", "anchors": ["stratumv2/nx-noise/src/state.rs: initialize_symmetric, mix_key, mix_hash, mix_key_and_hash, split"]}
{"id": "C105", "title": "Two parties that report the same handshake hash share keys, whatever the network did", "statement": "Two honest parties each accept an arbitrary handshake message. If the two sessions report the same handshake hash, they are the two ends of one completed handshake (same transport keys, the responder's static key known to the initiator), unless two strings hashed by these runs collide. The same holds without comparing hashes if the initiator accepts the responder's own answer, unless moreover a box sealed for one hash opens for another.", "quantifier": "all bytes delivered to either side, all prologues, keys and payloads, every primitive record satisfying the laws", "why_tests_cant": "the attacker may replace both messages", "anchors": ["stratumv2/nx-noise/src/noisesession.rs: send_message, recv_message, get_handshake_hash", "stratumv2/nx-noise/src/state.rs"]}
{"id": "C106", "title": "The j-th message accepted is the j-th one sent, up to a counted set of one-time keys", "statement": "After a completed handshake, for any send and receive calls of both sides with the attacker choosing every received byte string: the j-th message accepted is sealed under the key and counter of the j-th message sent, and delivers its plaintext exactly if it is that message; it is another one only if the Poly1305 multiplier for counter j is one of at most 2^15 (of 2^106) numbers determined by the two messages. With rekeying, the key is replaced as often as that side has rekeyed, and the same holds where both sides have rekeyed equally often.", "quantifier": "all call histories without clear on both sides, all received bytes", "why_tests_cant": "the attacker chooses every received message", "anchors": ["stratumv2/nx-noise/src/noisesession.rs: send_message, recv_message", "stratumv2/nx-noise/src/state.rs: CipherState", "stratumv2/nx-noise/src/prims.rs: encrypt, decrypt"]}
{"id": "C107", "title": "Every thread using a peer's queue ends", "statement": "Any number of threads push to and drain the queue of a peer. However they are scheduled, they make at most four moves per operation; after that many rounds in which every thread gets a turn, all have ended; under every unending schedule that gives each thread a turn again and again, all end and nothing changes afterwards, and if no thread panics, all complete their work.", "quantifier": "all programs of all threads, all schedules, no bound on numbers or lengths", "why_tests_cant": "a test sees a few schedules", "anchors": ["stratumv2/src/network/peer.rs"]}
{"id": "C108", "title": "Values equal to the same plain value are equal", "statement": "Two values of a wire type (byte vectors, strings, U24, U256) that are == to the same plain value are == to each other; a value is == to the plain value it was made from and to no other, on either side of ==, and converts back into it; an error code displays as the string it has on the wire.", "quantifier": "all plain values, all values of the types (their fields are public)", "why_tests_cant": "the tests compare values made by the constructors with one plain value each", "anchors": ["stratumv2/src/types/bytes.rs", "stratumv2/src/types/strings.rs", "stratumv2/src/types/fixed.rs", "stratumv2/src/types/error_code.rs"]}
{"id": "C109", "title": "Every history of calls on a session from its creation has exactly the specified results", "statement": "For every finite history of send, receive, clear, rekey and set-ephemeral calls with any buffers on a new session of either role, in any order (retries after failures, reading where a message was to be written, calls after a panic), each call returns the result and buffer that a table in terms of the Noise specification prescribes, and the session then reports the stage, message count, handshake hash and remote key of that table; the table allows one outcome (up to the garbage a refused message leaves).", "quantifier": "every role, prologue and static key pair, every finite call history", "why_tests_cant": "the handshake state after a failed call depends on how far it got; histories mix roles and failures", "anchors": ["stratumv2/nx-noise/src/noisesession.rs: init_session, send_message, recv_message", "stratumv2/nx-noise/src/state.rs: HandshakeState, SymmetricState, CipherState"]}
{"id": "C110", "title": "A handshake altered on the way completes for few one-time keys only", "statement": "If the initiator and the responder disagree about the prologue or about any byte of either handshake message, but have computed the same first shared secret (as when the ephemeral keys arrive unchanged), the initiator accepts only if two strings hashed by these runs collide, or the one-time authenticator multiplier under the first handshake key is one of at most 40 values, or that under the second key one of at most 2^15 (of 2^106); the values depend on the prologues and messages only.", "quantifier": "all prologues, messages, keys; any alteration", "why_tests_cant": "quantifies over all alterations and counts keys", "anchors": ["stratumv2/nx-noise/src/state.rs: write_message_b, read_message_b, encrypt_and_hash, decrypt_and_hash", "stratumv2/nx-noise/src/noisesession.rs: send_message, recv_message"]}
{"id": "C111", "title": "Every protocol message sent over an established session arrives as the same message", "statement": "After a completed handshake, for every interleaving of sends and reads without rekeying in which each side frames, serializes and sends protocol messages built by the constructors: every send succeeds, and the plaintexts read on the other side are, in order, the first messages sent, each decoding and unframing to the same message; the rest is on the way. Every message a constructor returns can be framed, and its frame is at most (and for some message exactly) as long as a table per kind says.", "quantifier": "all messages of the 15 kinds, all interleavings, every primitive record satisfying the laws", "why_tests_cant": "the tests send one message of one kind over one session at most", "anchors": ["stratumv2/src/codec/frame.rs", "stratumv2/src/mining", "stratumv2/src/job_negotiation", "stratumv2/nx-noise/src/noisesession.rs: send_message, recv_message"]}
{"id": "C112", "title": "A signature belongs to one certificate", "statement": "Under an authority key that the program accepts, a signature that verifies one certificate verifies no other certificate, and a certificate accepted with a signature is refused when the second half of the signature is changed.", "quantifier": "all authority keys, certificates, signatures and times", "why_tests_cant": "needs two inputs that verify under one signature", "anchors": ["stratumv2/src/noise/certificate_format.rs: new, verify", "stratumv2/src/noise/types.rs: StaticPublicKey, Signature"]}
{"id": "C113", "title": "Private keys that share a public key or a secret share the scalar, but for rare partners", "statement": "Two 32-byte private keys have the same X25519 public key exactly if bits 3 to 253 agree or their scalars add up to eight times the group order; the same holds for the secret shared with any public key that has a non-zero secret (with the order of the curve or of its twist). Scalars with such a partner lie within 2^129 of an end of the range of 2^251 scalars; at most 64 private keys have a given public key; two sessions open with the same ephemeral key only for such draws. Authority (Ed25519) public keys are equal exactly if the scalars are.", "quantifier": "all private keys, all public keys, all pairs of sessions", "why_tests_cant": "collisions are too rare to be met by tests", "anchors": ["stratumv2/nx-noise/src/types.rs: PublicKey::generate_public_key, PrivateKey, Keypair::dh, Keypair::default", "stratumv2/src/noise/types.rs: generate_authority_keypair"]}
{"id": "C114", "title": "The secret shared with a peer determines the peer's public key", "statement": "If two public keys that PublicKey::from_bytes accepts give some private key the same X25519 shared secret, they stand for the same number (the top bit is ignored and the rest is read modulo the prime). In particular the remote key that an initiator reports after a handshake is the public key of the private key the responder used.", "quantifier": "all public keys, all private keys, all handshakes", "why_tests_cant": "a second key with the same secrets is never drawn by chance", "anchors": ["stratumv2/nx-noise/src/types.rs: PublicKey::from_bytes, Keypair::dh", "stratumv2/nx-noise/src/state.rs: write_message_b, read_message_b", "stratumv2/nx-noise/src/noisesession.rs: get_remote_static_public_key"]}
{"id": "C115", "title": "The error of a rejected SetupConnection names what is wrong", "statement": "When SetupConnection::new refuses its arguments, the text of the error tells which argument is at fault: two calls that violate different requirements fail with different texts. The requirements are checked in a fixed order (vendor not empty, firmware not empty, min_version, max_version, string lengths) and the text is that of the first one violated.", "quantifier": "all arguments of SetupConnection::new", "why_tests_cant": "tests check that an error occurs, at most its variant, never the text for every combination of faults", "anchors": ["stratumv2/src/macro_message/setup_connection.rs: new", "stratumv2/src/types/strings.rs: new"]}
{"id": "C116", "title": "The text of every decoding failure is exact", "statement": "For every message type and every byte sequence the outcome of decoding is determined including the text of the error: which check failed first, and for a string that is not UTF-8 the index of the first byte that is not part of a character and the number of bytes at fault, or that the string ends too early. The same for frames. Without the texts these are the decoders the other claims are about.", "quantifier": "all message types, all byte sequences, all positions in a buffer, both build profiles", "why_tests_cant": "there are too many ways in which bytes can be wrong, and tests look at the variant of the error only", "anchors": ["stratumv2/src/codec/parser.rs", "stratumv2/src/codec/frame.rs", "stratumv2/src/codec/deserialize.rs", "stratumv2/src/types/strings.rs", "stratumv2/src/types/bytes.rs", "stratumv2/src/types/fixed.rs", "stratumv2/src/types/flags.rs", "stratumv2/src/types/error_code.rs", "stratumv2/src/macro_message/setup_connection.rs", "stratumv2/src/macro_message/setup_connection_error.rs", "stratumv2/src/common/setup_connection.rs"]}
{"id": "C117", "title": "What is printed for a failure identifies it", "statement": "Two failures of decoding a message, decoding a frame, unframing, SetupConnection::new or SignedCertificate::new that print the same text are the same error with the same text inside: no failure can be mistaken for another in a log. Two strings that are refused as UTF-8 with the same text go wrong at the same index in the same way.", "quantifier": "all failures of these functions on all inputs", "why_tests_cant": "needs a comparison of every failure with every other", "anchors": ["stratumv2/src/error.rs", "stratumv2/src/codec/parser.rs", "stratumv2/src/codec/frame.rs", "stratumv2/src/types/strings.rs", "stratumv2/src/macro_message/setup_connection.rs"]}
{"id": "C118", "title": "A refused certificate says why", "statement": "The outcome of CertificateFormat::new, CertificateFormat::verify and SignedCertificate::new on every input, with the text of the error: an authority key of the wrong length, an expired message and an empty validity period each have their own text; the errors of the base58, ed25519 and time functions are passed on unchanged.", "quantifier": "all authority texts, static keys, messages, clocks, ed25519 functions", "why_tests_cant": "needs an exhaustive treatment of keys, clocks and signatures", "anchors": ["stratumv2/src/noise/certificate_format.rs: new, verify", "stratumv2/src/noise/signed_certificate.rs: new"]}
{"id": "C119", "title": "A message declared with impl_message! is written field by field", "statement": "For every list of field types and every value of each field, the code that impl_message! generates writes the images of the fields in the order of the declaration with nothing between them and returns the number of bytes written; when a writer fails, a beginning of that has been written and the error is IOError. No encoding is the beginning of the encoding of a different message of the same declaration. Every message of the crate except the common SetupConnection enum writes and reads what the macro generates for its declared fields.", "quantifier": "all lists of field types of the crate, all field values, all writers that take whole buffers until they fail", "why_tests_cant": "the test of the macro declares one message; the claim is about all declarations", "anchors": ["stratumv2/src/macro_message/message.rs: impl_message!", "README.md"]}
{"id": "C120", "title": "A message declared with impl_message! is read field by field", "statement": "For every list of field types, every constructor `new` and every byte sequence: the fields are read in the order of the declaration, the first field that cannot be read gives the error, and if all can be read the result is what `new` returns; the generated code adds no panic. If no field is a bool, the fields read are exactly those whose images stand in front of the reader. A message that was written reads back to what `new` makes of its fields, so the round trip is the identity exactly if `new` accepts the fields unchanged.", "quantifier": "all lists of field types of the crate, all constructors, all byte sequences, all positions in a buffer, both build profiles", "why_tests_cant": "the test of the macro decodes one message; the claim is about all declarations and all inputs", "anchors": ["stratumv2/src/macro_message/message.rs: impl_message!", "README.md"]}
{"id": "C121", "title": "Every declared message can be sent in a frame", "statement": "For every declaration and every message of it, frame gives a frame of the declared type whose serialization can be read back and unframed. unframe takes a frame for the message exactly if the type agrees and the payload starts with the fields, and refuses other types with UnexpectedMessageType naming the declared type.", "quantifier": "all lists of field types of the crate, all constructors, all message types, all frames", "why_tests_cant": "needs messages of 16 MB and all declarations", "anchors": ["stratumv2/src/macro_message/message.rs: impl_message!", "stratumv2/src/codec/frame.rs: frame, unframe, Message::serialize"]}
{"id": "C122", "title": "ParseError means that bytes are missing, and nothing else does", "statement": "For every wire type, every message of the crate and every declared message whose constructor does not itself return ParseError: decoding a byte sequence gives ParseError exactly if some continuation of the bytes decodes to something else. Every other result, value or error, stays the same whatever bytes follow. For each type there is a number of bytes that is always enough to get a result other than ParseError, and one byte less is not always enough; for a declared message the sum over the fields is enough.", "quantifier": "all wire types, all lists of field types and constructors, all byte sequences, all continuations, both build profiles", "why_tests_cant": "about all continuations of an input; a test can try only some, and a receiver that waits on a wrong ParseError waits forever", "anchors": ["stratumv2/src/codec/parser.rs: ByteParser::next_by", "stratumv2/src/codec/", "stratumv2/src/types/", "stratumv2/src/macro_message/message.rs: impl_message!"]}
{"id": "C123", "title": "However a stream of frames is cut into pieces, the same frames are taken from it", "statement": "A receiver keeps a buffer, puts every piece it gets behind it, takes frames from the front as long as deserialize::<Message> gives one (removing 6 bytes and the payload each time), waits on ParseError and stops on any other error. For every stream and every way to cut it into pieces, the frames taken and the error, if any, are the same as for the uncut stream, and without an error so is the buffer that remains. If frames were serialized one after the other, followed by nothing or by the beginning of one more, exactly those frames are taken and exactly the beginning remains.", "quantifier": "all byte streams, all ways to cut them, any number of frames of any type and size, both build profiles", "why_tests_cant": "about all ways to cut all streams", "anchors": ["stratumv2/src/codec/frame.rs: Message::deserialize, Message::serialize", "stratumv2/src/codec/parser.rs: ByteParser::next_by", "stratumv2/src/codec/deserialize.rs: deserialize"]}
{"id": "C124", "title": "A declared message can be a field of a declared message, to any depth", "statement": "impl_message! asks of a field type only the traits that it implements for the struct. For every nesting of declarations, to any depth, and every value that the constructors can build: the value is written as the images of the innermost fields in order, nothing is added for the nesting, the count is the number of bytes, a failing writer has taken a beginning; the bytes read back as the value; no encoding is the beginning of a different one; the message can be framed and unframed if it has less than 2^24 bytes. If constructors store what they are given and do not panic and no field is a bool, then bytes that decode to a value are exactly the bytes that the value is written to.", "quantifier": "all nestings of declarations over the wire types of the crate, all constructors, all values, all writers that take whole buffers until they fail, all positions in a buffer", "why_tests_cant": "no test nests declarations; the claim is about every depth", "anchors": ["stratumv2/src/macro_message/message.rs: impl_message!", "README.md"]}
{"id": "C125", "title": "Nested messages are read innermost field first, and ParseError means missing bytes at every depth", "statement": "For every nesting of declarations whose constructors store what they are given and do not panic, and every byte sequence, the result is determined by the declarations: fields are read in order, a field that is itself a message is read whole and passed to its constructor before the next field is read, and the first error, of a field or of a constructor, is the result; there is no panic. If no constructor returns ParseError itself, ParseError is the result exactly if some continuation of the bytes gives another result.", "quantifier": "all nestings of declarations over the wire types of the crate, all such constructors, all byte sequences and continuations, both build profiles", "why_tests_cant": "no test nests declarations; the claim is about every depth and every input", "anchors": ["stratumv2/src/macro_message/message.rs: impl_message!", "README.md"]}
{"id": "C126", "title": "The handshake hash of any history of calls covers every message read or written, refused attempts included", "statement": "For a session in either role and any calls in any order: once in transport mode, the handshake hash is the chain of hashes over the prologue, the two parts of the first message, for every refused attempt at the second message a prefix of that message (nothing, the public key, or the public key and the sealed static key; which one follows from the error returned and the length, and after a failed decryption or an all-zero key it is one of the last two), and the three parts of the second message. Two sessions with any histories that report the same hash were given the same prologue, wrote or read the same two handshake messages and have the same refused parts in between, unless two different strings hashed on the way have the same hash.", "quantifier": "all roles, prologues, keys, all histories of calls with all buffers, all primitives with the laws of the trusted base", "why_tests_cant": "about all histories of calls, with any number of refused messages", "anchors": ["stratumv2/nx-noise/src/state.rs: HandshakeState::write_message_a, write_message_b, read_message_a, read_message_b", "stratumv2/nx-noise/src/noisesession.rs: send_message, recv_message, get_handshake_hash", "stratumv2/nx-noise/src/state.rs: SymmetricState::mix_hash, encrypt_and_hash, decrypt_and_hash"]}
{"id": "C127", "title": "Same handshake hash means same keys, after any number of refused attempts on either side", "statement": "One session writes the first message and then only receives; another reads a first message and then only tries to write the second one, installing key pairs or drawing new ones as it likes. The network delivers whatever it wants, and any number of attempts is refused on either side. If both get into transport mode and report the same handshake hash, then both hold the same two transport keys, the initiator reports the responder's static key, and prologue and transcript are the same, unless two different strings hashed on the way have the same hash.", "quantifier": "all keys and key pairs, prologues, buffers, all histories of calls before, between and after the messages as described, all network behaviour; X25519, BLAKE2s and ChaCha20-Poly1305 concretely", "why_tests_cant": "about an active attacker and all histories of refused attempts", "anchors": ["stratumv2/nx-noise/src/state.rs: HandshakeState::write_message_b, read_message_b", "stratumv2/nx-noise/src/noisesession.rs: send_message, recv_message, get_handshake_hash, get_remote_static_public_key", "stratumv2/nx-noise/src/state.rs: SymmetricState::mix_key, split"]}
{"id": "C128", "title": "Attempts at the reply that are delivered as they are can be repeated until one succeeds", "statement": "After an honest first message the responder tries to write the reply in one buffer after the other, until an attempt succeeds, and after each attempt the initiator is given what is in the buffer. If no buffer has 32 to 47, 80 to 95 or 2129 to 65535 bytes, the initiator accepts exactly the attempts that succeeded; both sides are in transport mode or neither is, and if they are they hold the same keys, counters and handshake hash and the initiator reports the responder's static key. With a buffer of 96 to 2128 bytes among them they get there, unless an all-zero key comes out of HKDF. The sizes matter: with a buffer of 80 to 95 or 2129 to 65535 bytes the initiator panics on what is left in it (again unless a key is all zero), and after an attempt in 40 bytes it refuses the reply that follows.", "quantifier": "all keys, prologues, first buffers, all lists of buffers of those sizes; in C128_x25519 over X25519, BLAKE2s and ChaCha20-Poly1305", "why_tests_cant": "about any number of failed attempts", "anchors": ["stratumv2/nx-noise/src/state.rs: write_message_b, read_message_b", "stratumv2/nx-noise/src/noisesession.rs: send_message, recv_message"]}
{"id": "C129", "title": "Every history of calls on a ConnectionEncryptor has exactly the specified results", "statement": "Any calls of init_handshake and recv_handshake on a fresh ConnectionEncryptor, inbound or outbound, in any order and with any bytes, up to the first panic: every result, and what is_handshake_complete and get_remote_pubkey say afterwards, is the one given by the table of C109 for a recv_message followed by a send_message in the same buffer, or a send_message in 1024 zero bytes. Once the handshake is complete it stays complete, the remote key stays the same and no call panics.", "quantifier": "all keys, all sequences of calls and inputs", "why_tests_cant": "about sequences of any length", "anchors": ["stratumv2/src/network/encryptor.rs: init_handshake, recv_handshake, is_handshake_complete, get_remote_pubkey, new_inbound, new_outbound"]}
{"id": "C130", "title": "Two encryptors that hand each other every answer go on until the counter is used up", "statement": "When every answer of recv_handshake is handed to the other encryptor as it is, the exchange does not end with the handshake: the initiator's last call and every later one answer with a transport message, and all of them seal the same 1008 bytes: the responder's ephemeral and static public keys, bytes 64 to 79 of the reply (the tag of the static key) and 928 zero bytes. Exactly 2^65 - 1 answers are given; then the initiator's recv_handshake returns ExhaustedNonceError.", "quantifier": "all keys with the properties of C62, any number of answers; in C130_x25519 all private keys", "why_tests_cant": "2^65 calls", "anchors": ["stratumv2/src/network/encryptor.rs: init_handshake, recv_handshake", "stratumv2/nx-noise/src/noisesession.rs: send_message, recv_message"]}
{"id": "C131", "title": "A session in transport mode never goes back to the handshake, although its counter is a u128", "statement": "Once a session is in transport mode no call brings it back to the handshake, whatever is called and however often, in builds with overflow checks and without: the width of the message counter cannot be seen.", "quantifier": "all histories of API calls of any length, both builds", "why_tests_cant": "2^128 calls", "anchors": ["stratumv2/nx-noise/src/noisesession.rs: mc (line 41), send_message (line 164), recv_message (line 200)"]}
{"id": "C132", "title": "The same bytes mean the same on a 32-bit machine", "statement": "Every wire type, every frame and every message declared with impl_message!, nested to any depth, is decoded on a machine with a 32-bit usize exactly as on one with 64 bits: same value or error, same number of bytes consumed, no panic; frames are written with the same bytes, and a payload that is too long is always refused on the 32-bit machine.", "quantifier": "every wire type, every declaration, every slice a 32-bit machine can hold, every writer, both build profiles", "why_tests_cant": "the tests run on one machine only; overflow of the cursor needs lengths near 2^32", "anchors": ["stratumv2/src/codec/parser.rs: ByteParser::next_by (lines 16-26)", "stratumv2/src/codec/frame.rs: Message::serialize (lines 33-54), Message::deserialize (lines 56-74)", "stratumv2/src/types/bytes.rs: impl_sized_B0 (lines 62-71)"]}
{"id": "C133", "title": "The generated tests of a message show that its fields are encoded in the right order", "statement": "An implementation that passes the tests which impl_message_tests! generates writes and reads every field correctly and in the declared order.", "quantifier": "every declaration, constructor and equality, every test data, every exchange of two fields of one type", "why_tests_cant": "it is about what the tests cannot tell", "anchors": ["stratumv2/src/macro_message/message.rs: impl_message_tests! (lines 56-134)", "stratumv2/src/macro_message/setup_connection.rs: impl_setup_connection_tests! (lines 158-205)"]}
{"id": "C134", "title": "Decoding makes buffers only for bytes that are there", "statement": "Whatever the length fields of the input claim, decoding makes a number of reads that the type alone gives, and the Vecs and Strings it makes hold together no more bytes than it has consumed, plus the text of the error if it fails. A decoded value costs one copy of its variable-length part; reading a frame and the message in it costs at most two copies of the input.", "quantifier": "every wire type, every message declared with impl_message! nested to any depth, all bytes, every position, both build profiles", "why_tests_cant": "a hostile length field can claim 2^24-1 bytes; tests do not measure memory", "anchors": ["stratumv2/src/types/bytes.rs: new, deserialize (lines 24-37, 62-71)", "stratumv2/src/types/strings.rs: deserialize (lines 58-69)", "stratumv2/src/codec/parser.rs: next_by (lines 16-26)", "stratumv2/src/codec/frame.rs: Message::deserialize (lines 56-74)"]}
{"id": "C135", "title": "No index, slice, copy or counter of nx-noise runs out of range, but for a reply of the wrong size", "statement": "After any calls on a new session, no array index, slice, split_at_mut, copy_from_slice or clone_from_slice, no subtraction of lengths and no increment of a nonce in nx-noise fails, in a call of any kind with any buffer, except in the one case of C51: recv_message of a reply whose end has the wrong size. The arrays of the session keep the sizes of their types.", "quantifier": "every set of primitives with the right output sizes, every prologue and key pair, every history of calls, every next call and buffer, both build profiles", "why_tests_cant": "the slices depend on lengths an attacker chooses at every stage of the handshake; tests use one length per stage", "anchors": ["stratumv2/nx-noise/src/utils.rs: from_slice_hashlen, prep_nonce (lines 6-16)", "stratumv2/nx-noise/src/prims.rs: hmac, hkdf (lines 33-71)", "stratumv2/nx-noise/src/state.rs: CipherState, SymmetricState, HandshakeState (lines 53-399)", "stratumv2/nx-noise/src/macros.rs: copy_slices (lines 5-9)", "stratumv2/nx-noise/src/noisesession.rs: send_message, recv_message (lines 146-202)"]}
{"id": "C136", "title": "The byte count that serialize returns, for any writer", "statement": "On machines of 32 and of 64 bits, with and without overflow checks, every type but the frame returns the length of its encoding whatever the writer reports. A frame returns 6 plus what the writer reported for the payload; if a usize cannot hold this sum, serialize panics with overflow checks and returns its low bits without. Messages declared with impl_message! return the sum of their fields in the same sense. No sum overflows for a writer that reports at most what it was offered.", "quantifier": "every type and value that the constructors can build, every declaration nested to any depth, every writer and state of the writer, both widths and profiles", "why_tests_cant": "a writer that reports nearly 2^64 bytes, or nearly 2^32 on a small machine, is in no test", "anchors": ["stratumv2/src/codec/frame.rs: Message::serialize (lines 33-54)", "stratumv2/src/macro_message/message.rs: serialize (lines 30-38)", "stratumv2/src/types/bytes.rs: serialize (lines 74-82)", "stratumv2/src/types/strings.rs: serialize (lines 72-80)", "stratumv2/src/common/setup_connection.rs: serialize (lines 180-198)"]}
{"id": "C137", "title": "The exact range of encoded sizes, and how many bytes a declared message asks for", "statement": "For each wire type and message there is a smallest and a largest encoding, of sizes that are given in a table; every value lies between them and both are reached. Decoding takes a number of bytes in the same range. For a declared message the sums over the fields bound its size and are reached. The number of bytes that is always enough to decode the fields of a declaration follows from the table, since a field may ask for more bytes than it can take; one byte less is not always enough.", "quantifier": "all wire types and messages and their values, all lists of field types, all byte sequences, both build profiles", "why_tests_cant": "the largest values (a frame of 16 MiB, five strings of 255 bytes) are in no test, and that no value is larger or smaller needs all of them", "anchors": ["stratumv2/src/types/bytes.rs: impl_sized_B0 (lines 10-83, 211-215)", "stratumv2/src/types/strings.rs: impl_sized_STR0 (lines 6-81, 183-184)", "stratumv2/src/macro_message/message.rs: impl_message (lines 11-60)", "stratumv2/src/macro_message/setup_connection.rs: new (lines 104-149)", "stratumv2/src/codec/frame.rs: Message (lines 17-77)"]}
{"id": "C138", "title": "Key material in the local arrays of nx-noise", "statement": "When a call on a session returns, none of the arrays declared in the functions it ran still holds a key of the session.", "quantifier": "all sessions, all calls, all cryptographic primitives of the right sizes", "why_tests_cant": "wiping a local array has no effect on any result, so no test can see whether it happens", "anchors": ["stratumv2/nx-noise/src/prims.rs: hmac, hkdf (lines 33-71)", "stratumv2/nx-noise/src/state.rs: rekey (lines 97-106), read_message_regular (lines 116-123), mix_key (lines 155-171), mix_key_and_hash (lines 177-199), split (lines 235-254)", "stratumv2/nx-noise/src/noisesession.rs: send_message (lines 146-166), recv_message (lines 180-202)"]}
{"id": "C139", "title": "Channel ids given one after another differ", "statement": "The ids that new_channel_id gives to the channels of a connection are all different.", "quantifier": "all numbers of calls and all outputs of the random generator", "why_tests_cant": "two equal ids among a few calls are too rare to be met in a test", "anchors": ["stratumv2/src/network/channel.rs: new_channel_id (lines 12-14), ChannelManager (lines 32-45)"]}
{"id": "C140", "title": "The setup_connection example finishes under every fair schedule", "statement": "Whenever the pool's task and the miner of setup_connection.rs both get turns for ever, the miner ends having printed the flags of the pool's answer.", "quantifier": "all schedules of the two tasks, with and without end, all requests and flags", "why_tests_cant": "a test sees the schedules that the machine happens to choose", "anchors": ["examples/setup_connection.rs: main (lines 14-41), Pool::listen (62-82), Pool::handle_recv_bytes (84-114), Miner::listen (128-148)"]}
{"id": "C141", "title": "The noise_handshake example prints its verdict under every fair schedule", "statement": "Whenever the pool's task and the miner of noise_handshake.rs both get turns for ever, the miner prints one verdict: whether the pool's certificate is valid when it is read.", "quantifier": "all schedules of the two tasks, all usable keys, all clocks from 1970 to 2106", "why_tests_cant": "a test sees the schedules that the machine happens to choose, and no certificate that has expired", "anchors": ["examples/noise_handshake.rs: main (lines 19-40), Pool::listen (65-84), Pool::handle_recv_bytes (86-110), Miner::listen (137-158), Miner::handle_recv_bytes (160-182)"]}
{"id": "C142", "title": "The setup_connection example shows the right flags however the network cuts what is sent", "statement": "However the request and the answer are cut into pieces on the way and whenever the pieces arrive, a miner of setup_connection.rs that ends has printed the flags of the pool's answer.", "quantifier": "all requests and flags, all orders of turns and arrivals, all sizes of pieces", "why_tests_cant": "on one machine both messages arrive whole", "anchors": ["examples/setup_connection.rs: main (lines 14-41), Pool::listen (62-82), Pool::handle_recv_bytes (84-114), Miner::listen (128-148)"]}
{"id": "C143", "title": "The Debug text of a message tells which message it is", "statement": "Two messages of a kind have the same {:?} text only if they are the same message, and two frames only if they are the same frame.", "quantifier": "all kinds, all messages, all strings, all payloads, all tables of unprintable characters", "why_tests_cant": "texts are compared by eye for a few messages; strings that imitate quotes or field names are not tried", "anchors": ["stratumv2/src/macro_message/message.rs: derive(Debug) (lines 22-28); types/strings.rs:8-12; types/bytes.rs:12-16; types/fixed.rs:9-10, 87-88; types/message_type.rs:5-42; codec/frame.rs:18-22"]}
{"id": "C144", "title": "The Debug text of an error tells which error it is and what it carries", "statement": "Two errors of the library (or of nx-noise, wrapped) have the same {:?} text, the one a failing unwrap prints, exactly if they are the same variant with the same values, the same string and the same text of a wrapped error.", "quantifier": "all pairs of errors, all strings, all texts of wrapped errors, all tables of unprintable characters", "why_tests_cant": "there are infinitely many strings and numbers, and strings may imitate the brackets and names around them", "anchors": ["stratumv2/src/error.rs: Error, derive(Debug) (lines 4-62); stratumv2/nx-noise/src/error.rs: NoiseError (lines 3-19)"]}
{"id": "C145", "title": "The noise example prints its verdict however its messages are cut on the way", "statement": "In examples/noise_handshake.rs, however what is sent is cut into pieces on the way, if the pool gets the first turn, both tasks get turns for ever and bytes keep arriving, the miner prints its verdict on the pool's certificate.", "quantifier": "all keys, authorities, texts and clocks, all sequences of turns and arriving pieces of any length", "why_tests_cant": "there are infinitely many sequences, and over the loopback interface messages arrive whole", "anchors": ["stratumv2/examples/noise_handshake.rs: main, Pool, Miner (lines 19-188)"]}
