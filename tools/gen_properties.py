#!/usr/bin/env python3
"""Writes /verif/properties.jsonl (single source of the property texts)."""
import json
P = []
def p(title, statement, quantifier, why, *anchors):
    P.append(dict(id="C%02d" % (len(P) + 1), title=title, statement=statement,
                  quantifier=quantifier, why_tests_cant=why, anchors=list(anchors)))

S = "stratumv2/src/"
N = "stratumv2/nx-noise/src/"

# ---- primitive codec -------------------------------------------------------
p("Scalar wire format and round trip",
  "Serializing a u8, u16, u32, f32, bool, U24 (in range) or U256 into a Vec succeeds, appends exactly the little-endian (1/2/4/4/1/3/32-byte) image of the value, and returns that number of bytes; deserializing those bytes, whatever bytes follow them, returns the same value (f32: same bit pattern) and leaves the cursor right after them.",
  "every value of each scalar type, every Vec prefix, every byte suffix",
  "the unit tests use one or two literals per type; 2^32 (or 2^256) values and every surrounding buffer are out of reach",
  S+"types/primitives.rs: Serializable/Deserializable for bool,u8,u16,u32,f32", S+"types/fixed.rs: U24, U256")
p("Bool decoding looks only at the least significant bit",
  "Deserializing a bool from a byte b followed by anything succeeds and returns true exactly when b is odd; serializing a bool emits 0x01 or 0x00.",
  "all 256 byte values and all suffixes", "tests check six byte values and no suffix",
  S+"types/primitives.rs: Deserializable for bool")
p("U24 range is enforced exactly at construction",
  "U24::new / U24::try_from accept a number exactly when it is at most 2^24-1, keep its value, and otherwise return RequirementError; a U24 obtained from the wire is always in range.",
  "every u32 / usize value; every 3-byte wire image", "boundary tests cover five values",
  S+"types/fixed.rs: U24::new, TryFrom<u32>, TryFrom<usize>, Deserializable for U24")
p("B0 byte strings: construction limit",
  "B0_31, B0_32, B0_255, B0_64K, B0_16M::new never panic; they accept a byte vector exactly when its length is at most 31, 32, 255, 65535, 2^24-1 respectively, store the data unchanged with the right length header, and otherwise return RequirementError.",
  "every byte vector of every length, all five types", "the tests skip the large variants entirely and try one over-limit length for the others",
  S+"types/bytes.rs: impl_sized_B0::new")
p("B0 byte strings: wire format, round trip, exact rejection",
  "A B0 value built by new serializes to its little-endian length header followed by its data, and deserializes back from that image followed by anything; deserialization of arbitrary bytes returns the value when header and data are present and within the limit, ParseError when bytes are missing, RequirementError when the announced length exceeds the limit - and nothing else.",
  "every byte slice and every start offset, all five types", "tests use three malformed inputs per type",
  S+"types/bytes.rs: Serializable/Deserializable in impl_sized_B0")
p("STR0 strings: construction limit",
  "STR0_32::new / STR0_255::new accept a String exactly when its UTF-8 byte length is at most 32 / 255, keep it unchanged with the right length header, and otherwise return RequirementError.",
  "every String", "tests only use ASCII strings of four lengths",
  S+"types/strings.rs: impl_sized_STR0::new")
p("STR0 strings: wire format, round trip, exact rejection",
  "A STR0 value built by new serializes to a one-byte length followed by the UTF-8 bytes and deserializes back from that image followed by anything; deserialization of arbitrary bytes returns the string when complete, valid UTF-8 and within the limit, ParseError when bytes are missing, FromUtf8Error when the bytes are not UTF-8, RequirementError when too long - checked in that order - and nothing else.",
  "every byte slice and every start offset, both types", "tests use four malformed inputs",
  S+"types/strings.rs: Serializable/Deserializable in impl_sized_STR0")
p("Strings accepted from the wire are exactly the encodings of Unicode scalar values",
  "A STR0 deserialization accepts the announced bytes (length permitting) exactly when they are the UTF-8 encoding of some sequence of Unicode scalar values (no overlong forms, no surrogates, nothing above U+10FFFF).",
  "every byte string", "one non-UTF-8 sample is tested; the space is infinite",
  S+"types/strings.rs: Deserializable (String::from_utf8)")
p("Deserialization never panics",
  "deserialize::<T>(bytes) returns Ok or Err - never panics - for every T of the crate: scalars, B0/STR0 types, flags, error codes, Protocol, the frame Message and every protocol message; with or without overflow checks.",
  "every byte slice (of any length a Rust slice can have), every type, both build profiles",
  "fuzzing samples a vanishing part of the inputs and CI stops after 10000 runs",
  S+"codec/deserialize.rs", "fuzz/src/bin", S+"macro_message/message.rs: impl_message")
p("Parser cursor discipline",
  "ByteParser::next_by(step) either returns exactly the next step bytes and advances by step, or returns ParseError and leaves the cursor where it was; it fails exactly when fewer than step bytes remain (or the start offset is past the end). Any sequence of successful calls returns consecutive, non-overlapping segments whose concatenation is a contiguous part of the input.",
  "every slice, every start offset and step size whose sum fits a usize (in release builds: any), every sequence of step sizes", "the parser has no unit test at all",
  S+"codec/parser.rs: ByteParser::next_by")
p("Deserializers only move forward and stay in bounds",
  "For every message type, whether deserialization succeeds or fails the cursor ends between its old position and the end of the slice; the result depends only on the bytes it consumed (same consumed bytes followed by any other suffix give the same value).",
  "every type, every slice, every suffix", "needs all suffixes of all inputs",
  S+"codec/parser.rs", S+"macro_message/message.rs: impl_message deserialize")
p("Decoding is canonical (no malleability)",
  "If deserializing a message (or frame) from bytes succeeds, serializing the result reproduces exactly the bytes consumed; so two different byte strings never decode to the same message.",
  "every message type and every accepted byte string", "quantifies over all accepted inputs",
  S+"macro_message/message.rs: impl_message", S+"codec/frame.rs")
p("Encodings are self-delimiting; streams split uniquely",
  "Serializing any list of frames back to back and deserializing repeatedly from one cursor returns exactly that list; no encoding of a message is a proper prefix of another encoding of the same type.",
  "every list of frames of any length; every pair of messages of one type", "needs arbitrary sequences",
  S+"codec/frame.rs: Message", S+"codec/parser.rs")
p("Reported byte count equals bytes written",
  "Serializing into a Vec any value produced by the crate's constructors or deserializers returns exactly the number of bytes appended, and never disturbs what was already in the Vec.",
  "every message type, every constructed value, every initial buffer", "tests never look at the returned count",
  S+"codec/serialize.rs", S+"macro_message/message.rs: impl_message serialize")
p("Reported byte count is right even for hand-built STR0 values",
  "serialize of any STR0_32/STR0_255 value returns the number of bytes written (its fields are public).",
  "every {length,data} pair", "tests never build an inconsistent value",
  S+"types/strings.rs: Serializable")
p("serialize succeeds only if the writer took everything",
  "If serialize(&mut writer) returns Ok(n) then the writer accepted the complete encoding.",
  "every io::Write implementation, including ones that accept only part of a buffer per call",
  "tests only ever write into Vec", S+"types/primitives.rs: writer.write", S+"types/bytes.rs", S+"codec/frame.rs")
p("A failing writer surfaces as IOError with a prefix written",
  "With a writer that accepts whole buffers until some call fails, serialize returns an IOError exactly when a write failed, and what was accepted is a prefix of the encoding.",
  "every message type, every value, every failure point", "no test injects write errors",
  S+"macro_message/message.rs: serialize")
# ---- frames ------------------------------------------------------------------
p("Frame layout",
  "Serializing Message{type,payload} with a payload of at most 2^24-1 bytes yields a 6-byte header - extension type (15 bits) with the channel bit in the top bit, little-endian; message type byte; 24-bit little-endian payload length - followed by the payload, and reports 6+length bytes.",
  "every message type, every payload", "tests use two one-byte payloads",
  S+"codec/frame.rs: Serializable for Message")
p("Frame round trip",
  "Deserializing the serialization of a frame, followed by any bytes, returns the same frame and stops right after it.",
  "every message type, every payload up to 2^24-1 bytes, every suffix", "payload/suffix space unbounded",
  S+"codec/frame.rs: Message")
p("Frame rejection is exact",
  "Deserializing a frame from arbitrary bytes fails with ParseError when bytes are missing, UnknownMessageType when the (extension,type) pair is not in the table, UnexpectedChannelBit when the channel bit disagrees with the type, and otherwise succeeds with the type and exactly the announced payload.",
  "every byte slice", "only happy paths are tested",
  S+"codec/frame.rs: Deserializable for Message")
p("Oversized payloads are refused",
  "Serializing a frame whose payload is longer than 2^24-1 bytes returns RequirementError and writes nothing.",
  "every payload longer than 2^24-1 bytes", "nobody allocates 4 GiB in a unit test",
  S+"codec/frame.rs: `self.payload.len() as u32`", S+"types/fixed.rs: U24::new")
p("Message type table is a bijection",
  "MessageType::new(ext_type(t), msg_type(t)) = t for every type; new(e,m) succeeds only for the pair of the returned type and fails with UnknownMessageType otherwise; no two types share a pair; no extension type uses the channel bit.",
  "all 29 types and all 2^24 (ext,msg) pairs", "tests check one type at a time, never the absence of collisions",
  S+"types/message_type.rs")
p("frame/unframe are inverse for every protocol message",
  "unframe::<T>(frame(&m)) returns m for every message of every type, also after the frame went through serialize/deserialize with arbitrary bytes following.",
  "all 14 protocol message types (and the common SetupConnection), every constructible message", "one sample message per type is tested",
  S+"codec/frame.rs: frame, unframe", S+"macro_message/message.rs")
p("unframe refuses other message types",
  "unframe::<T>(msg) with msg.message_type different from T's type returns UnexpectedMessageType whatever the payload, and its error carries the type that was received (per its message text 'parsed message type').",
  "every target type, every frame", "never tested",
  S+"codec/frame.rs: unframe", S+"error.rs: UnexpectedMessageType")
p("A frame determines its message type in Rust",
  "A received frame can be unframed as at most one Rust message type.",
  "every frame, every pair of Frameable types", "cross-type decoding is not tested",
  S+"common/setup_connection.rs", S+"mining/setup_connection.rs", S+"job_negotiation/setup_connection.rs")
# ---- messages ----------------------------------------------------------------
p("Wire layout of every protocol message",
  "Each of the 14 protocol messages serializes to the concatenation of its fields in specification order with the specified field encodings.",
  "every message of every type", "one literal per type in tests",
  S+"mining", S+"job_negotiation", S+"common")
p("SetupConnection validation, constructor and wire",
  "Both SetupConnection constructors and both wire decoders only ever produce messages with non-empty vendor and firmware, min_version >= 2, max_version >= 2, and strings of at most 255 bytes; the constructor accepts exactly those inputs, and classifies the failure (RequirementError / VersionError) in the documented order.",
  "every combination of arguments; every byte slice", "four single-fault samples are tested",
  S+"macro_message/setup_connection.rs: new")
p("Negotiable version range is well formed",
  "A SetupConnection accepted by the constructor or decoder has min_version <= max_version.",
  "every accepted message", "tests only use equal versions",
  S+"macro_message/setup_connection.rs: new")
p("SetupConnectionError always names the unsupported flags",
  "No SetupConnectionError with error code unsupported-feature-flags and empty flags can be constructed or decoded; every other combination is accepted.",
  "every flags/code combination, every byte slice", "one sample tested",
  S+"macro_message/setup_connection_error.rs: new")
p("Feature flags: exactly the defined bits travel",
  "For each of the four flag types: decoding a u32 succeeds exactly when it has no undefined bit set (UnknownFlags otherwise), and returns flags with those bits; encoding emits them; every union, intersection, difference and complement of flags stays encodable and decodable.",
  "all 2^32 wire values for each type, all flag operations", "a handful of literals tested",
  S+"types/flags.rs", S+"mining/setup_connection.rs", S+"mining/setup_connection_success.rs", S+"job_negotiation")
p("Error codes: exactly the registered strings",
  "Each error code converts to its registered string, fits the documented STR0_32 limit, and parses back; any other string is rejected with UnknownErrorCode; conversion to text is injective.",
  "every error code, every string", "tests touch two codes",
  S+"types/error_code.rs", S+"common/setup_connection_error_code.rs", S+"mining/open_mining_channel_error.rs")
p("Sub protocol dispatch",
  "The common SetupConnection message starts with the protocol byte (0 mining, 1 job negotiation); decoding dispatches on it, answers Unimplemented for 2 and 3, DeserializationError for every other byte, and never yields a message of the wrong sub protocol.",
  "all 256 protocol bytes, all payloads", "two literals tested",
  S+"common/setup_connection.rs: Protocol, SetupConnection")
p("Message equality agrees with the wire",
  "Two messages are == exactly when their encodings are identical; in particular a decoded message is == to the one sent.",
  "every pair of messages of one type", "tests avoid NaN and -0.0",
  S+"mining/update_channel.rs", S+"mining/open_standard_mining_channel.rs", S+"mining/open_extended_mining_channel.rs")
# ---- time and certificates ------------------------------------------------------
p("Unix timestamp conversion",
  "system_unix_time_to_u32 returns the whole seconds since the epoch for every time from 1970 up to (not including) second 2^32, and SystemTimeError for every time before the epoch.",
  "every SystemTime", "three samples tested",
  S+"types/unix_timestamp.rs")
p("Certificates always have a non-empty validity window",
  "SignedCertificate::new succeeds exactly when valid_from < not_valid_after and then carries the given fields.",
  "every version, pair of times and key", "two samples tested",
  S+"noise/signed_certificate.rs")
p("A certificate signed by the pool verifies at the client",
  "For every authority key, static key, version and times with now < not_valid_after: sending SignatureNoiseMessage::from_auth_key over the wire, decoding it and verifying it in a CertificateFormat with the server's static key succeeds - given only that ed25519 verifies its own signatures.",
  "every key pair, certificate and current time before 2106", "one run with random keys and a real clock",
  S+"noise/signature_noise_message.rs", S+"noise/certificate_format.rs", S+"noise/signed_certificate.rs")
p("Verification decides exactly signature and expiry, and binds every field",
  "CertificateFormat::verify succeeds exactly when the current time is before not_valid_after and the authority key verifies the signature over the 42-byte encoding of version, valid_from, not_valid_after and static key; changing any one of these four changes the signed bytes.",
  "every message, key and time", "tests cannot mock the clock",
  S+"noise/certificate_format.rs: verify, serialize")
p("Certificates are only accepted inside their validity window",
  "verify succeeds only if valid_from <= now < not_valid_after, for the real current time.",
  "every certificate and every current time", "the test-suite notes it cannot mock the system time",
  S+"noise/certificate_format.rs: verify", S+"types/unix_timestamp.rs: as u32")
p("SignatureNoiseMessage wire format",
  "SignatureNoiseMessage serializes to exactly 74 bytes (version, valid_from, not_valid_after, 64-byte signature), decodes back from them followed by anything, and fails with ParseError on fewer than 74 bytes.",
  "every message, every suffix, every short slice", "one random sample tested",
  S+"noise/signature_noise_message.rs", S+"noise/types.rs")
p("Authority key decoding",
  "CertificateFormat::new succeeds exactly when the text is base58 for exactly 32 bytes that form a valid ed25519 key, with the matching error otherwise.",
  "every text", "two samples tested", S+"noise/certificate_format.rs: new")
# ---- noise ------------------------------------------------------------------------
p("Noise NX handshake agreement",
  "For every pair of key pairs (public keys not among the refused low-order values) and every message buffers of admissible size, unless one of the derived handshake keys happens to be all zero, the two-message exchange initiator.send / responder.recv / responder.send / initiator.recv completes on both sides with equal handshake hashes, mirrored transport keys, and the initiator's get_remote_static_public_key equal to the responder's static public key; the payload bytes of both messages arrive unchanged.",
  "every static and ephemeral key pair, every payload of every size the session accepts (32..65535 bytes for message 1 with at least 48, 96..2128 for message 2)",
  "one run with random keys and 1024-byte zero buffers",
  N+"noisesession.rs", N+"state.rs", S+"noise/noise_session.rs")
p("The handshake implements the Noise NX pattern",
  "The bytes written and the keys/hash derived by the code are those the Noise specification prescribes for pattern NX (-> e; <- e, ee, s, es) with 25519/ChaChaPoly/BLAKE2s.",
  "every key pair, prologue-less, every payload", "needs a reference model for all inputs",
  N+"state.rs", N+"prims.rs")
p("HMAC and HKDF follow RFC 2104 / the Noise specification",
  "hmac(key,data) is BLAKE2s((K xor opad) || BLAKE2s((K xor ipad) || data)) with K the key zero-padded to 64 bytes, and hkdf chains it as in Noise section 4.3 for two and three outputs.",
  "every key up to 64 bytes, every data", "no test", N+"prims.rs: hmac, hkdf")
p("Transport channel delivers every message in order",
  "After a completed handshake with non-zero transport keys, for every interleaving of at most 2^64-1 sends per side and in-order deliveries, each delivered buffer carries exactly the plaintext sent, none lost, duplicated or reordered.",
  "every finite history of sends/deliveries in both directions, every message content and size 16..65535", "one message in one direction is tested",
  N+"noisesession.rs: send_message, recv_message")
p("A rejected transport message has no effect on the session",
  "In transport mode, a recv_message that returns an error leaves the session state unchanged, so junk, replayed or out-of-order ciphertexts never prevent the next genuine message from being accepted.",
  "every session state in transport mode, every buffer", "needs all junk inputs and all histories",
  N+"state.rs: decrypt_with_ad, read_message_regular", N+"noisesession.rs: recv_message")
p("What recv accepts is what the peer sealed next",
  "In transport mode recv_message accepts a buffer only if it is the AEAD sealing, under the receive key and the next expected counter value, of the plaintext it delivers; after the counter moved on, the same buffer is accepted again only if it is also a valid sealing for a later counter (a forgery).",
  "every state, every buffer, every history", "replay/reorder space unbounded",
  N+"state.rs: decrypt_with_ad")
p("No nonce is used twice under one key",
  "Over any history of API calls on a session (without rekeying or clearing), all AEAD encryptions performed by send_message in transport mode use pairwise distinct counter values, the counter never wraps (ExhaustedNonceError at 2^64-1), and distinct counters give distinct 12-byte nonces.",
  "every finite call history", "2^64 messages cannot be sent in a test",
  N+"types.rs: Nonce", N+"state.rs: encrypt_with_ad", N+"utils.rs: prep_nonce")
p("Handshake gating of session accessors",
  "is_transport is false for the first message and true from the second successful message on (message count >= 2), never goes back; get_handshake_hash and get_remote_static_public_key return None exactly while is_transport is false; failed calls never advance the message count.",
  "every history of API calls", "one history tested",
  N+"noisesession.rs")
p("Message size limits",
  "send_message and recv_message refuse every buffer shorter than 16 or longer than 65535 bytes with UnsupportedMessageLengthError, leaving session and buffer untouched.",
  "every session state, every buffer", "not tested",
  N+"noisesession.rs: send_message, recv_message")
p("send_message never panics",
  "send_message returns Ok or Err for every session state reachable through the API and every buffer.",
  "every reachable session, every buffer", "fuzz issue #190 showed samples miss cases",
  N+"noisesession.rs: send_message", N+"state.rs: write_message_a, write_message_b")
p("recv_message never panics",
  "recv_message returns Ok or Err for every session state reachable through the API and every buffer a peer may send.",
  "every reachable session, every buffer", "fuzzing cannot produce authenticated messages",
  N+"state.rs: decrypt_and_hash", N+"noisesession.rs: recv_message")
p("Cleared cipher states refuse to work",
  "After clear_local_cipherstate / clear_remote_cipherstate the corresponding direction returns EmptyKeyError for every buffer of legal length, until it is rekeyed (C53); buffers are left untouched, and no message is ever encrypted under the all-zero key.",
  "every session, every buffer, every history", "not tested",
  N+"state.rs: has_key, clear", N+"noisesession.rs")
p("Cleared sessions cannot come back with a predictable key",
  "After clear_local_cipherstate, no further API call makes the session encrypt under a key that does not depend on the handshake.",
  "every history after clear", "not tested",
  N+"state.rs: rekey", N+"noisesession.rs: rekey_local_cipherstate")
p("Rekeying the remote state rekeys the receive direction",
  "rekey_remote_cipherstate rekeys the cipher state the documentation calls remote (cs2) and leaves the local one alone, so that peers calling rekey_local / rekey_remote stay in sync in either direction.",
  "every session in transport mode", "not tested",
  N+"noisesession.rs: rekey_remote_cipherstate")
p("Rekeying both ends of the initiator-to-responder direction keeps it working",
  "If initiator and responder both rekey the initiator-to-responder cipher at the same point of the stream, all later messages in that direction are still delivered, and the other direction is unaffected.",
  "every handshake, every number of rekeys, every later history", "not tested",
  N+"state.rs: rekey", N+"noisesession.rs: rekey_local_cipherstate")
p("Low-order public keys are refused",
  "PublicKey::from_bytes rejects exactly the 12 listed low-order points; a handshake message carrying one as ephemeral key is refused with InvalidPublicKeyError and leaves message count and transport flag unchanged.",
  "all 2^256 keys, every handshake message", "12 samples tested",
  N+"types.rs: PublicKey::from_bytes", N+"consts.rs: forbidden_curve_values", N+"state.rs: read_message_a, read_message_b")
p("Every public way to make a PublicKey refuses low-order points",
  "PublicKey::from_str never yields one of the forbidden values.",
  "every string", "not tested", N+"types.rs: FromStr for PublicKey")
p("Hex key parsing",
  "Key/Psk/PrivateKey/PublicKey::from_str accept exactly the 64-digit hexadecimal strings (upper or lower case) and return the 32 bytes they denote; everything else is InvalidInputError.",
  "every string", "doc examples only", N+"types.rs: decode_str_32")
p("A garbled handshake reply can be retried",
  "If the initiator receives a corrupted second handshake message and returns an error, the genuine second message delivered afterwards still completes the handshake.",
  "every corrupted buffer", "not tested", N+"state.rs: read_message_b")
p("Remote key reported to the responder",
  "get_remote_static_public_key on a responder in transport mode does not claim a key the peer never sent.",
  "every completed handshake", "not tested",
  N+"noisesession.rs: get_remote_static_public_key", S+"network/encryptor.rs: get_remote_pubkey")
p("Plaintext buffer after recv_message",
  "After a successful transport recv_message the last 16 bytes of the buffer are zero bytes (as documented).",
  "every message", "not tested", N+"noisesession.rs: recv_message docs", N+"state.rs: read_message_regular")
# ---- network ------------------------------------------------------------------------
p("ConnectionEncryptor handshake completes",
  "init_handshake on a fresh outbound encryptor succeeds with 1024 bytes; feeding them to recv_handshake of any fresh inbound encryptor and its result back to the initiator's recv_handshake succeeds, both report is_handshake_complete, and the initiator's get_remote_pubkey is the inbound static key.",
  "every key", "one run with random keys", S+"network/encryptor.rs")
p("Once the encryptor handshake is complete both directions work",
  "When both encryptors report is_handshake_complete, the next message sealed by either side is accepted by the other.",
  "every completed encryptor handshake", "the unit test stops at is_handshake_complete",
  S+"network/encryptor.rs: recv_handshake")
p("Encryptor encrypt/decrypt are inverse",
  "decrypt_message(encrypt_message(b)) returns b.",
  "every byte string", "not tested", S+"network/encryptor.rs: encrypt_message, decrypt_message")
p("Pending message queue delivers exactly once, in order",
  "Whatever the interleaving of threads pushing to pending_msg_buffer under its lock and threads calling get_pending_msgs, every pushed message is returned by exactly one get_pending_msgs call or still queued, in lock-acquisition order, and a drain leaves the queue empty.",
  "every schedule of any number of threads, any operations", "thread schedules cannot be enumerated by tests",
  S+"network/peer.rs: get_pending_msgs")
p("Channel ids are in range",
  "new_channel_id returns an id strictly below u32::MAX whatever the random source yields.",
  "every random draw", "one draw tested", S+"network/channel.rs: new_channel_id")
# ---- end to end -----------------------------------------------------------------------
p("Example pool answers every SetupConnection that fits its buffer",
  "In the setup_connection example, for every mining SetupConnection whose frame fits the 1024-byte buffer the pool answers with a frame that the miner decodes to SetupConnectionSuccess with the miner's min_version and the pool's flags.",
  "every SetupConnection message", "one literal in the example", "examples/setup_connection.rs")
p("End-to-end authentication of the pool",
  "In the noise_handshake flow, for every key and every certificate valid now: after the handshake the pool's SignatureNoiseMessage sent in a 1024-byte transport message is decrypted, decoded and verified by the miner against the static key it learnt in the handshake.",
  "all keys, versions and validity windows, current time before expiry", "one run with random keys",
  "examples/noise_handshake.rs", S+"noise/mod.rs: noise_nx test")

# ---- added while modelling --------------------------------------------------------------
p("next_by never panics",
  "ByteParser::next_by(step) never panics, whatever the slice, the start offset and the step; in particular an absurd announced length is a ParseError.",
  "every slice, every start, every step, both build profiles", "the parser has no unit test; an overflow needs start + step >= 2^64",
  S+"codec/parser.rs: ByteParser::next_by")

p("Accepted public keys never give the all-zero shared secret",
  "For every public key accepted by PublicKey::from_bytes and every private key, the X25519 shared secret computed by the handshake is not all zero.",
  "all accepted public keys, all private keys", "no test uses crafted public keys", N+"types.rs: PublicKey::from_bytes", N+"state.rs: read_message_a, read_message_b")
p("No nonce reuse whatever the API calls",
  "In no history of API calls (including clear and rekey) do two transport messages leave the session sealed under the same key and counter.",
  "every finite call history", "needs histories mixing clear, rekey and send", N+"noisesession.rs: clear_local_cipherstate, rekey_local_cipherstate, send_message")
p("A failed send_message can be repeated",
  "A send_message that returns an error leaves the session unchanged, so that the call can be repeated with a proper buffer.",
  "every reachable session, every buffer", "tests never use failing buffers", N+"noisesession.rs: send_message", N+"state.rs: write_message_b")
p("A first message that can be sent can be received",
  "Whenever the initiator's first send_message succeeds, the responder's recv_message accepts the result.",
  "every key pair, every buffer", "tests use one buffer size", N+"state.rs: write_message_a, read_message_a")

p("Decoding a SignatureNoiseMessage never panics",
  "deserialize::<SignatureNoiseMessage> returns Ok or Err - never panics - for every byte slice.",
  "every slice and start offset, both build profiles, any version of the ed25519 crate", "not tested",
  S+"noise/types.rs: Deserializable for Signature", S+"noise/signature_noise_message.rs")

p("ConnectionEncryptor::recv_handshake never panics",
  "recv_handshake and init_handshake return Ok or Err - never panic - whatever the state of the encryptor and the bytes received.",
  "every encryptor state, every buffer", "the fuzz target feeds one message to a fresh encryptor",
  S+"network/encryptor.rs: recv_handshake, init_handshake", "fuzz/src/bin")

p("X25519 key pairs always agree",
  "For the X25519 of RFC 7748, any two private keys (of any bytes) give the same shared secret on both sides, the secret is never all zero, and PublicKey::from_bytes accepts every derived public key.",
  "all pairs of private keys", "2^512 pairs; the tests draw one", N+"types.rs: Keypair::default, Keypair::dh, PublicKey::from_bytes")
p("The handshake works for every choice of private keys",
  "With BLAKE2s, ChaCha20-Poly1305 and X25519 as in the RFCs: for all static and ephemeral private keys, every prologue and all payloads within the limits, the NX handshake completes with equal keys and hash on both sides, and the channel then delivers everything in order.",
  "all private keys, prologues, payloads and schedules", "one run with random keys", N+"noisesession.rs: send_message, recv_message", N+"state.rs")

p("A session in transport mode holds no handshake secret",
  "Once is_transport is true, the static private key, the pre-shared key, the chaining key and the handshake cipher key stored in the session are all zero whatever calls are made before and after; the ephemeral private key too unless the caller installs a new one.",
  "every finite call history", "no test looks at the fields after the handshake", N+"noisesession.rs: send_message, recv_message", N+"state.rs: HandshakeState::clear, SymmetricState::clear")
p("end_session erases all secrets",
  "After end_session every key field of the session (private keys, pre-shared key, chaining key, handshake and transport cipher keys) holds zeros or the public initial value, whatever the history of the session.",
  "every finite call history", "the method consumes the session, so a test cannot look at it", N+"noisesession.rs: end_session", N+"state.rs: HandshakeState::clear")
p("Walking the sources of an error ends",
  "For every error of the library, following Error::source repeatedly reaches an error without source.",
  "every error value", "tests compare the variant only; a non-terminating chain hangs error reporters", N+"error.rs: impl Error for NoiseError", S+"error.rs")
p("Key pair construction",
  "Keypair::from_private_key and PrivateKey::generate_public_key refuse exactly the all-zero key; otherwise the public key is the X25519 image of the private key, accepted by PublicKey::from_bytes, and any two such pairs agree.",
  "every 32-byte private key", "one key tested", N+"types.rs: Keypair::from_private_key, PrivateKey::generate_public_key")

p("Ed25519 signatures verify",
  "For the Ed25519 of RFC 8032: for every seed and every message the signature made by the key pair verifies under its public key and the key is accepted; a key is accepted exactly when its bytes name a point of the curve, a signature exactly when S is reduced and R encodes [S]B - [k]A.",
  "all seeds, all messages, all keys and signatures", "the tests draw one key pair", S+"noise/signed_certificate.rs: authority_sign_cert", S+"noise/certificate_format.rs: verify")
p("The pool is authenticated for every choice of keys",
  "With Ed25519, BLAKE2s, ChaCha20-Poly1305 and X25519 as in the RFCs: for every authority seed, all static and ephemeral private keys and any clock readings, the miner's verdict on the pool's certificate in the noise_handshake flow is true exactly until the certificate expires.",
  "all seeds, all private keys, all times", "one run with random keys", "examples/noise_handshake.rs", S+"noise/certificate_format.rs")
p("Exactly which public keys give a zero shared secret",
  "For the X25519 of RFC 7748 and every private key, a 32-byte public key gives the all-zero secret exactly when its value without the top bit is one of seven numbers; hence the check of PublicKey::from_bytes misses exactly the seven keys with the top bit set and refuses five keys that never give zero.",
  "all private keys, all 32-byte public keys", "2^512 pairs; needs the number of points of the curve and of its twist", N+"types.rs: PublicKey::from_bytes, Keypair::dh")

p("Every handshake call returns exactly the specified result",
  "In a handshake whose earlier calls succeeded, for every buffer of any length, each of the four handshake calls (write and read the first message, write and read the second) returns the one result given by a table over the length, the low-order check and, for the second message, the Noise specification's own reader and writer stopped at each token; panics included.",
  "every buffer, prologue and consistent key pair; every primitive record satisfying the laws", "tests use a few fixed buffer lengths and honest peers", N+"state.rs: write_message_a, read_message_a, write_message_b, read_message_b", N+"noisesession.rs: send_message, recv_message")
p("Which inputs crash the fuzz programs",
  "With each closure run once, on every input, the fuzz programs for mining messages, setup messages, network frames and connection encryptors run to their end without a panic; noise.rs panics exactly when the ed25519 crate checks signatures on construction and the input has at least 74 bytes whose signature field is not canonical (C74).",
  "every input", "fuzzing samples the inputs", "fuzz/src/bin/mining_messages.rs", "fuzz/src/bin/setup_connection.rs", "fuzz/src/bin/network_frame.rs", "fuzz/src/bin/connection_encryptor.rs", "fuzz/src/bin/noise.rs")
p("One encryptor fed any inputs one after another never panics",
  "Calling recv_handshake on a fresh ConnectionEncryptor with any sequence of byte strings, ignoring errors, never panics.",
  "every sequence of inputs; inbound and outbound encryptors", "needs two related inputs, the second authenticated under a derived key", S+"network/encryptor.rs: recv_handshake", "fuzz/src/bin/connection_encryptor.rs")

p("The handshake hash binds the transcript",
  "A session that has finished the handshake reports the hash chained over the protocol name, its prologue and the exact bytes of both messages it saw; so two finished sessions of any role that report the same hash agree on the prologue and on every byte of both messages, unless two strings hashed by these very runs collide.",
  "all prologues, keys, payloads and bytes delivered by the network", "only equality in honest runs is tested; the converse needs every altered run", N+"noisesession.rs: send_message, recv_message, get_handshake_hash", N+"state.rs: mix_hash")
p("The opening message is authenticated by the reply",
  "If an initiator accepts the reply of a responder, the responder was started with the same prologue and read exactly the bytes the initiator sent, unless two strings hashed by these runs collide or a box sealed for one hash opens for a different one; when the ephemeral key arrived unchanged both boxes are under the same key.",
  "all alterations of the first message, all prologues, keys and payloads", "tests alter no message", N+"noisesession.rs: send_message, recv_message", N+"state.rs: read_message_b, write_message_b")
p("Decoding any bytes as any message has exactly the specified outcome",
  "For every message type and every byte string, at any position of the parser and in both build profiles, decoding gives the value and the position, or the error, that a field-by-field reading of the bytes prescribes: the first field in wire order that fails decides the error, checks of the whole message come last; the reading allows one outcome only. The same holds for unframe on a frame of the right type.",
  "all message types, all byte strings", "the error of a malformed message depends on all fields before it", S+"macro_message/message.rs", S+"macro_message/setup_connection.rs", S+"common/setup_connection.rs", S+"mining/", S+"codec/frame.rs: unframe")
p("The example pool survives any client",
  "Whatever bytes a client sends (or none), the pool of the setup_connection example does not panic.",
  "every byte string read in one call", "the example runs against its own miner only", "examples/setup_connection.rs: Pool::handle_recv_bytes")
p("The example pool answers only complete requests",
  "If only the first bytes of the frame of a mining SetupConnection have arrived when the pool reads, it does not answer.",
  "every constructible SetupConnection, every prefix of its frame", "loopback connections deliver small writes whole", "examples/setup_connection.rs: Pool::listen, Pool::handle_recv_bytes")
p("The text of a Noise error identifies it",
  "Different errors of nx-noise are displayed with different texts.",
  "all pairs of errors", "no test prints errors", N+"error.rs: impl Display for NoiseError")

p("Every history of attempts at the second message has exactly the specified results",
  "After any list of second messages refused with an error (or of reply buffers that were too small) the session is in the state the Noise tokens processed so far prescribe, uniquely determined, and the next attempt with any bytes has exactly the result of the table for that state.",
  "all histories of failed attempts, all next messages or buffers", "tests make at most one attempt", N+"noisesession.rs: send_message, recv_message", N+"state.rs: read_message_b, write_message_b")

p("The noise example's miner does exactly the specified thing on any connections",
  "For any sequence of connections, each sending any bytes (or closing at once) at any clock reading, the miner of the noise_handshake example prints the verdicts, and panics where, the Noise specification and the certificate layout prescribe over its one reused buffer; the prescription allows one behaviour. It prints true only for a certificate of the peer's static key that the authority's key verifies, received under the key of that handshake before its expiry; with the example's pool it prints whether the certificate has expired.",
  "every list of connections, every clock, every primitive record satisfying the laws", "the example meets only its own pool, once", "examples/noise_handshake.rs: main, Miner::listen, Miner::handle_recv_bytes")
p("The noise example's pool does exactly the specified thing with any client",
  "For any bytes sent by its one client and any clock readings, the pool of the noise_handshake example either sends the second handshake message of the Noise specification over the padded buffer followed by the encrypted certificate message for its static key, or panics, exactly as a table prescribes; the table allows one outcome.",
  "every byte string read in one call, every clock, every key", "the example meets only its own miner", "examples/noise_handshake.rs: Pool::new, Pool::listen, Pool::handle_recv_bytes")
p("A stray connection does not stop the noise example programs",
  "Whatever its connections send, or if they send nothing, neither program of the noise_handshake example panics.",
  "every list of connections", "the example accepts no foreign connection", "examples/noise_handshake.rs: Pool::listen, Miner::listen")

p("Every history of calls on an established session has exactly the specified results",
  "After the handshake, for every finite history of send, receive, clear, rekey and set-ephemeral calls with any buffers, each call returns the result and buffer, and leaves the two keys and counters, that a table over (key, counter) pairs prescribes; the table allows one outcome (up to the garbage a refused message leaves before its tag).",
  "every reachable session, every finite call history", "a history mixes all calls in any order", N+"noisesession.rs: send_message, recv_message, clear_*_cipherstate, rekey_*_cipherstate", N+"state.rs: CipherState")

p("An altered message passes for few one-time keys only",
  "For a sealed message and any other message (other ciphertext, tag or associated data), the Poly1305 multipliers for which the other one is accepted in its place are at most eight per 16-byte block; at an established session at most 2^15 of the 2^106 possible multipliers, and none if only the tag differs. Without a sealed message at hand each multiplier leaves exactly one of the 2^128 pads.",
  "all pairs of messages, all cipher keys, nonces and plaintexts, every reachable session in transport mode", "the exceptional keys cannot be met by testing", N+"noisesession.rs: recv_message", N+"prims.rs: decrypt", N+"state.rs: CipherState::decrypt_with_ad")

p("The example miner survives any answer",
  "Whatever bytes arrive at the miner of the setup_connection example (or none), it does not panic.",
  "every byte string read in one call", "the example runs against its own pool only", "examples/setup_connection.rs: Miner::listen, Miner::handle_recv_bytes")
p("The flags the example miner prints are those of the pool's answer",
  "However many bytes of the pool's answer the one read returns, the miner of the setup_connection example prints no flags other than those the pool sent.",
  "every request the pool answers, every set of flags, every prefix of the answer", "loopback connections deliver small writes whole", "examples/setup_connection.rs: Miner::listen, Miner::handle_recv_bytes")
p("The text of flags names exactly the flags set",
  "For every set of known flags of each of the four flag types, the Debug text is the names of the flags set, in the order of their bits, joined by ' | ', or the text for the empty set; different sets have different texts.",
  "all flag types, all sets of known flags", "no test prints flags", S+"mining/setup_connection.rs", S+"mining/setup_connection_success.rs", S+"job_negotiation/setup_connection.rs", S+"job_negotiation/setup_connection_success.rs")
p("The text of an error of the library identifies it",
  "Different errors of stratumv2 are displayed with different texts.",
  "all pairs of errors, all payload strings", "no test prints errors", S+"error.rs: Error")
p("Key and hash mixing follow the Noise specification for any names and calls",
  "For a protocol name of any length and any sequence of mix_key, mix_hash and mix_key_and_hash calls with any data, the chaining key, hash, cipher key and counter, and the two keys split from them, are those of section 5.2 of the Noise specification (the all-zero key standing for no key).",
  "all names, all sequences of calls, every primitive record satisfying the laws", "the code runs with one fixed name; mix_key_and_hash is never called", N+"state.rs: initialize_symmetric, mix_key, mix_hash, mix_key_and_hash, split")

p("Two parties that report the same handshake hash share keys, whatever the network did",
  "Two honest parties each accept an arbitrary handshake message. If the two sessions report the same handshake hash, they are the two ends of one completed handshake (same transport keys, the responder's static key known to the initiator), unless two strings hashed by these runs collide. The same holds without comparing hashes if the initiator accepts the responder's own answer, unless moreover a box sealed for one hash opens for another.",
  "all bytes delivered to either side, all prologues, keys and payloads, every primitive record satisfying the laws", "the attacker may replace both messages", N+"noisesession.rs: send_message, recv_message, get_handshake_hash", N+"state.rs")
p("The j-th message accepted is the j-th one sent, up to a counted set of one-time keys",
  "After a completed handshake, for any send and receive calls of both sides with the attacker choosing every received byte string: the j-th message accepted is sealed under the key and counter of the j-th message sent, and delivers its plaintext exactly if it is that message; it is another one only if the Poly1305 multiplier for counter j is one of at most 2^15 (of 2^106) numbers determined by the two messages. With rekeying, the key is replaced as often as that side has rekeyed, and the same holds where both sides have rekeyed equally often.",
  "all call histories without clear on both sides, all received bytes", "the attacker chooses every received message", N+"noisesession.rs: send_message, recv_message", N+"state.rs: CipherState", N+"prims.rs: encrypt, decrypt")

p("Every thread using a peer's queue ends",
  "Any number of threads push to and drain the queue of a peer. However they are scheduled, they make at most four moves per operation; after that many rounds in which every thread gets a turn, all have ended; under every unending schedule that gives each thread a turn again and again, all end and nothing changes afterwards, and if no thread panics, all complete their work.",
  "all programs of all threads, all schedules, no bound on numbers or lengths", "a test sees a few schedules", S+"network/peer.rs")
p("Values equal to the same plain value are equal",
  "Two values of a wire type (byte vectors, strings, U24, U256) that are == to the same plain value are == to each other; a value is == to the plain value it was made from and to no other, on either side of ==, and converts back into it; an error code displays as the string it has on the wire.",
  "all plain values, all values of the types (their fields are public)", "the tests compare values made by the constructors with one plain value each", S+"types/bytes.rs", S+"types/strings.rs", S+"types/fixed.rs", S+"types/error_code.rs")

p("Every history of calls on a session from its creation has exactly the specified results",
  "For every finite history of send, receive, clear, rekey and set-ephemeral calls with any buffers on a new session of either role, in any order (retries after failures, reading where a message was to be written, calls after a panic), each call returns the result and buffer that a table in terms of the Noise specification prescribes, and the session then reports the stage, message count, handshake hash and remote key of that table; the table allows one outcome (up to the garbage a refused message leaves).",
  "every role, prologue and static key pair, every finite call history",
  "the handshake state after a failed call depends on how far it got; histories mix roles and failures",
  N + "noisesession.rs: init_session, send_message, recv_message", N + "state.rs: HandshakeState, SymmetricState, CipherState")

p("A handshake altered on the way completes for few one-time keys only",
  "If the initiator and the responder disagree about the prologue or about any byte of either handshake message, but have computed the same first shared secret (as when the ephemeral keys arrive unchanged), the initiator accepts only if two strings hashed by these runs collide, or the one-time authenticator multiplier under the first handshake key is one of at most 40 values, or that under the second key one of at most 2^15 (of 2^106); the values depend on the prologues and messages only.",
  "all prologues, messages, keys; any alteration",
  "quantifies over all alterations and counts keys",
  N + "state.rs: write_message_b, read_message_b, encrypt_and_hash, decrypt_and_hash", N + "noisesession.rs: send_message, recv_message")

p("Every protocol message sent over an established session arrives as the same message",
  "After a completed handshake, for every interleaving of sends and reads without rekeying in which each side frames, serializes and sends protocol messages built by the constructors: every send succeeds, and the plaintexts read on the other side are, in order, the first messages sent, each decoding and unframing to the same message; the rest is on the way. Every message a constructor returns can be framed, and its frame is at most (and for some message exactly) as long as a table per kind says.",
  "all messages of the 15 kinds, all interleavings, every primitive record satisfying the laws", "the tests send one message of one kind over one session at most", S+"codec/frame.rs", S+"mining", S+"job_negotiation", N+"noisesession.rs: send_message, recv_message")

p("A signature belongs to one certificate",
  "Under an authority key that the program accepts, a signature that verifies one certificate verifies no other certificate, and a certificate accepted with a signature is refused when the second half of the signature is changed.",
  "all authority keys, certificates, signatures and times", "needs two inputs that verify under one signature", S+"noise/certificate_format.rs: new, verify", S+"noise/types.rs: StaticPublicKey, Signature")

p("Private keys that share a public key or a secret share the scalar, but for rare partners",
  "Two 32-byte private keys have the same X25519 public key exactly if bits 3 to 253 agree or their scalars add up to eight times the group order; the same holds for the secret shared with any public key that has a non-zero secret (with the order of the curve or of its twist). Scalars with such a partner lie within 2^129 of an end of the range of 2^251 scalars; at most 64 private keys have a given public key; two sessions open with the same ephemeral key only for such draws. Authority (Ed25519) public keys are equal exactly if the scalars are.",
  "all private keys, all public keys, all pairs of sessions", "collisions are too rare to be met by tests", N+"types.rs: PublicKey::generate_public_key, PrivateKey, Keypair::dh, Keypair::default", S+"noise/types.rs: generate_authority_keypair")

p("The secret shared with a peer determines the peer's public key",
  "If two public keys that PublicKey::from_bytes accepts give some private key the same X25519 shared secret, they stand for the same number (the top bit is ignored and the rest is read modulo the prime). In particular the remote key that an initiator reports after a handshake is the public key of the private key the responder used.",
  "all public keys, all private keys, all handshakes", "a second key with the same secrets is never drawn by chance", N+"types.rs: PublicKey::from_bytes, Keypair::dh", N+"state.rs: write_message_b, read_message_b", N+"noisesession.rs: get_remote_static_public_key")

p("The error of a rejected SetupConnection names what is wrong",
  "When SetupConnection::new refuses its arguments, the text of the error tells which argument is at fault: two calls that violate different requirements fail with different texts. The requirements are checked in a fixed order (vendor not empty, firmware not empty, min_version, max_version, string lengths) and the text is that of the first one violated.",
  "all arguments of SetupConnection::new", "tests check that an error occurs, at most its variant, never the text for every combination of faults",
  S+"macro_message/setup_connection.rs: new", S+"types/strings.rs: new")
p("The text of every decoding failure is exact",
  "For every message type and every byte sequence the outcome of decoding is determined including the text of the error: which check failed first, and for a string that is not UTF-8 the index of the first byte that is not part of a character and the number of bytes at fault, or that the string ends too early. The same for frames. Without the texts these are the decoders the other claims are about.",
  "all message types, all byte sequences, all positions in a buffer, both build profiles", "there are too many ways in which bytes can be wrong, and tests look at the variant of the error only",
  S+"codec/parser.rs", S+"codec/frame.rs", S+"codec/deserialize.rs", S+"types/strings.rs", S+"types/bytes.rs", S+"types/fixed.rs", S+"types/flags.rs", S+"types/error_code.rs",
  S+"macro_message/setup_connection.rs", S+"macro_message/setup_connection_error.rs", S+"common/setup_connection.rs")
p("What is printed for a failure identifies it",
  "Two failures of decoding a message, decoding a frame, unframing, SetupConnection::new or SignedCertificate::new that print the same text are the same error with the same text inside: no failure can be mistaken for another in a log. Two strings that are refused as UTF-8 with the same text go wrong at the same index in the same way.",
  "all failures of these functions on all inputs", "needs a comparison of every failure with every other",
  S+"error.rs", S+"codec/parser.rs", S+"codec/frame.rs", S+"types/strings.rs", S+"macro_message/setup_connection.rs")
p("A refused certificate says why",
  "The outcome of CertificateFormat::new, CertificateFormat::verify and SignedCertificate::new on every input, with the text of the error: an authority key of the wrong length, an expired message and an empty validity period each have their own text; the errors of the base58, ed25519 and time functions are passed on unchanged.",
  "all authority texts, static keys, messages, clocks, ed25519 functions", "needs an exhaustive treatment of keys, clocks and signatures",
  S+"noise/certificate_format.rs: new, verify", S+"noise/signed_certificate.rs: new")

p("A message declared with impl_message! is written field by field",
  "For every list of field types and every value of each field, the code that impl_message! generates writes the images of the fields in the order of the declaration with nothing between them and returns the number of bytes written; when a writer fails, a beginning of that has been written and the error is IOError. No encoding is the beginning of the encoding of a different message of the same declaration. Every message of the crate except the common SetupConnection enum writes and reads what the macro generates for its declared fields.",
  "all lists of field types of the crate, all field values, all writers that take whole buffers until they fail", "the test of the macro declares one message; the claim is about all declarations",
  S+"macro_message/message.rs: impl_message!", "README.md")
p("A message declared with impl_message! is read field by field",
  "For every list of field types, every constructor `new` and every byte sequence: the fields are read in the order of the declaration, the first field that cannot be read gives the error, and if all can be read the result is what `new` returns; the generated code adds no panic. If no field is a bool, the fields read are exactly those whose images stand in front of the reader. A message that was written reads back to what `new` makes of its fields, so the round trip is the identity exactly if `new` accepts the fields unchanged.",
  "all lists of field types of the crate, all constructors, all byte sequences, all positions in a buffer, both build profiles", "the test of the macro decodes one message; the claim is about all declarations and all inputs",
  S+"macro_message/message.rs: impl_message!", "README.md")
p("Every declared message can be sent in a frame",
  "For every declaration and every message of it, frame gives a frame of the declared type whose serialization can be read back and unframed. unframe takes a frame for the message exactly if the type agrees and the payload starts with the fields, and refuses other types with UnexpectedMessageType naming the declared type.",
  "all lists of field types of the crate, all constructors, all message types, all frames", "needs messages of 16 MB and all declarations",
  S+"macro_message/message.rs: impl_message!", S+"codec/frame.rs: frame, unframe, Message::serialize")

p("ParseError means that bytes are missing, and nothing else does",
  "For every wire type, every message of the crate and every declared message whose constructor does not itself return ParseError: decoding a byte sequence gives ParseError exactly if some continuation of the bytes decodes to something else. Every other result, value or error, stays the same whatever bytes follow. For each type there is a number of bytes that is always enough to get a result other than ParseError, and one byte less is not always enough; for a declared message the sum over the fields is enough.",
  "all wire types, all lists of field types and constructors, all byte sequences, all continuations, both build profiles", "about all continuations of an input; a test can try only some, and a receiver that waits on a wrong ParseError waits forever",
  S+"codec/parser.rs: ByteParser::next_by", S+"codec/", S+"types/", S+"macro_message/message.rs: impl_message!")
p("However a stream of frames is cut into pieces, the same frames are taken from it",
  "A receiver keeps a buffer, puts every piece it gets behind it, takes frames from the front as long as deserialize::<Message> gives one (removing 6 bytes and the payload each time), waits on ParseError and stops on any other error. For every stream and every way to cut it into pieces, the frames taken and the error, if any, are the same as for the uncut stream, and without an error so is the buffer that remains. If frames were serialized one after the other, followed by nothing or by the beginning of one more, exactly those frames are taken and exactly the beginning remains.",
  "all byte streams, all ways to cut them, any number of frames of any type and size, both build profiles", "about all ways to cut all streams",
  S+"codec/frame.rs: Message::deserialize, Message::serialize", S+"codec/parser.rs: ByteParser::next_by", S+"codec/deserialize.rs: deserialize")
p("A declared message can be a field of a declared message, to any depth",
  "impl_message! asks of a field type only the traits that it implements for the struct. For every nesting of declarations, to any depth, and every value that the constructors can build: the value is written as the images of the innermost fields in order, nothing is added for the nesting, the count is the number of bytes, a failing writer has taken a beginning; the bytes read back as the value; no encoding is the beginning of a different one; the message can be framed and unframed if it has less than 2^24 bytes. If constructors store what they are given and do not panic and no field is a bool, then bytes that decode to a value are exactly the bytes that the value is written to.",
  "all nestings of declarations over the wire types of the crate, all constructors, all values, all writers that take whole buffers until they fail, all positions in a buffer", "no test nests declarations; the claim is about every depth",
  S+"macro_message/message.rs: impl_message!", "README.md")
p("Nested messages are read innermost field first, and ParseError means missing bytes at every depth",
  "For every nesting of declarations whose constructors store what they are given and do not panic, and every byte sequence, the result is determined by the declarations: fields are read in order, a field that is itself a message is read whole and passed to its constructor before the next field is read, and the first error, of a field or of a constructor, is the result; there is no panic. If no constructor returns ParseError itself, ParseError is the result exactly if some continuation of the bytes gives another result.",
  "all nestings of declarations over the wire types of the crate, all such constructors, all byte sequences and continuations, both build profiles", "no test nests declarations; the claim is about every depth and every input",
  S+"macro_message/message.rs: impl_message!", "README.md")

p("The handshake hash of any history of calls covers every message read or written, refused attempts included",
  "For a session in either role and any calls in any order: once in transport mode, the handshake hash is the chain of hashes over the prologue, the two parts of the first message, for every refused attempt at the second message a prefix of that message (nothing, the public key, or the public key and the sealed static key; which one follows from the error returned and the length, and after a failed decryption or an all-zero key it is one of the last two), and the three parts of the second message. Two sessions with any histories that report the same hash were given the same prologue, wrote or read the same two handshake messages and have the same refused parts in between, unless two different strings hashed on the way have the same hash.",
  "all roles, prologues, keys, all histories of calls with all buffers, all primitives with the laws of the trusted base", "about all histories of calls, with any number of refused messages",
  N+"state.rs: HandshakeState::write_message_a, write_message_b, read_message_a, read_message_b", N+"noisesession.rs: send_message, recv_message, get_handshake_hash", N+"state.rs: SymmetricState::mix_hash, encrypt_and_hash, decrypt_and_hash")
p("Same handshake hash means same keys, after any number of refused attempts on either side",
  "One session writes the first message and then only receives; another reads a first message and then only tries to write the second one, installing key pairs or drawing new ones as it likes. The network delivers whatever it wants, and any number of attempts is refused on either side. If both get into transport mode and report the same handshake hash, then both hold the same two transport keys, the initiator reports the responder's static key, and prologue and transcript are the same, unless two different strings hashed on the way have the same hash.",
  "all keys and key pairs, prologues, buffers, all histories of calls before, between and after the messages as described, all network behaviour; X25519, BLAKE2s and ChaCha20-Poly1305 concretely", "about an active attacker and all histories of refused attempts",
  N+"state.rs: HandshakeState::write_message_b, read_message_b", N+"noisesession.rs: send_message, recv_message, get_handshake_hash, get_remote_static_public_key", N+"state.rs: SymmetricState::mix_key, split")

p("Attempts at the reply that are delivered as they are can be repeated until one succeeds",
  "After an honest first message the responder tries to write the reply in one buffer after the other, until an attempt succeeds, and after each attempt the initiator is given what is in the buffer. If no buffer has 32 to 47, 80 to 95 or 2129 to 65535 bytes, the initiator accepts exactly the attempts that succeeded; both sides are in transport mode or neither is, and if they are they hold the same keys, counters and handshake hash and the initiator reports the responder's static key. With a buffer of 96 to 2128 bytes among them they get there, unless an all-zero key comes out of HKDF. The sizes matter: with a buffer of 80 to 95 or 2129 to 65535 bytes the initiator panics on what is left in it (again unless a key is all zero), and after an attempt in 40 bytes it refuses the reply that follows.",
  "all keys, prologues, first buffers, all lists of buffers of those sizes; in C128_x25519 over X25519, BLAKE2s and ChaCha20-Poly1305", "about any number of failed attempts",
  N+"state.rs: write_message_b, read_message_b", N+"noisesession.rs: send_message, recv_message")

p("Every history of calls on a ConnectionEncryptor has exactly the specified results",
  "Any calls of init_handshake and recv_handshake on a fresh ConnectionEncryptor, inbound or outbound, in any order and with any bytes, up to the first panic: every result, and what is_handshake_complete and get_remote_pubkey say afterwards, is the one given by the table of C109 for a recv_message followed by a send_message in the same buffer, or a send_message in 1024 zero bytes. Once the handshake is complete it stays complete, the remote key stays the same and no call panics.",
  "all keys, all sequences of calls and inputs", "about sequences of any length",
  S+"network/encryptor.rs: init_handshake, recv_handshake, is_handshake_complete, get_remote_pubkey, new_inbound, new_outbound")
p("Two encryptors that hand each other every answer go on until the counter is used up",
  "When every answer of recv_handshake is handed to the other encryptor as it is, the exchange does not end with the handshake: the initiator's last call and every later one answer with a transport message, and all of them seal the same 1008 bytes: the responder's ephemeral and static public keys, bytes 64 to 79 of the reply (the tag of the static key) and 928 zero bytes. Exactly 2^65 - 1 answers are given; then the initiator's recv_handshake returns ExhaustedNonceError.",
  "all keys with the properties of C62, any number of answers; in C130_x25519 all private keys", "2^65 calls",
  S+"network/encryptor.rs: init_handshake, recv_handshake", N+"noisesession.rs: send_message, recv_message")

p("A session in transport mode never goes back to the handshake, although its counter is a u128",
  "Once a session is in transport mode no call brings it back to the handshake, whatever is called and however often, in builds with overflow checks and without: the width of the message counter cannot be seen.",
  "all histories of API calls of any length, both builds", "2^128 calls",
  N+"noisesession.rs: mc (line 41), send_message (line 164), recv_message (line 200)")

p("The same bytes mean the same on a 32-bit machine",
  "Every wire type, every frame and every message declared with impl_message!, nested to any depth, is decoded on a machine with a 32-bit usize exactly as on one with 64 bits: same value or error, same number of bytes consumed, no panic; frames are written with the same bytes, and a payload that is too long is always refused on the 32-bit machine.",
  "every wire type, every declaration, every slice a 32-bit machine can hold, every writer, both build profiles", "the tests run on one machine only; overflow of the cursor needs lengths near 2^32",
  S+"codec/parser.rs: ByteParser::next_by (lines 16-26)", S+"codec/frame.rs: Message::serialize (lines 33-54), Message::deserialize (lines 56-74)", S+"types/bytes.rs: impl_sized_B0 (lines 62-71)")

p("The generated tests of a message show that its fields are encoded in the right order",
  "An implementation that passes the tests which impl_message_tests! generates writes and reads every field correctly and in the declared order.",
  "every declaration, constructor and equality, every test data, every exchange of two fields of one type", "it is about what the tests cannot tell",
  S+"macro_message/message.rs: impl_message_tests! (lines 56-134)", S+"macro_message/setup_connection.rs: impl_setup_connection_tests! (lines 158-205)")

p("Decoding makes buffers only for bytes that are there",
  "Whatever the length fields of the input claim, decoding makes a number of reads that the type alone gives, and the Vecs and Strings it makes hold together no more bytes than it has consumed, plus the text of the error if it fails. A decoded value costs one copy of its variable-length part; reading a frame and the message in it costs at most two copies of the input.",
  "every wire type, every message declared with impl_message! nested to any depth, all bytes, every position, both build profiles", "a hostile length field can claim 2^24-1 bytes; tests do not measure memory",
  S+"types/bytes.rs: new, deserialize (lines 24-37, 62-71)", S+"types/strings.rs: deserialize (lines 58-69)", S+"codec/parser.rs: next_by (lines 16-26)", S+"codec/frame.rs: Message::deserialize (lines 56-74)")

p("No index, slice, copy or counter of nx-noise runs out of range, but for a reply of the wrong size",
  "After any calls on a new session, no array index, slice, split_at_mut, copy_from_slice or clone_from_slice, no subtraction of lengths and no increment of a nonce in nx-noise fails, in a call of any kind with any buffer, except in the one case of C51: recv_message of a reply whose end has the wrong size. The arrays of the session keep the sizes of their types.",
  "every set of primitives with the right output sizes, every prologue and key pair, every history of calls, every next call and buffer, both build profiles", "the slices depend on lengths an attacker chooses at every stage of the handshake; tests use one length per stage",
  N+"utils.rs: from_slice_hashlen, prep_nonce (lines 6-16)", N+"prims.rs: hmac, hkdf (lines 33-71)", N+"state.rs: CipherState, SymmetricState, HandshakeState (lines 53-399)", N+"macros.rs: copy_slices (lines 5-9)", N+"noisesession.rs: send_message, recv_message (lines 146-202)")

p("The byte count that serialize returns, for any writer",
  "On machines of 32 and of 64 bits, with and without overflow checks, every type but the frame returns the length of its encoding whatever the writer reports. A frame returns 6 plus what the writer reported for the payload; if a usize cannot hold this sum, serialize panics with overflow checks and returns its low bits without. Messages declared with impl_message! return the sum of their fields in the same sense. No sum overflows for a writer that reports at most what it was offered.",
  "every type and value that the constructors can build, every declaration nested to any depth, every writer and state of the writer, both widths and profiles", "a writer that reports nearly 2^64 bytes, or nearly 2^32 on a small machine, is in no test",
  S+"codec/frame.rs: Message::serialize (lines 33-54)", S+"macro_message/message.rs: serialize (lines 30-38)", S+"types/bytes.rs: serialize (lines 74-82)", S+"types/strings.rs: serialize (lines 72-80)", S+"common/setup_connection.rs: serialize (lines 180-198)")

p("The exact range of encoded sizes, and how many bytes a declared message asks for",
  "For each wire type and message there is a smallest and a largest encoding, of sizes that are given in a table; every value lies between them and both are reached. Decoding takes a number of bytes in the same range. For a declared message the sums over the fields bound its size and are reached. The number of bytes that is always enough to decode the fields of a declaration follows from the table, since a field may ask for more bytes than it can take; one byte less is not always enough.",
  "all wire types and messages and their values, all lists of field types, all byte sequences, both build profiles", "the largest values (a frame of 16 MiB, five strings of 255 bytes) are in no test, and that no value is larger or smaller needs all of them",
  S+"types/bytes.rs: impl_sized_B0 (lines 10-83, 211-215)", S+"types/strings.rs: impl_sized_STR0 (lines 6-81, 183-184)", S+"macro_message/message.rs: impl_message (lines 11-60)", S+"macro_message/setup_connection.rs: new (lines 104-149)", S+"codec/frame.rs: Message (lines 17-77)")

p("Key material in the local arrays of nx-noise",
  "When a call on a session returns, none of the arrays declared in the functions it ran still holds a key of the session.",
  "all sessions, all calls, all cryptographic primitives of the right sizes", "wiping a local array has no effect on any result, so no test can see whether it happens",
  N+"prims.rs: hmac, hkdf (lines 33-71)", N+"state.rs: rekey (lines 97-106), read_message_regular (lines 116-123), mix_key (lines 155-171), mix_key_and_hash (lines 177-199), split (lines 235-254)", N+"noisesession.rs: send_message (lines 146-166), recv_message (lines 180-202)")

p("Channel ids given one after another differ",
  "The ids that new_channel_id gives to the channels of a connection are all different.",
  "all numbers of calls and all outputs of the random generator", "two equal ids among a few calls are too rare to be met in a test",
  S+"network/channel.rs: new_channel_id (lines 12-14), ChannelManager (lines 32-45)")

p("The setup_connection example finishes under every fair schedule",
  "Whenever the pool's task and the miner of setup_connection.rs both get turns for ever, the miner ends having printed the flags of the pool's answer.",
  "all schedules of the two tasks, with and without end, all requests and flags", "a test sees the schedules that the machine happens to choose",
  "examples/setup_connection.rs: main (lines 14-41), Pool::listen (62-82), Pool::handle_recv_bytes (84-114), Miner::listen (128-148)")
p("The noise_handshake example prints its verdict under every fair schedule",
  "Whenever the pool's task and the miner of noise_handshake.rs both get turns for ever, the miner prints one verdict: whether the pool's certificate is valid when it is read.",
  "all schedules of the two tasks, all usable keys, all clocks from 1970 to 2106", "a test sees the schedules that the machine happens to choose, and no certificate that has expired",
  "examples/noise_handshake.rs: main (lines 19-40), Pool::listen (65-84), Pool::handle_recv_bytes (86-110), Miner::listen (137-158), Miner::handle_recv_bytes (160-182)")

p("The setup_connection example shows the right flags however the network cuts what is sent",
  "However the request and the answer are cut into pieces on the way and whenever the pieces arrive, a miner of setup_connection.rs that ends has printed the flags of the pool's answer.",
  "all requests and flags, all orders of turns and arrivals, all sizes of pieces", "on one machine both messages arrive whole",
  "examples/setup_connection.rs: main (lines 14-41), Pool::listen (62-82), Pool::handle_recv_bytes (84-114), Miner::listen (128-148)")

p("The Debug text of a message tells which message it is",
  "Two messages of a kind have the same {:?} text only if they are the same message, and two frames only if they are the same frame.",
  "all kinds, all messages, all strings, all payloads, all tables of unprintable characters", "texts are compared by eye for a few messages; strings that imitate quotes or field names are not tried",
  "stratumv2/src/macro_message/message.rs: derive(Debug) (lines 22-28); types/strings.rs:8-12; types/bytes.rs:12-16; types/fixed.rs:9-10, 87-88; types/message_type.rs:5-42; codec/frame.rs:18-22")

p("The Debug text of an error tells which error it is and what it carries",
  "Two errors of the library (or of nx-noise, wrapped) have the same {:?} text, the one a failing unwrap prints, exactly if they are the same variant with the same values, the same string and the same text of a wrapped error.",
  "all pairs of errors, all strings, all texts of wrapped errors, all tables of unprintable characters", "there are infinitely many strings and numbers, and strings may imitate the brackets and names around them",
  "stratumv2/src/error.rs: Error, derive(Debug) (lines 4-62); stratumv2/nx-noise/src/error.rs: NoiseError (lines 3-19)")

p("The noise example prints its verdict however its messages are cut on the way",
  "In examples/noise_handshake.rs, however what is sent is cut into pieces on the way, if the pool gets the first turn, both tasks get turns for ever and bytes keep arriving, the miner prints its verdict on the pool's certificate.",
  "all keys, authorities, texts and clocks, all sequences of turns and arriving pieces of any length", "there are infinitely many sequences, and over the loopback interface messages arrive whole",
  "stratumv2/examples/noise_handshake.rs: main, Pool, Miner (lines 19-188)")

with open("/verif/properties.jsonl", "w") as f:
    for x in P:
        f.write(json.dumps(x, ensure_ascii=False) + "\n")
print(len(P))
