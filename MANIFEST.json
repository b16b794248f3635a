{
 "claims": [
  {
   "property": "C01",
   "status": "proved",
   "theorems": [
    "C01_scalar_roundtrip"
   ],
   "note": "All seven scalar types."
  },
  {
   "property": "C02",
   "status": "proved",
   "theorems": [
    "C02_bool_lsb",
    "C02_bool_encoding"
   ],
   "note": "Holds for all inputs as stated."
  },
  {
   "property": "C03",
   "status": "proved",
   "theorems": [
    "C03_u24_range",
    "C03_u24_wire"
   ],
   "note": "Holds for all inputs as stated."
  },
  {
   "property": "C04",
   "status": "proved",
   "theorems": [
    "C04_b0_new"
   ],
   "note": "Holds for all inputs as stated."
  },
  {
   "property": "C05",
   "status": "proved",
   "theorems": [
    "C05_b0_roundtrip",
    "C05_b0_decode_exact"
   ],
   "note": "Holds for all inputs as stated."
  },
  {
   "property": "C06",
   "status": "proved",
   "theorems": [
    "C06_str0_new"
   ],
   "note": "Holds for all inputs as stated."
  },
  {
   "property": "C07",
   "status": "proved",
   "theorems": [
    "C07_str0_roundtrip",
    "C07_str0_decode_exact",
    "C07_str0_table_functional"
   ],
   "note": "Holds for all inputs as stated."
  },
  {
   "property": "C08",
   "status": "proved",
   "theorems": [
    "C08_utf8_exact"
   ],
   "note": "Holds for all inputs as stated."
  },
  {
   "property": "C09",
   "status": "proved",
   "theorems": [
    "C09_deserialize_never_panics",
    "C09_deserialize"
   ],
   "note": "Holds for all inputs as stated."
  },
  {
   "property": "C10",
   "status": "proved",
   "theorems": [
    "C10_next_by_exact",
    "C10_next_by_sequence"
   ],
   "note": "Both build profiles; the sum start+step must fit a usize except in release builds (see C69)."
  },
  {
   "property": "C11",
   "status": "proved",
   "theorems": [
    "C11_forward_in_bounds_local",
    "C11_truncated"
   ],
   "note": "Holds for all inputs as stated."
  },
  {
   "property": "C12",
   "status": "proved",
   "theorems": [
    "C12_canonical",
    "C12_injective"
   ],
   "note": "Holds for all inputs as stated."
  },
  {
   "property": "C13",
   "status": "proved",
   "theorems": [
    "C13_stream",
    "C13_prefix_free"
   ],
   "note": "Holds for all inputs as stated."
  },
  {
   "property": "C14",
   "status": "proved",
   "theorems": [
    "C14_count",
    "C14_constructed_iff",
    "C14_decoded"
   ],
   "note": "For every value a constructor or decoder can produce; constructed <-> msg_ok is proved."
  },
  {
   "property": "C15",
   "status": "partial",
   "theorems": [
    "C15_hand_built_count_refuted",
    "C15_hand_built_count_partial"
   ],
   "note": "REFUTED: a STR0 with an inconsistent public length field reports a count it did not write. Partial: the count is right exactly when the length field agrees."
  },
  {
   "property": "C16",
   "status": "partial",
   "theorems": [
    "C16_ok_means_complete_refuted",
    "C16_ok_means_complete_partial",
    "C16_every_writer"
   ],
   "note": "REFUTED: serializers call write, not write_all, so a writer that takes part of a buffer (allowed by io::Write) loses data under Ok. Partial: holds for writers that take whole buffers. C16_every_writer gives the exact result for every writer: each piece is offered once and the counts are ignored."
  },
  {
   "property": "C17",
   "status": "proved",
   "theorems": [
    "C17_failing_writer"
   ],
   "note": "Holds for all inputs as stated."
  },
  {
   "property": "C18",
   "status": "proved",
   "theorems": [
    "C18_frame_layout"
   ],
   "note": "Holds for all inputs as stated."
  },
  {
   "property": "C19",
   "status": "proved",
   "theorems": [
    "C19_frame_roundtrip"
   ],
   "note": "Holds for all inputs as stated."
  },
  {
   "property": "C20",
   "status": "proved",
   "theorems": [
    "C20_frame_rejection_exact"
   ],
   "note": "Holds for all inputs as stated."
  },
  {
   "property": "C21",
   "status": "partial",
   "theorems": [
    "C21_oversized_refuted",
    "C21_oversized_partial",
    "C21_every_length"
   ],
   "note": "REFUTED for payloads of 2^32 bytes: payload.len() as u32 truncates before the check. Partial: refused and nothing written below 2^32 bytes, any writer. C21_every_length gives the exact outcome for every length: only the length modulo 2^32 is checked."
  },
  {
   "property": "C22",
   "status": "proved",
   "theorems": [
    "C22_type_table_roundtrip",
    "C22_type_table_exact",
    "C22_type_table_injective",
    "C22_type_table_spec"
   ],
   "note": "Holds for all inputs as stated."
  },
  {
   "property": "C23",
   "status": "proved",
   "theorems": [
    "C23_frame_unframe"
   ],
   "note": "Holds for all inputs as stated."
  },
  {
   "property": "C24",
   "status": "partial",
   "theorems": [
    "C24_unframe_error_refuted",
    "C24_unframe_refuses_partial"
   ],
   "note": "REFUTED: the error carries the expected type instead of the received one. Partial: every other type is refused."
  },
  {
   "property": "C25",
   "status": "partial",
   "theorems": [
    "C25_setup_partial",
    "C25_success_partial",
    "C25_error_partial",
    "C25_common_partial",
    "C25_frame_determines_type_refuted",
    "C25_frame_determines_type_partial"
   ],
   "note": "REFUTED: mining and job negotiation setup messages share message types. Partial: outside those families a frame determines its type. C25_setup_partial, C25_success_partial, C25_error_partial: within a family exactly the frames whose flags both types know are read by both, with the same value; C25_common_partial: the common setup message is a protocol byte and the payload of one of the other two."
  },
  {
   "property": "C26",
   "status": "proved",
   "theorems": [
    "C26_message_layout"
   ],
   "note": "Holds for all inputs as stated."
  },
  {
   "property": "C27",
   "status": "proved",
   "theorems": [
    "C27_setup_connection_new",
    "C27_common_constructors",
    "C27_setup_connection_decoded",
    "C27_common_decoded"
   ],
   "note": "Holds for all inputs as stated."
  },
  {
   "property": "C28",
   "status": "partial",
   "theorems": [
    "C28_version_range_refuted",
    "C28_mining_versions_partial",
    "C28_jn_versions_partial"
   ],
   "note": "REFUTED: min_version 9, max_version 2 is accepted by constructor and decoder. Partial: of all pairs of versions exactly those with both >= 2 are accepted by the constructor, and all of these survive the wire."
  },
  {
   "property": "C29",
   "status": "proved",
   "theorems": [
    "C29_setup_error_new",
    "C29_setup_error_decoded",
    "C29_setup_error_accepted"
   ],
   "note": "Holds for all inputs as stated."
  },
  {
   "property": "C30",
   "status": "proved",
   "theorems": [
    "C30_flags_decode",
    "C30_flags_wire",
    "C30_flags_operations",
    "C30_flags_operation_bits"
   ],
   "note": "Holds for all inputs as stated."
  },
  {
   "property": "C31",
   "status": "proved",
   "theorems": [
    "C31_setup_code_exact",
    "C31_channel_code_exact",
    "C31_setup_code_string",
    "C31_channel_code_string",
    "C31_code_strings_injective"
   ],
   "note": "Holds for all inputs as stated."
  },
  {
   "property": "C32",
   "status": "proved",
   "theorems": [
    "C32_dispatch",
    "C32_protocol_byte"
   ],
   "note": "Holds for all inputs as stated."
  },
  {
   "property": "C33",
   "status": "partial",
   "theorems": [
    "C33_equality_nan_refuted",
    "C33_equality_zero_refuted",
    "C33_equality_partial",
    "C33_equality_exact_partial"
   ],
   "note": "REFUTED for NaN and -0.0 hash rates. Partial: holds without those; exact characterisation of == for all messages."
  },
  {
   "property": "C34",
   "status": "proved",
   "theorems": [
    "C34_unix_time"
   ],
   "note": "Holds for all inputs as stated."
  },
  {
   "property": "C35",
   "status": "proved",
   "theorems": [
    "C35_certificate_window"
   ],
   "note": "Holds for all inputs as stated."
  },
  {
   "property": "C36",
   "status": "proved",
   "theorems": [
    "C36_pool_certificate_verifies",
    "C36_from_parts"
   ],
   "note": "Given that ed25519 verifies its own signatures and emits 64 canonical bytes; every base58 text of the public key, any surrounding bytes."
  },
  {
   "property": "C37",
   "status": "proved",
   "theorems": [
    "C37_verify_exact",
    "C37_every_field_is_signed",
    "C37_accepts_only_issued"
   ],
   "note": "Exact outcome table; all four fields are bound; with an unforgeability hypothesis only issued certificates are accepted. The clock is read modulo 2^32 seconds (see C38)."
  },
  {
   "property": "C38",
   "status": "partial",
   "theorems": [
    "C38_accepted_before_valid_refuted",
    "C38_accepted_after_expiry_refuted",
    "C38_before_expiry_partial",
    "C38_when_accepted_partial"
   ],
   "note": "REFUTED twice: valid_from is never checked, and the clock is cut to 32 bits so an expired certificate is accepted again after 2106. Partial: before 2106 nothing expired is accepted; C38_when_accepted_partial: accepted exactly from each multiple of 2^32 seconds until the expiry is reached again."
  },
  {
   "property": "C39",
   "status": "proved",
   "theorems": [
    "C39_serialized",
    "C39_round_trip",
    "C39_short_input",
    "C39_every_74_bytes"
   ],
   "note": "Every input is covered by the round trip, short input and every-74-bytes theorems; the panic case is C74."
  },
  {
   "property": "C40",
   "status": "proved",
   "theorems": [
    "C40_authority_key",
    "C40_key_unique",
    "C40_text_unique",
    "C40_every_key_has_a_text"
   ],
   "note": "base58 is the algorithm of the bitcoin crate (a dependency), proved equal to positional notation."
  },
  {
   "property": "C41",
   "status": "proved",
   "theorems": [
    "C41_nx_agreement"
   ],
   "note": "For all primitives satisfying crypto_ok (proved for the reference BLAKE2s/ChaCha20-Poly1305/X25519) and key pairs on which Diffie-Hellman agrees."
  },
  {
   "property": "C42",
   "status": "proved",
   "theorems": [
    "C42_initiator_is_NX",
    "C42_responder_is_NX"
   ],
   "note": "Against an independent interpreter of the Noise specification; refinement in both roles for every peer message."
  },
  {
   "property": "C43",
   "status": "proved",
   "theorems": [
    "C43_hmac",
    "C43_hkdf2",
    "C43_hkdf3"
   ],
   "note": "Holds for all inputs as stated."
  },
  {
   "property": "C44",
   "status": "proved",
   "theorems": [
    "C44_channel"
   ],
   "note": "Every schedule; assumes in-order pipes as in the statement."
  },
  {
   "property": "C45",
   "status": "proved",
   "theorems": [
    "C45_reject_no_effect",
    "C45_any_number_of_rejects"
   ],
   "note": "Holds for all inputs as stated."
  },
  {
   "property": "C46",
   "status": "proved",
   "theorems": [
    "C46_accepts_exactly",
    "C46_delivers_what_was_sealed",
    "C46_history"
   ],
   "note": "Holds for all inputs as stated."
  },
  {
   "property": "C47",
   "status": "proved",
   "theorems": [
    "C47_nonces_distinct",
    "C47_exhausted"
   ],
   "note": "Holds for all inputs as stated."
  },
  {
   "property": "C48",
   "status": "proved",
   "theorems": [
    "C48_gating"
   ],
   "note": "Holds for all inputs as stated."
  },
  {
   "property": "C49",
   "status": "proved",
   "theorems": [
    "C49_size_limits"
   ],
   "note": "Holds for all inputs as stated."
  },
  {
   "property": "C50",
   "status": "proved",
   "theorems": [
    "C50_send_never_panics"
   ],
   "note": "Holds for all inputs as stated."
  },
  {
   "property": "C51",
   "status": "partial",
   "theorems": [
    "C51_every_history_partial",
    "C51_recv_panics_refuted",
    "C51_every_honest_initiator_panics",
    "C51_panics_only_partial",
    "C51_initiator_panics_exactly"
   ],
   "note": "REFUTED: any honest reply cut to 80..95 bytes, or longer than 2128 bytes, makes the initiator panic. Partial: a panic is possible only at the second message with such a length; the exact condition is proved for an initiator that has sent its first message. C51_every_history_partial: the exact condition after every history of calls, in terms of the stage the table of C109 gives."
  },
  {
   "property": "C52",
   "status": "proved",
   "theorems": [
    "C52_cleared_local",
    "C52_cleared_remote",
    "C52_never_under_zero_key"
   ],
   "note": "Buffers of 16..65535 bytes (others get the length error); the cleared direction as long as no rekey follows, see C53 for what a rekey does."
  },
  {
   "property": "C53",
   "status": "partial",
   "theorems": [
    "C53_predictable_key_refuted",
    "C53_predictable_key_always",
    "C53_after_clear_partial",
    "C53_accepts_anyone"
   ],
   "note": "REFUTED: clear_local then rekey_local gives the public constant REKEY(0) as key, for every session; a responder then accepts messages from anybody. Partial: exactly the keys REKEY^r(0), r > 0, with counters from 0; without a rekey nothing is sent (C52)."
  },
  {
   "property": "C54",
   "status": "partial",
   "theorems": [
    "C54_rekey_remote_refuted",
    "C54_rekey_remote_is_rekey_local",
    "C54_cs2_never_rekeyed_partial"
   ],
   "note": "REFUTED: rekey_remote_cipherstate rekeys cs1, exactly like rekey_local. Partial: cs2's key never changes."
  },
  {
   "property": "C55",
   "status": "proved",
   "theorems": [
    "C55_channel_with_rekeys"
   ],
   "note": "Holds for all inputs as stated."
  },
  {
   "property": "C56",
   "status": "proved",
   "theorems": [
    "C56_from_bytes_exact",
    "C56_handshake_message_refused",
    "C56_learnt_static_key"
   ],
   "note": "Holds for all inputs as stated."
  },
  {
   "property": "C57",
   "status": "partial",
   "theorems": [
    "C57_from_str_low_order_refuted",
    "C57_recheck_partial"
   ],
   "note": "REFUTED: PublicKey::from_str accepts low-order points. Partial: from_bytes on the result decides it."
  },
  {
   "property": "C58",
   "status": "proved",
   "theorems": [
    "C58_hex_keys"
   ],
   "note": "Holds for all inputs as stated."
  },
  {
   "property": "C59",
   "status": "partial",
   "theorems": [
    "C59_never_again",
    "C59_garbled_reply_refuted",
    "C59_failed_recv_partial"
   ],
   "note": "REFUTED: a reply corrupted after the key part leaves mixed-in state behind and the genuine one is then rejected. C59_never_again: for every run, the genuine reply is accepted after one that got as far as its public key only if a box made for one hash opens for another, or hashed strings collide. Partial: true at every other message and for early refusals."
  },
  {
   "property": "C60",
   "status": "partial",
   "theorems": [
    "C60_responder_remote_key_refuted",
    "C60_responder_remote_key_always",
    "C60_initiator_remote_key_partial"
   ],
   "note": "REFUTED: every completed responder reports Some(00..00). Partial: the initiator's answer is right."
  },
  {
   "property": "C61",
   "status": "partial",
   "theorems": [
    "C61_last_16_refuted",
    "C61_last_16_kept_partial"
   ],
   "note": "REFUTED: the last 16 bytes are the received tag. Partial: length and tag kept, plaintext in front."
  },
  {
   "property": "C62",
   "status": "proved",
   "theorems": [
    "C62_encryptor_handshake"
   ],
   "note": "For all primitives satisfying crypto_ok and key pairs on which Diffie-Hellman agrees, unless a derived key is all zero (then EmptyKeyError). Also says what the extra third message is."
  },
  {
   "property": "C63",
   "status": "partial",
   "theorems": [
    "C63_both_directions_refuted",
    "C63_initiator_refused",
    "C63_with_third_message_partial"
   ],
   "note": "REFUTED: the initiator's own recv_handshake sends a message nobody reads, so its counter is one ahead and the responder refuses everything it sends. Partial: with that message delivered first both directions deliver everything in order."
  },
  {
   "property": "C64",
   "status": "partial",
   "theorems": [
    "C64_encrypt_decrypt_refuted",
    "C64_only_empty_partial"
   ],
   "note": "REFUTED: both functions are stubs returning an empty vector. Partial: exactly the empty message survives."
  },
  {
   "property": "C65",
   "status": "proved",
   "theorems": [
    "C65_fifo",
    "C65_drain_takes_all",
    "C65_threads",
    "C65_exactly_once",
    "C65_all_finished",
    "C65_exclusion",
    "C65_progress",
    "C65_no_panic",
    "C65_after_crash",
    "C65_crash_spreads"
   ],
   "note": "Every number of threads, programs and schedules; FIFO order, exactly-once, mutual exclusion, progress; after a thread panics holding the lock nothing more is queued or drained and every later lock() panics."
  },
  {
   "property": "C66",
   "status": "proved",
   "theorems": [
    "C66_in_range",
    "C66_uniform"
   ],
   "note": "gen_range is the algorithm of rand 0.7 (a dependency); also every id is reachable by exactly one draw."
  },
  {
   "property": "C67",
   "status": "proved",
   "theorems": [
    "C67_pool_answers",
    "C67_job_negotiation_ignored"
   ],
   "note": "Also shown: a frame longer than 1024 bytes makes the pool panic. TCP delivery in one piece is assumed by the model."
  },
  {
   "property": "C68",
   "status": "proved",
   "theorems": [
    "C68_noise_handshake_example",
    "C68_any_certificate",
    "C68_verdict_sound"
   ],
   "note": "Example handler with its two clock readings, any certificate over any completed handshake, and soundness of the verdict. The verdict for every current time is given, including expiry."
  },
  {
   "property": "C69",
   "status": "partial",
   "theorems": [
    "C69_next_by_no_panic_refuted",
    "C69_next_by_no_panic_partial"
   ],
   "note": "REFUTED in debug builds: start + step overflows. Partial: panics exactly in debug builds with start + step >= 2^64."
  },
  {
   "property": "C70",
   "status": "partial",
   "theorems": [
    "C70_zero_secret_refuted",
    "C70_order_two_points"
   ],
   "note": "REFUTED for the reference X25519: 2^255 (point 0 with the ignored top bit) is accepted and gives 0 with every private key. C84 shows the exact set of such keys."
  },
  {
   "property": "C71",
   "status": "partial",
   "theorems": [
    "C71_exactly_partial",
    "C71_nonce_reuse_refuted",
    "C71_responder_partial",
    "C71_since_clear_partial"
   ],
   "note": "REFUTED: clear, rekey, send done twice reuses key REKEY(0) with counter 0. Partial: it never happens to a responder, and two sends with one counter always have a clear_local between them; without clears see C47. C71_exactly_partial: what an initiator sends every message with, told from the calls; the second of two messages with one key and counter comes after a clear_local, and unless REKEY makes two keys meet both are sent the same number of rekeys and messages after a clear_local."
  },
  {
   "property": "C72",
   "status": "partial",
   "theorems": [
    "C72_never_sent",
    "C72_failed_send_refuted",
    "C72_failed_send_partial"
   ],
   "note": "REFUTED: the responder's reply attempted with a 32..79-byte buffer leaves the handshake state advanced. C72_never_sent: for every run, a reply sent after such a failure is accepted only if a box made for one hash opens for another, or hashed strings collide. Partial: true at every other message and below 32 bytes."
  },
  {
   "property": "C73",
   "status": "partial",
   "theorems": [
    "C73_short_first_message_refuted",
    "C73_first_message_partial"
   ],
   "note": "REFUTED for buffers of 32..47 bytes. Partial: the exact outcome for every buffer: sent from 32 to 65535 bytes, received from 48 on, refused below without a trace."
  },
  {
   "property": "C74",
   "status": "partial",
   "theorems": [
    "C74_decode_panics_refuted",
    "C74_panics_exactly_partial"
   ],
   "note": "REFUTED for ed25519 crate versions whose Signature::new checks the top bits: the decoder panics. Partial: it panics exactly for those versions on 74 bytes or more with a non-canonical signature field."
  },
  {
   "property": "C75",
   "status": "partial",
   "theorems": [
    "C75_recv_handshake_panics_refuted",
    "C75_every_honest_encryptor_panics",
    "C75_panics_only_partial",
    "C75_panics_exactly",
    "C75_init_handshake_never_panics",
    "C75_inbound_partial",
    "C75_outbound_partial"
   ],
   "note": "REFUTED: every honest reply cut to 80..95 bytes panics the initiator. Partial: only at message count 1 with those lengths or above 2128 bytes; the exact condition is proved for a new_outbound encryptor after init_handshake; C75_inbound_partial and C75_outbound_partial: the exact condition after any calls up to the first panic, in terms of the table of C129; init_handshake never panics."
  },
  {
   "property": "C76",
   "status": "proved",
   "theorems": [
    "C76_agree",
    "C76_public_accepted",
    "C76_secret_nonzero",
    "C76_ladder"
   ],
   "note": "Proved from the curve: 2^255-19 and the group order are prime, complete Edwards group law, the ladder computes scalar multiples. X25519 is the reference of Crypto.v, standing for hacl-star."
  },
  {
   "property": "C77",
   "status": "proved",
   "theorems": [
    "C77_real_handshake",
    "C77_real_channel"
   ],
   "note": "C41 and C44 for the reference primitives; no assumption on Diffie-Hellman is left. Only an all-zero derived cipher key (taken for no key by the code) is excluded."
  },
  {
   "property": "C78",
   "status": "proved",
   "theorems": [
    "C78_erased",
    "C78_erased_ephemeral"
   ],
   "note": "All call histories. Copies left by moves and stack temporaries are not modelled."
  },
  {
   "property": "C79",
   "status": "partial",
   "theorems": [
    "C79_exactly_partial",
    "C79_whole_partial",
    "C79_end_session_refuted",
    "C79_failed_reply",
    "C79_transport_partial",
    "C79_no_failure_partial"
   ],
   "note": "REFUTED: after a failed second handshake message the chaining key and cipher key derived from the Diffie-Hellman secret stay in the dropped session (shown for every responder whose reply buffer is 32..79 bytes). Partial: holds in transport mode and when every call succeeded. C79_exactly_partial: for every history, what is left in each case; the property fails exactly for sessions outside transport mode in which a call got as far as its public key and failed. C79_whole_partial: every field of a session dropped in transport mode; the handshake hash stays in the symmetric state, and nothing else but public values."
  },
  {
   "property": "C80",
   "status": "partial",
   "theorems": [
    "C80_source_refuted",
    "C80_others_partial"
   ],
   "note": "REFUTED: source() of every NoiseError is itself, so the chain never ends; also for stratumv2::Error::NoiseError. Partial: all other variants, given the wrapped foreign error ends."
  },
  {
   "property": "C81",
   "status": "proved",
   "theorems": [
    "C81_from_private_key",
    "C81_usable"
   ],
   "note": "For every primitive record; usability for the reference X25519 (via C76)."
  },
  {
   "property": "C82",
   "status": "proved",
   "theorems": [
    "C82_signature_verifies",
    "C82_laws",
    "C82_key_valid",
    "C82_verify_exact"
   ],
   "note": "Ed25519 is the reference of Ed25519.v (RFC 8032 with SHA-512 of FIPS 180-4), standing for ed25519-dalek. Uses that the base point has order L and the group law of C76; key acceptance is stated in integers modulo p."
  },
  {
   "property": "C83",
   "status": "proved",
   "theorems": [
    "C83_real_certificate",
    "C83_real_authentication"
   ],
   "note": "C36 and C68 for the reference primitives; no assumption on signatures or Diffie-Hellman is left. Only all-zero derived cipher keys are excluded."
  },
  {
   "property": "C84",
   "status": "proved",
   "theorems": [
    "C84_zero_secret_exact",
    "C84_missed_exact",
    "C84_refused_exact"
   ],
   "note": "X25519 is the reference of Crypto.v. Uses that the curve has 8L points and its twist 4L' points, L and L' prime (proved: counting, Euler's criterion, Pocklington), so private keys cannot vanish on any other point."
  },
  {
   "property": "C85",
   "status": "proved",
   "theorems": [
    "C85_opening",
    "C85_first_message",
    "C85_answer",
    "C85_reply",
    "C85_tables_decide"
   ],
   "note": "Tables in SpecReply, each proved to give at most one result. The answer and reply tables assume the first message was read or sent without error, and the answer table a consistent responder key pair."
  },
  {
   "property": "C86",
   "status": "proved",
   "theorems": [
    "C86_message_decoders",
    "C86_encryptors",
    "C86_certificate_decoder"
   ],
   "note": "Both build profiles. That fuzz! runs its closure once is an assumption (honggfuzz is not in the repository); C87 treats repeated runs on one encryptor. noise.rs can panic; its exact condition is proved."
  },
  {
   "property": "C87",
   "status": "partial",
   "theorems": [
    "C87_fed_encryptor_panics_refuted",
    "C87_every_encryptor",
    "C87_panics_only_partial",
    "C87_exactly_partial",
    "C87_one_outcome"
   ],
   "note": "REFUTED: a 48-byte first input is read but its reply does not fit, and a crafted 80-byte second input panics. C87_every_encryptor: for every fresh encryptor, any 48..79-byte first input with an acceptable key, and any wrong-sized payload, some second input panics unless the derived key is all zero (EmptyKeyError). Partial: a panic needs an input of 80..95 or 2129..65535 bytes and an earlier first message that was read but whose reply failed (MissingneError or EmptyKeyError). C87_exactly_partial: all results of any inputs up to the first panic, by the table of C109; C87_one_outcome: the table has one outcome."
  },
  {
   "property": "C88",
   "status": "proved",
   "theorems": [
    "C88_transcript_hash",
    "C88_binding"
   ],
   "note": "For all primitives satisfying crypto_ok. The alternative to agreement names the colliding strings: they are among those hashed by the two runs."
  },
  {
   "property": "C89",
   "status": "proved",
   "theorems": [
    "C89_opening_is_authenticated",
    "C89_same_key"
   ],
   "note": "For all primitives satisfying crypto_ok; that boxes do not open under another hash is a property of the AEAD and appears as an explicit alternative."
  },
  {
   "property": "C90",
   "status": "proved",
   "theorems": [
    "C90_decode_exact",
    "C90_unframe_exact"
   ],
   "note": "All fifteen message types; SpecDecode gives the reading."
  },
  {
   "property": "C91",
   "status": "partial",
   "theorems": [
    "C91_pool_survives_refuted",
    "C91_pool_exact_partial"
   ],
   "note": "REFUTED: a client that closes without sending makes the pool panic. Partial: the exact behaviour on every input, panics included."
  },
  {
   "property": "C92",
   "status": "partial",
   "theorems": [
    "C92_whole_frame_refuted",
    "C92_prefix_exact_partial"
   ],
   "note": "REFUTED: a frame cut after the length byte of the firmware string is answered (the rest of the buffer is zero). Partial: for every prefix, answered exactly if it reaches past that byte and cuts no UTF-8 character; otherwise, and for every prefix of a frame longer than the 1024 bytes the pool reads, it panics."
  },
  {
   "property": "C93",
   "status": "partial",
   "theorems": [
    "C93_text_identifies_refuted",
    "C93_text_exact_partial"
   ],
   "note": "REFUTED: five Missing errors share a text. Partial: exactly which texts are equal, leaving out the variant that wraps an error of the hex crate."
  },
  {
   "property": "C94",
   "status": "proved",
   "theorems": [
    "C94_receiving",
    "C94_sending",
    "C94_one_state"
   ],
   "note": "For all primitives satisfying crypto_ok; [rnd] is the same in all attempts of one session, which matters only if the ephemeral key is all zero or not yet drawn."
  },
  {
   "property": "C95",
   "status": "proved",
   "theorems": [
    "C95_miner_exact",
    "C95_one_outcome",
    "C95_true_means",
    "C95_with_the_pool"
   ],
   "note": "For all primitives satisfying crypto_ok. Connections are accepted one at a time and each is read once, as in the code; what one read returns is the input. The clock of the first connection is not used."
  },
  {
   "property": "C96",
   "status": "proved",
   "theorems": [
    "C96_pool_exact",
    "C96_one_outcome"
   ],
   "note": "For all primitives satisfying crypto_ok and ed_ok, one read of the one connection; what the network does with the answers is outside the model."
  },
  {
   "property": "C97",
   "status": "partial",
   "theorems": [
    "C97_stray_connection_refuted",
    "C97_every_miner_stops",
    "C97_every_pool_stops",
    "C97_pool_answers_partial"
   ],
   "note": "REFUTED: with any keys, a connection closed without data ends either program. Partial: the pool answers every client whose first 32 bytes are not of low order, unless a derived key is zero, while the clock is between 1970 and 2106."
  },
  {
   "property": "C98",
   "status": "proved",
   "theorems": [
    "C98_every_history",
    "C98_one_outcome"
   ],
   "note": "For all primitives satisfying crypto_ok and every reachable session in transport mode. The message counter of the session (u128 in the code) is unbounded in the model."
  },
  {
   "property": "C99",
   "status": "proved",
   "theorems": [
    "C99_few_keys_accept_a_forgery",
    "C99_number_of_keys",
    "C99_session",
    "C99_other_tag",
    "C99_one_pad"
   ],
   "note": "About the reference ChaCha20-Poly1305 (RFC 8439) of Crypto.v, not hacl-star's code. A count of multipliers, not a probability: that the multiplier derived by ChaCha20 is distributed evenly for an attacker is a cryptographic assumption outside the model. The session theorem holds for any hash and Diffie-Hellman function satisfying crypto_ok."
  },
  {
   "property": "C100",
   "status": "partial",
   "theorems": [
    "C100_miner_survives_refuted",
    "C100_miner_exact_partial"
   ],
   "note": "REFUTED: an answer with an unknown flag ends the miner. Partial: for every input, the lines it prints and whether it panics; the description allows one behaviour. One read of one connection, as in the code."
  },
  {
   "property": "C101",
   "status": "partial",
   "theorems": [
    "C101_shown_flags_refuted",
    "C101_cut_exact_partial"
   ],
   "note": "REFUTED: when only the header and version of the answer have arrived, the miner prints NONE although the pool requires a fixed version. Partial: what is printed for every prefix of every answer of the pool."
  },
  {
   "property": "C102",
   "status": "proved",
   "theorems": [
    "C102_flags_text",
    "C102_flags_told_apart"
   ],
   "note": "The text is bitflags 1.x's Debug, modelled from its documentation (the crate is not in the repository)."
  },
  {
   "property": "C103",
   "status": "partial",
   "theorems": [
    "C103_error_texts_refuted",
    "C103_error_texts_exact_partial",
    "C103_unexpected_type_text"
   ],
   "note": "REFUTED: the five variants that show only a quoted string have the same text for the same string. Partial: exactly which texts are equal, leaving out the variants that show the text of an error of another crate; also the text of an unexpected message type."
  },
  {
   "property": "C104",
   "status": "proved",
   "theorems": [
    "C104_mixing"
   ],
   "note": "For all primitives satisfying crypto_ok. mix_key_and_hash is dead code in the crate."
  },
  {
   "property": "C105",
   "status": "proved",
   "theorems": [
    "C105_same_hash",
    "C105_accepted_reply",
    "C105_x25519"
   ],
   "note": "For all primitives satisfying crypto_ok. One attempt per message (C127: any number of refused attempts); the Diffie-Hellman functions agree for the key pairs at hand (C105_x25519 has no such hypothesis: all 32-byte private keys over the reference primitives). Collisions and cross-opening boxes are exhibited, not excluded: that they cannot be found is a cryptographic assumption outside the model."
  },
  {
   "property": "C106",
   "status": "proved",
   "theorems": [
    "C106_positions",
    "C106_altered",
    "C106_rekeyed",
    "C106_rekeyed_altered"
   ],
   "note": "C106_altered is about the reference ChaCha20-Poly1305 (RFC 8439) of Crypto.v, a count of multipliers and not a probability (see C99); it is for histories without rekeying; C106_rekeyed and C106_rekeyed_altered are for histories with rekeying at the same places. If the j-th message was never sent, only the first part (sealed under key and counter) is claimed."
  },
  {
   "property": "C107",
   "status": "proved",
   "theorems": [
    "C107_few_moves",
    "C107_rounds",
    "C107_fair",
    "C107_fair_finished"
   ],
   "note": "Moves are those of the model of the lock (acquire, work, release; a blocked thread makes none); fairness is a hypothesis of C107_fair, not something the operating system is shown to provide. A thread that panics holding the lock (Crash, not in the code of Peer) poisons it: then the others end by panicking."
  },
  {
   "property": "C108",
   "status": "partial",
   "theorems": [
    "C108_bytes_refuted",
    "C108_strings_refuted",
    "C108_bytes_partial",
    "C108_strings_partial",
    "C108_u24_partial",
    "C108_u256_partial",
    "C108_sides_partial",
    "C108_code_texts_partial"
   ],
   "note": "Refuted for byte vectors and strings: the length field is public and the comparison with a plain value ignores it. The partial theorems: everything holds for values made by the constructors, which the decoders use."
  },
  {
   "property": "C109",
   "status": "proved",
   "theorems": [
    "C109_every_history",
    "C109_one_outcome"
   ],
   "note": "For all primitives satisfying crypto_ok and static key pairs of 32-byte keys. Random bytes are the argument of each send. The specification reads a missing remote key as the all-zero key and a missing ephemeral pair as the all-zero pair, as the code does. The message counter (u128 in the code) is unbounded in the model and compared only before transport mode."
  },
  {
   "property": "C110",
   "status": "proved",
   "theorems": [
    "C110_altered_handshake",
    "C110_x25519"
   ],
   "note": "For ChaCha20-Poly1305 as specified in Crypto.v and any hash function and Diffie-Hellman satisfying crypto_ok; C110_x25519 instantiates all of them. Counts multipliers; that a derived key behaves like a random one is not stated. Says nothing when the attacker replaces an ephemeral key so that the first shared secrets differ."
  },
  {
   "property": "C111",
   "status": "proved",
   "theorems": [
    "C111_conversation",
    "C111_every_message",
    "C111_longest",
    "C111_longest_attained"
   ],
   "note": "About the session's send_message and recv_message, fed with serialized frames; the wrappers encrypt_message and decrypt_message of the code are covered by C64. A session counts at most 2^64 - 1 messages per direction. Each packet is read whole (packet boundaries are those of the sends)."
  },
  {
   "property": "C112",
   "status": "partial",
   "theorems": [
    "C112_one_certificate_refuted",
    "C112_one_certificate_partial",
    "C112_generated_partial",
    "C112_weak_partial",
    "C112_second_half_partial"
   ],
   "note": "REFUTED for the keys of small order, which PublicKey::from_bytes accepts: under one of them a single signature verifies every certificate. Partial: there are 14 such keys, none is generated; under every other key two certificates accepted with one signature are equal or give a SHA-512 collision modulo the group order; the second half of a signature is determined by the rest under every key. About the Ed25519 of RFC 8032 in Ed25519.v (cofactorless verification, as in ed25519-dalek's verify)."
  },
  {
   "property": "C113",
   "status": "proved",
   "theorems": [
    "C113_public_key",
    "C113_secret",
    "C113_partner",
    "C113_few",
    "C113_first_message",
    "C113_authority"
   ],
   "note": "About the X25519 of RFC 7748 in Crypto.v and the Ed25519 of RFC 8032 in Ed25519.v, which stand for the hacl-star and ed25519-dalek dependencies. Says nothing about how likely draws are."
  },
  {
   "property": "C114",
   "status": "partial",
   "theorems": [
    "C114_secret_determines_key_refuted",
    "C114_exact_partial",
    "C114_all_or_none_partial",
    "C114_inverse_partial",
    "C114_generated_partial",
    "C114_inverse_accepted_partial",
    "C114_impostor_partial"
   ],
   "note": "REFUTED: a key and its inverse modulo the prime share all secrets, and a responder that shows the inverse of its public key completes every handshake. Partial: exactly eight or exactly four numbers share the secrets of a key outside the seven of C84, whatever the private key; among keys derived from private keys the secret does determine the key. About the X25519 of RFC 7748 in Crypto.v."
  },
  {
   "property": "C115",
   "status": "partial",
   "theorems": [
    "C115_reason_names_field_refuted",
    "C115_reason_exact_partial",
    "C115_same_constructor_partial"
   ],
   "note": "REFUTED: a host that is too long and a device id that is too long give the same error; no error about a length names the field. Partial: the exact text for all arguments, by the first requirement violated."
  },
  {
   "property": "C116",
   "status": "proved",
   "theorems": [
    "C116_decoding_told",
    "C116_frame_told",
    "C116_utf8_told",
    "C116_one_fault",
    "C116_same_decoder",
    "C116_same_frame",
    "C116_same_unframe"
   ],
   "note": "Model with texts (Reasons.v); the text of a UTF-8 error is that of core's Utf8Error (Display), which is not part of /repo."
  },
  {
   "property": "C117",
   "status": "proved",
   "theorems": [
    "C117_failure_identified",
    "C117_position_identified",
    "C117_frame_shown",
    "C117_type_shown"
   ],
   "note": "Of the functions listed in the statement only. C117_frame_shown and C117_type_shown add what is printed for bytes that are no frame (the channel bit and the too short header included) and for a message of another type. The errors of other crates that certificates pass on are left out."
  },
  {
   "property": "C118",
   "status": "proved",
   "theorems": [
    "C118_format_told",
    "C118_verify_told",
    "C118_certificate_told",
    "C118_same_format",
    "C118_same_verify"
   ],
   "note": "The texts of the errors of bitcoin, ed25519-dalek and std are arbitrary."
  },
  {
   "property": "C119",
   "status": "proved",
   "theorems": [
    "C119_writes",
    "C119_unambiguous",
    "C119_library"
   ],
   "note": "The field types are the wire types of the crate (Catalog.v); the struct of a declaration is the tuple of its fields."
  },
  {
   "property": "C120",
   "status": "proved",
   "theorems": [
    "C120_reads",
    "C120_layout",
    "C120_round_trip"
   ],
   "note": "The field types are the wire types of the crate (Catalog.v); `new` is an arbitrary function that the declaring module writes."
  },
  {
   "property": "C121",
   "status": "partial",
   "theorems": [
    "C121_every_length_partial",
    "C121_frame_refuted",
    "C121_frame_partial",
    "C121_oversized_partial",
    "C121_unframe_exact"
   ],
   "note": "REFUTED: a message with one B0_16M of 2^24-1 bytes is framed without error, but the frame cannot be serialized. Partial: all messages whose image is below 2^24 bytes; between 2^24 and 2^32 bytes serialization of the frame always fails with RequirementError and writes nothing; unframe is exact for every frame. C121_every_length_partial: the exact outcome for every length; only the length modulo 2^32 is checked."
  },
  {
   "property": "C122",
   "status": "proved",
   "theorems": [
    "C122_missing",
    "C122_stable",
    "C122_enough",
    "C122_least",
    "C122_declared",
    "C122_declared_stable",
    "C122_declared_enough"
   ],
   "note": "Byte sequences of at most 2^62 bytes for the wire types, and for declarations such that the sequence and the bytes that are enough for the fields fit a slice together, so that a continuation can exist."
  },
  {
   "property": "C123",
   "status": "proved",
   "theorems": [
    "C123_any_pieces",
    "C123_sent"
   ],
   "note": "The receiving loop is not in the repository; it is the loop that its users have to write around deserialize::<Message>."
  },
  {
   "property": "C124",
   "status": "proved",
   "theorems": [
    "C124_nested",
    "C124_unambiguous",
    "C124_canonical",
    "C124_framed",
    "C124_flat"
   ],
   "note": "The leaves are the wire types of the crate (Catalog.v). C124_flat: one level of nesting is the model of C119-C121. The round trip needs no assumption on the constructors but that they rebuild this value."
  },
  {
   "property": "C125",
   "status": "proved",
   "theorems": [
    "C125_reads",
    "C125_missing"
   ],
   "note": "The leaves are the wire types of the crate (Catalog.v)."
  },
  {
   "property": "C126",
   "status": "proved",
   "theorems": [
    "C126_transcript",
    "C126_binding"
   ],
   "note": "After a refusal with DecryptionError or EmptyKeyError the transcript alone does not say whether the static key or the payload was at fault; the tables of C94 and C109 determine it. The binding assumes that no first message is written with a payload of exactly one byte (buffer of 33 bytes) and that the hash of the protocol name is not its own first 32 bytes, which holds for BLAKE2s; without them a shorter transcript could be shifted against a longer one."
  },
  {
   "property": "C127",
   "status": "proved",
   "theorems": [
    "C127_same_keys",
    "C127_x25519"
   ],
   "note": "Assumes a buffer other than 33 bytes for the first message, as C126; in C127_same_keys also that the pairs used agree (dh_agree) and that the responder's public key is not of low order, both of which hold over X25519 (C127_x25519). The counters are not compared: each side counts the messages since its own handshake."
  },
  {
   "property": "C128",
   "status": "proved",
   "theorems": [
    "C128_lockstep",
    "C128_x25519",
    "C128_out_of_step"
   ],
   "note": "The responder's ephemeral pair is drawn in the first attempt of 32 bytes or more and kept, as in the code, unless it was installed before; other calls between the attempts are not considered here (C109 covers them one side at a time). The last sentence is proved for one run (C128_out_of_step), the panic for every run."
  },
  {
   "property": "C129",
   "status": "proved",
   "theorems": [
    "C129_inbound",
    "C129_outbound",
    "C129_one_outcome",
    "C129_complete_stays"
   ],
   "note": "For all primitives satisfying crypto_ok. The table is that of C109 (SpecStory); C129_one_outcome says it determines the results and the final stage. As in C87 nothing is called after a panic."
  },
  {
   "property": "C130",
   "status": "proved",
   "theorems": [
    "C130_answers",
    "C130_x25519"
   ],
   "note": "For all primitives satisfying crypto_ok and key pairs on which Diffie-Hellman agrees, unless a derived key is all zero (then EmptyKeyError)."
  },
  {
   "property": "C131",
   "status": "partial",
   "theorems": [
    "C131_wrap_refuted",
    "C131_from_any",
    "C131_few_clears_partial",
    "C131_bound",
    "C131_below",
    "C131_at_limit",
    "C131_checked",
    "C131_checked_counter"
   ],
   "note": "REFUTED for builds without overflow checks: the 2^128th successful call sets the counter to 0 and the session sends plaintext, still in transport mode; C131_from_any: every session can be brought there. Partial: histories with fewer than 2^64 - 1 clearing calls, however long, are those of an unbounded counter (C131_bound limits the successes by the clearing calls). C131_below and C131_at_limit: the exact point, where a build with overflow checks panics and keeps the counter at 2^128 - 1. C131_checked: the full statement holds for builds with overflow checks. So the other theorems about histories, which use the unbounded counter, hold of the code as long as fewer than 2^128 calls have succeeded."
  },
  {
   "property": "C132",
   "status": "proved",
   "theorems": [
    "C132_reads",
    "C132_declared",
    "C132_machines",
    "C132_nested",
    "C132_nested_machines",
    "C132_unframe",
    "C132_frames",
    "C132_frames_64",
    "C132_next_by"
   ],
   "note": "Holds as stated. C132_reads and C132_declared: on both machines the decoders give what the specification reads, which does not mention the width. C132_next_by: next_by called directly with a step near the end of usize panics in debug builds at 2^32 or 2^64 (see C69). The refutation of C21 needs a 64-bit machine."
  },
  {
   "property": "C133",
   "status": "partial",
   "theorems": [
    "C133_order_refuted",
    "C133_exchange_partial",
    "C133_each",
    "C133_exactly",
    "C133_library"
   ],
   "note": "REFUTED: the tests of SetupConnection are given version 2 twice; an implementation that exchanges min_version and max_version passes all of them. Partial: for every declaration and all data, an exchange of two fields of one type goes unnoticed exactly if the data hold the same value in both. C133_each, C133_exactly, C133_library: exactly when the generated tests pass."
  },
  {
   "property": "C134",
   "status": "proved",
   "theorems": [
    "C134_decodes",
    "C134_value",
    "C134_nested",
    "C134_nested_value",
    "C134_receive"
   ],
   "note": "Heap.v repeats the decoders with a record of every read and every Vec or String made; C134_decodes and C134_nested also show that dropping the record gives the model. Counted are the bytes a buffer holds; the allocator may be asked for more (a Vec that grows from empty asks for at least 8). What the constructor of a declared message makes itself is not counted."
  },
  {
   "property": "C135",
   "status": "proved",
   "theorems": [
    "C135_history",
    "C135_panics",
    "C135_sizes",
    "C135_hmac",
    "C135_hkdf",
    "C135_hkdf_key",
    "C135_psk"
   ],
   "note": "Index.v repeats nx-noise with every index, slice, copy, subtraction of lengths and nonce increment as a step that can fail; C135_history: it gives the results of Noise.v for every history, so the other theorems about sessions hold with all the checks of the language. C135_panics gives the exact condition after any history. The counter of messages is not part of it (C131). C135_hmac: hmac on its own fails exactly for keys above 64 bytes and results that are not 32 bytes. C135_hkdf, C135_hkdf_key: hkdf on its own, for any number of outputs."
  },
  {
   "property": "C136",
   "status": "proved",
   "theorems": [
    "C136_types",
    "C136_declared",
    "C136_contract"
   ],
   "note": "Sum.v has every addition of the serializers on usize. C136_declared compares it with Nest.v, which adds natural numbers, for all values; C136_contract: for writers within the contract of io::Write and encodings shorter than the address space the two are equal, so C119 and C124 hold with the additions of the machine. The types of noise/ add constants only and are not in Sum.v."
  },
  {
   "property": "C137",
   "status": "proved",
   "theorems": [
    "C137_sizes",
    "C137_attained",
    "C137_taken",
    "C137_declared",
    "C137_declared_attained",
    "C137_enough",
    "C137_least"
   ],
   "note": "C137_attained gives values for both ends of every range, so no entry of the table can be changed. C137_least needs that the bytes asked for fit a slice. The number for declared messages is exact where C122 gives the sum over the fields."
  },
  {
   "property": "C138",
   "status": "partial",
   "theorems": [
    "C138_refuted",
    "C138_always",
    "C138_wiped_partial",
    "C138_quiet_partial",
    "C138_send",
    "C138_recv",
    "C138_panic",
    "C138_hkdf",
    "C138_psk",
    "C138_same",
    "C138_init"
   ],
   "note": "Refuted: each successful second message leaves the first transport key in in2 of hkdf, and with temp_key next to it the second one follows (C138_always, both sides). Proved: rekey's array, the arrays of split and the output arrays that stay unused are zero after every call (C138_wiped_partial); outside the second message nothing stays but tags that are in the caller's buffer anyway (C138_quiet_partial); C138_send, C138_recv and C138_psk list what each array holds. Only arrays declared by let are listed: no parameters, unnamed temporaries or compiler-made copies."
  },
  {
   "property": "C139",
   "status": "partial",
   "theorems": [
    "C139_refuted",
    "C139_again",
    "C139_too_many",
    "C139_ids",
    "C139_one",
    "C139_exactly_partial",
    "C139_count_partial",
    "C139_rare_partial"
   ],
   "note": "REFUTED: new_channel_id cannot see the ids in use; any id given can come again at the next call (C139_again), and with 2^32 calls one must. Partial: the exact ids for all draws; they differ exactly if the draws used do; the exact number of lists of draws that give n different ids, and that at most n(n-1)/2 in 2^32-1 do not. gen_range is that of rand 0.7, which is not part of /repo; nothing in /repo puts a channel into ChannelManager."
  },
  {
   "property": "C140",
   "status": "partial",
   "theorems": [
    "C140_refuted",
    "C140_always",
    "C140_fair_partial",
    "C140_refused_partial",
    "C140_late_partial",
    "C140_good_partial",
    "C140_unanswered_partial"
   ],
   "note": "REFUTED: nothing makes the miner wait until the pool listens, nor the pool until the miner does; every request meets both failures under some fair schedule. Partial: exactly the schedules under which it works, and for every schedule with an end exactly when it ends or who panics. One turn is one operation on the network; bind succeeds, connect is refused exactly if nobody listens, what is written arrives at once and whole. Tokio's own scheduling is not modelled."
  },
  {
   "property": "C141",
   "status": "partial",
   "theorems": [
    "C141_refuted",
    "C141_always",
    "C141_fair_partial",
    "C141_verdict_partial",
    "C141_refused_partial",
    "C141_late_partial",
    "C141_good_partial",
    "C141_order"
   ],
   "note": "REFUTED: as C140; the sleep before the miner connects bounds nothing in a model without time. Partial: exactly the fair schedules under which a verdict is printed; for every schedule which verdict, and from which turns its times come; who panics otherwise. Same assumptions on the network as C140, on the keys as C95."
  },
  {
   "property": "C142",
   "status": "partial",
   "theorems": [
    "C142_refuted",
    "C142_shown_partial",
    "C142_every_partial",
    "C142_read_partial",
    "C142_dead_partial",
    "C142_refused_partial",
    "C142_ends_partial"
   ],
   "note": "REFUTED: each side reads once and takes what has arrived for the whole message; if the last four bytes of the answer are late the miner prints the empty flags. Partial: exactly what can be shown (what a part of 1 to 12 bytes of the answer shows), that all of it happens for all pieces, what the pool reads, exactly when the pool panics or the miner is refused, and that one of these ends is reached whenever no task and no direction is left waiting for ever. Bytes arrive in order and none are lost; try_write hands over all its bytes; otherwise the assumptions on the network of C140."
  },
  {
   "property": "C143",
   "status": "partial",
   "theorems": [
    "C143_refuted",
    "C143_text_partial",
    "C143_name_partial",
    "C143_modules_partial",
    "C143_frame",
    "C143_string",
    "C143_whole",
    "C143_frame_whole"
   ],
   "note": "REFUTED: an f32 shows every NaN as the same text, so messages whose hash rates are different NaN are shown alike. Partial: exactly these are shown alike (texts equal iff the messages are equal up to the NaN); kinds with different struct names never share a text; the setup messages of the two protocols do exactly when they are equal and without flags; frames are always told apart; strings are shown code point by code point with the escapes of the standard library; the whole text of every message and frame is given. Assumed: the texts of f32 tell different non-NaN numbers apart and contain no comma or space; which code points are escaped as unprintable is left open but depends on the code point alone. The layout of derive(Debug) is the standard library's, modelled by hand. common::SetupConnection has no Debug."
  },
  {
   "property": "C144",
   "status": "proved",
   "theorems": [
    "C144_debug_text",
    "C144_whole"
   ],
   "note": "The whole text of every error is given too (C144_whole). In contrast to the Display texts (C103). The String of a variant is valid UTF-8; the text of a wrapped error is any bytes. The form of derive(Debug) and of string escapes as in C143."
  },
  {
   "property": "C145",
   "status": "partial",
   "theorems": [
    "C145_refuted",
    "C145_any_partial",
    "C145_every_partial",
    "C145_key_partial",
    "C145_whole_partial",
    "C145_refused_partial",
    "C145_ends_partial",
    "C145_less_partial",
    "C145_low_partial",
    "C145_waits_partial",
    "C145_early_partial"
   ],
   "note": "REFUTED: each connection is read once and what has arrived is taken for the whole message; if the first 32 bytes of the pool's answer arrive ahead of the rest the miner panics. Partial: whatever the order, what the miner prints and whether it panics is what the Noise specification (C95, C96) gives for parts of the messages, none of them empty unless nothing was written (C145_any_partial); on the straight course that happens for all pieces (C145_every_partial); of the first message the 32 bytes of the key suffice (C145_key_partial), and with them and both whole answers one verdict is printed, which says whether the certificate is still valid (C145_whole_partial); exactly when the miner is refused; one of the ends (miner panics, pool panics, one verdict) is reached whenever nothing is left waiting for ever; if a key of the pool turns out as zeros the miner hears a closed connection (C145_less_partial); if what arrived of the first message makes a key of low order the pool panics and the miner waits for ever (C145_low_partial); the pool never panics before a byte has arrived (C145_waits_partial); it does when it goes on before the miner listens (C145_early_partial). Bytes arrive in order and none are lost; try_write hands over all its bytes; otherwise the assumptions on the network of C141."
  }
 ]
}