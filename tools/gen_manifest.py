#!/usr/bin/env python3
"""Writes /verif/MANIFEST.json: collects the C<nn>_* theorems of the Prop*.v files and adds the notes."""
import glob, json, re
NOTES = {
 "C01": "All seven scalar types.",
 "C10": "Both build profiles; the sum start+step must fit a usize except in release builds (see C69).",
 "C14": "For every value a constructor or decoder can produce; constructed <-> msg_ok is proved.",
 "C15": "REFUTED: a STR0 with an inconsistent public length field reports a count it did not write. Partial: the count is right exactly when the length field agrees.",
 "C16": "REFUTED: serializers call write, not write_all, so a writer that takes part of a buffer (allowed by io::Write) loses data under Ok. Partial: holds for writers that take whole buffers. C16_every_writer gives the exact result for every writer: each piece is offered once and the counts are ignored.",
 "C21": "REFUTED for payloads of 2^32 bytes: payload.len() as u32 truncates before the check. Partial: refused and nothing written below 2^32 bytes, any writer. C21_every_length gives the exact outcome for every length: only the length modulo 2^32 is checked.",
 "C24": "REFUTED: the error carries the expected type instead of the received one. Partial: every other type is refused.",
 "C25": "REFUTED: mining and job negotiation setup messages share message types. Partial: outside those families a frame determines its type. C25_setup_partial, C25_success_partial, C25_error_partial: within a family exactly the frames whose flags both types know are read by both, with the same value; C25_common_partial: the common setup message is a protocol byte and the payload of one of the other two.",
 "C28": "REFUTED: min_version 9, max_version 2 is accepted by constructor and decoder. Partial: of all pairs of versions exactly those with both >= 2 are accepted by the constructor, and all of these survive the wire.",
 "C33": "REFUTED for NaN and -0.0 hash rates. Partial: holds without those; exact characterisation of == for all messages.",
 "C36": "Given that ed25519 verifies its own signatures and emits 64 canonical bytes; every base58 text of the public key, any surrounding bytes.",
 "C37": "Exact outcome table; all four fields are bound; with an unforgeability hypothesis only issued certificates are accepted. The clock is read modulo 2^32 seconds (see C38).",
 "C38": "REFUTED twice: valid_from is never checked, and the clock is cut to 32 bits so an expired certificate is accepted again after 2106. Partial: before 2106 nothing expired is accepted; C38_when_accepted_partial: accepted exactly from each multiple of 2^32 seconds until the expiry is reached again.",
 "C39": "Every input is covered by the round trip, short input and every-74-bytes theorems; the panic case is C74.",
 "C40": "base58 is the algorithm of the bitcoin crate (a dependency), proved equal to positional notation.",
 "C41": "For all primitives satisfying crypto_ok (proved for the reference BLAKE2s/ChaCha20-Poly1305/X25519) and key pairs on which Diffie-Hellman agrees.",
 "C42": "Against an independent interpreter of the Noise specification; refinement in both roles for every peer message.",
 "C44": "Every schedule; assumes in-order pipes as in the statement.",
 "C51": "REFUTED: any honest reply cut to 80..95 bytes, or longer than 2128 bytes, makes the initiator panic. Partial: a panic is possible only at the second message with such a length; the exact condition is proved for an initiator that has sent its first message. C51_every_history_partial: the exact condition after every history of calls, in terms of the stage the table of C109 gives.",
 "C52": "Buffers of 16..65535 bytes (others get the length error); the cleared direction as long as no rekey follows, see C53 for what a rekey does.",
 "C53": "REFUTED: clear_local then rekey_local gives the public constant REKEY(0) as key, for every session; a responder then accepts messages from anybody. Partial: exactly the keys REKEY^r(0), r > 0, with counters from 0; without a rekey nothing is sent (C52).",
 "C54": "REFUTED: rekey_remote_cipherstate rekeys cs1, exactly like rekey_local. Partial: cs2's key never changes.",
 "C57": "REFUTED: PublicKey::from_str accepts low-order points. Partial: from_bytes on the result decides it.",
 "C59": "REFUTED: a reply corrupted after the key part leaves mixed-in state behind and the genuine one is then rejected. C59_never_again: for every run, the genuine reply is accepted after one that got as far as its public key only if a box made for one hash opens for another, or hashed strings collide. Partial: true at every other message and for early refusals.",
 "C60": "REFUTED: every completed responder reports Some(00..00). Partial: the initiator's answer is right.",
 "C61": "REFUTED: the last 16 bytes are the received tag. Partial: length and tag kept, plaintext in front.",
 "C62": "For all primitives satisfying crypto_ok and key pairs on which Diffie-Hellman agrees, unless a derived key is all zero (then EmptyKeyError). Also says what the extra third message is.",
 "C63": "REFUTED: the initiator's own recv_handshake sends a message nobody reads, so its counter is one ahead and the responder refuses everything it sends. Partial: with that message delivered first both directions deliver everything in order.",
 "C64": "REFUTED: both functions are stubs returning an empty vector. Partial: exactly the empty message survives.",
 "C65": "Every number of threads, programs and schedules; FIFO order, exactly-once, mutual exclusion, progress; after a thread panics holding the lock nothing more is queued or drained and every later lock() panics.",
 "C66": "gen_range is the algorithm of rand 0.7 (a dependency); also every id is reachable by exactly one draw.",
 "C67": "Also shown: a frame longer than 1024 bytes makes the pool panic. TCP delivery in one piece is assumed by the model.",
 "C68": "Example handler with its two clock readings, any certificate over any completed handshake, and soundness of the verdict. The verdict for every current time is given, including expiry.",
 "C75": "REFUTED: every honest reply cut to 80..95 bytes panics the initiator. Partial: only at message count 1 with those lengths or above 2128 bytes; the exact condition is proved for a new_outbound encryptor after init_handshake; C75_inbound_partial and C75_outbound_partial: the exact condition after any calls up to the first panic, in terms of the table of C129; init_handshake never panics.",
 "C69": "REFUTED in debug builds: start + step overflows. Partial: panics exactly in debug builds with start + step >= 2^64.",
 "C70": "REFUTED for the reference X25519: 2^255 (point 0 with the ignored top bit) is accepted and gives 0 with every private key. C84 shows the exact set of such keys.",
 "C76": "Proved from the curve: 2^255-19 and the group order are prime, complete Edwards group law, the ladder computes scalar multiples. X25519 is the reference of Crypto.v, standing for hacl-star.",
 "C77": "C41 and C44 for the reference primitives; no assumption on Diffie-Hellman is left. Only an all-zero derived cipher key (taken for no key by the code) is excluded.",
 "C78": "All call histories. Copies left by moves and stack temporaries are not modelled.",
 "C79": "REFUTED: after a failed second handshake message the chaining key and cipher key derived from the Diffie-Hellman secret stay in the dropped session (shown for every responder whose reply buffer is 32..79 bytes). Partial: holds in transport mode and when every call succeeded. C79_exactly_partial: for every history, what is left in each case; the property fails exactly for sessions outside transport mode in which a call got as far as its public key and failed. C79_whole_partial: every field of a session dropped in transport mode; the handshake hash stays in the symmetric state, and nothing else but public values.",
 "C80": "REFUTED: source() of every NoiseError is itself, so the chain never ends; also for stratumv2::Error::NoiseError. Partial: all other variants, given the wrapped foreign error ends.",
 "C81": "For every primitive record; usability for the reference X25519 (via C76).",
 "C82": "Ed25519 is the reference of Ed25519.v (RFC 8032 with SHA-512 of FIPS 180-4), standing for ed25519-dalek. Uses that the base point has order L and the group law of C76; key acceptance is stated in integers modulo p.",
 "C83": "C36 and C68 for the reference primitives; no assumption on signatures or Diffie-Hellman is left. Only all-zero derived cipher keys are excluded.",
 "C84": "X25519 is the reference of Crypto.v. Uses that the curve has 8L points and its twist 4L' points, L and L' prime (proved: counting, Euler's criterion, Pocklington), so private keys cannot vanish on any other point.",
 "C85": "Tables in SpecReply, each proved to give at most one result. The answer and reply tables assume the first message was read or sent without error, and the answer table a consistent responder key pair.",
 "C86": "Both build profiles. That fuzz! runs its closure once is an assumption (honggfuzz is not in the repository); C87 treats repeated runs on one encryptor. noise.rs can panic; its exact condition is proved.",
 "C87": "REFUTED: a 48-byte first input is read but its reply does not fit, and a crafted 80-byte second input panics. C87_every_encryptor: for every fresh encryptor, any 48..79-byte first input with an acceptable key, and any wrong-sized payload, some second input panics unless the derived key is all zero (EmptyKeyError). Partial: a panic needs an input of 80..95 or 2129..65535 bytes and an earlier first message that was read but whose reply failed (MissingneError or EmptyKeyError). C87_exactly_partial: all results of any inputs up to the first panic, by the table of C109; C87_one_outcome: the table has one outcome.",
 "C71": "REFUTED: clear, rekey, send done twice reuses key REKEY(0) with counter 0. Partial: it never happens to a responder, and two sends with one counter always have a clear_local between them; without clears see C47. C71_exactly_partial: what an initiator sends every message with, told from the calls; the second of two messages with one key and counter comes after a clear_local, and unless REKEY makes two keys meet both are sent the same number of rekeys and messages after a clear_local.",
 "C72": "REFUTED: the responder's reply attempted with a 32..79-byte buffer leaves the handshake state advanced. C72_never_sent: for every run, a reply sent after such a failure is accepted only if a box made for one hash opens for another, or hashed strings collide. Partial: true at every other message and below 32 bytes.",
 "C74": "REFUTED for ed25519 crate versions whose Signature::new checks the top bits: the decoder panics. Partial: it panics exactly for those versions on 74 bytes or more with a non-canonical signature field.",
 "C73": "REFUTED for buffers of 32..47 bytes. Partial: the exact outcome for every buffer: sent from 32 to 65535 bytes, received from 48 on, refused below without a trace.",
 "C88": "For all primitives satisfying crypto_ok. The alternative to agreement names the colliding strings: they are among those hashed by the two runs.",
 "C89": "For all primitives satisfying crypto_ok; that boxes do not open under another hash is a property of the AEAD and appears as an explicit alternative.",
 "C90": "All fifteen message types; SpecDecode gives the reading.",
 "C91": "REFUTED: a client that closes without sending makes the pool panic. Partial: the exact behaviour on every input, panics included.",
 "C92": "REFUTED: a frame cut after the length byte of the firmware string is answered (the rest of the buffer is zero). Partial: for every prefix, answered exactly if it reaches past that byte and cuts no UTF-8 character; otherwise, and for every prefix of a frame longer than the 1024 bytes the pool reads, it panics.",
 "C94": "For all primitives satisfying crypto_ok; [rnd] is the same in all attempts of one session, which matters only if the ephemeral key is all zero or not yet drawn.",
 "C98": "For all primitives satisfying crypto_ok and every reachable session in transport mode. The message counter of the session (u128 in the code) is unbounded in the model.",
 "C99": "About the reference ChaCha20-Poly1305 (RFC 8439) of Crypto.v, not hacl-star's code. A count of multipliers, not a probability: that the multiplier derived by ChaCha20 is distributed evenly for an attacker is a cryptographic assumption outside the model. The session theorem holds for any hash and Diffie-Hellman function satisfying crypto_ok.",
 "C105": "For all primitives satisfying crypto_ok. One attempt per message (C127: any number of refused attempts); the Diffie-Hellman functions agree for the key pairs at hand (C105_x25519 has no such hypothesis: all 32-byte private keys over the reference primitives). Collisions and cross-opening boxes are exhibited, not excluded: that they cannot be found is a cryptographic assumption outside the model.",
 "C106": "C106_altered is about the reference ChaCha20-Poly1305 (RFC 8439) of Crypto.v, a count of multipliers and not a probability (see C99); it is for histories without rekeying; C106_rekeyed and C106_rekeyed_altered are for histories with rekeying at the same places. If the j-th message was never sent, only the first part (sealed under key and counter) is claimed.",
 "C107": "Moves are those of the model of the lock (acquire, work, release; a blocked thread makes none); fairness is a hypothesis of C107_fair, not something the operating system is shown to provide. A thread that panics holding the lock (Crash, not in the code of Peer) poisons it: then the others end by panicking.",
 "C119": "The field types are the wire types of the crate (Catalog.v); the struct of a declaration is the tuple of its fields.",
 "C120": "The field types are the wire types of the crate (Catalog.v); `new` is an arbitrary function that the declaring module writes.",
 "C121": "REFUTED: a message with one B0_16M of 2^24-1 bytes is framed without error, but the frame cannot be serialized. Partial: all messages whose image is below 2^24 bytes; between 2^24 and 2^32 bytes serialization of the frame always fails with RequirementError and writes nothing; unframe is exact for every frame. C121_every_length_partial: the exact outcome for every length; only the length modulo 2^32 is checked.",
 "C122": "Byte sequences of at most 2^62 bytes for the wire types, and for declarations such that the sequence and the bytes that are enough for the fields fit a slice together, so that a continuation can exist.",
 "C123": "The receiving loop is not in the repository; it is the loop that its users have to write around deserialize::<Message>.",
 "C124": "The leaves are the wire types of the crate (Catalog.v). C124_flat: one level of nesting is the model of C119-C121. The round trip needs no assumption on the constructors but that they rebuild this value.",
 "C125": "The leaves are the wire types of the crate (Catalog.v).",
 "C126": "After a refusal with DecryptionError or EmptyKeyError the transcript alone does not say whether the static key or the payload was at fault; the tables of C94 and C109 determine it. The binding assumes that no first message is written with a payload of exactly one byte (buffer of 33 bytes) and that the hash of the protocol name is not its own first 32 bytes, which holds for BLAKE2s; without them a shorter transcript could be shifted against a longer one.",
 "C127": "Assumes a buffer other than 33 bytes for the first message, as C126; in C127_same_keys also that the pairs used agree (dh_agree) and that the responder's public key is not of low order, both of which hold over X25519 (C127_x25519). The counters are not compared: each side counts the messages since its own handshake.",
 "C128": "The responder's ephemeral pair is drawn in the first attempt of 32 bytes or more and kept, as in the code, unless it was installed before; other calls between the attempts are not considered here (C109 covers them one side at a time). The last sentence is proved for one run (C128_out_of_step), the panic for every run.",
 "C129": "For all primitives satisfying crypto_ok. The table is that of C109 (SpecStory); C129_one_outcome says it determines the results and the final stage. As in C87 nothing is called after a panic.",
 "C130": "For all primitives satisfying crypto_ok and key pairs on which Diffie-Hellman agrees, unless a derived key is all zero (then EmptyKeyError).",
 "C131": "REFUTED for builds without overflow checks: the 2^128th successful call sets the counter to 0 and the session sends plaintext, still in transport mode; C131_from_any: every session can be brought there. Partial: histories with fewer than 2^64 - 1 clearing calls, however long, are those of an unbounded counter (C131_bound limits the successes by the clearing calls). C131_below and C131_at_limit: the exact point, where a build with overflow checks panics and keeps the counter at 2^128 - 1. C131_checked: the full statement holds for builds with overflow checks. So the other theorems about histories, which use the unbounded counter, hold of the code as long as fewer than 2^128 calls have succeeded.",
 "C132": "Holds as stated. C132_reads and C132_declared: on both machines the decoders give what the specification reads, which does not mention the width. C132_next_by: next_by called directly with a step near the end of usize panics in debug builds at 2^32 or 2^64 (see C69). The refutation of C21 needs a 64-bit machine.",
 "C133": "REFUTED: the tests of SetupConnection are given version 2 twice; an implementation that exchanges min_version and max_version passes all of them. Partial: for every declaration and all data, an exchange of two fields of one type goes unnoticed exactly if the data hold the same value in both. C133_each, C133_exactly, C133_library: exactly when the generated tests pass.",
 "C135": "Index.v repeats nx-noise with every index, slice, copy, subtraction of lengths and nonce increment as a step that can fail; C135_history: it gives the results of Noise.v for every history, so the other theorems about sessions hold with all the checks of the language. C135_panics gives the exact condition after any history. The counter of messages is not part of it (C131). C135_hmac: hmac on its own fails exactly for keys above 64 bytes and results that are not 32 bytes. C135_hkdf, C135_hkdf_key: hkdf on its own, for any number of outputs.",
 "C136": "Sum.v has every addition of the serializers on usize. C136_declared compares it with Nest.v, which adds natural numbers, for all values; C136_contract: for writers within the contract of io::Write and encodings shorter than the address space the two are equal, so C119 and C124 hold with the additions of the machine. The types of noise/ add constants only and are not in Sum.v.",
 "C137": "C137_attained gives values for both ends of every range, so no entry of the table can be changed. C137_least needs that the bytes asked for fit a slice. The number for declared messages is exact where C122 gives the sum over the fields.",
 "C138": "Refuted: each successful second message leaves the first transport key in in2 of hkdf, and with temp_key next to it the second one follows (C138_always, both sides). Proved: rekey's array, the arrays of split and the output arrays that stay unused are zero after every call (C138_wiped_partial); outside the second message nothing stays but tags that are in the caller's buffer anyway (C138_quiet_partial); C138_send, C138_recv and C138_psk list what each array holds. Only arrays declared by let are listed: no parameters, unnamed temporaries or compiler-made copies.",
 "C139": "REFUTED: new_channel_id cannot see the ids in use; any id given can come again at the next call (C139_again), and with 2^32 calls one must. Partial: the exact ids for all draws; they differ exactly if the draws used do; the exact number of lists of draws that give n different ids, and that at most n(n-1)/2 in 2^32-1 do not. gen_range is that of rand 0.7, which is not part of /repo; nothing in /repo puts a channel into ChannelManager.",
 "C140": "REFUTED: nothing makes the miner wait until the pool listens, nor the pool until the miner does; every request meets both failures under some fair schedule. Partial: exactly the schedules under which it works, and for every schedule with an end exactly when it ends or who panics. One turn is one operation on the network; bind succeeds, connect is refused exactly if nobody listens, what is written arrives at once and whole. Tokio's own scheduling is not modelled.",
 "C141": "REFUTED: as C140; the sleep before the miner connects bounds nothing in a model without time. Partial: exactly the fair schedules under which a verdict is printed; for every schedule which verdict, and from which turns its times come; who panics otherwise. Same assumptions on the network as C140, on the keys as C95.",
 "C142": "REFUTED: each side reads once and takes what has arrived for the whole message; if the last four bytes of the answer are late the miner prints the empty flags. Partial: exactly what can be shown (what a part of 1 to 12 bytes of the answer shows), that all of it happens for all pieces, what the pool reads, exactly when the pool panics or the miner is refused, and that one of these ends is reached whenever no task and no direction is left waiting for ever. Bytes arrive in order and none are lost; try_write hands over all its bytes; otherwise the assumptions on the network of C140.",
 "C145": "REFUTED: each connection is read once and what has arrived is taken for the whole message; if the first 32 bytes of the pool's answer arrive ahead of the rest the miner panics. Partial: whatever the order, what the miner prints and whether it panics is what the Noise specification (C95, C96) gives for parts of the messages, none of them empty unless nothing was written (C145_any_partial); on the straight course that happens for all pieces (C145_every_partial); of the first message the 32 bytes of the key suffice (C145_key_partial), and with them and both whole answers one verdict is printed, which says whether the certificate is still valid (C145_whole_partial); exactly when the miner is refused; one of the ends (miner panics, pool panics, one verdict) is reached whenever nothing is left waiting for ever; if a key of the pool turns out as zeros the miner hears a closed connection (C145_less_partial); if what arrived of the first message makes a key of low order the pool panics and the miner waits for ever (C145_low_partial); the pool never panics before a byte has arrived (C145_waits_partial); it does when it goes on before the miner listens (C145_early_partial). Bytes arrive in order and none are lost; try_write hands over all its bytes; otherwise the assumptions on the network of C141.",
 "C144": "The whole text of every error is given too (C144_whole). In contrast to the Display texts (C103). The String of a variant is valid UTF-8; the text of a wrapped error is any bytes. The form of derive(Debug) and of string escapes as in C143.",
 "C143": "REFUTED: an f32 shows every NaN as the same text, so messages whose hash rates are different NaN are shown alike. Partial: exactly these are shown alike (texts equal iff the messages are equal up to the NaN); kinds with different struct names never share a text; the setup messages of the two protocols do exactly when they are equal and without flags; frames are always told apart; strings are shown code point by code point with the escapes of the standard library; the whole text of every message and frame is given. Assumed: the texts of f32 tell different non-NaN numbers apart and contain no comma or space; which code points are escaped as unprintable is left open but depends on the code point alone. The layout of derive(Debug) is the standard library's, modelled by hand. common::SetupConnection has no Debug.",
 "C134": "Heap.v repeats the decoders with a record of every read and every Vec or String made; C134_decodes and C134_nested also show that dropping the record gives the model. Counted are the bytes a buffer holds; the allocator may be asked for more (a Vec that grows from empty asks for at least 8). What the constructor of a declared message makes itself is not counted.",
 "C115": "REFUTED: a host that is too long and a device id that is too long give the same error; no error about a length names the field. Partial: the exact text for all arguments, by the first requirement violated.",
 "C116": "Model with texts (Reasons.v); the text of a UTF-8 error is that of core's Utf8Error (Display), which is not part of /repo.",
 "C117": "Of the functions listed in the statement only. C117_frame_shown and C117_type_shown add what is printed for bytes that are no frame (the channel bit and the too short header included) and for a message of another type. The errors of other crates that certificates pass on are left out.",
 "C118": "The texts of the errors of bitcoin, ed25519-dalek and std are arbitrary.",
 "C114": "REFUTED: a key and its inverse modulo the prime share all secrets, and a responder that shows the inverse of its public key completes every handshake. Partial: exactly eight or exactly four numbers share the secrets of a key outside the seven of C84, whatever the private key; among keys derived from private keys the secret does determine the key. About the X25519 of RFC 7748 in Crypto.v.",
 "C113": "About the X25519 of RFC 7748 in Crypto.v and the Ed25519 of RFC 8032 in Ed25519.v, which stand for the hacl-star and ed25519-dalek dependencies. Says nothing about how likely draws are.",
 "C112": "REFUTED for the keys of small order, which PublicKey::from_bytes accepts: under one of them a single signature verifies every certificate. Partial: there are 14 such keys, none is generated; under every other key two certificates accepted with one signature are equal or give a SHA-512 collision modulo the group order; the second half of a signature is determined by the rest under every key. About the Ed25519 of RFC 8032 in Ed25519.v (cofactorless verification, as in ed25519-dalek's verify).",
 "C111": "About the session's send_message and recv_message, fed with serialized frames; the wrappers encrypt_message and decrypt_message of the code are covered by C64. A session counts at most 2^64 - 1 messages per direction. Each packet is read whole (packet boundaries are those of the sends).",
 "C110": "For ChaCha20-Poly1305 as specified in Crypto.v and any hash function and Diffie-Hellman satisfying crypto_ok; C110_x25519 instantiates all of them. Counts multipliers; that a derived key behaves like a random one is not stated. Says nothing when the attacker replaces an ephemeral key so that the first shared secrets differ.",
 "C109": "For all primitives satisfying crypto_ok and static key pairs of 32-byte keys. Random bytes are the argument of each send. The specification reads a missing remote key as the all-zero key and a missing ephemeral pair as the all-zero pair, as the code does. The message counter (u128 in the code) is unbounded in the model and compared only before transport mode.",
 "C108": "Refuted for byte vectors and strings: the length field is public and the comparison with a plain value ignores it. The partial theorems: everything holds for values made by the constructors, which the decoders use.",
 "C100": "REFUTED: an answer with an unknown flag ends the miner. Partial: for every input, the lines it prints and whether it panics; the description allows one behaviour. One read of one connection, as in the code.",
 "C101": "REFUTED: when only the header and version of the answer have arrived, the miner prints NONE although the pool requires a fixed version. Partial: what is printed for every prefix of every answer of the pool.",
 "C102": "The text is bitflags 1.x's Debug, modelled from its documentation (the crate is not in the repository).",
 "C103": "REFUTED: the five variants that show only a quoted string have the same text for the same string. Partial: exactly which texts are equal, leaving out the variants that show the text of an error of another crate; also the text of an unexpected message type.",
 "C104": "For all primitives satisfying crypto_ok. mix_key_and_hash is dead code in the crate.",
 "C95": "For all primitives satisfying crypto_ok. Connections are accepted one at a time and each is read once, as in the code; what one read returns is the input. The clock of the first connection is not used.",
 "C96": "For all primitives satisfying crypto_ok and ed_ok, one read of the one connection; what the network does with the answers is outside the model.",
 "C97": "REFUTED: with any keys, a connection closed without data ends either program. Partial: the pool answers every client whose first 32 bytes are not of low order, unless a derived key is zero, while the clock is between 1970 and 2106.",
 "C93": "REFUTED: five Missing errors share a text. Partial: exactly which texts are equal, leaving out the variant that wraps an error of the hex crate."
}
thms = {}
for f in sorted(glob.glob("/verif/rocq/theories/Prop*.v")):
    for m in re.finditer(r"^(?:Theorem|Corollary)\s+(C\d\d+)_(\w+)", open(f).read(), re.M):
        thms.setdefault(m.group(1), []).append(m.group(1) + "_" + m.group(2))
claims = []
for line in open("/verif/properties.jsonl"):
    i = json.loads(line)["id"]
    if i not in thms:
        continue
    partial = any(t.endswith("_refuted") or t.endswith("_partial") for t in thms[i])
    claims.append({"property": i, "status": "partial" if partial else "proved",
                   "theorems": thms[i], "note": NOTES.get(i, "Holds for all inputs as stated.")})
json.dump({"claims": claims}, open("/verif/MANIFEST.json", "w"), indent=1)
print(len(claims), sum(c["status"] == "proved" for c in claims))
