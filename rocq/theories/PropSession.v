(** * PropSession: C51-C61 and C70-C73, edge behaviour of nx-noise sessions. *)
From Coq Require Import Strings.String.
From Verif Require Import Base SpecWire BaseFacts Noise Crypto CryptoFacts X25519Facts SpecNoise SpecSession NoiseFacts
  HandshakeProofs NxProofs SessionProofs NetProofs RecvProofs NoiseClaims FailureProofs NoiseSamples SessionClaims ReplyProofs.
Open Scope N_scope.

(** C51.  Full statement: [forall C, crypto_ok C -> forall s b, reachable C s -> res (recv_message C s b) <> Panic].
    Refuted; in every honest handshake the responder's reply cut to 80..95 bytes, or an honest reply longer
    than 2128 bytes, makes the initiator panic.  The partial theorem bounds when a panic is possible. *)
Theorem C51_recv_panics_refuted : exists C s b, crypto_ok C /\ reachable C s /\ res (recv_message C s b) = Panic.
Proof. exact recv_panics. Qed.
Print Assumptions C51_recv_panics_refuted.
Theorem C51_every_honest_initiator_panics : forall C, crypto_ok C ->
  forall pro si sr ei er rnd1 rnd2 I0 R0 b1 b2 m,
  honest C pro si sr ei er rnd1 rnd2 I0 R0 ->
  48 <= len b1 <= 65535 -> 96 <= len b2 <= 65535 ->
  let x1 := send_message C rnd1 I0 b1 in
  let x2 := recv_message C R0 (out x1) in
  let x3 := send_message C rnd2 (st x2) b2 in
  ~ In zeros32 (nx_keys C pro sr er (out x1) (payload2 b2)) ->
  (2128 < len b2 /\ m = out x3) \/ (exists k, 80 <= k < 96 /\ m = firstn (N.to_nat k) (out x3)) ->
  res (recv_message C (st x1) m) = Panic.
Proof. exact honest_panic. Qed.
Print Assumptions C51_every_honest_initiator_panics.
Theorem C51_panics_only_partial : forall C s b, res (recv_message C s b) = Panic ->
  get_message_count s = 1 /\ (80 <= len b < 96 \/ 2128 < len b <= 65535).
Proof. exact recv_panic_cond. Qed.
Print Assumptions C51_panics_only_partial.
(** Exactly when an initiator that has sent its first message panics, in terms of the specification's reader:
    the two keys of the reply are readable and acceptable, and what follows them has the wrong size. *)
Theorem C51_initiator_panics_exactly : forall C, crypto_ok C -> forall pro si ei rnd I0 b1 m,
  started C true pro si rnd ei I0 -> 32 <= len b1 <= 65535 ->
  let x1 := send_message C rnd I0 b1 in
  exists p1, WriteMessage C (Initialize C true pro si ei) NX1 (skipn 32 b1) = Some (p1, out x1) /\
    (res (recv_message C (st x1) m) = Panic <->
     (80 <= len m < 96 \/ 2128 < len m <= 65535) /\ ~ low_order (firstn 32 m) /\
     exists pe rest ps rest' k, read_tokens C p1 [TE; TEE] m = Some (pe, rest) /\ sy_k (p_sym pe) <> Some zeros32 /\
       read_tokens C p1 [TE; TEE; TS] m = Some (ps, rest') /\ p_rs ps = Some k /\ ~ low_order k).
Proof. exact panic_exact. Qed.
Print Assumptions C51_initiator_panics_exactly.

Example C51_ex : honest demo_crypto d_prologue d_si d_sr d_ei d_er k_ei k_er d_I0 d_R0 /\
  ~ In zeros32 (nx_keys demo_crypto d_prologue d_sr d_er (out (send_message demo_crypto k_ei d_I0 d_b1)) (payload2 d_b2)) /\
  res (recv_message demo_crypto (st d_x1) (firstn 80 (out d_x3))) = Panic /\
  res (recv_message demo_crypto (st d_x1) (firstn 79 (out d_x3))) = Err MissingrsError /\
  res (recv_message demo_crypto (st d_x1) (firstn 96 (out d_x3))) = Err DecryptionError.
Proof. split; [exact d_honest|]. split; [exact d_keys|]. repeat split; vm_compute; reflexivity. Qed.

(** C52. *)
Theorem C52_cleared_local : forall C, crypto_ok C -> forall s cs rnd b, reachable C s -> is_transport s = true ->
  Forall no_rekey cs -> 16 <= len b <= 65535 ->
  let s' := run_calls C s (ClearLocal :: cs) in
  if se_i s then send_message C rnd s' b = (s', b, Err EmptyKeyError)
  else recv_message C s' b = (s', b, Err EmptyKeyError).
Proof. exact cleared_local. Qed.
Print Assumptions C52_cleared_local.
Theorem C52_cleared_remote : forall C, crypto_ok C -> forall s cs rnd b, reachable C s -> is_transport s = true ->
  16 <= len b <= 65535 ->
  let s' := run_calls C s (ClearRemote :: cs) in
  if se_i s then recv_message C s' b = (s', b, Err EmptyKeyError)
  else send_message C rnd s' b = (s', b, Err EmptyKeyError).
Proof. exact cleared_remote. Qed.
Print Assumptions C52_cleared_remote.
Theorem C52_never_under_zero_key : forall C, crypto_ok C -> forall i pro kp cs b o,
  In (b, o) (transport_sends C (init_session C i pro kp) cs) ->
  exists k n, k <> zeros32 /\ n < 2 ^ 64 - 1 /\ o = ENCRYPT C k n [] (plaintext_of b).
Proof. exact never_zero_key. Qed.
Print Assumptions C52_never_under_zero_key.

Example C52_ex : reachable demo_crypto d_I /\ reachable demo_crypto d_R /\ is_transport d_I = true /\
  se_i d_I = true /\ se_i d_R = false /\
  Forall no_rekey [Recv (repeat x00 16); Send [] (repeat x00 16); ClearRemote] /\
  res (send_message demo_crypto [] (run_calls demo_crypto d_I [ClearRemote; ClearLocal]) (repeat x00 16)) = Err EmptyKeyError.
Proof. split; [exact d_reach_I|]. split; [exact d_reach_R|]. repeat split; try (vm_compute; reflexivity). repeat constructor. Qed.

(** C53.  Full statement: no history after a clear makes the session encrypt under a key that does not
    depend on the handshake.  Refuted: clear, rekey, send uses the public constant REKEY(0).
    Partial: without a rekey call nothing is encrypted (C52). *)
Theorem C53_predictable_key_refuted : exists C s pt, crypto_ok C /\ reachable C s /\ is_transport s = true /\
  let x := send_message C [] (run_calls C s [ClearLocal; RekeyLocal]) (pt ++ placeholder) in
  res x = Ok tt /\ out x = ENCRYPT C (REKEY C zeros32) 0 [] pt.
Proof. exact predictable_witness. Qed.
Print Assumptions C53_predictable_key_refuted.
Theorem C53_predictable_key_always : forall C, crypto_ok C -> forall s rnd pt, reachable C s -> is_transport s = true ->
  se_i s = true -> len pt <= 65519 -> REKEY C zeros32 <> zeros32 ->
  let x := send_message C rnd (run_calls C s [ClearLocal; RekeyLocal]) (pt ++ placeholder) in
  res x = Ok tt /\ out x = ENCRYPT C (REKEY C zeros32) 0 [] pt.
Proof. exact predictable_key. Qed.
Print Assumptions C53_predictable_key_always.

Example C53_ex : reachable demo_crypto d_I /\ is_transport d_I = true /\ se_i d_I = true /\
  REKEY real_crypto zeros32 <> zeros32 /\ REKEY demo_crypto zeros32 <> zeros32.
Proof. split; [exact d_reach_I|]. do 2 (split; [reflexivity|]). split; vm_compute; discriminate. Qed.

(** C54.  Full statement: rekey_remote_cipherstate rekeys cs2 and leaves cs1 alone.  Refuted for every
    session: it does what rekey_local_cipherstate does.  Partial: the key of cs2 never changes. *)
Theorem C54_rekey_remote_refuted : exists C s, crypto_ok C /\ reachable C s /\ is_transport s = true /\
  se_cs2 (rekey_remote_cipherstate C s) = se_cs2 s /\ se_cs1 (rekey_remote_cipherstate C s) <> se_cs1 s.
Proof. exact rekey_remote_wrong. Qed.
Print Assumptions C54_rekey_remote_refuted.
Theorem C54_rekey_remote_is_rekey_local : forall C, crypto_ok C -> forall s,
  se_cs2 (rekey_remote_cipherstate C s) = se_cs2 s /\
  cs_k (se_cs1 (rekey_remote_cipherstate C s)) = REKEY C (cs_k (se_cs1 s)) /\
  rekey_remote_cipherstate C s = rekey_local_cipherstate C s.
Proof. exact rekey_remote_effect. Qed.
Print Assumptions C54_rekey_remote_is_rekey_local.
Theorem C54_cs2_never_rekeyed_partial : forall C, crypto_ok C -> forall s cs, reachable C s -> is_transport s = true ->
  Forall no_clear cs -> cs_k (se_cs2 (run_calls C s cs)) = cs_k (se_cs2 s).
Proof. exact cs2_key_fixed. Qed.
Print Assumptions C54_cs2_never_rekeyed_partial.

(** The responder rekeys its sending direction ("local"), the initiator its receiving one ("remote"): the
    initiator's next message is no longer accepted by the responder that did not touch it. *)
Example C54_ex : reachable demo_crypto d_I /\ Forall no_clear [RekeyRemote; RekeyLocal; Recv (repeat x00 20)] /\
  res (recv_message demo_crypto d_R
        (out (send_message demo_crypto [] (run_calls demo_crypto d_I [RekeyRemote]) ([x61] ++ placeholder)))) = Err DecryptionError.
Proof. split; [exact d_reach_I|]. split; [repeat constructor|]. vm_compute. reflexivity. Qed.

(** C55. *)
Theorem C55_channel_with_rekeys : forall C, crypto_ok C -> forall I R es, completed C I R ->
  (forall j, (j <= rekeys es)%nat -> rekeyed C j (cs_k (se_cs1 I)) <> zeros32) ->
  cs_k (se_cs2 I) <> zeros32 -> Forall sized es -> len (i_sends es) <= 2 ^ 64 - 1 -> len (r_sends es) <= 2 ^ 64 - 1 ->
  let n := net_run C (net_start I R) es in
  n_sent_i n = i_sends es /\ n_sent_r n = r_sends es /\
  exists pi pr, i_sends es = n_got_r n ++ pi /\ length pi = packets (n_ir n) /\
                r_sends es = n_got_i n ++ pr /\ length pr = packets (n_ri n).
Proof. exact channel. Qed.
Print Assumptions C55_channel_with_rekeys.

Example C55_ex : completed demo_crypto d_I d_R /\
  (forall j, (j <= 2)%nat -> rekeyed demo_crypto j (cs_k (se_cs1 d_I)) <> zeros32) /\
  let es := [ISend [x61]; IRekey true; ISend [x62]; IRekey false; RSend [x63]; RRecv; RRecv; RRecv; IRecv; ISend [x64]; RRecv; RRecv] in
  rekeys es = 2%nat /\
  let n := net_run demo_crypto (net_start d_I d_R) es in
  n_got_r n = [[x61]; [x62]; [x64]] /\ n_got_i n = [[x63]].
Proof.
  split; [exact d_completed|]. split; [exact d_rekeyed_nonzero|]. vm_compute. repeat split.
Qed.

(** C56. *)
Theorem C56_from_bytes_exact : forall k, len k = 32 ->
  (public_key_from_bytes k = Err InvalidPublicKeyError <-> low_order k) /\
  (public_key_from_bytes k = Ok k <-> ~ low_order k).
Proof. exact from_bytes_exact. Qed.
Print Assumptions C56_from_bytes_exact.
Theorem C56_handshake_message_refused : forall C, crypto_ok C -> forall s b, reachable C s -> is_transport s = false ->
  48 <= len b <= 65535 -> low_order (firstn 32 b) -> recv_message C s b = (s, b, Err InvalidPublicKeyError).
Proof. exact low_order_message. Qed.
Print Assumptions C56_handshake_message_refused.
Theorem C56_learnt_static_key : forall C, crypto_ok C -> forall s b, reachable C s -> get_message_count s = 1 ->
  res (recv_message C s b) = Ok tt ->
  exists k, get_remote_static_public_key (st (recv_message C s b)) = Some k /\ ~ low_order k.
Proof. exact low_order_static. Qed.
Print Assumptions C56_learnt_static_key.

Example C56_ex : low_order (x01 :: repeat x00 31) /\ low_order (xec :: repeat xff 30 ++ [x7f]) /\
  ~ low_order (x02 :: repeat x00 31) /\
  reachable demo_crypto d_R0 /\ is_transport d_R0 = false /\
  low_order (firstn 32 (repeat x00 48)) /\ get_message_count (st d_x1) = 1 /\ res (recv_message demo_crypto (st d_x1) (out d_x3)) = Ok tt.
Proof.
  split; [right; left; reflexivity|]. split; [do 4 right; left; reflexivity|].
  split; [apply not_low; reflexivity|].
  split; [exists false, d_prologue, d_sr, []; reflexivity|]. split; [reflexivity|].
  split; [left; reflexivity|]. split; [reflexivity|]. rewrite d_x4_eq. reflexivity.
Qed.

(** C57.  Full statement: [forall s k, public_key_from_str s = Ok k -> ~ low_order k].  Refuted by "00...0".
    Partial: a parsed key is forbidden exactly when from_bytes refuses it. *)
Theorem C57_from_str_low_order_refuted : exists s k, public_key_from_str s = Ok k /\ low_order k /\
  public_key_from_bytes k = Err InvalidPublicKeyError.
Proof. exact from_str_low_order. Qed.
Print Assumptions C57_from_str_low_order_refuted.
Theorem C57_recheck_partial : forall s k, public_key_from_str s = Ok k ->
  (public_key_from_bytes k = Ok k <-> ~ low_order k).
Proof. exact from_str_checked. Qed.
Print Assumptions C57_recheck_partial.

Example C57_ex : public_key_from_str (list_byte_of_string "0900000000000000000000000000000000000000000000000000000000000000")
  = Ok (x09 :: repeat x00 31).
Proof. vm_compute. reflexivity. Qed.

(** C58.  key, psk, private and public key parsing are the same function. *)
Theorem C58_hex_keys : forall parse, In parse [key_from_str; psk_from_str; private_key_from_str; public_key_from_str] ->
  forall s, (forall k, parse s = Ok k <-> len s = 64 /\ hex_text s k) /\
            ((exists k, parse s = Ok k) \/ parse s = Err InvalidInputError).
Proof. exact hex_keys. Qed.
Print Assumptions C58_hex_keys.

Example C58_ex :
  let s := list_byte_of_string "00fFa0000000000000000000000000000000000000000000000000000000000A" in
  key_from_str s = Ok ([x00; xff; xa0] ++ repeat x00 28 ++ [x0a]) /\
  key_from_str (firstn 63 s) = Err InvalidInputError /\
  key_from_str (firstn 63 s ++ [x67]) = Err InvalidInputError.
Proof. vm_compute. repeat split. Qed.

(** C59.  Full statement: [reachable C s -> res (recv_message C s b) <> Ok tt -> st (recv_message C s b) = s].
    Refuted at the second message: the symmetric state keeps what was mixed in before the failure.
    Partial: it holds at every other message, and at the second one for buffers refused before that point. *)
Theorem C59_garbled_reply_refuted : exists C I genuine garbled, crypto_ok C /\ reachable C I /\
  res (recv_message C I genuine) = Ok tt /\
  res (recv_message C I garbled) = Err DecryptionError /\
  res (recv_message C (st (recv_message C I garbled)) genuine) = Err DecryptionError.
Proof. exact garbled_reply. Qed.
Print Assumptions C59_garbled_reply_refuted.
Theorem C59_failed_recv_partial : forall C, crypto_ok C -> forall s b, reachable C s ->
  res (recv_message C s b) <> Ok tt ->
  get_message_count s <> 1 \/ (len b < 48 \/ 65535 < len b \/ low_order (firstn 32 b)) ->
  st (recv_message C s b) = s.
Proof. exact failed_recv_partial. Qed.
Print Assumptions C59_failed_recv_partial.

Example C59_ex : reachable demo_crypto d_R0 /\ get_message_count d_R0 = 0 /\
  res (recv_message demo_crypto d_R0 (repeat x01 47)) = Err MissingreError /\
  get_message_count (st d_x1) = 1 /\ res (recv_message demo_crypto (st d_x1) (repeat x00 60)) = Err InvalidPublicKeyError.
Proof. split; [exists false, d_prologue, d_sr, []; reflexivity|]. repeat split; vm_compute; reflexivity. Qed.

(** C60.  Full statement: [completed C I R -> get_remote_static_public_key R = None].  Refuted for every
    completed handshake.  Partial: what the initiator reports is right. *)
Theorem C60_responder_remote_key_refuted : exists C I R, crypto_ok C /\ completed C I R /\
  get_remote_static_public_key R = Some zeros32.
Proof. exact responder_remote_witness. Qed.
Print Assumptions C60_responder_remote_key_refuted.
Theorem C60_responder_remote_key_always : forall C, crypto_ok C -> forall I R, completed C I R ->
  get_remote_static_public_key R = Some zeros32.
Proof. exact responder_remote. Qed.
Print Assumptions C60_responder_remote_key_always.
Theorem C60_initiator_remote_key_partial : forall C, crypto_ok C -> forall pro si sr ei er rnd1 rnd2 I0 R0 b1 b2,
  honest C pro si sr ei er rnd1 rnd2 I0 R0 -> 48 <= len b1 <= 65535 -> 96 <= len b2 <= 2128 ->
  let x1 := send_message C rnd1 I0 b1 in
  let x3 := send_message C rnd2 (st (recv_message C R0 (out x1))) b2 in
  ~ In zeros32 (nx_keys C pro sr er (out x1) (payload2 b2)) ->
  get_remote_static_public_key (st (recv_message C (st x1) (out x3))) = Some (kp_public sr).
Proof. exact initiator_remote. Qed.
Print Assumptions C60_initiator_remote_key_partial.

Example C60_ex : completed demo_crypto d_I d_R /\ get_remote_static_public_key d_I = Some (kp_public d_sr).
Proof. split; [exact d_completed|]. vm_compute. reflexivity. Qed.

(** C61.  Full statement: the last 16 bytes of the buffer are zero after a successful receive.  Refuted: they
    are the received tag.  Partial: the buffer keeps its length and its last 16 bytes; what precedes them is
    the plaintext (C46). *)
Theorem C61_last_16_refuted : exists C s b, crypto_ok C /\ reachable C s /\ is_transport s = true /\
  res (recv_message C s b) = Ok tt /\
  let o := out (recv_message C s b) in skipn (length o - 16) o <> repeat (b8 0) 16.
Proof. exact last_16_witness. Qed.
Print Assumptions C61_last_16_refuted.
Theorem C61_last_16_kept_partial : forall C, crypto_ok C -> forall s b, reachable C s -> is_transport s = true ->
  res (recv_message C s b) = Ok tt ->
  let o := out (recv_message C s b) in
  len o = len b /\ skipn (length o - 16) o = skipn (length b - 16) b.
Proof. exact last_16. Qed.
Print Assumptions C61_last_16_kept_partial.

Example C61_ex : reachable demo_crypto d_R /\
  let m := out (send_message demo_crypto [] d_I ([x61; x62] ++ placeholder)) in
  res (recv_message demo_crypto d_R m) = Ok tt /\ firstn 2 (out (recv_message demo_crypto d_R m)) = [x61; x62].
Proof. split; [exact d_reach_R|]. vm_compute. repeat split. Qed.

(** C70.  Full statement: [public_key_from_bytes pk = Ok pk -> c_dh real_crypto sk pk <> zeros32].  Refuted, for
    every secret key: the point 0 with the ignored top bit set is not among the listed encodings. *)
Theorem C70_zero_secret_refuted : exists pk, len pk = 32 /\ public_key_from_bytes pk = Ok pk /\
  forall sk, c_dh real_crypto sk pk = zeros32.
Proof. exact zero_secret_witness. Qed.
Print Assumptions C70_zero_secret_refuted.
Theorem C70_order_two_points : forall pk sk, len pk = 32 ->
  spec_val (wire pk) mod 2 ^ 255 = 0 \/ spec_val (wire pk) mod 2 ^ 255 = 2 ^ 255 - 19 ->
  c_dh real_crypto sk pk = zeros32.
Proof. exact zero_secret_all. Qed.
Print Assumptions C70_order_two_points.

Example C70_ex : spec_val (wire (repeat x00 31 ++ [x80])) mod 2 ^ 255 = 0 /\
  spec_val (wire (xed :: repeat xff 31)) mod 2 ^ 255 = 2 ^ 255 - 19 /\
  public_key_from_bytes (xed :: repeat xff 31) = Ok (xed :: repeat xff 31).
Proof. vm_compute. repeat split. Qed.

(** C71.  Full statement: in no history of API calls do two transport sends use the same key and counter.
    Refuted: clearing and rekeying twice gives key REKEY(0) and counter 0 twice.  Without clears it is C47. *)
Theorem C71_nonce_reuse_refuted : exists C s b1 b2, crypto_ok C /\ reachable C s /\ is_transport s = true /\
  let cs := [ClearLocal; RekeyLocal; Send [] (b1 ++ placeholder); ClearLocal; RekeyLocal; Send [] (b2 ++ placeholder)] in
  exists k, transport_sends C s cs =
    [(b1 ++ placeholder, ENCRYPT C k 0 [] b1); (b2 ++ placeholder, ENCRYPT C k 0 [] b2)] /\ b1 <> b2.
Proof. exact nonce_reuse. Qed.
Print Assumptions C71_nonce_reuse_refuted.

(** C72.  Full statement: a send_message that fails leaves the session unchanged.  Refuted: the responder's
    reply attempted with a 40-byte buffer fails, and the reply it sends next is not accepted.  Partial: holds
    for every other message, and for the reply below 32 bytes. *)
Theorem C72_failed_send_refuted : exists C I R short b2, crypto_ok C /\ reachable C I /\ reachable C R /\
  res (send_message C k_er R b2) = Ok tt /\
  res (recv_message C I (out (send_message C k_er R b2))) = Ok tt /\
  res (send_message C k_er R short) = Err MissingneError /\
  let x := send_message C k_er (st (send_message C k_er R short)) b2 in
  res x = Ok tt /\ res (recv_message C I (out x)) = Err DecryptionError.
Proof. exact short_reply_buffer. Qed.
Print Assumptions C72_failed_send_refuted.
Theorem C72_failed_send_partial : forall C, crypto_ok C -> forall s rnd b, reachable C s ->
  res (send_message C rnd s b) <> Ok tt ->
  get_message_count s <> 1 \/ len b < 32 ->
  st (send_message C rnd s b) = s /\ out (send_message C rnd s b) = b.
Proof. exact failed_send_partial. Qed.
Print Assumptions C72_failed_send_partial.

Example C72_ex : reachable demo_crypto d_I0 /\ get_message_count d_I0 = 0 /\
  res (send_message demo_crypto k_ei d_I0 (repeat x00 31)) = Err MissingneError /\
  res (send_message demo_crypto [] (clear_local_cipherstate d_I) (repeat x00 31)) = Err EmptyKeyError.
Proof. split; [exists true, d_prologue, d_si, []; reflexivity|]. vm_compute. repeat split. Qed.

(** C73.  Full statement: a first message that send_message accepts is accepted by recv_message of the peer.
    Refuted for 32..47 bytes.  Partial: the exact outcome for every buffer. *)
Theorem C73_short_first_message_refuted : exists C I R b1, crypto_ok C /\ reachable C I /\ reachable C R /\
  res (send_message C k_ei I b1) = Ok tt /\ res (recv_message C R (out (send_message C k_ei I b1))) = Err MissingreError.
Proof. exact short_first. Qed.
Print Assumptions C73_short_first_message_refuted.
Theorem C73_first_message_partial : forall C, crypto_ok C -> forall pro si sr ei er rnd1 rnd2 I0 R0 b1,
  honest C pro si sr ei er rnd1 rnd2 I0 R0 ->
  let x1 := send_message C rnd1 I0 b1 in
  (res x1 = Ok tt <-> 32 <= len b1 <= 65535) /\
  (res x1 = Ok tt -> 48 <= len b1 -> res (recv_message C R0 (out x1)) = Ok tt) /\
  (res x1 = Ok tt -> len b1 < 48 -> recv_message C R0 (out x1) = (R0, out x1, Err MissingreError)).
Proof. exact first_message_exact. Qed.
Print Assumptions C73_first_message_partial.

Example C73_ex : honest demo_crypto d_prologue d_si d_sr d_ei d_er k_ei k_er d_I0 d_R0 /\ len d_b1 = 48.
Proof. split; [exact d_honest|reflexivity]. Qed.
