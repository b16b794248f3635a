(** * PropPass: C129 and C130, any calls on an encryptor, and two encryptors that hand each other every answer.

    [C : crypto] are the primitives of nx-noise with the laws [crypto_ok]; [rs], [rsi], [rsr], [rnd1] and so on are
    what the random generator returns. *)
From Verif Require Import Base Codec Noise SpecNoise SpecSession SpecTransport SpecStory NoiseSamples Network SpecNetwork Crypto KeyProofs NetworkProofs
  SpecPass PassProofs.
Open Scope N_scope.
Open Scope list_scope.

(** C129.  Any calls of [init_handshake] and [recv_handshake] in any order, up to the first panic: what they return, and
    what [is_handshake_complete] and [get_remote_pubkey] then say, follows from the table of C109. *)
Theorem C129_inbound : forall C, crypto_ok C -> forall sk rs cs,
  match sk with Some k => keypair_ok k | None => len rs = 32 end ->
  let own := match sk with Some k => k | None => mkKeypair rs (c_pub C rs) end in
  exists g, handling C false (Handshake false (newcomer C false [] own)) cs (fst (enc_run C (new_inbound C sk rs) cs)) g /\
    tells (snd (enc_run C (new_inbound C sk rs) cs)) g.
Proof. exact inbound_exact. Qed.
Print Assumptions C129_inbound.
Theorem C129_outbound : forall C, crypto_ok C -> forall rs cs, len rs = 32 ->
  exists g, handling C true (Handshake false (newcomer C true [] (mkKeypair rs (c_pub C rs)))) cs (fst (enc_run C (new_outbound C rs) cs)) g /\
    tells (snd (enc_run C (new_outbound C rs) cs)) g.
Proof. exact outbound_exact. Qed.
Print Assumptions C129_outbound.
Theorem C129_one_outcome : forall C i g cs rs1 g1 rs2 g2, handling C i g cs rs1 g1 -> handling C i g cs rs2 g2 -> rs1 = rs2 /\ g1 = g2.
Proof. exact handling_unique. Qed.
Print Assumptions C129_one_outcome.
(** Once complete: complete for ever, with the same remote key, and no call panics. *)
Theorem C129_complete_stays : forall C, crypto_ok C -> forall i sk rs cs cs', len rs = 32 ->
  match sk with Some k => keypair_ok k | None => True end ->
  let s := snd (enc_run C (if i : bool then new_outbound C rs else new_inbound C sk rs) cs) in let x := enc_run C s cs' in
  is_handshake_complete s = true ->
  ~ In Panic (fst x) /\ is_handshake_complete (snd x) = true /\ get_remote_pubkey (snd x) = get_remote_pubkey s.
Proof. exact stays_complete. Qed.
Print Assumptions C129_complete_stays.
(** An inbound encryptor that opens the conversation itself, with refused calls in between; an outbound one that
    completes. *)
Example C129_ex : crypto_ok demo_crypto /\ len k_sr = 32 /\
  fst (enc_run demo_crypto (new_inbound demo_crypto None k_sr) [Take k_er (repeat x00 20); Begin k_er; Take k_er (repeat x00 60)]) =
    [Err (NoiseError MissingreError); Ok (c_pub demo_crypto k_er ++ repeat x00 992); Err (NoiseError InvalidPublicKeyError)] /\
  let x := enc_run demo_crypto (new_outbound demo_crypto k_si) [Begin k_ei; Take [] (repeat x00 15); Take [] (snd (fst de_2))] in
  is_handshake_complete (snd x) = true /\ get_remote_pubkey (snd x) = Some (c_pub demo_crypto k_sr).
Proof.
  split; [exact demo_ok|]. split; [reflexivity|]. split; [vm_compute; reflexivity|].
  cbv zeta. split; vm_compute; reflexivity.
Qed.

(** C130.  Two fresh encryptors whose answers are handed over as they are, [rnds] for as long as anyone likes.  Answer 0
    completes the responder, answer 1 the initiator, and the exchange goes on: [2^65 - 1] answers, each of which from
    answer 1 on seals the same plaintext, made of the two public keys of the responder, bytes 64 to 79 of
    the reply (the tag of the static key) and zeros, under the
    next counter.  The next call, the initiator's, fails with [ExhaustedNonceError]. *)
Theorem C130_answers : forall C, crypto_ok C -> forall sk rsi rsr rnd1 rnd2 rnd3 rnds,
  let si := mkKeypair rsi (c_pub C rsi) in
  let sr := match sk with Some k => k | None => mkKeypair rsr (c_pub C rsr) end in
  let ei := mkKeypair rnd1 (c_pub C rnd1) in
  let er := mkKeypair rnd2 (c_pub C rnd2) in
  usable_keys C si sr ei er ->
  let m1 := kp_public ei ++ repeat x00 992 in
  ~ In zeros32 (nx_keys C [] sr er m1 (payload2 m1)) ->
  ~ In zeros32 (nx_transport_keys C [] sr er m1 (payload2 m1)) ->
  exists I1 m2 k1 k2,
    init_handshake C rnd1 (new_outbound C rsi) = (I1, Ok m1) /\
    nx_transport_keys C [] sr er m1 (payload2 m1) = [k1; k2] /\
    let pt := kp_public er ++ kp_public sr ++ firstn 16 (skipn 64 m2) ++ repeat x00 928 in
    let rs := passing C I1 (new_inbound C sk rsr) m1 (rnd2 :: rnd3 :: rnds) in
    nth_error rs 0 = Some (Ok m2) /\
    (forall k r, nth_error rs (S k) = Some r -> r = message C k1 k2 pt (3 + N.of_nat k)) /\
    len rs = N.min (2 + len rnds) (2 ^ 65).
Proof. exact answers. Qed.
Print Assumptions C130_answers.
(** The same for all private keys, over X25519, BLAKE2s and ChaCha20-Poly1305. *)
Theorem C130_x25519 : forall ksi ksr kei ker rnd3 rnds,
  len ksi = 32 -> len ksr = 32 -> len kei = 32 -> len ker = 32 ->
  let C := real_crypto in
  let m1 := c_pub C kei ++ repeat x00 992 in
  let keys := nx_transport_keys C [] (real_pair ksr) (real_pair ker) m1 (payload2 m1) in
  ~ In zeros32 (nx_keys C [] (real_pair ksr) (real_pair ker) m1 (payload2 m1)) -> ~ In zeros32 keys ->
  exists I1 m2 k1 k2,
    init_handshake C kei (new_outbound C ksi) = (I1, Ok m1) /\ keys = [k1; k2] /\
    let pt := c_pub C ker ++ c_pub C ksr ++ firstn 16 (skipn 64 m2) ++ repeat x00 928 in
    let rs := passing C I1 (new_inbound C None ksr) m1 (ker :: rnd3 :: rnds) in
    nth_error rs 0 = Some (Ok m2) /\
    (forall k r, nth_error rs (S k) = Some r -> r = message C k1 k2 pt (3 + N.of_nat k)) /\
    len rs = N.min (2 + len rnds) (2 ^ 65).
Proof. exact real_answers. Qed.
Print Assumptions C130_x25519.
(** The hypotheses for the keys of the examples of C62, and the last messages. *)
Example C130_ex : crypto_ok demo_crypto /\ usable_keys demo_crypto d_si d_sr d_ei d_er /\
  ~ In zeros32 (nx_keys demo_crypto [] d_sr d_er de_m1 (payload2 de_m1)) /\
  ~ In zeros32 (nx_transport_keys demo_crypto [] d_sr d_er de_m1 (payload2 de_m1)) /\
  forall k1 k2 pt, message demo_crypto k1 k2 pt 3 = Ok (ENCRYPT demo_crypto k1 0 [] pt) /\
    message demo_crypto k1 k2 pt (2 ^ 65) = Ok (ENCRYPT demo_crypto k2 (2 ^ 64 - 2) [] pt) /\
    message demo_crypto k1 k2 pt (2 ^ 65 + 1) = Err (NoiseError ExhaustedNonceError).
Proof.
  split; [exact demo_ok|]. split; [exact de_usable|]. split; [exact de_keys|]. split; [exact de_tkeys|].
  intros k1 k2 pt. split; [|split]; reflexivity.
Qed.
