(** * PropActive: C105-C106, two honest parties and a network under an attacker's control. *)
From Coq Require Import Lia.
From Verif Require Import Base Noise Crypto CryptoFacts SpecNoise SpecSession SpecBinding SpecForgery SpecActive NoiseClaims NoiseSamples SessionClaims
  SpecTransport KeyProofs ActiveProofs RekeyProofs.
Local Open Scope N_scope.

(** C105.  Each side has got an arbitrary message and accepted it.  If they report the same handshake hash they
    are the two ends of one completed handshake, so everything proved of such pairs holds of them (same keys,
    the initiator knows the responder's static key, C41, C44), unless strings hashed by these runs collide. *)
Theorem C105_same_hash : forall C, crypto_ok C -> forall pro pro' si sr ei er rnd1 rnd2 I0 R0 b1 m1 b2 m2,
  keypair_ok si -> keypair_ok sr -> keypair_ok ei -> keypair_ok er ->
  started C true pro si rnd1 ei I0 -> started C false pro' sr rnd2 er R0 -> dh_agree C ei er -> dh_agree C ei sr ->
  let x1 := send_message C rnd1 I0 b1 in
  let x2 := recv_message C R0 m1 in
  let x3 := send_message C rnd2 (st x2) b2 in
  let x4 := recv_message C (st x1) m2 in
  res x1 = Ok tt -> res x2 = Ok tt -> res x3 = Ok tt -> res x4 = Ok tt ->
  get_handshake_hash (st x4) = get_handshake_hash (st x3) ->
  completed C (st x4) (st x3) \/
  collide C (hashed C (h_name C) (pieces pro (out x1) m2)) (hashed C (h_name C) (pieces pro' m1 (out x3))).
Proof. exact same_hash. Qed.
Print Assumptions C105_same_hash.
(** Without comparing hashes: the initiator accepts the responder's own answer, whatever first message the
    responder has read. *)
Theorem C105_accepted_reply : forall C, crypto_ok C -> forall pro pro' si sr ei er rnd1 rnd2 I0 R0 b1 m1 b2,
  keypair_ok si -> keypair_ok sr -> keypair_ok ei -> keypair_ok er ->
  started C true pro si rnd1 ei I0 -> started C false pro' sr rnd2 er R0 -> dh_agree C ei er -> dh_agree C ei sr ->
  let x1 := send_message C rnd1 I0 b1 in
  let x2 := recv_message C R0 m1 in
  let x3 := send_message C rnd2 (st x2) b2 in
  let m2 := out x3 in
  let x4 := recv_message C (st x1) m2 in
  res x1 = Ok tt -> res x2 = Ok tt -> res x3 = Ok tt -> res x4 = Ok tt ->
  completed C (st x4) (st x3) \/
  let ds := first_pieces pro (out x1) ++ [firstn 32 m2] in
  let ds' := first_pieces pro' m1 ++ [firstn 32 m2] in
  collide C (hashed C (h_name C) ds) (hashed C (h_name C) ds') \/
  (chain C (h_name C) ds <> chain C (h_name C) ds' /\
   DECRYPT C (ee_key C (kp_private ei) (firstn 32 m2)) 0 (chain C (h_name C) ds)
     (ENCRYPT C (ee_key C (kp_private er) (firstn 32 m1)) 0 (chain C (h_name C) ds') (kp_public sr)) <> None).
Proof. exact accepted_reply. Qed.
Print Assumptions C105_accepted_reply.

(** Over BLAKE2s, ChaCha20-Poly1305 and X25519, for all private keys. *)
Theorem C105_x25519 : forall pro pro' ksi ksr kei ker rnd1 rnd2 I0 R0 b1 m1 b2 m2,
  len ksi = 32 -> len ksr = 32 -> len kei = 32 -> len ker = 32 ->
  started real_crypto true pro (real_pair ksi) rnd1 (real_pair kei) I0 ->
  started real_crypto false pro' (real_pair ksr) rnd2 (real_pair ker) R0 ->
  let x1 := send_message real_crypto rnd1 I0 b1 in
  let x2 := recv_message real_crypto R0 m1 in
  let x3 := send_message real_crypto rnd2 (st x2) b2 in
  let x4 := recv_message real_crypto (st x1) m2 in
  res x1 = Ok tt -> res x2 = Ok tt -> res x3 = Ok tt -> res x4 = Ok tt ->
  get_handshake_hash (st x4) = get_handshake_hash (st x3) ->
  completed real_crypto (st x4) (st x3) \/
  collide real_crypto (hashed real_crypto (h_name real_crypto) (pieces pro (out x1) m2))
    (hashed real_crypto (h_name real_crypto) (pieces pro' m1 (out x3))).
Proof. exact real_same_hash. Qed.
Print Assumptions C105_x25519.

Example C105_ex : crypto_ok demo_crypto /\
  honest demo_crypto d_prologue d_si d_sr d_ei d_er k_ei k_er d_I0 d_R0 /\
  res d_x1 = Ok tt /\ res d_x2 = Ok tt /\ res d_x3 = Ok tt /\ res d_x4 = Ok tt /\
  get_handshake_hash (st d_x4) = get_handshake_hash (st d_x3) /\ get_handshake_hash (st d_x4) <> None.
Proof.
  split; [exact demo_ok|]. split; [exact d_honest|]. vm_compute. repeat split; discriminate.
Qed.

(** C106.  After a completed handshake both sides make any calls that do not clear or rekey; everything either
    of them receives is up to the attacker.  The message accepted as number j is sealed under the key and the
    counter of the message sent as number j, and delivers the same plaintext exactly if it is that message. *)
Theorem C106_positions : forall C, crypto_ok C -> forall S D cs cd, peers C S D -> Forall quiet cs -> Forall quiet cd ->
  forall j b o, nth_error (transport_recvs C D cd) j = Some (b, o) ->
  b = ENCRYPT C (sending_key S) (N.of_nat j) [] (plaintext_of o) /\
  forall b0 m, nth_error (transport_sends C S cs) j = Some (b0, m) ->
    m = ENCRYPT C (sending_key S) (N.of_nat j) [] (plaintext_of b0) /\ (b = m <-> plaintext_of o = plaintext_of b0).
Proof. exact positions. Qed.
Print Assumptions C106_positions.
(** And it is that message unless the multiplier derived for this counter is one of at most 2^15 (of 2^106, C99)
    numbers that depend on the two messages only. *)
Theorem C106_altered : forall C, crypto_ok C -> c_seal C = aead_seal -> c_open C = aead_open -> forall m b, m <> b ->
  exists bad, NoDup bad /\ len bad <= 2 ^ 15 /\
  forall S D cs cd j b0 o, peers C S D -> Forall quiet cs -> Forall quiet cd ->
    nth_error (transport_sends C S cs) j = Some (b0, m) -> nth_error (transport_recvs C D cd) j = Some (b, o) ->
    In (one_time_r (sending_key S) (nonce96 (N.of_nat j))) bad.
Proof. exact altered. Qed.
Print Assumptions C106_altered.
(** With rekeying: the key is the one replaced as often as this side has rekeyed before, so the message is
    determined by its plaintext as long as both sides rekey at the same places. *)
Theorem C106_rekeyed : forall C, crypto_ok C -> forall S D cs cd b, peers C S D -> Forall no_clear cs -> Forall no_clear cd ->
  let y := recv_message C (run_calls C D cd) b in
  res y = Ok tt ->
  b = ENCRYPT C (rekeyed C (rekeys_received D cd) (sending_key S)) (len (transport_recvs C D cd)) [] (plaintext_of (out y)) /\
  forall rnd b0, let x := send_message C rnd (run_calls C S cs) b0 in
  res x = Ok tt ->
  out x = ENCRYPT C (rekeyed C (rekeys_sent S cs) (sending_key S)) (len (transport_sends C S cs)) [] (plaintext_of b0) /\
  (len (transport_sends C S cs) = len (transport_recvs C D cd) -> rekeys_sent S cs = rekeys_received D cd ->
   (b = out x <-> plaintext_of (out y) = plaintext_of b0)).
Proof. exact rekeyed_positions. Qed.
Print Assumptions C106_rekeyed.
Theorem C106_rekeyed_altered : forall C, crypto_ok C -> c_seal C = aead_seal -> c_open C = aead_open -> forall m b, m <> b ->
  exists bad, NoDup bad /\ len bad <= 2 ^ 15 /\
  forall S D cs cd rnd b0, peers C S D -> Forall no_clear cs -> Forall no_clear cd ->
    let x := send_message C rnd (run_calls C S cs) b0 in
    res x = Ok tt -> out x = m -> res (recv_message C (run_calls C D cd) b) = Ok tt ->
    len (transport_sends C S cs) = len (transport_recvs C D cd) -> rekeys_sent S cs = rekeys_received D cd ->
    In (one_time_r (rekeyed C (rekeys_sent S cs) (sending_key S)) (nonce96 (len (transport_sends C S cs)))) bad.
Proof. exact rekeyed_altered. Qed.
Print Assumptions C106_rekeyed_altered.

Example C106_ex : crypto_ok demo_crypto /\ c_seal demo_crypto = aead_seal /\ c_open demo_crypto = aead_open /\
  peers demo_crypto d_I d_R /\
  let cs := [Send [] ([x61] ++ placeholder); Send [] ([x62] ++ placeholder)] in
  let sent := map snd (transport_sends demo_crypto d_I cs) in
  let cd := [Recv (repeat x00 20); Recv (nth 1 sent []); Recv (nth 0 sent []); Recv (nth 0 sent []); Recv (nth 1 sent [])] in
  Forall quiet cs /\ Forall quiet cd /\
  map (fun x => plaintext_of (snd x)) (transport_recvs demo_crypto d_R cd) = [[x61]; [x62]].
Proof.
  split; [exact demo_ok|]. do 2 (split; [reflexivity|]). split; [left; exact d_completed|]. cbv zeta.
  split; [repeat (constructor; [split; exact I|]); constructor|]. split; [repeat (constructor; [split; exact I|]); constructor|].
  vm_compute. reflexivity.
Qed.

(** The initiator rekeys between its two messages, the responder before it reads the second. *)
Example C106_rekeyed_ex : let m1 := [x61] ++ placeholder in let m2 := [x62] ++ placeholder in
  let cs := [Send [] m1; RekeyLocal] in
  let x := send_message demo_crypto [] (run_calls demo_crypto d_I cs) m2 in
  let sent := map snd (transport_sends demo_crypto d_I cs) in
  let cd := [Recv (nth 0 sent []); Recv (repeat x00 20); RekeyRemote] in
  let y := recv_message demo_crypto (run_calls demo_crypto d_R cd) (out x) in
  Forall no_clear cs /\ Forall no_clear cd /\ res x = Ok tt /\ res y = Ok tt /\
  rekeys_sent d_I cs = 1%nat /\ rekeys_received d_R cd = 1%nat /\ len (transport_sends demo_crypto d_I cs) = 1 /\
  len (transport_recvs demo_crypto d_R cd) = 1 /\ plaintext_of (out y) = [x62].
Proof.
  cbv zeta. split; [repeat (constructor; [exact I|]); constructor|]. split; [repeat (constructor; [exact I|]); constructor|].
  vm_compute. repeat split.
Qed.
