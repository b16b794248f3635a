(** * PropAltered: C110, a handshake altered on the way. *)
From Verif Require Import Base Noise Crypto CryptoFacts SpecNoise SpecSession SpecBinding SpecForgery SpecAltered NoiseClaims NoiseSamples KeyProofs AlteredProofs.
Open Scope N_scope.

(** C110.  The initiator has written [m1] and accepts [m2]; the responder has read [m1'] and written [m2'].  Both
    have computed the same first shared secret.  If they differ in the prologue or in any byte of either message,
    two strings hashed by these runs collide, or the multiplier of the authenticator under the first key is one
    of at most 40 numbers, or that under the second key one of at most 2^15 (of 2^106, C99); the numbers depend on
    the prologues and the four messages only. *)
Theorem C110_altered_handshake : forall C, crypto_ok C -> c_seal C = aead_seal -> c_open C = aead_open ->
  forall pro m1 m2 pro' m1' m2', (pro, m1, m2) <> (pro', m1', m2') ->
  exists bad_ee bad_es, NoDup bad_ee /\ NoDup bad_es /\ len bad_ee <= 40 /\ len bad_es <= 2 ^ 15 /\
  forall si sr ei er rnd1 rnd2 I0 R0 b1 b2,
  keypair_ok si -> keypair_ok sr -> keypair_ok ei -> keypair_ok er ->
  started C true pro si rnd1 ei I0 -> started C false pro' sr rnd2 er R0 -> dh_agree C ei sr ->
  let x1 := send_message C rnd1 I0 b1 in
  let x2 := recv_message C R0 m1' in
  let x3 := send_message C rnd2 (st x2) b2 in
  let x4 := recv_message C (st x1) m2 in
  out x1 = m1 -> out x3 = m2' ->
  res x1 = Ok tt -> res x2 = Ok tt -> res x3 = Ok tt -> res x4 = Ok tt ->
  let ee := c_dh C (kp_private ei) (firstn 32 m2) in
  ee = c_dh C (kp_private er) (firstn 32 m1') ->
  collide C (hashed C (h_name C) (first_pieces pro m1 ++ [firstn 32 m2])) (hashed C (h_name C) (first_pieces pro' m1' ++ [firstn 32 m2'])) \/
  In (one_time_r (ee_key C (kp_private ei) (firstn 32 m2)) (nonce96 0)) bad_ee \/
  In (one_time_r (es_key C ee (c_dh C (kp_private ei) (kp_public sr))) (nonce96 0)) bad_es.
Proof. exact altered_handshake. Qed.
Print Assumptions C110_altered_handshake.
(** Over BLAKE2s, ChaCha20-Poly1305 and X25519, for all private keys, when the ephemeral keys arrive unchanged. *)
Theorem C110_x25519 : forall pro m1 m2 pro' m1' m2', (pro, m1, m2) <> (pro', m1', m2') ->
  exists bad_ee bad_es, NoDup bad_ee /\ NoDup bad_es /\ len bad_ee <= 40 /\ len bad_es <= 2 ^ 15 /\
  forall ksi ksr kei ker rnd1 rnd2 I0 R0 b1 b2,
  len ksi = 32 -> len ksr = 32 -> len kei = 32 -> len ker = 32 ->
  started real_crypto true pro (real_pair ksi) rnd1 (real_pair kei) I0 ->
  started real_crypto false pro' (real_pair ksr) rnd2 (real_pair ker) R0 ->
  let x1 := send_message real_crypto rnd1 I0 b1 in
  let x2 := recv_message real_crypto R0 m1' in
  let x3 := send_message real_crypto rnd2 (st x2) b2 in
  let x4 := recv_message real_crypto (st x1) m2 in
  out x1 = m1 -> out x3 = m2' ->
  res x1 = Ok tt -> res x2 = Ok tt -> res x3 = Ok tt -> res x4 = Ok tt ->
  firstn 32 m1' = firstn 32 m1 -> firstn 32 m2 = firstn 32 m2' ->
  collide real_crypto (hashed real_crypto (h_name real_crypto) (first_pieces pro m1 ++ [firstn 32 m2]))
    (hashed real_crypto (h_name real_crypto) (first_pieces pro' m1' ++ [firstn 32 m2'])) \/
  In (one_time_r (ee_key real_crypto kei (c_pub real_crypto ker)) (nonce96 0)) bad_ee \/
  In (one_time_r (es_key real_crypto (c_dh real_crypto kei (c_pub real_crypto ker)) (c_dh real_crypto kei (c_pub real_crypto ksr))) (nonce96 0)) bad_es.
Proof. exact real_altered_handshake. Qed.
Print Assumptions C110_x25519.

(** Everything but the acceptance of the altered message: a byte of the payload changed, a byte of the box with
    the static key changed. *)
Example C110_ex : crypto_ok demo_crypto /\ c_seal demo_crypto = aead_seal /\ c_open demo_crypto = aead_open /\
  honest demo_crypto d_prologue d_si d_sr d_ei d_er k_ei k_er d_I0 d_R0 /\
  res d_x1 = Ok tt /\ res d_x2 = Ok tt /\ res d_x3 = Ok tt /\ res d_x4 = Ok tt /\
  c_dh demo_crypto (kp_private d_ei) (firstn 32 (out d_x3)) = c_dh demo_crypto (kp_private d_er) (firstn 32 (out d_x1)) /\
  res (recv_message demo_crypto (st d_x1) (firstn 80 (out d_x3) ++ x00 :: skipn 81 (out d_x3))) = Err DecryptionError /\
  res (recv_message demo_crypto (st d_x1) (firstn 40 (out d_x3) ++ x00 :: skipn 41 (out d_x3))) = Err DecryptionError.
Proof.
  split; [exact demo_ok|]. do 2 (split; [reflexivity|]). split; [exact d_honest|]. vm_compute. repeat split.
Qed.
(** With a hash function that is constant an altered first message goes unnoticed: the first alternative. *)
Example C110_ex_accepted : crypto_ok flat_crypto /\
  let I0 := init_session flat_crypto true d_prologue d_si in
  let R0 := init_session flat_crypto false d_prologue d_sr in
  let x1 := send_message flat_crypto k_ei I0 d_b1 in
  let m1' := firstn 47 (out x1) ++ [x7f] in
  let x2 := recv_message flat_crypto R0 m1' in
  let x3 := send_message flat_crypto k_er (st x2) d_b2 in
  let x4 := recv_message flat_crypto (st x1) (out x3) in
  m1' <> out x1 /\ res x1 = Ok tt /\ res x2 = Ok tt /\ res x3 = Ok tt /\ res x4 = Ok tt.
Proof.
  split; [destruct demo_ok; constructor; try assumption; reflexivity|]. vm_compute. repeat split. discriminate.
Qed.
