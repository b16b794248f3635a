(** * PropRetry: C94 and more on C59 and C72, repeated attempts at the second handshake message. *)
From Verif Require Import Base Noise Crypto SpecWire SpecNoise SpecSession SpecReply SpecBinding SpecRetry NoiseSamples RetryProofs.
Open Scope N_scope.

(** C94.  [refused]: any list of second messages, each answered with an error; [unsent]: any list of buffers
    for the second message, each too small.  [kept_read], [kept_write] give the state of the specification
    that is left; from it the next call has the result in the tables of C85. *)
Theorem C94_receiving : forall C, crypto_ok C -> forall pro si ei rnd I0 b1 ms s,
  started C true pro si rnd ei I0 -> 32 <= len b1 <= 65535 ->
  let x1 := send_message C rnd I0 b1 in
  refused C (st x1) ms s ->
  exists p1 p', WriteMessage C (Initialize C true pro si ei) NX1 (skipn 32 b1) = Some (p1, out x1) /\
    kept (kept_read C) p1 ms p' /\ forall m, reply_result C p' m (res (recv_message C s m)).
Proof. exact recv_retries. Qed.
Print Assumptions C94_receiving.
Theorem C94_sending : forall C, crypto_ok C -> forall pro sr er rnd R0 m1 bs s,
  started C false pro sr rnd er R0 -> keypair_ok sr ->
  48 <= len m1 <= 65535 -> ~ low_order (firstn 32 m1) ->
  unsent C rnd (st (recv_message C R0 m1)) bs s ->
  exists p1 p', ReadMessage C (Initialize C false pro sr er) NX1 m1 = Some (p1, skipn 32 m1) /\
    kept (kept_write C) p1 bs p' /\ forall b, answer_result C p' b (res (send_message C rnd s b)).
Proof. exact send_retries. Qed.
Print Assumptions C94_sending.
Theorem C94_one_state : forall C p ms p' p'',
  (kept (kept_read C) p ms p' -> kept (kept_read C) p ms p'' -> p' = p'') /\
  (kept (kept_write C) p ms p' -> kept (kept_write C) p ms p'' -> p' = p'').
Proof. exact kept_one. Qed.
Print Assumptions C94_one_state.

Example C94_ex : started demo_crypto true d_prologue d_si k_ei d_ei d_I0 /\ started demo_crypto false d_prologue d_sr k_er d_er d_R0 /\
  refused demo_crypto (st d_x1) [w_bad] d_s1 /\ unsent demo_crypto k_er (st d_x2) [w_short] d_s2.
Proof. split; [apply d_honest|]. split; [apply d_honest|]. split; [apply d_refused|apply d_unsent]. Qed.

(** C59, for every run: once a reply got as far as its public key and was refused, the genuine reply is
    accepted only if a box made for one hash opens for another one ([ds'] against [ds]), or strings
    hashed in these runs collide. *)
Theorem C59_never_again : forall C, crypto_ok C -> forall pro si sr ei er rnd1 rnd2 I0 R0 b1 b2 ms s,
  started C true pro si rnd1 ei I0 -> keypair_ok ei ->
  started C false pro sr rnd2 er R0 -> keypair_ok sr -> keypair_ok er -> h_name C <> firstn 32 name ->
  let x1 := send_message C rnd1 I0 b1 in
  let x2 := recv_message C R0 (out x1) in
  let x3 := send_message C rnd2 (st x2) b2 in
  res x1 = Ok tt -> res x2 = Ok tt -> res x3 = Ok tt ->
  refused C (st x1) ms s -> Exists read_key ms -> res (recv_message C s (out x3)) = Ok tt ->
  exists p1 p' pe rest k' left,
    WriteMessage C (Initialize C true pro si ei) NX1 (skipn 32 b1) = Some (p1, out x1) /\ kept (kept_read C) p1 ms p' /\
    read_tokens C p' [TE; TEE] (out x3) = Some (pe, rest) /\ sy_k (p_sym pe) = Some k' /\ left <> [] /\
    let ds := first_pieces pro (out x1) ++ [firstn 32 (out x3)] in
    let ds' := (first_pieces pro (out x1) ++ left) ++ [firstn 32 (out x3)] in
    DECRYPT C k' 0 (chain C (h_name C) ds')
      (ENCRYPT C (ee_key C (kp_private er) (firstn 32 (out x1))) 0 (chain C (h_name C) ds) (kp_public sr)) <> None /\
    (chain C (h_name C) ds' <> chain C (h_name C) ds \/ collision C (all_hashed C ds') (all_hashed C ds)).
Proof. exact never_again. Qed.
Print Assumptions C59_never_again.
(** The exception exists for an AEAD without tags; with the AEAD of nx-noise the reply is refused. *)
Example C59_never_ex : crypto_ok weak_crypto /\ h_name weak_crypto <> firstn 32 name /\
  refused weak_crypto (st w_x1) [w_bad] w_s1 /\ Exists read_key [w_bad] /\
  res w_x1 = Ok tt /\ res w_x2 = Ok tt /\ res w_x3 = Ok tt /\ res (recv_message weak_crypto w_s1 (out w_x3)) = Ok tt /\
  res (recv_message demo_crypto d_s1 (out d_x3)) = Err DecryptionError.
Proof.
  split; [exact weak_ok|]. split; [exact blake_name|]. split; [exact w_refused|]. split; [exact w_bad_key|].
  destruct w_results as (A & B & D & E & _). repeat (split; [assumption|]). apply d_refused.
Qed.

(** C72, for every run: once a reply buffer was large enough for the public key but the call failed, a reply
    sent later is accepted only under the same kind of exception. *)
Theorem C72_never_sent : forall C, crypto_ok C -> forall pro si sr ei er rnd1 rnd2 I0 R0 b1 bs s b2,
  started C true pro si rnd1 ei I0 -> keypair_ok ei ->
  started C false pro sr rnd2 er R0 -> keypair_ok sr -> keypair_ok er -> h_name C <> firstn 32 name ->
  let x1 := send_message C rnd1 I0 b1 in
  let x2 := recv_message C R0 (out x1) in
  let x3 := send_message C rnd2 s b2 in
  res x1 = Ok tt -> res x2 = Ok tt ->
  unsent C rnd2 (st x2) bs s -> Exists wrote_key bs -> res x3 = Ok tt -> res (recv_message C (st x1) (out x3)) = Ok tt ->
  exists p1 p' pe o k' left,
    ReadMessage C (Initialize C false pro sr er) NX1 (out x1) = Some (p1, skipn 32 (out x1)) /\ kept (kept_write C) p1 bs p' /\
    write_tokens C p' [TE; TEE] = Some (pe, o) /\ sy_k (p_sym pe) = Some k' /\ left <> [] /\
    let ds := first_pieces pro (out x1) ++ [kp_public er] in
    let ds' := (first_pieces pro (out x1) ++ left) ++ [kp_public er] in
    DECRYPT C (ee_key C (kp_private ei) (kp_public er)) 0 (chain C (h_name C) ds)
      (ENCRYPT C k' 0 (chain C (h_name C) ds') (kp_public sr)) <> None /\
    (chain C (h_name C) ds' <> chain C (h_name C) ds \/ collision C (all_hashed C ds') (all_hashed C ds)).
Proof. exact never_sent. Qed.
Print Assumptions C72_never_sent.
Example C72_never_ex : crypto_ok weak_crypto /\ h_name weak_crypto <> firstn 32 name /\
  unsent weak_crypto k_er (st w_x2) [w_short] w_s2 /\ Exists wrote_key [w_short] /\ res w_x1 = Ok tt /\ res w_x2 = Ok tt /\
  res (recv_message weak_crypto (st w_x1) (out (send_message weak_crypto k_er w_s2 d_b2))) = Ok tt /\
  res (recv_message demo_crypto (st d_x1) (out (send_message demo_crypto k_er d_s2 d_b2))) = Err DecryptionError.
Proof.
  split; [exact weak_ok|]. split; [exact blake_name|]. split; [exact w_unsent|]. split; [exact w_short_key|].
  destruct w_results as (A & B & _ & _ & E). repeat (split; [assumption|]). apply d_unsent.
Qed.
