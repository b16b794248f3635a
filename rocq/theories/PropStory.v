(** * PropStory: C109, every history of calls on a session from its creation; C87 exactly.

    [C : crypto] are the primitives of nx-noise with the laws [crypto_ok]. *)
From Verif Require Import Base Codec Noise SpecNoise SpecSession SpecTransport SpecStory NoiseSamples Network Fuzz FuzzProofs StoryProofs.
Open Scope N_scope.

(** C109.  A session created in either role, then any calls in any order: the results and final buffers are those
    of the specification, and so is what the session then answers about itself. *)
Theorem C109_every_history : forall C, crypto_ok C -> forall i pro kp cs, keypair_ok kp ->
  exists g, story C i (Handshake false (newcomer C i pro kp)) cs (results C (init_session C i pro kp) cs) g /\
    shows (run_calls C (init_session C i pro kp) cs) g.
Proof. exact story_exact. Qed.
Print Assumptions C109_every_history.
(** The specification leaves nothing open, except the bytes left in place of a message that failed to decrypt. *)
Theorem C109_one_outcome : forall C i g cs rs1 g1 rs2 g2, story C i g cs rs1 g1 -> story C i g cs rs2 g2 ->
  g1 = g2 /\ map snd rs1 = map snd rs2 /\
  (forall j b1 b2 r, nth_error rs1 j = Some (b1, r) -> nth_error rs2 j = Some (b2, r) -> r <> Err DecryptionError -> b1 = b2).
Proof. exact story_unique. Qed.
Print Assumptions C109_one_outcome.
(** An initiator that first reads, fails to answer for lack of room and answers at the second attempt; one that
    sends, gets a spoiled reply, then one that is too short. *)
Example C109_ex : keypair_ok d_si /\
  map snd (results demo_crypto d_I0 [RekeyLocal; Recv (repeat x00 20); Recv (out d_x1); Send k_er (repeat x00 40); Send k_er d_b2]) =
    [Ok tt; Err MissingreError; Ok tt; Err MissingneError; Ok tt] /\
  map snd (results demo_crypto d_I0 [Send k_ei d_b1; Recv (firstn 80 (out d_x3) ++ repeat x00 16); Recv (firstn 60 (out d_x3));
    Recv (out d_x3)]) = [Ok tt; Err DecryptionError; Err MissingrsError; Err DecryptionError].
Proof. split; [split; reflexivity|]. split; vm_compute; reflexivity. Qed.

(** C87, exactly: an encryptor of either kind fed with any buffers, up to the first panic. *)
Theorem C87_exactly_partial : forall C, crypto_ok C -> forall sk rs inputs,
  match sk with Some k => keypair_ok k | None => len rs = 32 end ->
  let own := match sk with Some k => k | None => mkKeypair rs (c_pub C rs) end in
  feeding C false (Handshake false (newcomer C false [] own)) inputs (fed C (new_inbound C sk rs) inputs) /\
  (len rs = 32 ->
   feeding C true (Handshake false (newcomer C true [] (mkKeypair rs (c_pub C rs)))) inputs (fed C (new_outbound C rs) inputs)).
Proof. exact encryptors_fed. Qed.
Print Assumptions C87_exactly_partial.
Theorem C87_one_outcome : forall C i g inputs rs rs', feeding C i g inputs rs -> feeding C i g inputs rs' -> rs = rs'.
Proof. exact feeding_unique. Qed.
Print Assumptions C87_one_outcome.
Example C87_ex_fed : len k_sr = 32 /\
  fed demo_crypto (new_inbound demo_crypto None k_sr) [(k_er, fz_d1); (k_er, fz_d2)] = [Err (NoiseError MissingneError); Panic].
Proof. split; [reflexivity|exact fz_panics]. Qed.
