(** * PropPanic: C51 and C75 exactly, when a receive panics after any history. *)
From Verif Require Import Base Noise SpecNoise SpecSession SpecTransport SpecStory NoiseSamples Network NetworkProofs SpecPass SpecPanic PanicProofs.
Open Scope N_scope.
Open Scope list_scope.

(** C51.  Full statement: recv_message never panics (refuted in PropSession).  Which buffers make it panic, after any
    calls on a fresh session: [g] is the stage the calls led to, by the table of C109. *)
Theorem C51_every_history_partial : forall C, crypto_ok C -> forall i pro kp cs, keypair_ok kp -> exists g,
  story C i (Handshake false (newcomer C i pro kp)) cs (results C (init_session C i pro kp) cs) g /\
  forall m, res (recv_message C (run_calls C (init_session C i pro kp) cs) m) = Panic <-> bursts C g m.
Proof. exact history_panics. Qed.
Print Assumptions C51_every_history_partial.
(** An initiator that has been sent a message without a key before; the start of its peer's reply. *)
Example C51_ex_history : crypto_ok demo_crypto /\ keypair_ok d_si /\
  let s := run_calls demo_crypto d_I0 [RekeyLocal; Send k_ei d_b1; Recv (repeat x00 20)] in
  res (recv_message demo_crypto s (firstn 80 (out d_x3))) = Panic /\
  res (recv_message demo_crypto s (firstn 79 (out d_x3))) = Err MissingrsError.
Proof. split; [exact demo_ok|]. split; [split; reflexivity|]. cbv zeta. split; vm_compute; reflexivity. Qed.

(** C75.  Full statement: recv_handshake never panics (refuted in PropNetwork).  The same for encryptors, after any calls
    up to the first panic, by the table of C129. *)
Theorem C75_inbound_partial : forall C, crypto_ok C -> forall sk rs cs,
  match sk with Some k => keypair_ok k | None => len rs = 32 end ->
  let own := match sk with Some k => k | None => mkKeypair rs (c_pub C rs) end in
  let x := enc_run C (new_inbound C sk rs) cs in
  exists g, handling C false (Handshake false (newcomer C false [] own)) cs (fst x) g /\
    forall rnd m, snd (recv_handshake C rnd (snd x) m) = Panic <-> bursts C g m.
Proof. exact inbound_panics. Qed.
Print Assumptions C75_inbound_partial.
Theorem C75_outbound_partial : forall C, crypto_ok C -> forall rs cs, len rs = 32 ->
  let x := enc_run C (new_outbound C rs) cs in
  exists g, handling C true (Handshake false (newcomer C true [] (mkKeypair rs (c_pub C rs)))) cs (fst x) g /\
    forall rnd m, snd (recv_handshake C rnd (snd x) m) = Panic <-> bursts C g m.
Proof. exact outbound_panics. Qed.
Print Assumptions C75_outbound_partial.
Example C75_ex_calls : len k_si = 32 /\
  let x := enc_run demo_crypto (new_outbound demo_crypto k_si) [Take [] (repeat x00 15); Begin k_ei] in
  snd (recv_handshake demo_crypto [] (snd x) (firstn 95 (snd (fst de_2)))) = Panic /\
  snd (recv_handshake demo_crypto [] (snd x) (firstn 79 (snd (fst de_2)))) = Err (NoiseError MissingrsError).
Proof. split; [reflexivity|]. cbv zeta. split; vm_compute; reflexivity. Qed.
