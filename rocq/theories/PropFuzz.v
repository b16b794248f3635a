(** * PropFuzz: C85-C87, every result of the handshake calls, the fuzz programs.

    [C : crypto] are the primitives of nx-noise with the laws [crypto_ok]. *)
From Coq Require Import Lia.
From Verif Require Import Base Codec Types Messages Frame Certs SpecWire SpecTypes SpecCerts CertProofs Noise Crypto CryptoFacts SpecNoise
  SpecSession SpecReply NoiseClaims NoiseSamples Network Fuzz ReplyProofs FuzzProofs.
Open Scope N_scope.

(** C85.  Each table gives at most one result per buffer, and the code returns it. *)
Theorem C85_opening : forall C i pro s e rnd S0 b, started C i pro s rnd e S0 ->
  opening_result b (res (send_message C rnd S0 b)).
Proof. exact opening_exact. Qed.
Print Assumptions C85_opening.
Theorem C85_first_message : forall C i pro s e rnd S0 m, started C i pro s rnd e S0 ->
  first_result m (res (recv_message C S0 m)).
Proof. exact first_exact. Qed.
Print Assumptions C85_first_message.
Theorem C85_answer : forall C, crypto_ok C -> forall pro sr er rnd R0 m1 b2,
  started C false pro sr rnd er R0 -> keypair_ok sr ->
  48 <= len m1 <= 65535 -> ~ low_order (firstn 32 m1) ->
  let x2 := recv_message C R0 m1 in
  exists p1, ReadMessage C (Initialize C false pro sr er) NX1 m1 = Some (p1, skipn 32 m1) /\
    answer_result C p1 b2 (res (send_message C rnd (st x2) b2)).
Proof. exact answer_exact. Qed.
Print Assumptions C85_answer.
Theorem C85_reply : forall C, crypto_ok C -> forall pro si ei rnd I0 b1 m,
  started C true pro si rnd ei I0 -> 32 <= len b1 <= 65535 ->
  let x1 := send_message C rnd I0 b1 in
  exists p1, WriteMessage C (Initialize C true pro si ei) NX1 (skipn 32 b1) = Some (p1, out x1) /\
    reply_result C p1 m (res (recv_message C (st x1) m)).
Proof. exact reply_exact. Qed.
Print Assumptions C85_reply.
Theorem C85_tables_decide : forall C p m r r',
  (reply_result C p m r -> reply_result C p m r' -> r = r') /\ (answer_result C p m r -> answer_result C p m r' -> r = r') /\
  (first_result m r -> first_result m r' -> r = r') /\ (opening_result m r -> opening_result m r' -> r = r').
Proof.
  exact (fun C p m r r' => conj (reply_unique C p m r r') (conj (answer_unique C p m r r') (conj (first_unique m r r') (opening_unique m r r')))).
Qed.
Print Assumptions C85_tables_decide.

Example C85_ex : started demo_crypto true d_prologue d_si k_ei d_ei d_I0 /\ started demo_crypto false d_prologue d_sr k_er d_er d_R0 /\
  keypair_ok d_sr /\ len d_b1 = 48 /\ len (out d_x1) = 48 /\ ~ low_order (firstn 32 (out d_x1)) /\
  res (send_message demo_crypto k_ei d_I0 (repeat x00 31)) = Err MissingneError /\
  res (recv_message demo_crypto d_R0 (repeat x00 48)) = Err InvalidPublicKeyError /\
  res (send_message demo_crypto k_er (st d_x2) (repeat x00 95)) = Err MissingneError /\
  res (recv_message demo_crypto (st d_x1) (firstn 79 (out d_x3))) = Err MissingrsError.
Proof.
  destruct d_honest as [H1 H2 H3 H4 H5 H6 H7 H8 H9 H10 H11].
  split; [assumption|]. split; [assumption|]. split; [assumption|]. split; [reflexivity|]. split; [reflexivity|]. split; [exact H7|].
  repeat split; vm_compute; reflexivity.
Qed.

(** C86. *)
Theorem C86_message_decoders : forall pf d1 d2 d3 d4 d5 d6, Forall rust_slice [d1; d2; d3; d4; d5; d6] ->
  fuzz_mining_messages pf d1 d2 d3 d4 d5 d6 = Ok tt /\ fuzz_setup_connection pf d1 d2 d3 = Ok tt /\
  fuzz_network_frame pf d1 = Ok tt.
Proof. exact fuzz_decoders. Qed.
Print Assumptions C86_message_decoders.
Theorem C86_encryptors : forall C rsr rsi rnd1 rnd2 d1 d2, fuzz_connection_encryptor C rsr rsi rnd1 rnd2 d1 d2 = Ok tt.
Proof. exact fuzz_encryptor_ok. Qed.
Print Assumptions C86_encryptors.
(** The remaining program, noise.rs, panics where C74 says. *)
Theorem C86_certificate_decoder : forall E pf d, rust_slice d ->
  (fuzz_noise E pf d = Panic <-> ed_sig_checked E = true /\ 74 <= len d /\ ~ canonical_sig (firstn 64 (skipn 10 d))) /\
  (fuzz_noise E pf d = Ok tt \/ fuzz_noise E pf d = Panic).
Proof. exact fuzz_noise_exact. Qed.
Print Assumptions C86_certificate_decoder.

Example C86_ex : Forall rust_slice [repeat xff 100; []; [x01]; repeat x00 300; repeat x80 7; repeat xff 1000] /\
  fuzz_mining_messages Debug (repeat xff 100) [] [x01] (repeat x00 300) (repeat x80 7) (repeat xff 1000) = Ok tt /\
  fuzz_noise (demo_ed true) Debug (repeat xff 74) = Panic /\ fuzz_noise (demo_ed true) Debug (repeat xff 73) = Ok tt.
Proof. split; [repeat constructor; vm_compute; discriminate|]. repeat split; vm_compute; reflexivity. Qed.

(** C87.  Full statement: [forall C s inputs, get_message_count s = 0 -> ~ In Panic (fed C s inputs)].  Refuted. *)
Theorem C87_fed_encryptor_panics_refuted : exists C rs inputs, crypto_ok C /\ In Panic (fed C (new_inbound C None rs) inputs).
Proof. exact fz_refuted. Qed.
Print Assumptions C87_fed_encryptor_panics_refuted.
(** It can happen to every fresh encryptor, of either kind: the first input leaves no room for the reply, and
    for any key [pe] and any payload of the wrong size some second input panics (unless the derived key is
    all zero, which is reported as an error). *)
Theorem C87_every_encryptor : forall C, crypto_ok C -> forall i sk rs rnd rnd' d1 pe tail,
  let s0 := if i : bool then new_outbound C rs else new_inbound C sk rs in
  48 <= len d1 < 80 -> ~ low_order (firstn 32 d1) -> len pe = 32 -> ~ low_order pe ->
  (len tail < 16 \/ 2048 < len tail) -> 80 + len tail <= 65535 ->
  exists ct, len ct = 48 /\
    (fed C s0 [(rnd, d1); (rnd', pe ++ ct ++ tail)] = [Err (NoiseError MissingneError); Panic] \/
     fed C s0 [(rnd, d1); (rnd', pe ++ ct ++ tail)] = [Err (NoiseError MissingneError); Err (NoiseError EmptyKeyError)]).
Proof. exact (fun C OK => fed_second_input C OK). Qed.
Print Assumptions C87_every_encryptor.
(** What does hold: never without an earlier first message that was read but not answered. *)
Theorem C87_panics_only_partial : forall C inputs s n, get_message_count s = 0 -> nth_error (fed C s inputs) n = Some Panic ->
  (exists rnd d, nth_error inputs n = Some (rnd, d) /\ (80 <= len d < 96 \/ 2128 < len d <= 65535)) /\
  exists k rnd0 d0, (k < n)%nat /\ nth_error inputs k = Some (rnd0, d0) /\
    48 <= len d0 <= 65535 /\ ~ low_order (firstn 32 d0) /\
    ((nth_error (fed C s inputs) k = Some (Err (NoiseError MissingneError)) /\ len d0 < 96) \/
     nth_error (fed C s inputs) k = Some (Err (NoiseError EmptyKeyError))).
Proof. exact fed_panic_only. Qed.
Print Assumptions C87_panics_only_partial.

Example C87_ex : get_message_count (new_inbound demo_crypto None k_sr) = 0 /\ len fz_d1 = 48 /\ ~ low_order (firstn 32 fz_d1) /\ len fz_d2 = 80 /\
  nth_error (fed demo_crypto (new_inbound demo_crypto None k_sr) [(k_er, fz_d1); (k_er, fz_d2)]) 1 = Some Panic.
Proof.
  split; [reflexivity|]. split; [reflexivity|]. split; [apply not_low; vm_compute; reflexivity|]. split; [reflexivity|].
  rewrite fz_panics. reflexivity.
Qed.
