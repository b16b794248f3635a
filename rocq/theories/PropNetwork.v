(** * PropNetwork: C62-C68 and C75, connection encryptors, the message queue of a peer, channel ids and
    the two example programs.

    [C : crypto] are the primitives of nx-noise with the laws [crypto_ok]; [rsi], [rsr], [rnd1], [rnd2]
    are what the random generator returns. *)
From Coq Require Import ZArith Permutation.
From Verif Require Import Base Codec Types Messages Frame Catalog SpecWire SpecTypes Samples
  Certs SpecCerts Base58Facts CertProofs Noise Crypto CryptoFacts SpecNoise SpecSession NoiseSamples
  TypesFacts Network Apps SpecNetwork PeerProofs NetworkProofs TypesProofs FrameProofs AppProofs ReplyProofs.
Open Scope N_scope.

(** C62.  [I] and [R] are sessions after a completed handshake (see C41 and C44); the initiator's last
    call also sends [m3], 1008 bytes of plaintext sealed with counter 0. *)
Theorem C62_encryptor_handshake : forall C, crypto_ok C -> forall sk rsi rsr rnd1 rnd2 rnd3,
  let si := mkKeypair rsi (c_pub C rsi) in
  let sr := match sk with Some k => k | None => mkKeypair rsr (c_pub C rsr) end in
  let ei := mkKeypair rnd1 (c_pub C rnd1) in
  let er := mkKeypair rnd2 (c_pub C rnd2) in
  usable_keys C si sr ei er ->
  let m1 := kp_public ei ++ repeat x00 992 in
  ~ In zeros32 (nx_keys C [] sr er m1 (payload2 m1)) ->
  ~ In zeros32 (nx_transport_keys C [] sr er m1 (payload2 m1)) ->
  exists I1 R m2 b2 I I' m3 b3,
    init_handshake C rnd1 (new_outbound C rsi) = (I1, Ok m1) /\ len m1 = 1024 /\
    recv_handshake C rnd2 (new_inbound C sk rsr) m1 = (R, b2, Ok m2) /\
    recv_handshake C rnd3 I1 m2 = (I', b3, Ok m3) /\
    is_handshake_complete I' = true /\ is_handshake_complete R = true /\
    get_remote_pubkey I' = Some (kp_public sr) /\
    completed C I R /\ cs_k (se_cs1 I) <> zeros32 /\ cs_k (se_cs2 I) <> zeros32 /\
    exists pt, len pt = 1008 /\ send_message C [] I (pt ++ placeholder) = (I', m3, Ok tt) /\
      m3 = ENCRYPT C (cs_k (se_cs1 I)) 0 [] pt /\ se_cs1 I' = mkCS (cs_k (se_cs1 I)) 1 /\ se_cs1 R = mkCS (cs_k (se_cs1 I)) 0.
Proof. exact enc_handshake. Qed.
Print Assumptions C62_encryptor_handshake.

Example C62_ex : crypto_ok demo_crypto /\
  usable_keys demo_crypto d_si d_sr d_ei d_er /\
  ~ In zeros32 (nx_keys demo_crypto [] d_sr d_er de_m1 (payload2 de_m1)) /\
  ~ In zeros32 (nx_transport_keys demo_crypto [] d_sr d_er de_m1 (payload2 de_m1)) /\
  init_handshake demo_crypto k_ei (new_outbound demo_crypto k_si) = de_1 /\
  get_remote_pubkey (st de_3) = Some (kp_public d_sr).
Proof.
  split; [exact demo_ok|]. split; [exact de_usable|]. split; [exact de_keys|]. split; [exact de_tkeys|].
  split; [exact (proj1 de_run)|exact (proj2 (proj2 (proj2 (proj2 (proj2 de_results)))))].
Qed.

(** C63.  Refuted: the initiator's last [recv_handshake] has already used its first counter, the responder
    has not seen that message, and refuses what comes next. *)
Theorem C63_both_directions_refuted : exists C rsi rsr rnd1 rnd2 I1 m1 R b2 m2 I b3 m3 buf,
  crypto_ok C /\
  init_handshake C rnd1 (new_outbound C rsi) = (I1, Ok m1) /\
  recv_handshake C rnd2 (new_inbound C None rsr) m1 = (R, b2, Ok m2) /\
  recv_handshake C [] I1 m2 = (I, b3, Ok m3) /\
  is_handshake_complete I = true /\ is_handshake_complete R = true /\
  res (send_message C [] I buf) = Ok tt /\
  res (recv_message C R (out (send_message C [] I buf))) = Err DecryptionError.
Proof. exact enc_refused. Qed.
Print Assumptions C63_both_directions_refuted.
(** In general: acceptance would need equal ciphertexts under counters 0 and 1. *)
Theorem C63_initiator_refused : forall C, crypto_ok C -> forall I R I' m3 pt rnd b, completed C I R -> cs_k (se_cs1 I) <> zeros32 ->
  len pt = 1008 -> send_message C [] I (pt ++ placeholder) = (I', m3, Ok tt) -> 16 <= len b <= 65535 ->
  res (send_message C rnd I' b) = Ok tt /\
  out (send_message C rnd I' b) = ENCRYPT C (cs_k (se_cs1 I)) 1 [] (plaintext_of b) /\
  (res (recv_message C R (out (send_message C rnd I' b))) = Ok tt ->
   exists other, ENCRYPT C (cs_k (se_cs1 I)) 1 [] (plaintext_of b) = ENCRYPT C (cs_k (se_cs1 I)) 0 [] other).
Proof. exact enc_out_of_step. Qed.
Print Assumptions C63_initiator_refused.
(** What does hold: both directions deliver everything in order when the initiator's extra message is
    handed to the responder as well. *)
Theorem C63_with_third_message_partial : forall C, crypto_ok C -> forall I R I' m3 pt es,
  completed C I R -> cs_k (se_cs1 I) <> zeros32 -> cs_k (se_cs2 I) <> zeros32 ->
  len pt = 1008 -> send_message C [] I (pt ++ placeholder) = (I', m3, Ok tt) ->
  Forall sized es -> (forall l, ~ In (IRekey l) es) ->
  1 + len (i_sends es) <= 2 ^ 64 - 1 -> len (r_sends es) <= 2 ^ 64 - 1 ->
  let n := net_run C (mkNet I' R [Packet m3] [] [pt] [] [] []) es in
  exists pi pr, pt :: i_sends es = n_got_r n ++ pi /\ length pi = packets (n_ir n) /\
                r_sends es = n_got_i n ++ pr /\ length pr = packets (n_ri n).
Proof. exact enc_channel. Qed.
Print Assumptions C63_with_third_message_partial.

Example C63_ex : res (recv_message demo_crypto (st de_3) (out (send_message demo_crypto [] (st de_2) de_buf))) = Ok tt.
Proof. exact (proj2 (proj2 de_refused)). Qed.

(** C64.  Refuted: both are stubs. *)
Theorem C64_encrypt_decrypt_refuted : exists b, decrypt_message (encrypt_message b) <> b.
Proof. exact enc_stub. Qed.
Print Assumptions C64_encrypt_decrypt_refuted.
Theorem C64_only_empty_partial : forall b, decrypt_message (encrypt_message b) = b <-> b = [].
Proof. exact enc_stub_iff. Qed.
Print Assumptions C64_only_empty_partial.

Example C64_ex : decrypt_message (encrypt_message [x01]) = [].
Proof. reflexivity. Qed.

(** C65.  [progs] are the programs of the threads, [sched] any choice of who moves; [evs] are the pushes
    and drains in the order in which they happened. *)
Theorem C65_fifo : forall progs sched q evs, peer_run (peer_new progs) sched = (q, evs) ->
  concat (drained evs) ++ pe_buffer q = pushed evs.
Proof. exact queue_order. Qed.
Print Assumptions C65_fifo.
(** A drain takes everything that was waiting. *)
Theorem C65_drain_takes_all : forall progs sched q a t ms b,
  peer_run (peer_new progs) sched = (q, a ++ Drained t ms :: b) -> concat (drained a) ++ ms = pushed a.
Proof. exact drain_takes_all. Qed.
Print Assumptions C65_drain_takes_all.
(** The events are exactly the operations of the threads, and what a call drained is what it returns. *)
Theorem C65_threads : forall progs sched q evs t prog, peer_run (peer_new progs) sched = (q, evs) ->
  nth_error progs t = Some prog -> exists th, nth_error (pe_threads q) t = Some th /\
    prog = map operation (by_thread t evs) ++ outstanding th /\
    drained (by_thread t evs) = th_got th ++ in_flight th.
Proof. exact queue_threads. Qed.
Print Assumptions C65_threads.
Theorem C65_exactly_once : forall progs sched q evs, peer_run (peer_new progs) sched = (q, evs) ->
  Permutation (concat (map (fun th => concat (th_got th ++ in_flight th)) (pe_threads q)) ++ pe_buffer q ++
               concat (map (fun th => program_pushes (outstanding th)) (pe_threads q)))
              (concat (map program_pushes progs)).
Proof. exact exactly_once. Qed.
Print Assumptions C65_exactly_once.
Theorem C65_all_finished : forall progs sched q evs, peer_run (peer_new progs) sched = (q, evs) ->
  Forall finished (pe_threads q) ->
  Permutation (concat (concat (map th_got (pe_threads q))) ++ pe_buffer q) (concat (map program_pushes progs)).
Proof. exact all_finished. Qed.
Print Assumptions C65_all_finished.
Theorem C65_exclusion : forall progs sched q evs t u th uh, peer_run (peer_new progs) sched = (q, evs) ->
  nth_error (pe_threads q) t = Some th -> nth_error (pe_threads q) u = Some uh -> in_section th -> in_section uh -> t = u.
Proof. exact exclusion. Qed.
Print Assumptions C65_exclusion.
Theorem C65_progress : forall progs sched q evs t th, peer_run (peer_new progs) sched = (q, evs) ->
  nth_error (pe_threads q) t = Some th -> th_todo th <> [] -> th_at th <> Dead ->
  exists u q' ev, peer_step q u = Some (q', ev).
Proof. exact progress. Qed.
Print Assumptions C65_progress.
(** Without a thread that panics while holding the lock, nothing panics. *)
Theorem C65_no_panic : forall progs sched q evs, Forall (fun prog => ~ In Crash prog) progs ->
  peer_run (peer_new progs) sched = (q, evs) -> pe_poisoned q = false /\ Forall (fun th => th_at th <> Dead) (pe_threads q).
Proof. exact no_panic. Qed.
Print Assumptions C65_no_panic.
(** Once a thread has panicked, no message is queued or drained any more: the queue keeps what it held, and
    each thread that calls lock().unwrap() panics in turn. *)
Theorem C65_after_crash : forall progs a q1 e1 t th b q2 e2, peer_run (peer_new progs) a = (q1, e1) ->
  nth_error (pe_threads q1) t = Some th -> th_at th = Dead -> peer_run q1 b = (q2, e2) ->
  e2 = [] /\ pe_buffer q2 = pe_buffer q1.
Proof. exact after_crash. Qed.
Print Assumptions C65_after_crash.
Theorem C65_crash_spreads : forall progs a q1 e1 t th u uh, peer_run (peer_new progs) a = (q1, e1) ->
  nth_error (pe_threads q1) t = Some th -> th_at th = Dead ->
  nth_error (pe_threads q1) u = Some uh -> th_at uh = Idle -> th_todo uh <> [] ->
  exists q2 uh', peer_step q1 u = Some (q2, []) /\ nth_error (pe_threads q2) u = Some uh' /\ th_at uh' = Dead /\
    th_got uh' = th_got uh.
Proof. exact crash_spreads. Qed.
Print Assumptions C65_crash_spreads.

Example C65_crash_ex :
  let m := mkMessage MT_SetupConnection [x01] in
  let q := fst (peer_run (peer_new [[Push m; Crash]; [GetPending]]) [0; 0; 0; 0; 0; 0]%nat) in
  map th_at (pe_threads q) = [Dead; Idle] /\ pe_buffer q = [m] /\
  map th_at (pe_threads (fst (peer_run q [1; 1]%nat))) = [Dead; Dead].
Proof. vm_compute. repeat split. Qed.

(** Two writers and a reader; the reader is blocked between the first push and its unlock. *)
Example C65_ex :
  let m n := mkMessage MT_SetupConnection [b8 n] in
  let progs := [[Push (m 1); Push (m 2)]; [Push (m 3)]; [GetPending; GetPending]] in
  let sched := [0; 0; 2; 0; 0; 1; 1; 1; 1; 2; 2; 2; 2; 0; 0; 0; 0; 2; 2; 2; 2]%nat in
  let q := fst (peer_run (peer_new progs) sched) in
  snd (peer_run (peer_new progs) sched) = [Pushed 0 (m 1); Pushed 1 (m 3); Drained 2 [m 1; m 3]; Pushed 0 (m 2); Drained 2 [m 2]]
  /\ Forall finished (pe_threads q) /\ map th_got (pe_threads q) = [[]; []; [[m 1; m 3]; [m 2]]].
Proof. cbv zeta. split; [vm_compute; reflexivity|]. split; [vm_compute; repeat constructor|vm_compute; reflexivity]. Qed.

(** C66.  [draws] are the outputs of the generator. *)
Theorem C66_in_range : forall draws, Forall (fun v => v < 2 ^ 32) draws ->
  (exists id, new_channel_id draws = Ok (Some id) /\ id < 2 ^ 32 - 1) \/
  (new_channel_id draws = Ok None /\ Forall (fun v => v = 1) draws).
Proof. exact channel_id_range. Qed.
Print Assumptions C66_in_range.
(** Every id is given by exactly one value of the draw, so ids are uniform if the draws are. *)
Theorem C66_uniform : forall id, id < 2 ^ 32 - 1 ->
  exists v, v < 2 ^ 32 /\ (forall draws, new_channel_id (v :: draws) = Ok (Some id)) /\
    forall v', v' < 2 ^ 32 -> new_channel_id [v'] = Ok (Some id) -> v' = v.
Proof. exact channel_id_uniform. Qed.
Print Assumptions C66_uniform.

Example C66_ex : new_channel_id [1; 1; 4294967295] = Ok (Some 4294967294) /\ new_channel_id [0] = Ok (Some 0).
Proof. split; reflexivity. Qed.

(** C67. *)
Theorem C67_pool_answers : forall v flags, constructed K_CommonSetupConnection (CSC_Mining v) ->
  flags_ok MiningSuccessFlags flags ->
  exists bs, sc_miner_send (CSC_Mining v) = Ok bs /\
    len bs = 6 + len (layout K_CommonSetupConnection (CSC_Mining v)) /\
    (len bs <= 1024 -> forall pf1 pf2, exists reply, sc_pool_recv pf1 flags (read_1024 bs) = Ok (Some reply) /\
       sc_miner_recv pf2 (read_1024 reply) = Ok (Some (mkSCS (sc_min_version v) flags))) /\
    (1024 < len bs -> forall pf, sc_pool_recv pf flags (read_1024 bs) = Panic).
Proof. exact setup_flow. Qed.
Print Assumptions C67_pool_answers.
Theorem C67_job_negotiation_ignored : forall v flags, constructed K_CommonSetupConnection (CSC_JobNegotiation v) ->
  exists bs, sc_miner_send (CSC_JobNegotiation v) = Ok bs /\
    (len bs <= 1024 -> forall pf, sc_pool_recv pf flags (read_1024 bs) = Ok None).
Proof. exact setup_ignored. Qed.
Print Assumptions C67_job_negotiation_ignored.

Example C67_ex : constructed K_CommonSetupConnection (CSC_Mining sample_sc) /\ flags_ok MiningSuccessFlags REQUIRES_FIXED_VERSION /\
  exists bs reply, sc_miner_send (CSC_Mining sample_sc) = Ok bs /\ len bs <= 1024 /\
    sc_pool_recv Debug REQUIRES_FIXED_VERSION (read_1024 bs) = Ok (Some reply) /\
    sc_miner_recv Debug (read_1024 reply) = Ok (Some (mkSCS 2 1)).
Proof.
  split; [apply constructed_iff; exact sample_sc_ok|]. split; [apply (proj1 (flags_from_bits_iff MiningSuccessFlags 1 1)); reflexivity|].
  do 2 eexists. split; [vm_compute; reflexivity|]. split; [vm_compute; discriminate|]. split; [vm_compute; reflexivity|]. vm_compute. reflexivity.
Qed.

(** C68.  The example program: the verdict the miner prints.  [t1] and [t2] are the pool's readings of the clock. *)
Theorem C68_noise_handshake_example : forall C, crypto_ok C -> forall E, ed_ok E -> forall sr rsi rsr rnd1 rnd2 rnd3 kp text t1 t2,
  let si := mkKeypair rsi (c_pub C rsi) in
  let ei := mkKeypair rnd1 (c_pub C rnd1) in
  let er := mkKeypair rnd2 (c_pub C rnd2) in
  usable_keys C si sr ei er ->
  let m1 := kp_public ei ++ repeat x00 992 in
  ~ In zeros32 (nx_keys C [] sr er m1 (payload2 m1)) ->
  ~ In zeros32 (nx_transport_keys C [] sr er m1 (payload2 m1)) ->
  ed_pair E kp -> base58 text (ek_public kp) ->
  (0 <= t1)%Z -> (0 <= t2)%Z -> secs32 t1 < secs32 (t2 + 5 * 10 ^ 9) ->
  exists I1 R m2 m3 I2,
    nh_send C rnd1 (new_outbound C rsi) (repeat x00 1024) = (I1, Ok m1) /\
    nh_pool_recv C E rnd2 rnd3 (new_inbound C (Some sr) rsr) kp (kp_public sr) t1 t2 (read_1024 m1) = (R, Ok (m2, m3)) /\
    forall pf now, nh_miner_recv C E pf text now I1 (read_1024 m2) = (I2, Ok None) /\
      exists I3, nh_miner_recv C E pf text now I2 (read_1024 m3) =
        (I3, Ok (Some ((0 <=? now)%Z && (secs32 now <? secs32 (t2 + 5 * 10 ^ 9))))).
Proof. exact noise_flow. Qed.
Print Assumptions C68_noise_handshake_example.
(** Any version and window over any completed handshake. *)
Theorem C68_any_certificate : forall C, crypto_ok C -> forall E, ed_ok E -> forall I R rnd kp key v f t text,
  completed C I R -> cs_k (se_cs2 I) <> zeros32 ->
  get_remote_static_public_key I = Some key -> ed_pair E kp -> base58 text (ek_public kp) ->
  v < 2 ^ 16 -> f < t -> t < 2 ^ 32 ->
  exists R' m3, nh_send_certificate C E rnd R kp key v f t = (R', Ok m3) /\ len m3 = 1024 /\
    forall pf now, exists I',
      nh_miner_recv C E pf text now I m3 = (I', Ok (Some ((0 <=? now)%Z && (secs32 now <? t)))).
Proof. exact certificate_flow. Qed.
Print Assumptions C68_any_certificate.
(** And the verdict is true only for a message that the authority's key verifies for the static key of
    the peer, before its expiry. *)
Theorem C68_verdict_sound : forall C, crypto_ok C -> forall E pf text now I b I', reachable C I -> rust_slice b ->
  nh_miner_recv C E pf text now I b = (I', Ok (Some true)) ->
  is_transport I = true /\ res (recv_message C I b) = Ok tt /\
  exists k key m signed rest, base58 text k /\ get_remote_static_public_key I = Some key /\
    snm_ok m /\ wire (out (recv_message C I b)) = snm_layout m ++ rest /\
    wire signed = cert_layout (sn_version m) (sn_valid_from m) (sn_not_valid_after m) key /\
    ed_verify E k signed (sn_signature m) = true /\ (0 <= now)%Z /\ secs32 now < sn_not_valid_after m.
Proof. exact verdict_sound. Qed.
Print Assumptions C68_verdict_sound.

Example C68_ex : crypto_ok demo_crypto /\ ed_ok (demo_ed true) /\
  usable_keys demo_crypto d_si d_sr d_ei d_er /\
  ed_pair (demo_ed true) d_kp /\ base58 d_text (ek_public d_kp) /\
  secs32 (1600000000 * 10 ^ 9) < secs32 (1600000000 * 10 ^ 9 + 5 * 10 ^ 9).
Proof.
  split; [exact demo_ok|]. split; [apply demo_ed_ok|]. split; [exact de_usable|]. split; [apply CertProofs.demo_pair|].
  split; [apply (proj1 (base58_from_spec d_text)); vm_compute; reflexivity|vm_compute; reflexivity].
Qed.

(** C75.  Refuted, for every honest pair of encryptors: a reply cut to between 80 and 95 bytes panics. *)
Theorem C75_recv_handshake_panics_refuted : exists C rsi rsr rnd1 rnd2 I1 m1 R b2 m2,
  crypto_ok C /\ init_handshake C rnd1 (new_outbound C rsi) = (I1, Ok m1) /\
  recv_handshake C rnd2 (new_inbound C None rsr) m1 = (R, b2, Ok m2) /\
  snd (recv_handshake C [] I1 (firstn 80 m2)) = Panic.
Proof. exact enc_panics. Qed.
Print Assumptions C75_recv_handshake_panics_refuted.
Theorem C75_every_honest_encryptor_panics : forall C, crypto_ok C -> forall sk rsi rsr rnd1 rnd2 rnd3 k,
  let si := mkKeypair rsi (c_pub C rsi) in
  let sr := match sk with Some k => k | None => mkKeypair rsr (c_pub C rsr) end in
  let ei := mkKeypair rnd1 (c_pub C rnd1) in
  let er := mkKeypair rnd2 (c_pub C rnd2) in
  usable_keys C si sr ei er ->
  let m1 := kp_public ei ++ repeat x00 992 in
  ~ In zeros32 (nx_keys C [] sr er m1 (payload2 m1)) -> 80 <= k < 96 ->
  exists I1 R b2 m2,
    init_handshake C rnd1 (new_outbound C rsi) = (I1, Ok m1) /\
    recv_handshake C rnd2 (new_inbound C sk rsr) m1 = (R, b2, Ok m2) /\
    snd (recv_handshake C rnd3 I1 (firstn (N.to_nat k) m2)) = Panic.
Proof. exact enc_cut_reply. Qed.
Print Assumptions C75_every_honest_encryptor_panics.
(** What does hold: nowhere else, and never in [init_handshake]. *)
Theorem C75_panics_only_partial : forall C rnd s b, snd (recv_handshake C rnd s b) = Panic ->
  get_message_count s = 1 /\ (80 <= len b < 96 \/ 2128 < len b <= 65535).
Proof. exact enc_panic_only. Qed.
Print Assumptions C75_panics_only_partial.
Theorem C75_panics_exactly : forall C, crypto_ok C -> forall rsi rnd1 rnd2 m,
  let ei := mkKeypair rnd1 (c_pub C rnd1) in
  let si := mkKeypair rsi (c_pub C rsi) in
  exists I1 m1 p1, init_handshake C rnd1 (new_outbound C rsi) = (I1, Ok m1) /\
    WriteMessage C (Initialize C true [] si ei) NX1 (repeat x00 992) = Some (p1, m1) /\
    (snd (recv_handshake C rnd2 I1 m) = Panic <->
     (80 <= len m < 96 \/ 2128 < len m <= 65535) /\ ~ low_order (firstn 32 m) /\
     exists pe rest ps rest' k, read_tokens C p1 [TE; TEE] m = Some (pe, rest) /\ sy_k (p_sym pe) <> Some zeros32 /\
       read_tokens C p1 [TE; TEE; TS] m = Some (ps, rest') /\ p_rs ps = Some k /\ ~ low_order k).
Proof. exact enc_panic_exact. Qed.
Print Assumptions C75_panics_exactly.
Theorem C75_init_handshake_never_panics : forall C rnd s, snd (init_handshake C rnd s) <> Panic.
Proof. exact init_handshake_no_panic. Qed.
Print Assumptions C75_init_handshake_never_panics.

Example C75_ex : snd (recv_handshake demo_crypto [] (fst de_1) (firstn 80 (snd (fst de_2)))) = Panic.
Proof. vm_compute. reflexivity. Qed.
