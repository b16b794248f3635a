(** * PropMiner: C95-C97, the programs of examples/noise_handshake.rs on any input. *)
From Coq Require Import ZArith.
From Verif Require Import Base Codec Types Certs SpecWire Noise SpecNoise SpecCerts SpecSession Network SpecNetwork CertProofs NoiseSamples NetworkProofs Apps SpecMiner MinerProofs.
Open Scope N_scope.

(** C95.  [conns]: any connections, each with what it sends and the clock then.  [vs]: the verdicts printed;
    [dead]: whether a panic ended the program. *)
Theorem C95_miner_exact : forall C, crypto_ok C -> forall E pf text rsi rnd conns, len rnd = 32 ->
  let si := mkKeypair rsi (c_pub C rsi) in
  let ei := mkKeypair rnd (c_pub C rnd) in
  exists p1 m1 vs dead,
    WriteMessage C (Initialize C true [] si ei) NX1 (repeat (b8 0) 992) = Some (p1, m1) /\
    nh_miner_run C E pf text rsi rnd conns = Ok (m1, (vs, dead)) /\ miner_does C E text p1 conns vs dead.
Proof. exact miner_exact. Qed.
Print Assumptions C95_miner_exact.
Theorem C95_one_outcome : forall C E text p conns vs dead vs' dead',
  miner_does C E text p conns vs dead -> miner_does C E text p conns vs' dead' -> vs = vs' /\ dead = dead'.
Proof. exact miner_unique. Qed.
Print Assumptions C95_one_outcome.
(** Whoever sends what in which order: if [true] is printed, a reply was accepted whose static key [key] is
    in a certificate that the authority's key verifies, received under the key of that handshake, in time. *)
Theorem C95_true_means : forall C, crypto_ok C -> forall E pf text rsi rnd conns m1 vs dead, len rnd = 32 ->
  nh_miner_run C E pf text rsi rnd conns = Ok (m1, (vs, dead)) -> In true vs ->
  exists p1 bs0 now0 conns' b0 p2 key left,
    WriteMessage C (Initialize C true [] (mkKeypair rsi (c_pub C rsi)) (mkKeypair rnd (c_pub C rnd))) NX1 (repeat (b8 0) 992) = Some (p1, m1) /\
    conns = (bs0, now0) :: conns' /\ overlaid (repeat (b8 0) 1024) bs0 b0 /\ acceptable C p1 b0 p2 key left /\
    exists bs now b n pt a m rest signed, In (bs, now) conns' /\ len b = 1024 /\ firstn (length bs) b = firstn (length b) bs /\
      DECRYPT C (snd (Split C (p_sym p2))) n [] b = Some pt /\
      base58 text a /\ snm_ok m /\ wire (pt ++ skipn (length b - 16) b) = snm_layout m ++ rest /\
      wire signed = cert_layout (sn_version m) (sn_valid_from m) (sn_not_valid_after m) key /\
      ed_verify E a signed (sn_signature m) = true /\ (0 <= now)%Z /\ secs32 now < sn_not_valid_after m.
Proof. exact true_means. Qed.
Print Assumptions C95_true_means.

(** The two programs with each other: the verdict printed is whether the certificate has not expired. *)
Theorem C95_with_the_pool : forall C, crypto_ok C -> forall E, ed_ok E -> forall sr rsi rsr rnd1 rnd2 rnd3 kp text t1 t2,
  let si := mkKeypair rsi (c_pub C rsi) in
  let ei := mkKeypair rnd1 (c_pub C rnd1) in
  let er := mkKeypair rnd2 (c_pub C rnd2) in
  usable_keys C si sr ei er ->
  let m1 := kp_public ei ++ repeat x00 992 in
  ~ In zeros32 (nx_keys C [] sr er m1 (payload2 m1)) ->
  ~ In zeros32 (nx_transport_keys C [] sr er m1 (payload2 m1)) ->
  ed_pair E kp -> base58 text (ek_public kp) ->
  (0 <= t1)%Z -> (0 <= t2)%Z -> secs32 t1 < secs32 (t2 + 5 * 10 ^ 9) ->
  exists m2 m3, nh_pool_run C E rnd2 rnd3 rsr sr kp t1 t2 m1 = Ok (m2, m3) /\
    forall pf now now', nh_miner_run C E pf text rsi rnd1 [(m2, now); (m3, now')] =
      Ok (m1, ([(0 <=? now')%Z && (secs32 now' <? secs32 (t2 + 5 * 10 ^ 9))], false)).
Proof. exact programs_agree. Qed.
Print Assumptions C95_with_the_pool.

Example C95_ex : exists m2 m3,
  nh_pool_run demo_crypto (demo_ed true) k_er [] [] d_sr d_kp (1600000000 * 10 ^ 9)%Z (1600000000 * 10 ^ 9)%Z de_m1 = Ok (m2, m3) /\
  nh_miner_run demo_crypto (demo_ed true) Debug d_text k_si k_ei [(m2, (1600000000 * 10 ^ 9)%Z); (m3, (1600000001 * 10 ^ 9)%Z)] =
    Ok (de_m1, ([true], false)).
Proof. exact ex_programs. Qed.

(** C96.  [bs]: what the one connection of the pool sends; [t1], [t2]: its two readings of the clock. *)
Theorem C96_pool_exact : forall C, crypto_ok C -> forall E rnd1 rnd2 rsr sr kp t1 t2 bs, ed_ok E -> keypair_ok sr -> len rnd1 = 32 ->
  let er := mkKeypair rnd1 (c_pub C rnd1) in
  pool_answers C E sr er kp t1 t2 bs (nh_pool_run C E rnd1 rnd2 rsr sr kp t1 t2 bs).
Proof. exact noise_pool_exact. Qed.
Print Assumptions C96_pool_exact.
Theorem C96_one_outcome : forall C E sr er kp t1 t2 bs r r',
  pool_answers C E sr er kp t1 t2 bs r -> pool_answers C E sr er kp t1 t2 bs r' -> r = r'.
Proof. exact pool_unique. Qed.
Print Assumptions C96_one_outcome.

Example C96_ex : ed_ok (demo_ed true) /\ keypair_ok d_sr /\ len k_er = 32 /\ exists m2 m3,
  nh_pool_run demo_crypto (demo_ed true) k_er [] [] d_sr d_kp (1600000000 * 10 ^ 9)%Z (1600000000 * 10 ^ 9)%Z de_m1 = Ok (m2, m3).
Proof. exact ex_pool. Qed.

(** C97.  Full statement: whatever its connections send, neither program panics.  Refuted for all keys: a
    connection closed at once ends either program. *)
Theorem C97_stray_connection_refuted : exists C E pf text rsi rnd conns m1 vs,
  crypto_ok C /\ ed_ok E /\ nh_miner_run C E pf text rsi rnd conns = Ok (m1, (vs, true)).
Proof. exact stray_refuted. Qed.
Print Assumptions C97_stray_connection_refuted.
Theorem C97_every_miner_stops : forall C, crypto_ok C -> forall E pf text rsi rnd now conns, len rnd = 32 ->
  exists m1, nh_miner_run C E pf text rsi rnd (([], now) :: conns) = Ok (m1, ([], true)).
Proof. exact miner_stopped. Qed.
Print Assumptions C97_every_miner_stops.
Theorem C97_every_pool_stops : forall C, crypto_ok C -> forall E rnd1 rnd2 rsr sr kp t1 t2, ed_ok E -> keypair_ok sr -> len rnd1 = 32 ->
  nh_pool_run C E rnd1 rnd2 rsr sr kp t1 t2 [] = Panic.
Proof. exact pool_stopped. Qed.
Print Assumptions C97_every_pool_stops.
(** What does hold: the pool answers every client that sends a public key that is not of low order, unless a
    derived key is zero, from 1970 until five seconds before the 32 bits of a time are used up. *)
Theorem C97_pool_answers_partial : forall C, crypto_ok C -> forall E rnd1 rnd2 rsr sr kp t1 t2 bs b p1 rest p2 m2,
  ed_ok E -> keypair_ok sr -> len rnd1 = 32 ->
  overlaid (repeat (b8 0) 1024) bs b -> ~ low_order (firstn 32 b) ->
  ReadMessage C (Initialize C false [] sr (mkKeypair rnd1 (c_pub C rnd1))) NX1 b = Some (p1, rest) ->
  WriteMessage C p1 NX2 (payload2 b) = Some (p2, m2) -> ~ In zeros32 (snd (Split C (p_sym p2)) :: sy_keys (p_sym p2)) ->
  (0 <= t1 <= t2)%Z -> (t2 + 5 * 10 ^ 9 < 2 ^ 32 * 10 ^ 9)%Z ->
  exists m3, nh_pool_run C E rnd1 rnd2 rsr sr kp t1 t2 bs = Ok (m2, m3).
Proof. exact pool_survives. Qed.
Print Assumptions C97_pool_answers_partial.
Example C97_ex : exists b p1 rest p2 m2, overlaid (repeat (b8 0) 1024) de_m1 b /\ ~ low_order (firstn 32 b) /\
  ReadMessage demo_crypto (Initialize demo_crypto false [] d_sr (mkKeypair k_er (c_pub demo_crypto k_er))) NX1 b = Some (p1, rest) /\
  WriteMessage demo_crypto p1 NX2 (payload2 b) = Some (p2, m2) /\
  ~ In zeros32 (snd (Split demo_crypto (p_sym p2)) :: sy_keys (p_sym p2)) /\
  (1600000000 * 10 ^ 9 + 5 * 10 ^ 9 < 2 ^ 32 * 10 ^ 9)%Z.
Proof. exact ex_survives. Qed.
