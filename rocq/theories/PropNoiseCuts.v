(** * PropNoiseCuts: C145, the noise example over a network that cuts what is sent into pieces. *)
From Coq Require Import ZArith.
From Verif Require Import Base Noise Certs SpecNoise SpecCerts SpecSession SpecMiner CertProofs NoiseSamples Mains SpecMains NoiseMainProofs NoiseCuts SpecNoiseCuts NoiseCutProofs NoiseCutClaims.
Local Open Scope N_scope.
Local Open Scope list_scope.

(** C145.  Full claim: however what is sent is cut into pieces on the way, if the pool gets the first turn, both tasks get turns
    for ever and bytes keep arriving, the miner prints its verdict on the pool's certificate.  It fails: when the first 32 bytes
    of the pool's answer arrive ahead of the rest, the miner panics. *)
Theorem C145_refuted : exists C E pf rsi rnd1 rnd2 rnd3 rsr sr kp text clock clock' f, crypto_ok C /\ ed_ok E /\
  programs_ready C E sr rsi rnd1 rnd2 kp text /\ clock_ok clock clock' /\ fair_happenings f /\
  (forall es1 es2 n, first_happenings f n = es1 ++ MinerDoes :: es2 -> In PoolDoes es1) /\
  exists k, forall n, (k <= n)%nat -> cw_miner (nc_main C E pf rsi rnd1 rnd2 rnd3 rsr sr kp text clock clock' (first_happenings f n)) = NM_dead [].
Proof. exact noise_pieces_refuted. Qed.
Print Assumptions C145_refuted.

(** Whatever happens in whatever order: nothing has been printed and the miner goes on, or it was refused, or it has printed
    and panicked exactly as the Noise specification says for parts of what the pool sends on reading a part of the first
    message. *)
Theorem C145_any_partial : forall C E, crypto_ok C -> ed_ok E -> forall sr rsi rsr rnd1 rnd2 rnd3 kp text,
  keypair_ok sr -> len rnd1 = 32 -> len rnd2 = 32 -> forall pf clock clock', clock_ok clock clock' ->
  let si := mkKeypair rsi (c_pub C rsi) in
  let ei := mkKeypair rnd1 (c_pub C rnd1) in
  let er := mkKeypair rnd2 (c_pub C rnd2) in
  forall es, exists p1 m1, WriteMessage C (Initialize C true [] si ei) NX1 (repeat (b8 0) 992) = Some (p1, m1) /\
  let w := nc_main C E pf rsi rnd1 rnd2 rnd3 rsr sr kp text clock clock' es in
  (printed (cw_miner w) = [] /\ nc_over w = false) \/
  (cw_miner w = NM_dead [] /\ cw_to_pool w = None) \/
  exists i k l conns, (1 <= k)%nat /\ pool_sends C E sr er kp (clock i) (clock' i) (firstn k m1) l /\ delivered clock i l conns /\
    miner_does C E text p1 conns (printed (cw_miner w)) (nc_over w).
Proof. exact noise_pieces. Qed.
Print Assumptions C145_any_partial.
(** All of that happens, for all pieces: the first pieces of each message to arrive decide what is printed. *)
Theorem C145_every_partial : forall C E, crypto_ok C -> ed_ok E -> forall sr rsi rsr rnd1 rnd2 rnd3 kp text,
  keypair_ok sr -> len rnd1 = 32 -> len rnd2 = 32 -> forall pf clock clock', clock_ok clock clock' ->
  let si := mkKeypair rsi (c_pub C rsi) in
  let ei := mkKeypair rnd1 (c_pub C rnd1) in
  let er := mkKeypair rnd2 (c_pub C rnd2) in
  forall ns js ks p1 m1 m2 m3, WriteMessage C (Initialize C true [] si ei) NX1 (repeat (b8 0) 992) = Some (p1, m1) ->
  (1 <= list_sum ns)%nat -> (1 <= list_sum js)%nat -> (1 <= list_sum ks)%nat ->
  pool_answers C E sr er kp (clock (made_at ns)) (clock' (made_at ns)) (firstn (list_sum ns) m1) (Ok (m2, m3)) ->
  let w := nc_main C E pf rsi rnd1 rnd2 rnd3 rsr sr kp text clock clock' (to_answers ns ++ to_verdict js ks) in
  miner_does C E text p1 [(firstn (list_sum js) m2, clock (heard_at ns js)); (firstn (list_sum ks) m3, clock (read_at ns js ks))]
    (printed (cw_miner w)) (nc_over w).
Proof. exact noise_pieces_every. Qed.
Print Assumptions C145_every_partial.
(** Of the first message only the key is needed: the rest is zero, and so is the pool's buffer. *)
Theorem C145_key_partial : forall C E sr er kp t1 t2 e k r, len e = 32 -> (32 <= k)%nat ->
  (pool_answers C E sr er kp t1 t2 (firstn k (e ++ repeat (b8 0) 992)) r <-> pool_answers C E sr er kp t1 t2 (e ++ repeat (b8 0) 992) r).
Proof. exact key_enough. Qed.
Print Assumptions C145_key_partial.
(** So a verdict is printed when that key and all of both answers have arrived before they are read. *)
Theorem C145_whole_partial : forall C E, crypto_ok C -> ed_ok E -> forall sr rsi rsr rnd1 rnd2 rnd3 kp text,
  programs_ready C E sr rsi rnd1 rnd2 kp text -> forall pf clock clock', clock_ok clock clock' -> forall ns js ks,
  (32 <= list_sum ns)%nat -> (1024 <= list_sum js)%nat -> (1024 <= list_sum ks)%nat ->
  let w := nc_main C E pf rsi rnd1 rnd2 rnd3 rsr sr kp text clock clock' (to_answers ns ++ to_verdict js ks) in
  printed (cw_miner w) = [in_time (clock' (made_at ns)) (clock (read_at ns js ks))] /\ nc_over w = false.
Proof. exact noise_pieces_whole. Qed.
Print Assumptions C145_whole_partial.
(** Exactly when the miner is refused: it goes before the pool. *)
Theorem C145_refused_partial : forall C E, crypto_ok C -> forall sr rsi rsr rnd1 rnd2 rnd3 kp text,
  len rnd1 = 32 -> len rnd2 = 32 -> forall pf clock clock' es,
  let w := nc_main C E pf rsi rnd1 rnd2 rnd3 rsr sr kp text clock clock' es in
  (cw_miner w = NM_dead [] /\ cw_to_pool w = None) <-> exists es1 es2, es = es1 ++ MinerDoes :: es2 /\ ~ In PoolDoes es1.
Proof. exact noise_pieces_refused. Qed.
Print Assumptions C145_refused_partial.
(** If both tasks get turns for ever and bytes keep arriving, the miner panics, the pool panics or one verdict is printed. *)
Theorem C145_ends_partial : forall C E, crypto_ok C -> ed_ok E -> forall sr rsi rsr rnd1 rnd2 rnd3 kp text,
  keypair_ok sr -> len rnd1 = 32 -> len rnd2 = 32 -> forall pf clock clock', clock_ok clock clock' ->
  forall f, fair_happenings f -> exists n, let w := nc_main C E pf rsi rnd1 rnd2 rnd3 rsr sr kp text clock clock' (first_happenings f n) in
  nc_over w = true \/ cw_pool w = NP_dead \/ exists v, printed (cw_miner w) = [v].
Proof. exact noise_pieces_end. Qed.
Print Assumptions C145_ends_partial.

(** When the pool has less to send because a key turned out as zeros, it closes the connection and the miner hears that. *)
Theorem C145_less_partial : forall C E, crypto_ok C -> ed_ok E -> forall sr rsi rsr rnd1 rnd2 rnd3 kp text,
  keypair_ok sr -> len rnd1 = 32 -> len rnd2 = 32 -> forall pf clock clock', clock_ok clock clock' ->
  let si := mkKeypair rsi (c_pub C rsi) in
  let ei := mkKeypair rnd1 (c_pub C rnd1) in
  let er := mkKeypair rnd2 (c_pub C rnd2) in
  forall ns js ks p1 m1 b q rest p2 m2, WriteMessage C (Initialize C true [] si ei) NX1 (repeat (b8 0) 992) = Some (p1, m1) ->
  (1 <= list_sum ns)%nat -> (1 <= list_sum js)%nat -> (1 <= list_sum ks)%nat ->
  overlaid (repeat (b8 0) 1024) (firstn (list_sum ns) m1) b -> ~ low_order (firstn 32 b) ->
  ReadMessage C (Initialize C false [] sr er) NX1 b = Some (q, rest) -> WriteMessage C q NX2 (payload2 b) = Some (p2, m2) ->
  let w := nc_main C E pf rsi rnd1 rnd2 rnd3 rsr sr kp text clock clock' (to_answers ns ++ to_verdict js ks) in
  (In zeros32 (sy_keys (p_sym p2)) -> miner_does C E text p1 [([], clock (heard_at ns js))] (printed (cw_miner w)) (nc_over w)) /\
  (~ In zeros32 (sy_keys (p_sym p2)) -> snd (Split C (p_sym p2)) = zeros32 ->
   miner_does C E text p1 [(firstn (list_sum js) m2, clock (heard_at ns js)); ([], clock (read_at ns js ks))] (printed (cw_miner w)) (nc_over w)).
Proof. exact noise_pieces_less. Qed.
Print Assumptions C145_less_partial.
(** When what has arrived of the first message makes a key of low order, the pool panics, and the miner waits for ever. *)
Theorem C145_low_partial : forall C E, crypto_ok C -> ed_ok E -> forall sr rsi rsr rnd1 rnd2 rnd3 kp text,
  keypair_ok sr -> len rnd1 = 32 -> len rnd2 = 32 -> forall pf clock clock', clock_ok clock clock' ->
  let si := mkKeypair rsi (c_pub C rsi) in
  let ei := mkKeypair rnd1 (c_pub C rnd1) in
  forall ns p1 m1 b, WriteMessage C (Initialize C true [] si ei) NX1 (repeat (b8 0) 992) = Some (p1, m1) ->
  (1 <= list_sum ns)%nat -> overlaid (repeat (b8 0) 1024) (firstn (list_sum ns) m1) b -> low_order (firstn 32 b) ->
  forall r, let w := nc_main C E pf rsi rnd1 rnd2 rnd3 rsr sr kp text clock clock' (to_answers ns ++ r) in
  cw_pool w = NP_dead /\ printed (cw_miner w) = [] /\ nc_over w = false.
Proof. exact noise_pieces_low. Qed.
Print Assumptions C145_low_partial.
(** Until a byte has arrived the pool does not panic, however often it tries to read. *)
Theorem C145_waits_partial : forall C E, crypto_ok C -> forall sr rsi rsr rnd1 rnd2 rnd3 kp text,
  len rnd1 = 32 -> len rnd2 = 32 -> forall pf clock clock' es,
  cw_pool (nc_main C E pf rsi rnd1 rnd2 rnd3 rsr sr kp text clock clock' es) = NP_dead -> exists n, (1 <= n)%nat /\ In (PoolGets n) es.
Proof. exact noise_pieces_waits. Qed.
Print Assumptions C145_waits_partial.

(** If it has read something and goes on before the miner listens, it is refused and panics, and the miner waits for ever. *)
Theorem C145_early_partial : forall C E, crypto_ok C -> ed_ok E -> forall sr rsi rsr rnd1 rnd2 rnd3 kp text,
  keypair_ok sr -> len rnd1 = 32 -> len rnd2 = 32 -> forall pf clock clock', clock_ok clock clock' -> forall ns r, (1 <= list_sum ns)%nat ->
  let w := nc_main C E pf rsi rnd1 rnd2 rnd3 rsr sr kp text clock clock'
    (([PoolDoes; MinerDoes; MinerDoes; PoolDoes] ++ map PoolGets ns ++ [PoolDoes; PoolDoes]) ++ r) in
  cw_pool w = NP_dead /\ printed (cw_miner w) = [] /\ nc_over w = false.
Proof. intros. apply noise_pieces_early; assumption. Qed.
Print Assumptions C145_early_partial.

Example C145_ex : programs_ready demo_crypto (demo_ed true) d_sr k_si k_ei k_er d_kp d_text /\ clock_ok ticking ticking /\
  fair_happenings (around [PoolDoes; MinerDoes; MinerDoes]) /\
  (32 <= list_sum [7; 25])%nat /\ made_at [7; 25]%nat = 10%nat /\
  read_at [7; 25]%nat [1024]%nat [1024]%nat = 17%nat /\ in_time (ticking 10) (ticking 17) = false /\
  printed (cw_miner (nc_main demo_crypto (demo_ed true) Codec.Debug k_si k_ei k_er [] [] d_sr d_kp d_text ticking ticking
    (to_answers [7; 25]%nat ++ to_verdict [1024]%nat [1024]%nat))) = [false].
Proof.
  split; [exact noise_sample|]. split; [exact ticking_ok|]. split; [apply around_fair|]. split; [apply Nat.leb_le; reflexivity|].
  split; [reflexivity|]. split; [reflexivity|]. split; [reflexivity|].
  refine (proj1 (noise_pieces_whole demo_crypto (demo_ed true) demo_ok (demo_ed_ok true) d_sr k_si [] k_ei k_er [] d_kp d_text noise_sample Codec.Debug ticking ticking ticking_ok
    [7; 25]%nat [1024]%nat [1024]%nat _ _ _)); apply Nat.leb_le; reflexivity.
Qed.
(** One byte of the key 00 09 00 ... 00, which is not of low order, arrives ahead of the others. *)
Example C145_ex_low : ~ low_order (c_pub demo_crypto (to_le 32 256)) /\
  cw_pool (nc_main demo_crypto (demo_ed true) Codec.Debug k_si (to_le 32 256) k_er [] [] d_sr d_kp d_text ticking ticking (to_answers [1]%nat)) = NP_dead.
Proof.
  split; [intro H; vm_compute in H; repeat destruct H as [H|H]; try discriminate H; contradiction|].
  apply low_first; [exact demo_ok|exact (demo_ed_ok true)|split; reflexivity|reflexivity|reflexivity|exact ticking_ok|apply Nat.leb_le; reflexivity|].
  left. vm_compute. reflexivity.
Qed.
(** With a hash that is zero everywhere the pool closes the connection with nothing on it, and the miner panics. *)
Example C145_ex_less : crypto_ok zero_crypto /\
  cw_miner (nc_main zero_crypto (demo_ed true) Codec.Debug k_si k_ei k_er [] [] d_sr d_kp d_text ticking ticking (to_answers [1024]%nat ++ to_verdict [1]%nat [1]%nat)) = NM_dead [].
Proof.
  split; [exact zero_ok|]. pose proof zero_keys as H.
  destruct (ReadMessage zero_crypto (Initialize zero_crypto false [] d_sr d_er) NX1 zero_first) as [[q rest]|] eqn:RM; [|contradiction].
  destruct (WriteMessage zero_crypto q NX2 (payload2 zero_first)) as [[p2 m2]|] eqn:WM; [|contradiction].
  refine (less_none zero_crypto (demo_ed true) zero_ok (demo_ed_ok true) d_sr k_si [] k_ei k_er [] d_kp d_text _ eq_refl eq_refl Codec.Debug ticking ticking ticking_ok
    [1024]%nat [1]%nat [1]%nat zero_first q rest p2 m2 eq_refl _ _ _ (zero_overlaid _ _) zero_high RM WM H);
    [split; reflexivity|apply Nat.leb_le; reflexivity|apply Nat.leb_le; reflexivity|apply Nat.leb_le; reflexivity|apply Nat.leb_le; reflexivity].
Qed.
