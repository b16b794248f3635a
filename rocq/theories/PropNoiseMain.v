(** * PropNoiseMain: C141, the two tasks of examples/noise_handshake.rs side by side. *)
From Coq Require Import ZArith.
From Verif Require Import Base Noise Certs SpecNoise SpecCerts SpecSession CertProofs NoiseSamples Mains SpecMains MainProofs NoiseMainProofs.
Local Open Scope N_scope.
Local Open Scope list_scope.

(** C141.  Full claim: whenever both tasks get turns for ever, the miner prints its verdict on the pool's certificate.
    It fails: the pool may not listen yet when the miner connects. *)
Theorem C141_refuted : exists C E pf rsi rnd1 rnd2 rnd3 rsr sr kp text clock clock' f, crypto_ok C /\ ed_ok E /\
  programs_ready C E sr rsi rnd1 rnd2 kp text /\ clock_ok clock clock' /\ fair f /\
  forall n, printed (nw_miner (nh_main C E pf rsi rnd1 rnd2 rnd3 rsr sr kp text clock clock' (start_of f n))) = [].
Proof. exact noise_refuted. Qed.
Print Assumptions C141_refuted.
(** With all keys and clocks both failures happen under some fair schedule: the miner panics, or the pool does and the
    miner waits for ever. *)
Theorem C141_always : forall C E, crypto_ok C -> ed_ok E -> forall sr rsi rsr rnd1 rnd2 rnd3 kp text,
  programs_ready C E sr rsi rnd1 rnd2 kp text -> forall pf clock clock', clock_ok clock clock' ->
  let main := nh_main C E pf rsi rnd1 rnd2 rnd3 rsr sr kp text clock clock' in
  exists f1 f2, fair f1 /\ fair f2 /\
  (exists k, forall n, (k <= n)%nat -> nw_miner (main (start_of f1 n)) = NM_dead []) /\
  (exists k, forall n, (k <= n)%nat ->
     let w := main (start_of f2 n) in nw_pool w = NP_dead /\ nh_over w = false /\ printed (nw_miner w) = []).
Proof. exact noise_fails. Qed.
Print Assumptions C141_always.

(** Exactly the fair schedules under which a verdict is printed: the same as for the other example. *)
Theorem C141_fair_partial : forall C E, crypto_ok C -> ed_ok E -> forall sr rsi rsr rnd1 rnd2 rnd3 kp text,
  programs_ready C E sr rsi rnd1 rnd2 kp text -> forall pf clock clock', clock_ok clock clock' -> forall f, fair f ->
  ((exists n, printed (nw_miner (nh_main C E pf rsi rnd1 rnd2 rnd3 rsr sr kp text clock clock' (start_of f n))) <> []) <->
   (exists c0 c1 c2 n, start_of f n = opening c0 c1 c2 /\ (pool_ahead c1 c2 < 3)%nat)).
Proof. exact noise_fair. Qed.
Print Assumptions C141_fair_partial.
(** Every schedule, fair or not: at most one verdict is printed, and it says whether the certificate is still valid in the
    turn in which it is read. *)
Theorem C141_verdict_partial : forall C E, crypto_ok C -> ed_ok E -> forall sr rsi rsr rnd1 rnd2 rnd3 kp text,
  programs_ready C E sr rsi rnd1 rnd2 kp text -> forall pf clock clock', clock_ok clock clock' -> forall r,
  (exists c0 c1 c2 r', r = opening c0 c1 c2 ++ r' /\ (pool_ahead c1 c2 < 3)%nat /\
    let a := progress c0 c1 c2 r' in pa_miner a = 4%nat /\
    printed (nw_miner (nh_main C E pf rsi rnd1 rnd2 rnd3 rsr sr kp text clock clock' r)) =
      [in_time (clock' (pa_issued a)) (clock (pa_checked a))]) \/
  printed (nw_miner (nh_main C E pf rsi rnd1 rnd2 rnd3 rsr sr kp text clock clock' r)) = [].
Proof. exact noise_any. Qed.
Print Assumptions C141_verdict_partial.
(** The same by kinds of schedules: refused at once; *)
Theorem C141_refused_partial : forall C E sr rsi rsr rnd1 rnd2 rnd3 kp text pf clock clock' r,
  nw_miner (nh_main C E pf rsi rnd1 rnd2 rnd3 rsr sr kp text clock clock' (MinerTurn :: r)) = NM_dead [].
Proof. exact noise_refused. Qed.
Print Assumptions C141_refused_partial.
(** the pool connects back too early; *)
Theorem C141_late_partial : forall C E, crypto_ok C -> ed_ok E -> forall sr rsi rsr rnd1 rnd2 rnd3 kp text,
  programs_ready C E sr rsi rnd1 rnd2 kp text -> forall pf clock clock', clock_ok clock clock' ->
  forall c0 c1 c2 r, (3 <= pool_ahead c1 c2)%nat ->
  let w := nh_main C E pf rsi rnd1 rnd2 rnd3 rsr sr kp text clock clock'
             (repeat PoolTurn (S c0) ++ MinerTurn :: repeat PoolTurn c1 ++ MinerTurn :: repeat PoolTurn c2 ++ r) in
  nw_pool w = NP_dead /\ nh_over w = false /\ printed (nw_miner w) = [].
Proof. exact noise_late. Qed.
Print Assumptions C141_late_partial.
(** otherwise nobody panics, and pool and miner are exactly as far as the turns allow. *)
Theorem C141_good_partial : forall C E, crypto_ok C -> ed_ok E -> forall sr rsi rsr rnd1 rnd2 rnd3 kp text,
  programs_ready C E sr rsi rnd1 rnd2 kp text -> forall pf clock clock', clock_ok clock clock' ->
  forall c0 c1 c2 r, (pool_ahead c1 c2 < 3)%nat ->
  let w := nh_main C E pf rsi rnd1 rnd2 rnd3 rsr sr kp text clock clock' (opening c0 c1 c2 ++ r) in
  let a := progress c0 c1 c2 r in
  nh_over w = false /\ nw_pool w <> NP_dead /\ (nw_pool w = NP_done <-> pa_pool a = 6%nat) /\
  printed (nw_miner w) = if Nat.eqb (pa_miner a) 4 then [in_time (clock' (pa_issued a)) (clock (pa_checked a))] else [].
Proof. exact noise_good. Qed.
Print Assumptions C141_good_partial.
(** The certificate is made before it is checked, both after the miner listens. *)
Theorem C141_order : forall r c0 c1 c2, (pool_ahead c1 c2 < 3)%nat -> let a := progress c0 c1 c2 r in
  pa_now a = length (opening c0 c1 c2 ++ r) /\
  (pa_miner a = 4%nat -> (length (opening c0 c1 c2) <= pa_issued a < pa_checked a /\ pa_checked a < pa_now a)%nat).
Proof. exact pace_order. Qed.
Print Assumptions C141_order.

Example C141_ex : programs_ready demo_crypto (demo_ed true) d_sr k_si k_ei k_er d_kp d_text /\ clock_ok ticking ticking /\
  fair (alternating [MinerTurn]) /\ (pool_ahead 2 1 < 3 <= pool_ahead 2 2)%nat /\
  (let a := progress 0 2 1 (repeat PoolTurn 4 ++ repeat MinerTurn 4) in pa_miner a = 4%nat /\ pa_issued a = 9%nat /\ pa_checked a = 14%nat /\
     in_time (ticking (pa_issued a)) (ticking (pa_checked a)) = false) /\
  (let a := progress 0 2 1 ([PoolTurn; PoolTurn; MinerTurn; MinerTurn; PoolTurn; PoolTurn; MinerTurn; MinerTurn]) in
     in_time (ticking (pa_issued a)) (ticking (pa_checked a)) = true).
Proof.
  split; [exact noise_sample|]. split; [exact ticking_ok|]. split; [apply alternating_fair|]. split; [split; repeat constructor|].
  split; [split; [reflexivity|]; split; [reflexivity|]; split; reflexivity|reflexivity].
Qed.
