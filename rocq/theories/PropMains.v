(** * PropMains: C140, the two tasks of examples/setup_connection.rs side by side. *)
From Verif Require Import Base Codec Types Messages Frame SpecWire SpecTypes SpecAnswer Apps Samples Mains SpecMains MainProofs.
Local Open Scope N_scope.
Local Open Scope list_scope.

(** C140.  Full claim: whenever both tasks get turns for ever, the miner shows the flags of the pool's answer.  It fails:
    the pool may not listen yet when the miner connects. *)
Theorem C140_refuted : exists pf flags v f, constructed K_CommonSetupConnection (CSC_Mining v) /\ flags_ok MiningSuccessFlags flags /\
  6 + len (layout K_CommonSetupConnection (CSC_Mining v)) <= 1024 /\ fair f /\
  forall n s, sw_miner (sc_main pf flags (CSC_Mining v) (start_of f n)) <> SM_done s.
Proof. exact main_refuted. Qed.
Print Assumptions C140_refuted.
(** Every request meets both failures under some fair schedule: the miner panics, or the pool does and the miner waits
    for ever. *)
Theorem C140_always : forall pf flags v, constructed K_CommonSetupConnection (CSC_Mining v) -> flags_ok MiningSuccessFlags flags ->
  6 + len (layout K_CommonSetupConnection (CSC_Mining v)) <= 1024 ->
  let main := sc_main pf flags (CSC_Mining v) in
  exists f1 f2, fair f1 /\ fair f2 /\
  (exists k, forall n, (k <= n)%nat -> sw_miner (main (start_of f1 n)) = SM_dead) /\
  (exists k, forall n, (k <= n)%nat -> sw_pool (main (start_of f2 n)) = SP_dead /\ sc_over (main (start_of f2 n)) = false).
Proof. exact main_fails. Qed.
Print Assumptions C140_always.

(** Exactly the schedules under which it works. *)
Theorem C140_fair_partial : forall pf flags v, constructed K_CommonSetupConnection (CSC_Mining v) -> flags_ok MiningSuccessFlags flags ->
  6 + len (layout K_CommonSetupConnection (CSC_Mining v)) <= 1024 -> forall f, fair f ->
  ((exists n, sw_miner (sc_main pf flags (CSC_Mining v) (start_of f n)) = SM_done ([received_line; flags_line flags], false)) <->
   (exists c0 c1 c2 n, start_of f n = opening c0 c1 c2 /\ (pool_ahead c1 c2 < 3)%nat)).
Proof. exact main_fair. Qed.
Print Assumptions C140_fair_partial.
(** The same for schedules with an end, fair or not: refused at once; *)
Theorem C140_refused_partial : forall pf flags v r, sw_miner (sc_main pf flags (CSC_Mining v) (MinerTurn :: r)) = SM_dead.
Proof. exact main_refused. Qed.
Print Assumptions C140_refused_partial.
(** the pool connects back too early; *)
Theorem C140_late_partial : forall pf flags v, constructed K_CommonSetupConnection (CSC_Mining v) -> flags_ok MiningSuccessFlags flags ->
  6 + len (layout K_CommonSetupConnection (CSC_Mining v)) <= 1024 -> forall c0 c1 c2 r, (3 <= pool_ahead c1 c2)%nat ->
  let w := sc_main pf flags (CSC_Mining v)
             (repeat PoolTurn (S c0) ++ MinerTurn :: repeat PoolTurn c1 ++ MinerTurn :: repeat PoolTurn c2 ++ r) in
  sw_pool w = SP_dead /\ sc_over w = false.
Proof. exact main_late. Qed.
Print Assumptions C140_late_partial.
(** otherwise nobody panics and it ends as soon as these turns have come. *)
Theorem C140_good_partial : forall pf flags v, constructed K_CommonSetupConnection (CSC_Mining v) -> flags_ok MiningSuccessFlags flags ->
  6 + len (layout K_CommonSetupConnection (CSC_Mining v)) <= 1024 -> forall c0 c1 c2 r, (pool_ahead c1 c2 < 3)%nat ->
  let w := sc_main pf flags (CSC_Mining v) (opening c0 c1 c2 ++ r) in
  let x := pool_ahead c1 c2 in
  sw_pool w <> SP_dead /\ sw_miner w <> SM_dead /\
  (forall s, sw_miner w = SM_done s -> s = ([received_line; flags_line flags], false)) /\
  (sw_miner w = SM_done ([received_line; flags_line flags], false) <->
   in_order (repeat PoolTurn (3 - x) ++ [MinerTurn; PoolTurn; MinerTurn]) r \/
   in_order (repeat PoolTurn (4 - x) ++ [MinerTurn; MinerTurn]) r).
Proof. exact main_good. Qed.
Print Assumptions C140_good_partial.
(** A request that the pool does not answer (C67, C91): the miner waits for ever, under all schedules that begin with the
    pool; the pool does not connect to it, and panics only if handling the request does. *)
Theorem C140_unanswered_partial : forall pf flags m bs, sc_miner_send m = Ok bs ->
  (forall reply, sc_pool_recv pf flags (read_1024 bs) <> Ok (Some reply)) ->
  forall r, let w := sc_main pf flags m (PoolTurn :: r) in sc_over w = false /\ sw_to_miner w = None /\
  (sc_pool_recv pf flags (read_1024 bs) = Ok None -> sw_pool w <> SP_dead) /\
  (sc_pool_recv pf flags (read_1024 bs) <> Ok None -> sw_pool w <> SP_done).
Proof. exact main_other. Qed.
Print Assumptions C140_unanswered_partial.

Example C140_ex : constructed K_CommonSetupConnection (CSC_Mining sample_sc) /\ flags_ok MiningSuccessFlags REQUIRES_FIXED_VERSION /\
  6 + len (layout K_CommonSetupConnection (CSC_Mining sample_sc)) <= 1024 /\
  (pool_ahead 2 1 < 3 <= pool_ahead 2 2)%nat /\ fair (alternating [MinerTurn; PoolTurn]) /\
  sw_miner (sc_main Debug REQUIRES_FIXED_VERSION (CSC_Mining sample_sc)
    (opening 0 2 1 ++ [PoolTurn; MinerTurn; PoolTurn; MinerTurn])) = SM_done ([received_line; flags_line 1], false).
Proof.
  destruct sample_facts as (A & B & D). split; [exact A|]. split; [exact B|]. split; [exact D|]. split; [split; repeat constructor|].
  split; [apply alternating_fair|]. vm_compute. reflexivity.
Qed.
