(** * PropCuts: C142, the setup example over a network that cuts what is sent into pieces. *)
From Verif Require Import Base Codec Types Messages Frame SpecWire SpecTypes SpecPool SpecAnswer Apps Samples Mains MainProofs Cuts SpecCuts CutRunProofs.
Local Open Scope N_scope.
Local Open Scope list_scope.

(** C142.  Full claim: however what is sent is cut into pieces on the way, a miner that ends has shown the flags of the
    pool's answer.  It fails: when the last four bytes of the answer arrive late, the miner shows no flags. *)
Theorem C142_refuted : exists pf flags v f, constructed K_CommonSetupConnection (CSC_Mining v) /\ flags_ok MiningSuccessFlags flags /\
  6 + len (layout K_CommonSetupConnection (CSC_Mining v)) <= 1024 /\ fair_events f /\ flags_line flags <> flags_line 0 /\
  exists k, forall n, (k <= n)%nat -> pw_miner (pc_main pf flags (CSC_Mining v) (first_events f n)) = SM_done ([received_line; flags_line 0], false).
Proof. exact pieces_refuted. Qed.
Print Assumptions C142_refuted.

(** Whatever happens in whatever order, the miner shows only what a part of the answer to a long enough part of the request
    shows. *)
Theorem C142_shown_partial : forall pf flags v, constructed K_CommonSetupConnection (CSC_Mining v) -> flags_ok MiningSuccessFlags flags ->
  forall es s, pw_miner (pc_main pf flags (CSC_Mining v) es) = SM_done s ->
  (exists i, 1 <= i <= 6 + len (layout K_CommonSetupConnection (CSC_Mining v)) /\ enough v i) /\
  exists j, 1 <= j <= 12 /\ s = cut_shows j flags.
Proof. exact piece_shown. Qed.
Print Assumptions C142_shown_partial.
(** All of that happens, for all pieces: once the miner listens, the first pieces of the request to arrive decide whether
    the pool answers, and those of the answer what is shown. *)
Theorem C142_every_partial : forall pf flags v, constructed K_CommonSetupConnection (CSC_Mining v) -> flags_ok MiningSuccessFlags flags ->
  forall ns js r, (1 <= list_sum ns)%nat -> (1 <= list_sum js)%nat ->
  let i := N.min (N.of_nat (list_sum ns)) (6 + len (layout K_CommonSetupConnection (CSC_Mining v))) in
  (enough v i -> pw_miner (pc_main pf flags (CSC_Mining v) (to_reading ns ++ to_showing js)) =
                 SM_done (cut_shows (N.of_nat (list_sum js)) flags)) /\
  (~ enough v i -> pw_pool (pc_main pf flags (CSC_Mining v) (to_reading ns ++ PoolGoes :: r)) = SP_dead).
Proof. exact piece_runs. Qed.
Print Assumptions C142_every_partial.
(** The pool reads once, and what it reads is what has arrived by then of what the miner sends in its second turn. *)
Theorem C142_read_partial : forall pf flags v, constructed K_CommonSetupConnection (CSC_Mining v) -> flags_ok MiningSuccessFlags flags ->
  forall es bs x, sc_miner_send (CSC_Mining v) = Ok bs -> pw_pool (pc_main pf flags (CSC_Mining v) es) = SP_read x ->
  exists es1 es2, es = es1 ++ PoolGoes :: es2 /\ (1 <= arrived_after 2 es1)%nat /\ x = firstn (arrived_after 2 es1) bs.
Proof. exact piece_read. Qed.
Print Assumptions C142_read_partial.
(** Exactly when the pool panics: it goes on with too short a part, or before the third turn of the miner, in which that
    begins to listen.  The miner then waits for ever. *)
Theorem C142_dead_partial : forall pf flags v, constructed K_CommonSetupConnection (CSC_Mining v) -> flags_ok MiningSuccessFlags flags ->
  forall es, let main := pc_main pf flags (CSC_Mining v) in
  (pw_pool (main es) = SP_dead <->
   exists es1 es2 bs i, es = es1 ++ PoolGoes :: es2 /\ sc_miner_send (CSC_Mining v) = Ok bs /\
     1 <= i <= 6 + len (layout K_CommonSetupConnection (CSC_Mining v)) /\
     pw_pool (main es1) = SP_read (firstn (N.to_nat i) bs) /\ (~ enough v i \/ (miner_turns es1 < 3)%nat)) /\
  (pw_pool (main es) = SP_dead -> pc_over (main es) = false).
Proof. exact piece_dead. Qed.
Print Assumptions C142_dead_partial.
(** Exactly when the miner is refused: it goes before the pool. *)
Theorem C142_refused_partial : forall pf flags v, constructed K_CommonSetupConnection (CSC_Mining v) -> flags_ok MiningSuccessFlags flags ->
  forall es, pw_miner (pc_main pf flags (CSC_Mining v) es) = SM_dead <->
  exists es1 es2, es = es1 ++ MinerGoes :: es2 /\ ~ In PoolGoes es1.
Proof. exact piece_refused. Qed.
Print Assumptions C142_refused_partial.
(** If both tasks get turns for ever and bytes keep arriving in both directions, one of these ends is reached. *)
Theorem C142_ends_partial : forall pf flags v, constructed K_CommonSetupConnection (CSC_Mining v) -> flags_ok MiningSuccessFlags flags ->
  forall f, fair_events f -> exists n, let w := pc_main pf flags (CSC_Mining v) (first_events f n) in
  pw_miner w = SM_dead \/ pw_pool w = SP_dead \/ exists j, 1 <= j <= 12 /\ pw_miner w = SM_done (cut_shows j flags).
Proof. exact piece_ends. Qed.
Print Assumptions C142_ends_partial.

Example C142_ex : constructed K_CommonSetupConnection (CSC_Mining sample_sc) /\ flags_ok MiningSuccessFlags REQUIRES_FIXED_VERSION /\
  fair_events (round [PoolGoes; MinerGoes]) /\ enough sample_sc (firmware_at sample_sc + 1) /\ ~ enough sample_sc (firmware_at sample_sc) /\
  pw_miner (pc_main Debug REQUIRES_FIXED_VERSION (CSC_Mining sample_sc)
    (to_reading [9; 40]%nat ++ to_showing [3; 6]%nat)) = SM_done ([received_line; flags_line 1], false) /\
  pw_miner (pc_main Debug REQUIRES_FIXED_VERSION (CSC_Mining sample_sc)
    (to_reading [9; 40]%nat ++ to_showing [2; 1]%nat)) = SM_done ([received_line], true).
Proof.
  destruct sample_facts as (A & B & D). split; [exact A|]. split; [exact B|]. split; [apply round_fair|]. split; [exact sample_enough_1|].
  split; [intros (_ & X & _); exact (N.lt_irrefl _ X)|]. vm_compute. split; reflexivity.
Qed.
