(** * PropLive: C107, the queue of a peer under fair schedules. *)
From Coq Require Import Arith Lia.
From Verif Require Import Base Codec Types Messages Frame Noise Network SpecNetwork SpecLive PeerProofs LiveProofs.
Open Scope nat_scope.

(** C107.  However the threads are scheduled, they make at most four moves per operation. *)
Theorem C107_few_moves : forall progs sched, moves (peer_new progs) sched <= 4 * length (concat progs).
Proof. exact few_moves. Qed.
Print Assumptions C107_few_moves.
(** After as many rounds, each of them giving every thread a turn, all have ended. *)
Theorem C107_rounds : forall progs rounds q evs, Forall (full_round (length progs)) rounds ->
  4 * length (concat progs) <= length rounds -> peer_run (peer_new progs) (concat rounds) = (q, evs) ->
  Forall ended (pe_threads q).
Proof. exact rounds_finish. Qed.
Print Assumptions C107_rounds.
(** Under an unending fair schedule all threads end, from then on nothing changes; and without a thread that
    panics they end by finishing. *)
Theorem C107_fair : forall progs f, fair (length progs) f ->
  exists k q evs, Forall ended (pe_threads q) /\ forall k', k <= k' -> peer_run (peer_new progs) (upto f k') = (q, evs).
Proof. exact fair_finish. Qed.
Print Assumptions C107_fair.
Theorem C107_fair_finished : forall progs f, fair (length progs) f -> Forall (fun prog => ~ In Crash prog) progs ->
  exists k q evs, Forall finished (pe_threads q) /\ forall k', k <= k' -> peer_run (peer_new progs) (upto f k') = (q, evs).
Proof. exact fair_all. Qed.
Print Assumptions C107_fair_finished.

(** Three threads take turns; the reader is blocked in some of them. *)
Example C107_ex :
  let m n := mkMessage MT_SetupConnection [b8 n] in
  let progs := [[Push (m 1%N); Push (m 2%N)]; [Push (m 3%N)]; [GetPending; GetPending]] in
  fair (length progs) (fun k => k mod 3) /\ Forall (fun prog => ~ In Crash prog) progs /\
  let rounds := repeat [0; 1; 2] 20 in
  Forall (full_round (length progs)) rounds /\ 4 * length (concat progs) <= length rounds /\
  moves (peer_new progs) (concat rounds) = 20 /\
  map th_got (pe_threads (fst (peer_run (peer_new progs) (concat rounds)))) = [[]; []; [[m 1%N; m 3%N]; [m 2%N]]].
Proof.
  cbv zeta. split; [|split; [|split; [|split; [|split]]]].
  - intros t k T. cbn in T. exists (3 * k + t). split; [lia|]. rewrite Nat.add_comm, Nat.mul_comm, Nat.mod_add by lia.
    apply Nat.mod_small. exact T.
  - repeat constructor; cbn; intuition discriminate.
  - apply Forall_forall. intros r R. apply repeat_spec in R. subst r. intros t T. cbn in T.
    destruct t as [|[|[|t]]]; [left|right; left|right; right; left|lia]; reflexivity.
  - cbn. lia.
  - vm_compute. reflexivity.
  - vm_compute. reflexivity.
Qed.
