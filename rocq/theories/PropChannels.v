(** * PropChannels: C139, channel ids drawn one after another. *)
From Verif Require Import Base Network Channels SpecChannels ChannelProofs.
Local Open Scope N_scope.

(** C139.  Full claim: the ids given to the channels of a connection are all different.  It fails: [new_channel_id] does
    not know the ids in use. *)
Theorem C139_refuted : exists n draws ids,
  Forall (fun v => v < 2 ^ 32) draws /\ channel_ids n draws = Ok (Some ids) /\ ~ NoDup ids.
Proof. exact twice. Qed.
Print Assumptions C139_refuted.
(** After any calls, each of the ids given can come again at the next one. *)
Theorem C139_again : forall n draws ids id, Forall (fun v => v < 2 ^ 32) draws ->
  channel_ids n draws = Ok (Some ids) -> In id ids ->
  exists v, v < 2 ^ 32 /\ channel_ids (S n) (firstn n (used draws) ++ [v]) = Ok (Some (ids ++ [id])).
Proof. exact again. Qed.
Print Assumptions C139_again.
(** With [2 ^ 32] calls or more it must happen, although there are [2 ^ 32] values of the type. *)
Theorem C139_too_many : forall n draws ids, Forall (fun v => v < 2 ^ 32) draws ->
  channel_ids n draws = Ok (Some ids) -> 2 ^ 32 - 1 < N.of_nat n -> ~ NoDup ids.
Proof. exact too_many. Qed.
Print Assumptions C139_too_many.

(** The ids of any number of calls, from any draws. *)
Theorem C139_ids : forall draws, Forall (fun v => v < 2 ^ 32) draws -> forall n,
  channel_ids n draws = Ok (if Nat.leb n (length (used draws)) then Some (map id_of (firstn n (used draws))) else None).
Proof. exact ids_exact. Qed.
Print Assumptions C139_ids.
(** One call is [new_channel_id]. *)
Theorem C139_one : forall draws, new_channel_id draws =
  match channel_ids 1 draws with Ok (Some [id]) => Ok (Some id) | Ok _ => Ok None | Err e => Err e | Panic => Panic end.
Proof. exact one_id. Qed.
Print Assumptions C139_one.
(** They differ exactly if the draws used do. *)
Theorem C139_exactly_partial : forall n draws ids, Forall (fun v => v < 2 ^ 32) draws ->
  channel_ids n draws = Ok (Some ids) -> (NoDup ids <-> NoDup (firstn n (used draws))).
Proof. exact differ_exactly. Qed.
Print Assumptions C139_exactly_partial.
(** How often: of all lists of [n] draws that give [n] ids without drawing again, the number that give different ones. *)
Theorem C139_count_partial : forall n,
  counted (words n) ((2 ^ 32 - 1) ^ N.of_nat n) /\
  counted (fun draws => words n draws /\ exists ids, channel_ids n draws = Ok (Some ids) /\ NoDup ids) (falling (2 ^ 32 - 1) n).
Proof. exact ids_counted. Qed.
Print Assumptions C139_count_partial.
(** The others give an id twice; they are at most [n * (n - 1) / 2] in [2 ^ 32 - 1]. *)
Theorem C139_rare_partial : forall n,
  let all := (2 ^ 32 - 1) ^ N.of_nat n in
  let bad := all - falling (2 ^ 32 - 1) n in
  counted (fun draws => words n draws /\ exists ids, channel_ids n draws = Ok (Some ids) /\ ~ NoDup ids) bad /\
  2 * (2 ^ 32 - 1) * bad <= N.of_nat n * (N.of_nat n - 1) * all.
Proof. exact ids_rare. Qed.
Print Assumptions C139_rare_partial.

Example C139_ex : channel_ids 3 [7; 1; 0; 1; 7; 9] = Ok (Some [6; 0; 6]) /\ channel_ids 3 [7; 1; 0; 1] = Ok None /\
  words 2 [7; 0] /\ falling (2 ^ 32 - 1) 2 = (2 ^ 32 - 1) * (2 ^ 32 - 2).
Proof. repeat split; repeat constructor; discriminate. Qed.
