(** * SpecCuts: requests and answers that arrive in pieces. *)
From Verif Require Import Base Codec Types Messages Frame SpecWire SpecTypes SpecPool SpecAnswer Mains Cuts.
Local Open Scope N_scope.
Local Open Scope list_scope.

(** C92: the first [i] bytes of the frame of a request are enough for an answer. *)
Definition enough (v : setup_connection) (i : N) : Prop :=
  6 + len (layout K_CommonSetupConnection (CSC_Mining v)) <= 1024 /\ firmware_at v < i /\
  utf8_text (remains (firmware_at v) i (sc_firmware v)) /\ utf8_text (remains (device_at v) i (sc_device_id v)).

(** The four kinds of events that bring something about. *)
Inductive kind := K_pool | K_miner | K_to_pool | K_to_miner.
Definition is_kind (k : kind) (e : event) : Prop :=
  match k, e with
  | K_pool, PoolGoes | K_miner, MinerGoes | K_to_pool, ToPool (S _) | K_to_miner, ToMiner (S _) => True
  | _, _ => False
  end.
(** No task and neither direction of the network is left waiting for ever. *)
Definition fair_events (f : nat -> event) : Prop := forall k n, exists j, (n <= j)%nat /\ is_kind k (f j).
Definition first_events (f : nat -> event) (n : nat) : list event := map f (seq 0 n).

(** All goes well until the pool reads what has arrived in the pieces [ns]; then the miner reads what has arrived in the
    pieces [js]. *)
Definition to_reading (ns : list nat) : list event :=
  [PoolGoes; MinerGoes; MinerGoes; MinerGoes; PoolGoes] ++ map ToPool ns ++ [PoolGoes].
Definition to_showing (js : list nat) : list event := [PoolGoes; PoolGoes] ++ map ToMiner js ++ [MinerGoes; MinerGoes].
(** How many turns the miner has had, and how many bytes have reached the pool since the second one, in which the miner
    sends its request. *)
Fixpoint miner_turns (es : list event) : nat :=
  match es with [] => 0 | MinerGoes :: r => S (miner_turns r) | _ :: r => miner_turns r end.
Fixpoint arrived_after (turns : nat) (es : list event) : nat :=
  match es with
  | [] => 0
  | MinerGoes :: r => arrived_after (pred turns) r
  | ToPool n :: r => (match turns with O => n | _ => 0 end) + arrived_after turns r
  | _ :: r => arrived_after turns r
  end.
