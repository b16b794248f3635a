(** * SpecLive: schedules that keep picking every thread. *)
From Verif Require Import Base Codec Types Messages Frame Noise Network SpecNetwork.
Open Scope nat_scope.

(** [n] threads, each picked in every round, in any order and any number of times. *)
Definition full_round (n : nat) (r : list nat) : Prop := forall t, t < n -> In t r.
(** An unending schedule that never forgets one of [n] threads. *)
Definition fair (n : nat) (f : nat -> nat) : Prop := forall t k, t < n -> exists m, k <= m /\ f m = t.
(** The first [k] choices of a schedule. *)
Definition upto (f : nat -> nat) (k : nat) : list nat := map f (seq 0 k).
Definition ended (th : thread) : Prop := finished th \/ th_at th = Dead.
(** Effective steps of a schedule: those that find a thread able to move. *)
Fixpoint moves (p : peer) (sched : list nat) : nat :=
  match sched with
  | [] => 0
  | t :: sched' => match peer_step p t with None => moves p sched' | Some (p', _) => S (moves p' sched') end
  end.
