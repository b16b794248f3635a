(** * SpecChannels: ids drawn one after another, independent of the model. *)
Require Import NArith List.
Import ListNotations.
Local Open Scope N_scope.

(** The draws that give an id: all but the ones equal to 1. *)
Definition used (draws : list N) : list N := filter (fun v => negb (v =? 1)) draws.
(** The id a draw gives. *)
Definition id_of (v : N) : N := v - 1.
(** What [n] ids can be drawn from: [n] words of 32 bits, none of them 1. *)
Definition words (n : nat) (draws : list N) : Prop :=
  length draws = n /\ Forall (fun v => v < 2 ^ 32 /\ v <> 1) draws.
(** [m * (m - 1) * ... * (m - n + 1)]. *)
Fixpoint falling (m : N) (n : nat) : N :=
  match n with O => 1 | S n' => falling m n' * (m - N.of_nat n') end.
(** [k] is the number of lists with [Q]. *)
Definition counted (Q : list N -> Prop) (k : N) : Prop :=
  exists L, NoDup L /\ (forall l, In l L <-> Q l) /\ N.of_nat (length L) = k.
