(** * SpecCounter: words used to state C131. *)
From Verif Require Import Base Noise SpecSession Counter.
Open Scope N_scope.

Definition is_clear (c : call) : bool := match c with ClearLocal | ClearRemote => true | _ => false end.
(** How many calls of a history clear a cipher state. *)
Definition clears (cs : list call) : N := len (filter is_clear cs).

(** The buffers and results of a history, with a counter of 128 bits. *)
Fixpoint results_u128 (C : crypto) (checks : bool) (s : session) (cs : list call) : list (bytes * NResult unit) :=
  match cs with
  | [] => []
  | c :: cs' =>
      let x := step_u128 C checks s c in
      (out x, res x) :: results_u128 C checks (st x) cs'
  end.

Definition counted (c : call) : Prop := match c with Send _ _ | Recv _ => True | _ => False end.
