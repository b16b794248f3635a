(** * SpecNetwork: vocabulary for statements about encryptors and the message queue of a peer. *)
From Coq Require Import ZArith.
From Verif Require Import Base Codec Types Messages Frame Noise SpecNoise SpecSession Network.
Open Scope N_scope.

(** The two transport keys the Noise specification derives in the responder's run on [msg1] when it
    answers with [payload]. *)
Definition nx_transport_keys (C : crypto) (prologue : bytes) (sr er : keypair) (msg1 payload : bytes) : list bytes :=
  match ReadMessage C (Initialize C false prologue sr er) NX1 msg1 with
  | Some (p1, _) =>
      match WriteMessage C p1 NX2 payload with
      | Some (p2, _) => [fst (Split C (p_sym p2)); snd (Split C (p_sym p2))]
      | None => []
      end
  | None => []
  end.

(** ** Events of a run *)
Definition pushed (evs : list peer_event) : list message :=
  flat_map (fun e => match e with Pushed _ m => [m] | Drained _ _ => [] end) evs.
Definition drained (evs : list peer_event) : list (list message) :=
  flat_map (fun e => match e with Pushed _ _ => [] | Drained _ ms => [ms] end) evs.
Definition by_thread (t : nat) (evs : list peer_event) : list peer_event :=
  filter (fun e => match e with Pushed u _ => Nat.eqb t u | Drained u _ => Nat.eqb t u end) evs.
Definition operation (e : peer_event) : peer_op :=
  match e with Pushed _ m => Push m | Drained _ _ => GetPending end.

(** ** Threads *)
Definition program_pushes (ops : list peer_op) : list message :=
  flat_map (fun o => match o with Push m => [m] | _ => [] end) ops.
(** The operations whose work is still to be done. *)
Definition outstanding (th : thread) : list peer_op :=
  match th_at th with Worked _ | Leaving _ => tl (th_todo th) | _ => th_todo th end.
(** The result of a get_pending_msgs call that has drained the queue but not returned yet. *)
Definition in_flight (th : thread) : list (list message) :=
  match th_at th, th_todo th with
  | Worked l, GetPending :: _ | Leaving l, GetPending :: _ => [l]
  | _, _ => []
  end.
Definition finished (th : thread) : Prop := th_todo th = [] /\ th_at th = Idle.
Definition in_section (th : thread) : Prop :=
  match th_at th with Entered _ | Worked _ => True | _ => False end.

(** ** Time: whole seconds of a clock reading in nanoseconds, as a u32 *)
Definition secs32 (t : Z) : N := Z.to_N (t / 10 ^ 9) mod 2 ^ 32.
