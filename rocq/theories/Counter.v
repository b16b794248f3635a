(** * Counter: the message counter of a session as the u128 it is in the source. *)
From Verif Require Import Base Noise.
Open Scope N_scope.

Definition se_set_mc (s : session) (n : N) : session :=
  mkSession (se_hs s) (se_h s) (se_cs1 s) (se_cs2 s) n (se_i s) (se_transport s).

(** noisesession.rs:41, 164, 200: [self.mc += 1] on a u128 is the last thing a successful send_message or recv_message
    does; the other fields and the buffer have been written by then.  Noise.v adds without a bound.  Here a sum of
    2^128 panics in a build with overflow checks (debug; [mc] keeps its value) and is 0 in a build without (release). *)
Definition step_u128 (C : crypto) (checks : bool) (s : session) (c : call) : session * bytes * NResult unit :=
  let '(s', b, r) := step C s c in
  if se_mc s' <? 2 ^ 128 then (s', b, r)
  else if checks then (se_set_mc s' (2 ^ 128 - 1), b, Panic)
  else (se_set_mc s' 0, b, r).

(** The session after a history (a panicking call keeps the state it left behind). *)
Fixpoint run_u128 (C : crypto) (checks : bool) (s : session) (cs : list call) : session :=
  match cs with
  | [] => s
  | c :: cs' => run_u128 C checks (fst (fst (step_u128 C checks s c))) cs'
  end.
