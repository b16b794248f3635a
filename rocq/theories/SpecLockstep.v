(** * SpecLockstep: attempts at the second message, each of which is delivered as it is. *)
From Verif Require Import Base Noise SpecNoise SpecSession.
Open Scope N_scope.
Open Scope list_scope.

Section Lockstep.
Variable C : crypto.

(** One attempt: the buffer, what sending returned, the buffer received, what receiving returned. *)
Record attempt := mkAttempt { a_buffer : bytes; a_sent : NResult unit; a_left : bytes; a_received : NResult unit }.

(** The responder [R] tries to send with the buffers [bs], one after another, up to the first success; whatever
    is in the buffer afterwards is given to the initiator [I]. *)
Fixpoint attempts (rnd : bytes) (R I : session) (bs : list bytes) : list attempt * session * session :=
  match bs with
  | [] => ([], R, I)
  | b :: bs' =>
      let x := send_message C rnd R b in
      let y := recv_message C I (out x) in
      let a := mkAttempt b (res x) (out y) (res y) in
      match res x with
      | Ok _ => ([a], st x, st y)
      | _ => let '(l, R', I') := attempts rnd (st x) (st y) bs' in (a :: l, R', I')
      end
  end.
End Lockstep.

(** Sizes of buffers with which both sides stop at the same place: none of the message; the public key only; all
    of it.  Between 32 and 47 bytes the responder mixes its public key and the initiator does not read it;
    between 80 and 95 bytes, and above 2128, the initiator panics. *)
Definition in_step (b : bytes) : Prop :=
  len b < 32 \/ 48 <= len b < 80 \/ 96 <= len b <= 2128 \/ 65535 < len b.

(** An attempt has the same success on both sides, no panic, and fails only for lack of room or an all-zero key. *)
Definition same_success (a : attempt) : Prop :=
  (a_sent a = Ok tt /\ a_received a = Ok tt /\ payload2 (a_left a) = payload2 (a_buffer a)) \/
  (exists e e', a_sent a = Err e /\ a_received a = Err e' /\
     (96 <= len (a_buffer a) <= 2128 -> e = EmptyKeyError /\ e' = EmptyKeyError)).
