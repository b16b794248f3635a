(** * SpecTransport: the calls on an established session, in terms of two keys and two counters. *)
From Coq Require Import List.
From Verif Require Import Base Noise SpecNoise SpecSession.
Open Scope N_scope.

(** Key and number of messages so far: towards the responder, towards the initiator. *)
Record channel := mkCh { to_r : bytes * N; to_i : bytes * N }.
Definition sending (i : bool) (c : channel) : bytes * N := if i then to_r c else to_i c.
Definition receiving (i : bool) (c : channel) : bytes * N := if i then to_i c else to_r c.
Definition channel_of (s : session) : channel :=
  mkCh (cs_k (se_cs1 s), cs_n (se_cs1 s)) (cs_k (se_cs2 s), cs_n (se_cs2 s)).

Section Transport.
Variable C : crypto.
Variable i : bool. (* is this the initiator? *)

(** [served c call c' b r]: on channel [c] the call leaves [c'], the buffer [b] and returns [r]. *)
Inductive served (c : channel) : call -> channel -> bytes -> NResult unit -> Prop :=
| sv_send_size : forall rnd b, len b < 16 \/ 65535 < len b ->
    served c (Send rnd b) c b (Err UnsupportedMessageLengthError)
| sv_send_end : forall rnd b k, 16 <= len b <= 65535 -> sending i c = (k, 2 ^ 64 - 1) ->
    served c (Send rnd b) c b (Err ExhaustedNonceError)
| sv_send_empty : forall rnd b n, 16 <= len b <= 65535 -> sending i c = (zeros32, n) -> n < 2 ^ 64 - 1 ->
    served c (Send rnd b) c b (Err EmptyKeyError)
| sv_send : forall rnd pt room k n c', 16 <= len (pt ++ room) <= 65535 -> len room = 16 ->
    sending i c = (k, n) -> n < 2 ^ 64 - 1 -> k <> zeros32 ->
    sending i c' = (k, n + 1) -> receiving i c' = receiving i c ->
    served c (Send rnd (pt ++ room)) c' (ENCRYPT C k n [] pt) (Ok tt)
| sv_recv_size : forall b, len b < 16 \/ 65535 < len b ->
    served c (Recv b) c b (Err UnsupportedMessageLengthError)
| sv_recv_end : forall b k, 16 <= len b <= 65535 -> receiving i c = (k, 2 ^ 64 - 1) ->
    served c (Recv b) c b (Err ExhaustedNonceError)
| sv_recv_empty : forall b n, 16 <= len b <= 65535 -> receiving i c = (zeros32, n) -> n < 2 ^ 64 - 1 ->
    served c (Recv b) c b (Err EmptyKeyError)
| sv_recv_bad : forall ct tag k n any, 16 <= len (ct ++ tag) <= 65535 -> len tag = 16 ->
    receiving i c = (k, n) -> n < 2 ^ 64 - 1 -> k <> zeros32 ->
    DECRYPT C k n [] (ct ++ tag) = None -> len any = len ct ->
    served c (Recv (ct ++ tag)) c (any ++ tag) (Err DecryptionError)
| sv_recv : forall ct tag k n pt c', 16 <= len (ct ++ tag) <= 65535 -> len tag = 16 ->
    receiving i c = (k, n) -> n < 2 ^ 64 - 1 -> k <> zeros32 ->
    DECRYPT C k n [] (ct ++ tag) = Some pt ->
    receiving i c' = (k, n + 1) -> sending i c' = sending i c ->
    served c (Recv (ct ++ tag)) c' (pt ++ tag) (Ok tt)
| sv_clear_local : served c ClearLocal (mkCh (zeros32, 0) (to_i c)) [] (Ok tt)
| sv_clear_remote : served c ClearRemote (mkCh (to_r c) (zeros32, 0)) [] (Ok tt)
| sv_rekey_local : forall k n, to_r c = (k, n) -> served c RekeyLocal (mkCh (REKEY C k, n) (to_i c)) [] (Ok tt)
| sv_rekey_remote : forall k n, to_r c = (k, n) -> served c RekeyRemote (mkCh (REKEY C k, n) (to_i c)) [] (Ok tt)
| sv_ephemeral : forall e, served c (SetEphemeral e) c [] (Ok tt).

Inductive history : channel -> list call -> list (bytes * NResult unit) -> channel -> Prop :=
| hi_nil : forall c, history c [] [] c
| hi_cons : forall c call c1 b r calls rs c2, served c call c1 b r -> history c1 calls rs c2 ->
    history c (call :: calls) ((b, r) :: rs) c2.
End Transport.

(** What the calls of a history return. *)
Fixpoint results (C : crypto) (s : session) (cs : list call) : list (bytes * NResult unit) :=
  match cs with
  | [] => []
  | c :: cs' => (out (step C s c), res (step C s c)) :: results C (st (step C s c)) cs'
  end.

Definition is_rekey (c : call) : bool := match c with RekeyLocal | RekeyRemote => true | _ => false end.
(** The last [ClearLocal] call, if any, is before [cs]. *)
Definition no_clear_local (c : call) : Prop := match c with ClearLocal => False | _ => True end.
