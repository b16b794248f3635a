(** * SpecActive: an attacker who controls the network. *)
From Verif Require Import Base Noise SpecNoise SpecSession SpecTransport.
Local Open Scope N_scope.

(** The two ends of a completed handshake, in either order. *)
Definition peers (C : crypto) (S D : session) : Prop := completed C S D \/ completed C D S.
(** Calls that leave the transport keys alone: [Send], [Recv] with any bytes, [SetEphemeral]. *)
Definition quiet (c : call) : Prop := no_clear c /\ no_rekey c.
(** The key for what session [S] sends after the handshake. *)
Definition sending_key (S : session) : bytes := cs_k (if se_i S then se_cs1 S else se_cs2 S).
(** How often the key for what this session sends (receives) has been replaced by a history of calls: both
    rekeying methods replace the key for messages to the responder (C54). *)
Definition rekeys_sent (S : session) (cs : list call) : nat := if se_i S then length (filter is_rekey cs) else 0%nat.
Definition rekeys_received (D : session) (cs : list call) : nat := if se_i D then 0%nat else length (filter is_rekey cs).
