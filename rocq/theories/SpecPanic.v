(** * SpecPanic: when recv_message panics (C51, C75). *)
From Verif Require Import Base Noise SpecNoise SpecSession SpecTransport SpecStory.
Open Scope N_scope.

(** Between the two messages of the handshake, and with what the session has mixed so far the two keys of [m] can be
    read and are acceptable, but what follows them has the wrong size. *)
Definition bursts (C : crypto) (g : stage) (m : bytes) : Prop :=
  exists p, g = Handshake true p /\ (80 <= len m < 96 \/ 2128 < len m <= 65535) /\ ~ low_order (firstn 32 m) /\
  exists pe rest ps rest' k,
    read_tokens C (acting true p) [TE; TEE] m = Some (pe, rest) /\ sy_k (p_sym pe) <> Some zeros32 /\
    read_tokens C (acting true p) [TE; TEE; TS] m = Some (ps, rest') /\ p_rs ps = Some k /\ ~ low_order k.
