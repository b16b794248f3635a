(** * Fuzz: the programs of fuzz/src/bin.  Definitions only.

    The honggfuzz crate is not in the repository; assumed: [fuzz!] runs its closure once, on arbitrary bytes
    ([fed] covers repeated runs on one encryptor).  The results of the calls are
    dropped, so that only a panic ends a program early. *)
From Verif Require Import Base Codec Types Messages Frame Certs Noise Network.
Local Open Scope N_scope.

Definition dropped {E A} (r : outcome E A) : outcome Empty_set unit :=
  match r with Panic => Panic | _ => Ok tt end.
Fixpoint all_dropped (rs : list (outcome Empty_set unit)) : outcome Empty_set unit :=
  match rs with [] => Ok tt | r :: rs' => obind r (fun _ => all_dropped rs') end.
Definition try_de {A} (d : De A) (pf : profile) (data : bytes) : outcome Empty_set unit :=
  dropped (deserialize d pf data).

(** mining_messages.rs:7-31. *)
Definition fuzz_mining_messages (pf : profile) (d1 d2 d3 d4 d5 d6 : bytes) : outcome Empty_set unit :=
  all_dropped [
    try_de (fr_de (frameable_of K_OpenStandardMiningChannel)) pf d1;
    try_de (fr_de (frameable_of K_OpenStandardMiningChannelSuccess)) pf d2;
    try_de (fr_de (frameable_of K_OpenStandardMiningChannelError)) pf d3;
    try_de (fr_de (frameable_of K_OpenExtendedMiningChannel)) pf d4;
    try_de (fr_de (frameable_of K_OpenExtendedMiningChannelSuccess)) pf d5;
    try_de (fr_de (frameable_of K_UpdateChannel)) pf d6].
(** setup_connection.rs:7-19. *)
Definition fuzz_setup_connection (pf : profile) (d1 d2 d3 : bytes) : outcome Empty_set unit :=
  all_dropped [
    try_de (fr_de (frameable_of K_MiningSetupConnectionError)) pf d1;
    try_de (fr_de (frameable_of K_MiningSetupConnectionSuccess)) pf d2;
    try_de (fr_de (frameable_of K_MiningSetupConnection)) pf d3].
(** network_frame.rs:4-8. *)
Definition fuzz_network_frame (pf : profile) (d : bytes) : outcome Empty_set unit := try_de de_message pf d.
(** noise.rs:7-11. *)
Definition fuzz_noise (E : ed_ops) (pf : profile) (d : bytes) : outcome Empty_set unit := try_de (de_snm E) pf d.

Section Encryptor.
Variable C : crypto.
(** connection_encryptor.rs:4-14; [rsr], [rsi], [rnd1], [rnd2] are what the random generator returns. *)
Definition fuzz_connection_encryptor (rsr rsi rnd1 rnd2 d1 d2 : bytes) : outcome Empty_set unit :=
  all_dropped [
    dropped (snd (recv_handshake C rnd1 (new_inbound C None rsr) d1));
    dropped (snd (recv_handshake C rnd2 (new_outbound C rsi) d2))].
(** The same closure run again and again on one encryptor (connection_encryptor.rs:5-8 under a repeating [fuzz!]): the results up to the
    first panic. *)
Fixpoint fed (s : session) (inputs : list (bytes * bytes)) : list (Result bytes) :=
  match inputs with
  | [] => []
  | (rnd, d) :: inputs' =>
      let '(s', _, r) := recv_handshake C rnd s d in
      r :: match r with Panic => [] | _ => fed s' inputs' end
  end.
End Encryptor.
