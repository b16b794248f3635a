(** * PropTalk: C111, protocol messages over an established session. *)
From Verif Require Import Base Codec Types Messages Frame SpecWire SpecTypes SpecTalk Samples MsgProofs TypesProofs Noise SpecNoise SpecSession NoiseSamples SessionClaims TalkProofs.
Local Open Scope N_scope.
Local Open Scope list_scope.

(** C111.  [mi] and [mr]: what the initiator and the responder say; [es]: any interleaving of sending it and reading.
    Every sending succeeds, and what was read so far are the first messages said, the others are on their way. *)
Theorem C111_conversation : forall C, crypto_ok C -> forall I R es mi mr, completed C I R ->
  cs_k (se_cs1 I) <> zeros32 -> cs_k (se_cs2 I) <> zeros32 ->
  Forall proper mi -> Forall proper mr -> Forall2 carries mi (i_sends es) -> Forall2 carries mr (r_sends es) ->
  (forall l, ~ In (IRekey l) es) -> len mi <= 2 ^ 64 - 1 -> len mr <= 2 ^ 64 - 1 ->
  let n := net_run C (net_start I R) es in
  exists gr wi gi wr, mi = gr ++ wi /\ Forall2 understood gr (n_got_r n) /\ length wi = packets (n_ir n) /\
                      mr = gi ++ wr /\ Forall2 understood gi (n_got_i n) /\ length wr = packets (n_ri n).
Proof. exact conversation. Qed.
Print Assumptions C111_conversation.
(** Every message that a constructor returns can be said. *)
Theorem C111_every_message : forall m, proper m -> exists pt, carries m pt /\ understood m pt.
Proof. exact every_message_framed. Qed.
Print Assumptions C111_every_message.
(** No frame is longer than the table says, and some frame of each kind is as long. *)
Theorem C111_longest : forall m pt, proper m -> carries m pt -> len pt <= longest (projT1 m).
Proof. exact longest_bound. Qed.
Print Assumptions C111_longest.
Theorem C111_longest_attained : forall k, exists m pt, constructed k m /\ carries (existT _ k m) pt /\ len pt = longest k.
Proof. exact longest_attained. Qed.
Print Assumptions C111_longest_attained.

Example C111_ex : let m := existT msg_of K_UpdateChannel sample_uc in
  let pt := map b8 ([0; 128; 22; 40; 0; 0] ++ [7; 0; 0; 0; 0; 0; 0x46; 0x41] ++ repeat 42 32) in
  let es := [ISend pt; RSend pt; RRecv] in
  completed demo_crypto d_I d_R /\ cs_k (se_cs1 d_I) <> zeros32 /\ cs_k (se_cs2 d_I) <> zeros32 /\
  proper m /\ carries m pt /\ Forall2 carries [m] (i_sends es) /\ Forall2 carries [m] (r_sends es) /\
  n_got_r (net_run demo_crypto (net_start d_I d_R) es) = [pt] /\ packets (n_ri (net_run demo_crypto (net_start d_I d_R) es)) = 1%nat.
Proof.
  cbv zeta. assert (C : carries (existT msg_of K_UpdateChannel sample_uc)
    (map b8 ([0; 128; 22; 40; 0; 0] ++ [7; 0; 0; 0; 0; 0; 0x46; 0x41] ++ repeat 42 32))) by (eexists; split; vm_compute; reflexivity).
  split; [exact d_completed|]. split; [vm_compute; discriminate|]. split; [vm_compute; discriminate|].
  split; [apply constructed_iff; exact sample_uc_ok|]. split; [exact C|]. split; [constructor; [exact C|constructor]|].
  split; [constructor; [exact C|constructor]|]. vm_compute. split; reflexivity.
Qed.
