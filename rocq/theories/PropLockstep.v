(** * PropLockstep: C128, attempts at the second message that are delivered as they are. *)
From Verif Require Import Base Noise Crypto KeyProofs SpecNoise SpecSession SpecLockstep NoiseSamples RetryProofs LockstepProofs.
Local Open Scope N_scope.
Local Open Scope list_scope.

(** C128.  [attempts] runs the responder over the buffers [bs] up to the first success and gives the initiator
    whatever is in the buffer after each attempt. *)
Theorem C128_lockstep : forall C, crypto_ok C -> forall pro si sr ei er rnd1 rnd2 I0 R0 b1 bs,
  honest C pro si sr ei er rnd1 rnd2 I0 R0 -> 48 <= len b1 <= 65535 -> Forall in_step bs ->
  let x1 := send_message C rnd1 I0 b1 in
  let x2 := recv_message C R0 (out x1) in
  let '(l, R, J) := attempts C rnd2 (st x2) (st x1) bs in
  Forall same_success l /\ is_transport J = is_transport R /\
  (is_transport R = false -> map a_buffer l = bs) /\
  (Exists (fun a => a_sent a = Ok tt) l <-> is_transport R = true) /\
  (is_transport R = true -> get_handshake_hash J = get_handshake_hash R /\ get_remote_static_public_key J = Some (kp_public sr) /\
     se_cs1 J = se_cs1 R /\ se_cs2 J = se_cs2 R) /\
  (Exists (fun b => 96 <= len b <= 2128) bs -> Forall (fun a => a_sent a <> Err EmptyKeyError) l -> is_transport R = true) /\
  (is_transport R = false -> forall b, 80 <= len b < 96 \/ 2128 < len b <= 65535 ->
     let x := send_message C rnd2 R b in res x = Err EmptyKeyError \/ res (recv_message C J (out x)) = Panic).
Proof. exact lockstep. Qed.
Print Assumptions C128_lockstep.
(** Over BLAKE2s, ChaCha20-Poly1305 and X25519, for all private keys. *)
Theorem C128_x25519 : forall pro ksi ksr kei ker rnd1 rnd2 I0 R0 b1 bs,
  len ksi = 32 -> len ksr = 32 -> len kei = 32 -> len ker = 32 ->
  started real_crypto true pro (real_pair ksi) rnd1 (real_pair kei) I0 ->
  started real_crypto false pro (real_pair ksr) rnd2 (real_pair ker) R0 ->
  48 <= len b1 <= 65535 -> Forall in_step bs ->
  let x1 := send_message real_crypto rnd1 I0 b1 in
  let x2 := recv_message real_crypto R0 (out x1) in
  let '(l, R, J) := attempts real_crypto rnd2 (st x2) (st x1) bs in
  Forall same_success l /\ is_transport J = is_transport R /\
  (is_transport R = true -> get_handshake_hash J = get_handshake_hash R /\ get_remote_static_public_key J = Some (kp_public (real_pair ksr)) /\
     se_cs1 J = se_cs1 R /\ se_cs2 J = se_cs2 R) /\
  (Exists (fun b => 96 <= len b <= 2128) bs -> Forall (fun a => a_sent a <> Err EmptyKeyError) l -> is_transport R = true).
Proof. exact real_lockstep. Qed.
Print Assumptions C128_x25519.

(** Two attempts with too little room, then one with enough. *)
Definition ls_bs : list bytes := [repeat x00 20; repeat x00 60; d_b2].
Definition ls_run := Eval vm_compute in attempts demo_crypto k_er (st d_x2) (st d_x1) ls_bs.
Example C128_ex : crypto_ok demo_crypto /\ honest demo_crypto d_prologue d_si d_sr d_ei d_er k_ei k_er d_I0 d_R0 /\
  48 <= len d_b1 <= 65535 /\ Forall in_step ls_bs /\ attempts demo_crypto k_er (st d_x2) (st d_x1) ls_bs = ls_run /\
  map (fun a => (a_sent a, a_received a)) (fst (fst ls_run)) =
    [(Err MissingneError, Err MissingreError); (Err MissingneError, Err MissingrsError); (Ok tt, Ok tt)] /\
  is_transport (snd ls_run) = true.
Proof.
  split; [exact demo_ok|]. split; [exact d_honest|]. split; [split; discriminate|].
  split. { constructor; [left; reflexivity|]. constructor; [right; left; split; [discriminate|reflexivity]|]. constructor; [right; right; left; split; discriminate|constructor]. }
  split; [vm_compute; reflexivity|]. split; reflexivity.
Qed.
(** With a first attempt of 40 bytes the initiator, given each buffer, refuses the reply that follows. *)
Theorem C128_out_of_step : exists C pro si sr ei er rnd1 rnd2 I0 R0 b1 bs, crypto_ok C /\
  honest C pro si sr ei er rnd1 rnd2 I0 R0 /\ 48 <= len b1 <= 65535 /\ map len bs = [40; 98] /\
  let x1 := send_message C rnd1 I0 b1 in
  let x2 := recv_message C R0 (out x1) in
  map (fun a => (a_sent a, a_received a)) (fst (fst (attempts C rnd2 (st x2) (st x1) bs))) =
    [(Err MissingneError, Err MissingreError); (Ok tt, Err DecryptionError)].
Proof. exact out_of_step. Qed.
Print Assumptions C128_out_of_step.
