(** * PropTwin: C114, which public keys share a secret. *)
From Verif Require Import Base SpecWire BaseFacts Noise Crypto CryptoFacts SpecNoise SpecSession NoiseFacts NoiseSamples NoiseClaims KeyProofs RealSamples RealFlow SpecTwin TwinProofs.
Local Open Scope N_scope.

(** C114.  Refuted: the secret shared with a peer does not determine the peer's public key, not even up to the ignored
    top bit and reduction.  9 and its inverse are both accepted and share the same secret with every private key. *)
Theorem C114_secret_determines_key_refuted : exists pk pk', public_key_from_bytes pk = Ok pk /\ public_key_from_bytes pk' = Ok pk' /\
  u_value pk <> u_value pk' /\ forall sk, c_dh real_crypto sk pk = c_dh real_crypto sk pk'.
Proof.
  exists (to_le 32 9), (to_le 32 32164469232587832062103051391302196625908329073789045566515995557753647122194).
  split; [vm_compute; reflexivity|]. split; [vm_compute; reflexivity|]. split; [vm_compute; discriminate|].
  apply inverse_twin; vm_compute; reflexivity.
Qed.
Print Assumptions C114_secret_determines_key_refuted.
(** Every key outside the seven of C84 shares its secrets with exactly eight or exactly four numbers, itself among them. *)
Theorem C114_exact_partial : forall pk, len pk = 32 ->
  ~ In (spec_val (wire pk) mod 2 ^ 255) [0; 1; order8_a; order8_b; 2 ^ 255 - 20; 2 ^ 255 - 19; 2 ^ 255 - 18] ->
  exists l, NoDup l /\ (len l = 8 \/ len l = 4) /\
    forall sk pk', len pk' = 32 -> (c_dh real_crypto sk pk' = c_dh real_crypto sk pk <-> In (u_value pk') l).
Proof. exact twins_exact. Qed.
Print Assumptions C114_exact_partial.
(** Keys that give one private key the same secret give it to all. *)
Theorem C114_all_or_none_partial : forall pk pk' sk, len pk = 32 -> len pk' = 32 ->
  c_dh real_crypto sk pk = c_dh real_crypto sk pk' -> twins (c_dh real_crypto) pk pk'.
Proof. exact twins_always. Qed.
Print Assumptions C114_all_or_none_partial.
(** One of them is the inverse. *)
Theorem C114_inverse_partial : forall pk pk', len pk = 32 -> len pk' = 32 -> (u_value pk * u_value pk') mod p25519 = 1 -> twins (c_dh real_crypto) pk pk'.
Proof. exact inverse_twin. Qed.
Print Assumptions C114_inverse_partial.
(** Among keys derived from private keys the secret does determine the key. *)
Theorem C114_generated_partial : forall a b sk, c_dh real_crypto sk (c_pub real_crypto a) = c_dh real_crypto sk (c_pub real_crypto b) ->
  c_pub real_crypto a = c_pub real_crypto b.
Proof. exact generated_alone. Qed.
Print Assumptions C114_generated_partial.
(** Every derived key has an inverse that is accepted as a public key; no private key has it as its public key. *)
Theorem C114_inverse_accepted_partial : forall sk, exists pk, len pk = 32 /\ public_key_from_bytes pk = Ok pk /\
  (u_value (c_pub real_crypto sk) * u_value pk) mod p25519 = 1 /\ forall sk', c_pub real_crypto sk' <> pk.
Proof.
  intro sk. destruct (inverse_exists sk) as (pk & L & A & P). exists pk. split; [exact L|]. split; [exact A|]. split; [exact P|]. exact (inverse_not_generated sk pk P).
Qed.
Print Assumptions C114_inverse_accepted_partial.
(** A responder that shows the inverse instead of its public key completes the handshake with every initiator, which then
    reports a remote key that belongs to no private key. *)
Theorem C114_impostor_partial : forall ksr pk, len ksr = 32 -> len pk = 32 -> public_key_from_bytes pk = Ok pk ->
  (u_value (c_pub real_crypto ksr) * u_value pk) mod p25519 = 1 ->
  forall pro ksi kei ker rnd1 rnd2 I0 R0 b1 b2, len ksi = 32 -> len kei = 32 -> len ker = 32 ->
  started real_crypto true pro (real_pair ksi) rnd1 (real_pair kei) I0 ->
  started real_crypto false pro (mkKeypair ksr pk) rnd2 (real_pair ker) R0 ->
  48 <= len b1 <= 65535 -> 96 <= len b2 <= 2128 ->
  let x1 := send_message real_crypto rnd1 I0 b1 in
  let x2 := recv_message real_crypto R0 (out x1) in
  let x3 := send_message real_crypto rnd2 (st x2) b2 in
  let x4 := recv_message real_crypto (st x1) (out x3) in
  ~ In zeros32 (nx_keys real_crypto pro (mkKeypair ksr pk) (real_pair ker) (out x1) (payload2 b2)) ->
  (forall sk, c_pub real_crypto sk <> pk) /\
  res x4 = Ok tt /\ is_transport (st x4) = true /\ get_remote_static_public_key (st x4) = Some pk /\
  se_cs1 (st x3) = se_cs1 (st x4) /\ se_cs2 (st x3) = se_cs2 (st x4).
Proof. exact impostor. Qed.
Print Assumptions C114_impostor_partial.

(** A key for C114_exact_partial; carol as a responder that shows the inverse of its key to alice. *)
Example C114_ex : let carol_inverse := to_le 32 46787002474426817879260488638076566924588750297584673768163090763871214237026 in
  let I0 := init_session real_crypto true d_prologue (real_pair k_si) in
  let R0 := init_session real_crypto false d_prologue (mkKeypair carol carol_inverse) in
  ~ In (spec_val (wire base_point) mod 2 ^ 255) [0; 1; order8_a; order8_b; 2 ^ 255 - 20; 2 ^ 255 - 19; 2 ^ 255 - 18] /\
  public_key_from_bytes carol_inverse = Ok carol_inverse /\ (u_value (c_pub real_crypto carol) * u_value carol_inverse) mod p25519 = 1 /\
  started real_crypto true d_prologue (real_pair k_si) alice (real_pair alice) I0 /\
  started real_crypto false d_prologue (mkKeypair carol carol_inverse) bob (real_pair bob) R0 /\
  ~ In zeros32 (nx_keys real_crypto d_prologue (mkKeypair carol carol_inverse) (real_pair bob)
      (out (send_message real_crypto alice I0 d_b1)) (payload2 d_b2)).
Proof.
  cbv zeta. split; [vm_compute; intros H; repeat destruct H as [H|H]; try discriminate H; exact H|]. split; [vm_compute; reflexivity|].
  split; [rewrite carol_pub; vm_compute; reflexivity|]. split; [left; split; reflexivity|]. split; [left; split; reflexivity|].
  rewrite (started_len1 real_crypto d_prologue (real_pair k_si) alice (real_pair alice) _ d_b1 true);
    [|left; split; reflexivity|vm_compute; split; discriminate|exact (conj eq_refl (pub_len _ real_crypto_ok alice))].
  unfold real_pair. cbn [kp_public]. rewrite alice_pub, bob_pub.
  rewrite (proj1 (keys_table real_crypto table_crypto eq_refl eq_refl eq_refl d_prologue (mkKeypair carol _) (mkKeypair bob bob_public)
    (alice_public ++ skipn 32 d_b1) (payload2 d_b2) bob_dh carol_dh)).
  apply not_in_zero. vm_compute. reflexivity.
Qed.
