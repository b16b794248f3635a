(** * PropCrypto: C76, C77 and C84, the reference X25519 and handshakes over the reference primitives.

    [real_crypto] is the instance of [crypto] with BLAKE2s (RFC 7693), ChaCha20-Poly1305 (RFC 8439) and
    X25519 (RFC 7748), see Crypto.v; [real_pair sk] is the key pair with private key [sk]. *)
From Coq Require Import Strings.String.
From Verif Require Import Base SpecWire Noise Crypto SpecNoise SpecSession NoiseSamples
  Edwards Field25519 LadderProofs KeyProofs RealSamples RealFlow ZeroSecret.
Open Scope N_scope.

(** C76.  Two key pairs always agree; a derived public key is never refused; the secret is never zero. *)
Theorem C76_agree : forall a b,
  c_dh real_crypto a (c_pub real_crypto b) = c_dh real_crypto b (c_pub real_crypto a).
Proof. exact x25519_agree. Qed.
Print Assumptions C76_agree.
Theorem C76_public_accepted : forall sk, public_key_from_bytes (c_pub real_crypto sk) = Ok (c_pub real_crypto sk).
Proof. exact public_accepted. Qed.
Print Assumptions C76_public_accepted.
Theorem C76_secret_nonzero : forall a b, c_dh real_crypto a (c_pub real_crypto b) <> zeros32.
Proof. exact secret_nonzero. Qed.
Print Assumptions C76_secret_nonzero.
(** The ladder is scalar multiplication on the curve: [P] on the curve with u-coordinate [u] <> 0. *)
Theorem C76_ladder : forall sk pk P u, on P -> u <> f0 -> mul u (sub f1 (snd P)) = add f1 (snd P) ->
  redc (N.land (of_le (firstn 32 pk)) (N.ones 255)) = fv u ->
  x25519 sk pk = to_le 32 (fv (enc (smul (clamp (of_le (firstn 32 sk))) P))).
Proof. exact x25519_smul. Qed.
Print Assumptions C76_ladder.

(** RFC 7748, 6.1. *)
Example C76_ex : wire (c_pub real_crypto alice) = [0x85; 0x20; 0xf0; 0x09; 0x89; 0x30; 0xa7; 0x54; 0x74; 0x8b; 0x7d; 0xdc; 0xb4; 0x3e; 0xf7; 0x5a;
  0x0d; 0xbf; 0x3a; 0x0d; 0x26; 0x38; 0x1a; 0xf4; 0xeb; 0xa4; 0xa9; 0x8e; 0xaa; 0x9b; 0x4e; 0x6a] /\
  c_dh real_crypto bob (c_pub real_crypto alice) = alice_bob /\
  on basept /\ redc (N.land (of_le (firstn 32 base_point)) (N.ones 255)) = 9.
Proof.
  split; [rewrite alice_pub; reflexivity|]. split; [rewrite alice_pub; exact bob_dh|].
  split; [exact on_base|vm_compute; reflexivity].
Qed.

(** C77.  The handshake of C41 and the channel of C44 for all private keys, with no assumption on the
    primitives; only an all-zero cipher key (which the code takes for "no key") is excluded. *)
Theorem C77_real_handshake : forall pro ksi ksr kei ker rnd1 rnd2 I0 R0 b1 b2,
  len ksi = 32 -> len ksr = 32 -> len kei = 32 -> len ker = 32 ->
  started real_crypto true pro (real_pair ksi) rnd1 (real_pair kei) I0 ->
  started real_crypto false pro (real_pair ksr) rnd2 (real_pair ker) R0 ->
  48 <= len b1 <= 65535 -> 96 <= len b2 <= 2128 ->
  let x1 := send_message real_crypto rnd1 I0 b1 in
  let x2 := recv_message real_crypto R0 (out x1) in
  let x3 := send_message real_crypto rnd2 (st x2) b2 in
  let x4 := recv_message real_crypto (st x1) (out x3) in
  ~ In zeros32 (nx_keys real_crypto pro (real_pair ksr) (real_pair ker) (out x1) (payload2 b2)) ->
  res x1 = Ok tt /\ res x2 = Ok tt /\ res x3 = Ok tt /\ res x4 = Ok tt /\
  is_transport (st x3) = true /\ is_transport (st x4) = true /\
  (exists h, get_handshake_hash (st x3) = Some h /\ get_handshake_hash (st x4) = Some h) /\
  get_remote_static_public_key (st x4) = Some (c_pub real_crypto ksr) /\
  se_cs1 (st x3) = se_cs1 (st x4) /\ se_cs2 (st x3) = se_cs2 (st x4) /\
  skipn 32 (out x2) = skipn 32 b1 /\ payload2 (out x4) = payload2 b2.
Proof. exact real_agreement. Qed.
Print Assumptions C77_real_handshake.
Theorem C77_real_channel : forall pro ksi ksr kei ker rnd1 rnd2 I0 R0 b1 b2 es,
  len ksi = 32 -> len ksr = 32 -> len kei = 32 -> len ker = 32 ->
  started real_crypto true pro (real_pair ksi) rnd1 (real_pair kei) I0 ->
  started real_crypto false pro (real_pair ksr) rnd2 (real_pair ker) R0 ->
  48 <= len b1 <= 65535 -> 96 <= len b2 <= 2128 ->
  let x1 := send_message real_crypto rnd1 I0 b1 in
  let x2 := recv_message real_crypto R0 (out x1) in
  let x3 := send_message real_crypto rnd2 (st x2) b2 in
  let x4 := recv_message real_crypto (st x1) (out x3) in
  ~ In zeros32 (nx_keys real_crypto pro (real_pair ksr) (real_pair ker) (out x1) (payload2 b2)) ->
  cs_k (se_cs1 (st x4)) <> zeros32 -> cs_k (se_cs2 (st x4)) <> zeros32 ->
  Forall sized es -> (forall l, ~ In (IRekey l) es) ->
  len (i_sends es) <= 2 ^ 64 - 1 -> len (r_sends es) <= 2 ^ 64 - 1 ->
  let n := net_run real_crypto (net_start (st x4) (st x3)) es in
  n_sent_i n = i_sends es /\ n_sent_r n = r_sends es /\
  exists pi pr, i_sends es = n_got_r n ++ pi /\ length pi = packets (n_ir n) /\
                r_sends es = n_got_i n ++ pr /\ length pr = packets (n_ri n).
Proof. exact real_channel. Qed.
Print Assumptions C77_real_channel.

Example C77_ex : let I0 := init_session real_crypto true d_prologue (real_pair k_si) in
  let R0 := init_session real_crypto false d_prologue (real_pair carol) in
  started real_crypto true d_prologue (real_pair k_si) alice (real_pair alice) I0 /\
  started real_crypto false d_prologue (real_pair carol) bob (real_pair bob) R0 /\
  ~ In zeros32 (nx_keys real_crypto d_prologue (real_pair carol) (real_pair bob)
      (out (send_message real_crypto alice I0 d_b1)) (payload2 d_b2)).
Proof.
  split; [left; split; reflexivity|]. split; [left; split; reflexivity|].
  apply (real_nonzero_prologue d_prologue (real_pair k_si)); [left; split; reflexivity|vm_compute; split; discriminate|].
  vm_compute. reflexivity.
Qed.

(** C84.  Exactly which public keys give the all-zero secret; the private key plays no role. *)
Theorem C84_zero_secret_exact : forall sk pk, len pk = 32 ->
  (c_dh real_crypto sk pk = zeros32 <->
   In (spec_val (wire pk) mod 2 ^ 255) [0; 1; order8_a; order8_b; 2 ^ 255 - 20; 2 ^ 255 - 19; 2 ^ 255 - 18]).
Proof. exact zero_secret_exact. Qed.
Print Assumptions C84_zero_secret_exact.
(** The keys that [from_bytes] lets through although they give zero. *)
Theorem C84_missed_exact : forall sk pk, len pk = 32 -> public_key_from_bytes pk = Ok pk ->
  (c_dh real_crypto sk pk = zeros32 <-> In (spec_val (wire pk))
     [2 ^ 255; 2 ^ 255 + 1; 2 ^ 255 + order8_a; 2 ^ 255 + order8_b; 2 ^ 256 - 20; 2 ^ 256 - 19; 2 ^ 256 - 18]).
Proof. exact accepted_zero_exact. Qed.
Print Assumptions C84_missed_exact.
(** The refused keys that do give zero; the other five entries of the list never do. *)
Theorem C84_refused_exact : forall sk pk, len pk = 32 -> public_key_from_bytes pk = Err InvalidPublicKeyError ->
  (c_dh real_crypto sk pk = zeros32 <->
   In (spec_val (wire pk)) [0; 1; order8_a; order8_b; 2 ^ 255 - 20; 2 ^ 255 - 19; 2 ^ 255 - 18]).
Proof. exact refused_zero_exact. Qed.
Print Assumptions C84_refused_exact.

(** 2^255 + 1 passes, is missed; 2p - 1 is refused, harmless; 9 is neither. *)
Example C84_ex : public_key_from_bytes (to_le 32 (2 ^ 255 + 1)) = Ok (to_le 32 (2 ^ 255 + 1)) /\
  (forall sk, c_dh real_crypto sk (to_le 32 (2 ^ 255 + 1)) = zeros32) /\
  public_key_from_bytes (to_le 32 (2 ^ 256 - 39)) = Err InvalidPublicKeyError /\
  (forall sk, c_dh real_crypto sk (to_le 32 (2 ^ 256 - 39)) <> zeros32) /\
  (forall sk, c_dh real_crypto sk (to_le 32 9) <> zeros32).
Proof.
  split; [vm_compute; reflexivity|]. split; [|split; [vm_compute; reflexivity|split]]; intro sk.
  - apply C84_zero_secret_exact; [reflexivity|]. vm_compute. right. left. reflexivity.
  - intro H. apply C84_zero_secret_exact in H; [|reflexivity]. revert H. vm_compute.
    intro H. repeat (destruct H as [H|H]; [discriminate H|]). exact H.
  - intro H. apply C84_zero_secret_exact in H; [|reflexivity]. revert H. vm_compute.
    intro H. repeat (destruct H as [H|H]; [discriminate H|]). exact H.
Qed.
