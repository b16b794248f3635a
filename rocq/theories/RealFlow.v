(** * RealFlow: certificates and the example program over the reference primitives. *)
From Coq Require Import Strings.String ZArith Lia.
From Verif Require Import Base Codec Types SpecWire SpecTypes BaseFacts Noise SpecNoise SpecSession Crypto CryptoFacts KeyProofs
  Certs SpecCerts Network SpecNetwork Apps NoiseClaims NetworkProofs AppProofs CertProofs Ed25519 EdProofs RealSamples.
Open Scope N_scope.
Local Opaque x25519 sha512 compress.

Theorem real_certificate : forall checked seed v f t key text now pf pre rest,
  v < 2 ^ 16 -> f < t -> t < 2 ^ 32 -> base58 text (ed_public seed) ->
  (0 <= now)%Z -> Z.to_N (now / 10 ^ 9) mod 2 ^ 32 < t ->
  let E := real_ed checked in
  exists cert m enc cf,
    cert_new v f t key = Ok cert /\ from_auth_key E (ed_generate seed) cert = Ok m /\ serialize (ser_snm m) = Ok enc /\
    (rust_slice (pre ++ enc ++ rest) -> de_snm E pf (cursor pre (enc ++ rest)) = (cursor (pre ++ enc) rest, Ok m)) /\
    cf_new E text key m = Ok cf /\ cf_verify E now cf = Ok tt.
Proof.
  intros checked seed v f t key text now pf pre rest Hv Hf Ht HB Hn Hw E.
  exact (pool_verifies E (ed_generate seed) v f t key text now pf pre rest (real_ed_ok checked) (real_ed_pair checked seed) Hv Hf Ht HB Hn Hw).
Qed.

Theorem real_flow : forall checked seed rsi ksr rsr rnd1 rnd2 rnd3 text t1 t2,
  len rsi = 32 -> len ksr = 32 -> len rnd1 = 32 -> len rnd2 = 32 ->
  let C := real_crypto in let E := real_ed checked in
  let sr := real_pair ksr in
  let m1 := c_pub C rnd1 ++ repeat x00 992 in
  ~ In zeros32 (nx_keys C [] sr (real_pair rnd2) m1 (payload2 m1)) ->
  ~ In zeros32 (nx_transport_keys C [] sr (real_pair rnd2) m1 (payload2 m1)) ->
  base58 text (ed_public seed) ->
  (0 <= t1)%Z -> (0 <= t2)%Z -> secs32 t1 < secs32 (t2 + 5 * 10 ^ 9) ->
  exists I1 R m2 m3 I2,
    nh_send C rnd1 (new_outbound C rsi) (repeat x00 1024) = (I1, Ok m1) /\
    nh_pool_recv C E rnd2 rnd3 (new_inbound C (Some sr) rsr) (ed_generate seed) (kp_public sr) t1 t2 (read_1024 m1) = (R, Ok (m2, m3)) /\
    forall pf now, nh_miner_recv C E pf text now I1 (read_1024 m2) = (I2, Ok None) /\
      exists I3, nh_miner_recv C E pf text now I2 (read_1024 m3) =
        (I3, Ok (Some ((0 <=? now)%Z && (secs32 now <? secs32 (t2 + 5 * 10 ^ 9))))).
Proof.
  intros checked seed rsi ksr rsr rnd1 rnd2 rnd3 text t1 t2 L1 L2 L3 L4 C E sr m1 NK NT HB H1 H2 HT.
  exact (noise_flow C real_crypto_ok E (real_ed_ok checked) sr rsi rsr rnd1 rnd2 rnd3 (ed_generate seed) text t1 t2
    (real_usable rsi ksr rnd1 rnd2 L1 L2 L3 L4)
    NK NT (real_ed_pair checked seed) HB H1 H2 HT).
Qed.

(** For the example: alice meets carol, whose ephemeral key is bob's. *)
Lemma real_nonzero : let m1 := c_pub real_crypto alice ++ repeat x00 992 in
  ~ In zeros32 (nx_keys real_crypto [] (real_pair carol) (real_pair bob) m1 (payload2 m1)) /\
  ~ In zeros32 (nx_transport_keys real_crypto [] (real_pair carol) (real_pair bob) m1 (payload2 m1)).
Proof.
  intro m1. unfold m1. rewrite alice_pub. destruct (real_table [] (alice_public ++ repeat x00 992) (payload2 (alice_public ++ repeat x00 992)) eq_refl) as [E1 E2].
  rewrite E1, E2. split; apply not_in_zero; vm_compute; reflexivity.
Qed.
Lemma real_nonzero_prologue : forall pro si I0 b1 b2, started real_crypto true pro si alice (real_pair alice) I0 -> 32 <= len b1 <= 65535 ->
  existsb (bytes_eqb zeros32) (nx_keys table_crypto pro (mkKeypair carol carol_public) (mkKeypair bob bob_public)
    (alice_public ++ skipn 32 b1) (payload2 b2)) = false ->
  ~ In zeros32 (nx_keys real_crypto pro (real_pair carol) (real_pair bob) (out (send_message real_crypto alice I0 b1)) (payload2 b2)).
Proof.
  intros pro si I0 b1 b2 S L H.
  rewrite (started_len1 real_crypto pro si alice (real_pair alice) I0 b1 true S L (conj eq_refl (pub_len _ real_crypto_ok alice))).
  unfold real_pair at 3. cbn [kp_public]. rewrite alice_pub.
  rewrite (proj1 (real_table pro (alice_public ++ skipn 32 b1) (payload2 b2) eq_refl)). apply not_in_zero, H.
Qed.
