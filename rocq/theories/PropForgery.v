(** * PropForgery: C99, altered messages and the one-time key of the authenticator. *)
From Coq Require Import List NArith Lia.
From Verif Require Import Base Noise Crypto CryptoFacts SpecNoise SpecSession SpecTransport SpecForgery NoiseSamples NoiseClaims SessionClaims ForgeryProofs.
Import ListNotations.
Open Scope N_scope.

(** C99. For a sealed message and any other message the multipliers [r] that let the other one pass for the first are few. *)
Theorem C99_few_keys_accept_a_forgery : forall ad m ad' m',
  len ad < 2 ^ 64 -> len m < 2 ^ 64 -> len ad' < 2 ^ 64 -> len m' < 2 ^ 64 -> (ad, m) <> (ad', m') ->
  exists bad, NoDup bad /\ len bad <= 8 * N.max (blocks (len ad) (len m - 16)) (blocks (len ad') (len m' - 16)) /\
    forall k n pt pt', ENCRYPT real_crypto k n ad pt = m -> DECRYPT real_crypto k n ad' m' = Some pt' ->
      In (one_time_r k (nonce96 n)) bad.
Proof. exact forgery. Qed.
Print Assumptions C99_few_keys_accept_a_forgery.
(** They are among 2^106. *)
Theorem C99_number_of_keys : exists all, NoDup all /\ len all = 2 ^ 106 /\
  forall r, In r all <-> exists bs : bytes, length bs = 16%nat /\ clamped bs = r.
Proof. exact multiplier_count. Qed.
Print Assumptions C99_number_of_keys.
(** At an established session, whatever was received before: at most 2^15 of them. *)
Theorem C99_session : forall C, crypto_ok C -> c_seal C = aead_seal -> c_open C = aead_open ->
  forall m b, len m <= 65535 -> m <> b ->
  exists bad, NoDup bad /\ len bad <= 2 ^ 15 /\
    forall s k n pt, reachable C s -> is_transport s = true -> receiving (se_i s) (channel_of s) = (k, n) ->
      ENCRYPT C k n [] pt = m -> res (recv_message C s b) = Ok tt -> In (one_time_r k (nonce96 n)) bad.
Proof. exact session_forgery. Qed.
Print Assumptions C99_session.
(** None at all if only the tag is changed. *)
Theorem C99_other_tag : forall k n ad pt ct tag tag', ENCRYPT real_crypto k n ad pt = ct ++ tag ->
  len tag = 16 -> len tag' = 16 -> tag <> tag' -> DECRYPT real_crypto k n ad (ct ++ tag') = None.
Proof. exact other_tag. Qed.
Print Assumptions C99_other_tag.
(** And without a sealed message at hand: each multiplier leaves exactly one of the 2^128 pads. *)
Theorem C99_one_pad : forall rb msg tag, length rb = 16%nat -> length tag = 16%nat ->
  exists! s, length s = 16%nat /\ poly1305 (rb ++ s) msg = tag.
Proof. exact one_pad. Qed.
Print Assumptions C99_one_pad.

(** The hypotheses are met: a message of the established demonstration session, its last byte changed. *)
Example C99_ex : crypto_ok demo_crypto /\ c_seal demo_crypto = aead_seal /\ c_open demo_crypto = aead_open /\
  reachable demo_crypto d_R /\ is_transport d_R = true /\
  exists k, receiving (se_i d_R) (channel_of d_R) = (k, 0) /\
    len (ENCRYPT demo_crypto k 0 [] [x61]) = 17 /\
    res (recv_message demo_crypto d_R (ENCRYPT demo_crypto k 0 [] [x61])) = Ok tt /\
    res (recv_message demo_crypto d_R (ENCRYPT demo_crypto k 0 [] [x62])) = Ok tt /\
    res (recv_message demo_crypto d_R (x00 :: skipn 1 (ENCRYPT demo_crypto k 0 [] [x61]))) = Err DecryptionError.
Proof.
  split; [exact demo_ok|]. do 2 (split; [reflexivity|]). split; [exact d_reach_R|]. split; [reflexivity|].
  exists (cs_k (se_cs1 d_R)). split; [reflexivity|]. repeat split; vm_compute; reflexivity.
Qed.
(** With the multiplier zero every message has the tag of every other. *)
Example C99_ex_bad : let pad := repeat x05 16 in
  clamped (repeat x00 16) = 0 /\ poly1305 (repeat x00 16 ++ pad) [x61] = pad /\ poly1305 (repeat x00 16 ++ pad) [x62; x63] = pad /\
  blocks 0 (65535 - 16) = 4096.
Proof. cbv zeta. repeat split; vm_compute; reflexivity. Qed.
