(** * PropScalar: C113, which private keys share a public key or a secret. *)
From Verif Require Import Base SpecWire Noise Crypto CryptoFacts SpecNoise SpecSession KeyProofs Certs Ed25519 ZeroSecret NoiseSamples SpecScalar ScalarProofs.
Local Open Scope N_scope.

(** C113.  Two private keys have the same public key exactly if they stand for the same scalar or their scalars add up
    to eight times the group order. *)
Theorem C113_public_key : forall sk sk', len sk = 32 -> len sk' = 32 ->
  (c_pub real_crypto sk = c_pub real_crypto sk' <-> scalar sk = scalar sk' \/ scalar sk + scalar sk' = 8 * order_curve).
Proof. exact public_exact. Qed.
Print Assumptions C113_public_key.
(** The same for the secret shared with any public key outside the seven whose secret is zero (C84);
    which of the two orders depends on the public key. *)
Theorem C113_secret : forall pk, ~ In (spec_val (wire pk) mod 2 ^ 255) [0; 1; order8_a; order8_b; 2 ^ 255 - 20; 2 ^ 255 - 19; 2 ^ 255 - 18] -> len pk = 32 ->
  exists l, (l = order_curve \/ l = order_twist) /\ forall sk sk', len sk = 32 -> len sk' = 32 ->
    (c_dh real_crypto sk pk = c_dh real_crypto sk' pk <-> scalar sk = scalar sk' \/ scalar sk + scalar sk' = 8 * l).
Proof. exact secret_exact. Qed.
Print Assumptions C113_secret.
(** Scalars (of which there are 2^251) that have such a partner are near an end of the range. *)
Theorem C113_partner : forall sk sk', (scalar sk + scalar sk' = 8 * order_curve -> scalar sk < 2 ^ 254 + 2 ^ 128) /\
  (scalar sk + scalar sk' = 8 * order_twist -> 2 ^ 255 - 2 ^ 129 < scalar sk).
Proof. exact partner_rare. Qed.
Print Assumptions C113_partner.
(** At most 64 private keys have a given public key. *)
Theorem C113_few : forall pub l, NoDup l -> (forall sk, In sk l -> len sk = 32 /\ c_pub real_crypto sk = pub) -> len l <= 64.
Proof. exact few_private_keys. Qed.
Print Assumptions C113_few.
(** The first messages of two sessions start with the same key exactly for such draws. *)
Theorem C113_first_message : forall pro pro' si si' rnd rnd' b b', len rnd = 32 -> len rnd' = 32 ->
  let x := send_message real_crypto rnd (init_session real_crypto true pro si) b in
  let x' := send_message real_crypto rnd' (init_session real_crypto true pro' si') b' in
  res x = Ok tt -> res x' = Ok tt ->
  (firstn 32 (out x) = firstn 32 (out x') <-> scalar rnd = scalar rnd' \/ scalar rnd + scalar rnd' = 8 * order_curve).
Proof. exact first_message_fresh. Qed.
Print Assumptions C113_first_message.
(** The keys of the authority: no partners. *)
Theorem C113_authority : forall seed seed', ek_public (ed_generate seed) = ek_public (ed_generate seed') <->
  scalar (firstn 32 (sha512 seed)) = scalar (firstn 32 (sha512 seed')).
Proof. exact authority_exact. Qed.
Print Assumptions C113_authority.

(** Two scalars that are partners, two that are neither equal nor partners, a key that C113_secret speaks about. *)
Example C113_ex : let a := to_le 32 (2 ^ 254) in let b := to_le 32 (8 * order_curve - 2 ^ 254) in let c := repeat x03 32 in
  scalar a <> scalar b /\ c_pub real_crypto a = c_pub real_crypto b /\ c_pub real_crypto a <> c_pub real_crypto c /\
  ~ In (spec_val (wire base_point) mod 2 ^ 255) [0; 1; order8_a; order8_b; 2 ^ 255 - 20; 2 ^ 255 - 19; 2 ^ 255 - 18] /\ len base_point = 32 /\
  NoDup [a; b] /\ res (send_message real_crypto a (init_session real_crypto true [] keypair_empty) (repeat x00 48)) = Ok tt.
Proof.
  cbv zeta. assert (E : scalar (to_le 32 (2 ^ 254)) = 2 ^ 254) by (vm_compute; reflexivity).
  assert (E' : scalar (to_le 32 (8 * order_curve - 2 ^ 254)) = 8 * order_curve - 2 ^ 254) by (vm_compute; reflexivity).
  split; [rewrite E, E'; discriminate|]. split; [apply C113_public_key; [reflexivity|reflexivity|right; rewrite E, E'; reflexivity]|].
  split; [intro H; apply C113_public_key in H; [|reflexivity|reflexivity]; rewrite E in H; revert H; vm_compute; intros [H|H]; discriminate H|].
  split; [vm_compute; intros H; repeat destruct H as [H|H]; try discriminate H; exact H|]. split; [reflexivity|].
  split; [|reflexivity]. constructor; [intros [H|[]]; revert H; vm_compute; discriminate|]. constructor; [intros []|constructor].
Qed.
