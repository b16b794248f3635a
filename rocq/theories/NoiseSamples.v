(** * NoiseSamples: a concrete handshake used by the Examples.

    [demo_crypto] has the reference BLAKE2s and ChaCha20-Poly1305 of Crypto.v but multiplication modulo
    2^255-19 in place of X25519, so that Examples compute quickly.  Not secure, not part of the model. *)
From Coq Require Import Lia ZifyBool ZifyNat ZifyN Strings.String.
From Verif Require Import Base SpecWire BaseFacts Noise Crypto CryptoFacts SpecNoise SpecSession NoiseFacts NoiseClaims.
Open Scope N_scope.

Definition demo_dh (a b : bytes) : bytes := to_le 32 ((of_le a * of_le b) mod Crypto.p25519).
Definition demo_pub (a : bytes) : bytes := to_le 32 ((9 * of_le a) mod Crypto.p25519).
Definition demo_crypto : crypto := mkCrypto blake2s aead_seal aead_open demo_dh demo_pub.

Lemma demo_ok : crypto_ok demo_crypto.
Proof.
  destruct real_crypto_ok as [H1 H2 H3 H4 H5 H6 _ _]. constructor; try assumption.
  - intros. cbn [c_dh demo_crypto]. unfold demo_dh. rewrite len_to_le. reflexivity.
  - intros. cbn [c_pub demo_crypto]. unfold demo_pub. rewrite len_to_le. reflexivity.
Qed.

Definition demo_pair (a : bytes) : keypair := mkKeypair a (demo_pub a).
Lemma demo_agree : forall a b, dh_agree demo_crypto (demo_pair a) (demo_pair b).
Proof.
  intros a b. unfold dh_agree, demo_pair. cbn [kp_private kp_public c_dh demo_crypto]. unfold demo_dh, demo_pub.
  assert (P : forall x, of_le (to_le 32 (x mod Crypto.p25519)) = x mod Crypto.p25519).
  { intro x. apply of_le_to_le. assert (x mod Crypto.p25519 < Crypto.p25519) by (apply N.mod_lt; discriminate).
    assert (Crypto.p25519 < 2 ^ 256) by reflexivity. change (256 ^ N.of_nat 32) with (2 ^ 256). lia. }
  rewrite !P. f_equal. rewrite !N.mul_mod_idemp_r by discriminate. f_equal. lia.
Qed.

Definition k_si : bytes := repeat x11 32.
Definition k_sr : bytes := repeat x22 32.
Definition k_ei : bytes := repeat x33 32.
Definition k_er : bytes := repeat x44 32.
Definition d_si := demo_pair k_si.
Definition d_sr := demo_pair k_sr.
Definition d_ei := demo_pair k_ei.
Definition d_er := demo_pair k_er.
Definition d_prologue : bytes := list_byte_of_string "stratum".
Definition d_I0 := init_session demo_crypto true d_prologue d_si.
Definition d_R0 := init_session demo_crypto false d_prologue d_sr.
(** Message buffers: 32 bytes for the key, a payload; and 32 + 48 bytes, a payload, 16 bytes. *)
Definition d_b1 : bytes := repeat x00 32 ++ list_byte_of_string "hello, responder".
Definition d_b2 : bytes := repeat x00 80 ++ list_byte_of_string "hi" ++ repeat x00 16.

Lemma not_low : forall k, len k = 32 -> existsb (N.eqb (spec_val (wire k))) low_order_points = false -> ~ low_order k.
Proof.
  intros k _ H L. unfold low_order in L.
  assert (existsb (N.eqb (spec_val (wire k))) low_order_points = true); [|congruence].
  apply existsb_exists. exists (spec_val (wire k)). split; [exact L|apply N.eqb_refl].
Qed.

Lemma d_honest : honest demo_crypto d_prologue d_si d_sr d_ei d_er k_ei k_er d_I0 d_R0.
Proof.
  constructor; try apply demo_agree; try (split; vm_compute; reflexivity);
    try (apply not_low; vm_compute; reflexivity); left; split; reflexivity.
Qed.

Definition d_x1 := Eval vm_compute in send_message demo_crypto k_ei d_I0 d_b1.
Definition d_x2 := Eval vm_compute in recv_message demo_crypto d_R0 (out d_x1).
Definition d_x3 := Eval vm_compute in send_message demo_crypto k_er (st d_x2) d_b2.
Definition d_x4 := Eval vm_compute in recv_message demo_crypto (st d_x1) (out d_x3).
Lemma d_x1_eq : send_message demo_crypto k_ei d_I0 d_b1 = d_x1. Proof. vm_compute. reflexivity. Qed.
Lemma d_x2_eq : recv_message demo_crypto d_R0 (out d_x1) = d_x2. Proof. vm_compute. reflexivity. Qed.
Lemma d_x3_eq : send_message demo_crypto k_er (st d_x2) d_b2 = d_x3. Proof. vm_compute. reflexivity. Qed.
Lemma d_x4_eq : recv_message demo_crypto (st d_x1) (out d_x3) = d_x4. Proof. vm_compute. reflexivity. Qed.
Definition d_I := Eval vm_compute in st d_x4.
Definition d_R := Eval vm_compute in st d_x3.
