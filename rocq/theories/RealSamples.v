(** * RealSamples: concrete keys for the examples over the reference primitives (RFC 7748, 6.1). *)
From Coq Require Import Strings.String Lia.
From Verif Require Import Base SpecWire Noise Crypto SpecNoise SpecSession SpecNetwork KeyProofs.
Open Scope N_scope.

Definition alice : bytes := map b8 [0x77; 0x07; 0x6d; 0x0a; 0x73; 0x18; 0xa5; 0x7d; 0x3c; 0x16; 0xc1; 0x72; 0x51; 0xb2; 0x66; 0x45;
  0xdf; 0x4c; 0x2f; 0x87; 0xeb; 0xc0; 0x99; 0x2a; 0xb1; 0x77; 0xfb; 0xa5; 0x1d; 0xb9; 0x2c; 0x2a].
Definition alice_public : bytes := map b8 [0x85; 0x20; 0xf0; 0x09; 0x89; 0x30; 0xa7; 0x54; 0x74; 0x8b; 0x7d; 0xdc; 0xb4; 0x3e; 0xf7; 0x5a;
  0x0d; 0xbf; 0x3a; 0x0d; 0x26; 0x38; 0x1a; 0xf4; 0xeb; 0xa4; 0xa9; 0x8e; 0xaa; 0x9b; 0x4e; 0x6a].
Definition bob : bytes := map b8 [0x5d; 0xab; 0x08; 0x7e; 0x62; 0x4a; 0x8a; 0x4b; 0x79; 0xe1; 0x7f; 0x8b; 0x83; 0x80; 0x0e; 0xe6;
  0x6f; 0x3b; 0xb1; 0x29; 0x26; 0x18; 0xb6; 0xfd; 0x1c; 0x2f; 0x8b; 0x27; 0xff; 0x88; 0xe0; 0xeb].
Definition bob_public : bytes := map b8 [0xde; 0x9e; 0xdb; 0x7d; 0x7b; 0x7d; 0xc1; 0xb4; 0xd3; 0x5b; 0x61; 0xc2; 0xec; 0xe4; 0x35; 0x37;
  0x3f; 0x83; 0x43; 0xc8; 0x5b; 0x78; 0x67; 0x4d; 0xad; 0xfc; 0x7e; 0x14; 0x6f; 0x88; 0x2b; 0x4f].
Definition alice_bob : bytes := map b8 [0x4a; 0x5d; 0x9d; 0x5b; 0xa4; 0xce; 0x2d; 0xe1; 0x72; 0x8e; 0x3b; 0xf4; 0x80; 0x35; 0x0f; 0x25;
  0xe0; 0x7e; 0x21; 0xc9; 0x47; 0xd1; 0x9e; 0x33; 0x76; 0xf0; 0x9b; 0x3c; 0x1e; 0x16; 0x17; 0x42].
(** A third pair, for the responder's static key. *)
Definition carol : bytes := repeat x22 32.
Definition carol_public : bytes := map b8 [0x0f; 0xaa; 0x68; 0x4e; 0xd2; 0x88; 0x67; 0xb9; 0x7f; 0x4a; 0x6a; 0x2d; 0xee; 0x5d; 0xf8; 0xce;
  0x97; 0x4e; 0x76; 0xb7; 0x01; 0x8e; 0x3f; 0x22; 0xa1; 0xc4; 0xcf; 0x26; 0x78; 0x57; 0x0f; 0x20].
Definition alice_carol : bytes := map b8 [0xd8; 0xfb; 0xd1; 0x09; 0xc6; 0x32; 0x90; 0x9a; 0xdd; 0xb6; 0xbf; 0x64; 0xf4; 0x33; 0x79; 0x2d;
  0x13; 0x82; 0xef; 0x28; 0x24; 0x93; 0x44; 0x60; 0xb5; 0xfd; 0xc4; 0xf8; 0x47; 0xf8; 0x2a; 0x2b].

Lemma alice_pub : c_pub real_crypto alice = alice_public. Proof. vm_compute. reflexivity. Qed.
Lemma bob_pub : c_pub real_crypto bob = bob_public. Proof. vm_compute. reflexivity. Qed.
Lemma carol_pub : c_pub real_crypto carol = carol_public. Proof. vm_compute. reflexivity. Qed.
Lemma bob_dh : c_dh real_crypto bob alice_public = alice_bob. Proof. vm_compute. reflexivity. Qed.
Lemma carol_dh : c_dh real_crypto carol alice_public = alice_carol. Proof. vm_compute. reflexivity. Qed.

(** The primitives with the two shared secrets looked up. *)
Definition table_crypto : crypto :=
  mkCrypto (c_hash real_crypto) (c_seal real_crypto) (c_open real_crypto)
    (fun a _ => if bytes_eqb a bob then alice_bob else alice_carol) (fun _ => []).
Lemma keys_table : forall C D, c_hash C = c_hash D -> c_seal C = c_seal D -> c_open C = c_open D ->
  forall pro sr er m1 payload,
  c_dh C (kp_private er) (firstn 32 m1) = c_dh D (kp_private er) (firstn 32 m1) ->
  c_dh C (kp_private sr) (firstn 32 m1) = c_dh D (kp_private sr) (firstn 32 m1) ->
  nx_keys C pro sr er m1 payload = nx_keys D pro sr er m1 payload /\
  nx_transport_keys C pro sr er m1 payload = nx_transport_keys D pro sr er m1 payload.
Proof.
  intros [h1 s1 o1 d1 p1] [h2 s2 o2 d2 p2] H S O pro sr er m1 payload E1 E2. cbn [c_hash c_seal c_open c_dh] in *. subst h2 s2 o2.
  set (C := mkCrypto h1 s1 o1 d1 p1). set (D := mkCrypto h1 s1 o1 d2 p2).
  assert (I : Initialize C false pro sr er = Initialize D false pro sr er) by reflexivity.
  assert (R : forall p, p_re p = None -> ReadMessage C p NX1 m1 = ReadMessage D p NX1 m1) by reflexivity.
  assert (MH : MixHash C = MixHash D) by reflexivity. assert (MK : MixKey C = MixKey D) by reflexivity.
  assert (EH : EncryptAndHash C = EncryptAndHash D) by reflexivity. assert (SP : Split C = Split D) by reflexivity.
  assert (W : forall p, p_initiator p = false -> p_s p = sr -> p_e p = er -> p_re p = Some (firstn 32 m1) ->
    WriteMessage C p NX2 payload = WriteMessage D p NX2 payload).
  { intros [i y ks ke rs re] A1 A2 A3 A4. cbn [p_initiator p_s p_e p_re] in *. subst i ks ke re.
    unfold WriteMessage, NX2.
    cbn [write_tokens dh_token mix_dh with_sym p_initiator p_sym p_s p_e p_rs p_re].
    rewrite MH, MK, EH. change (c_dh C) with d1. change (c_dh D) with d2. rewrite E1.
    destruct (EncryptAndHash D _ (kp_public sr)) as [y' ct].
    cbn [write_tokens dh_token mix_dh with_sym p_initiator p_sym p_s p_e p_rs p_re]. change (c_dh C) with d1. change (c_dh D) with d2.
    rewrite E2. reflexivity. }
  unfold nx_keys, nx_transport_keys. rewrite I, R, SP by reflexivity.
  destruct (ReadMessage D (Initialize D false pro sr er) NX1 m1) as [[p1' pl]|] eqn:RM; [|split; reflexivity].
  rewrite W; [split; reflexivity|..].
  all: revert RM; unfold ReadMessage, NX1; cbn [read_tokens]; destruct (len m1 <? 32); [discriminate|].
  all: cbn [p_sym]; destruct (DecryptAndHash D _ _) as [[y z]|]; [|discriminate]; intro RM; injection RM as <- _; reflexivity.
Qed.
Lemma real_table : forall pro m1 payload, firstn 32 m1 = alice_public ->
  nx_keys real_crypto pro (real_pair carol) (real_pair bob) m1 payload =
  nx_keys table_crypto pro (mkKeypair carol carol_public) (mkKeypair bob bob_public) m1 payload /\
  nx_transport_keys real_crypto pro (real_pair carol) (real_pair bob) m1 payload =
  nx_transport_keys table_crypto pro (mkKeypair carol carol_public) (mkKeypair bob bob_public) m1 payload.
Proof.
  intros pro m1 payload E. unfold real_pair. rewrite bob_pub, carol_pub.
  apply keys_table; try reflexivity; cbn [kp_private]; rewrite E.
  - exact bob_dh.
  - exact carol_dh.
Qed.
Lemma not_in_zeros : forall l, existsb (bytes_eqb zeros32) l = false -> ~ In zeros32 l.
Proof. exact not_in_zero. Qed.
