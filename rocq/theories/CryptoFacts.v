(** * CryptoFacts: the reference primitives satisfy the assumed laws. *)
From Coq Require Import Lia ZifyBool ZifyNat ZifyN.
From Verif Require Import Base SpecWire BaseFacts Noise Crypto SpecNoise.
Open Scope N_scope.

Lemma byte_land : forall b, N.land (Byte.to_N b) (N.ones 8) = Byte.to_N b.
Proof. intro b. rewrite N.land_ones, N.mod_small; [reflexivity | apply to_N_lt]. Qed.

Lemma lxor_bytes_lt : forall a b, N.lxor (Byte.to_N a) (Byte.to_N b) mod 256 = N.lxor (Byte.to_N a) (Byte.to_N b).
Proof.
  intros a b. change 256 with (2 ^ 8). rewrite <- N.land_ones.
  assert (H : forall x y z, N.land (N.lxor x y) z = N.lxor (N.land x z) (N.land y z)).
  { intros x y z. apply N.bits_inj. intro i. rewrite N.land_spec, !N.lxor_spec, !N.land_spec.
    destruct (N.testbit x i), (N.testbit y i), (N.testbit z i); reflexivity. }
  rewrite H, !byte_land. reflexivity.
Qed.

Lemma to_N_xor_byte : forall a b, Byte.to_N (xor_byte a b) = N.lxor (Byte.to_N a) (Byte.to_N b).
Proof. intros. unfold xor_byte. rewrite to_N_b8. apply lxor_bytes_lt. Qed.

Lemma xor_byte_invol : forall a b, xor_byte (xor_byte a b) b = a.
Proof.
  intros. apply to_N_inj. rewrite !to_N_xor_byte, N.lxor_assoc, N.lxor_nilpotent, N.lxor_0_r. reflexivity.
Qed.

Lemma xor_bytes_length : forall a b, (length a <= length b)%nat -> length (xor_bytes a b) = length a.
Proof.
  induction a as [|x a IH]; intros [|y b] H; cbn [length xor_bytes] in *; try lia. rewrite IH; lia.
Qed.

Lemma xor_bytes_invol : forall a b, (length a <= length b)%nat -> xor_bytes (xor_bytes a b) b = a.
Proof.
  induction a as [|x a IH]; intros [|y b] H; cbn [length xor_bytes] in *; try lia; try reflexivity.
  rewrite xor_byte_invol, IH by lia. reflexivity.
Qed.

Lemma flat_map_length : forall A B (f : A -> list B) n l,
  (forall x, length (f x) = n) -> length (flat_map f l) = (length l * n)%nat.
Proof.
  intros A B f n l H. induction l as [|a l IH]; [reflexivity|].
  cbn [flat_map length]. rewrite app_length, H, IH. lia.
Qed.

Lemma blake_blocks_length : forall bs h t, length h = 8%nat -> length (blake_blocks h bs t) = 8%nat.
Proof.
  induction bs as [|b bs IH]; intros h t H; [exact H|].
  cbn [blake_blocks]. destruct bs as [|b' bs'].
  - unfold blake_compress. rewrite map_length, seq_length. reflexivity.
  - apply IH. unfold blake_compress. rewrite map_length, seq_length. reflexivity.
Qed.

Lemma blake2s_len : forall x, len (blake2s x) = 32.
Proof.
  intro x. unfold blake2s, len. rewrite (flat_map_length _ _ _ 4%nat) by (intro; apply length_to_le).
  rewrite blake_blocks_length by reflexivity. reflexivity.
Qed.

Lemma chacha_block_length : forall k c n, length (chacha_block k c n) = 64%nat.
Proof.
  intros. unfold chacha_block.
  rewrite (flat_map_length _ _ _ 4%nat) by (intro; apply length_to_le).
  rewrite seq_length. reflexivity.
Qed.

Lemma keystream_length : forall b k c n, length (keystream b k c n) = (64 * b)%nat.
Proof.
  induction b as [|b IH]; intros; [reflexivity|].
  cbn [keystream]. rewrite app_length, chacha_block_length, IH. lia.
Qed.

Lemma keystream_covers : forall (d : bytes) k c n,
  (length d <= length (keystream (S (Nat.div (length d) 64)) k c n))%nat.
Proof.
  intros. rewrite keystream_length.
  pose proof (Nat.div_mod (length d) 64 ltac:(discriminate)).
  pose proof (Nat.mod_upper_bound (length d) 64 ltac:(discriminate)). lia.
Qed.

Lemma chacha20_length : forall k c n d, length (chacha20 k c n d) = length d.
Proof. intros. apply xor_bytes_length, keystream_covers. Qed.

Lemma chacha20_invol : forall k c n d, chacha20 k c n (chacha20 k c n d) = d.
Proof.
  intros. unfold chacha20 at 1. rewrite chacha20_length. apply xor_bytes_invol, keystream_covers.
Qed.

Lemma real_crypto_ok : crypto_ok real_crypto.
Proof.
  constructor; cbn [real_crypto c_hash c_seal c_open c_dh c_pub aead_seal fst snd]; intros.
  - apply blake2s_len.
  - unfold len. rewrite chacha20_length. reflexivity.
  - unfold aead_tag, poly1305. apply len_to_le.
  - unfold aead_open. rewrite bytes_eqb_refl, chacha20_invol. reflexivity.
  - unfold aead_open in H. destruct (bytes_eqb mac (aead_tag k n ad ct)) eqn:E; [|discriminate].
    injection H as <-. unfold aead_seal. rewrite chacha20_invol.
    apply bytes_eqb_iff in E. rewrite E. reflexivity.
  - unfold aead_open. destruct (bytes_eqb _ _); cbn [snd]; [|reflexivity].
    unfold len. rewrite chacha20_length. reflexivity.
  - unfold x25519.
    destruct (fold_left _ _ _) as [[[[x2 z2] x3] z3] sw]. destruct sw; apply len_to_le.
  - unfold x25519.
    destruct (fold_left _ _ _) as [[[[x2 z2] x3] z3] sw]. destruct sw; apply len_to_le.
Qed.
