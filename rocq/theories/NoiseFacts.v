(** * NoiseFacts: lemmas about the model of nx-noise. *)
From Coq Require Import Lia ZifyBool ZifyNat ZifyN.
From Verif Require Import Base SpecWire BaseFacts Noise SpecNoise.
Open Scope N_scope.

Lemma is_zero_key_iff : forall k, is_zero_key k = true <-> k = EMPTY_KEY.
Proof. intro k. apply bytes_eqb_iff. Qed.
Lemma is_zero_key_false : forall k, is_zero_key k = false <-> k <> EMPTY_KEY.
Proof. intro k. rewrite <- is_zero_key_iff. destruct (is_zero_key k); split; congruence. Qed.
Lemma zeros32_eq : zeros32 = EMPTY_KEY. Proof. reflexivity. Qed.
Lemma cs_has_key_iff : forall c, cs_has_key c = true <-> cs_k c <> EMPTY_KEY.
Proof. intro c. unfold cs_has_key. rewrite <- is_zero_key_false. destruct (is_zero_key _); split; auto. Qed.

Lemma firstn_exact : forall A n (l : list A), len l = N.of_nat n -> firstn n l = l.
Proof. intros A n l H. apply firstn_all2. unfold len in H. lia. Qed.
Lemma skipn_exact : forall A n (l : list A), len l = N.of_nat n -> skipn n l = [].
Proof. intros A n l H. apply skipn_all2. unfold len in H. lia. Qed.
Lemma firstn_app_exact : forall A n (a b : list A), len a = N.of_nat n -> firstn n (a ++ b) = a.
Proof. intros A n a b H. unfold len in H. assert (n = length a) as -> by lia. rewrite firstn_app, Nat.sub_diag, firstn_all. cbn. apply app_nil_r. Qed.
Lemma skipn_app_exact : forall A n (a b : list A), len a = N.of_nat n -> skipn n (a ++ b) = b.
Proof. intros A n a b H. unfold len in H. assert (n = length a) as -> by lia. rewrite skipn_app, Nat.sub_diag, skipn_all. reflexivity. Qed.
Lemma len_skipn : forall A n (l : list A), len (skipn n l) = len l - N.of_nat n.
Proof. intros. unfold len. rewrite skipn_length. lia. Qed.
Lemma len_firstn' : forall A n (l : list A), len (firstn n l) = N.min (N.of_nat n) (len l).
Proof. intros. unfold len. rewrite firstn_length. lia. Qed.
Lemma length_len : forall A (l : list A) n, len l = n -> length l = N.to_nat n.
Proof. intros. unfold len in H. lia. Qed.
Lemma app_eq_len : forall A (a b c d : list A), a ++ b = c ++ d -> len a = len c -> a = c /\ b = d.
Proof. intros. apply app_inj_len; assumption. Qed.

(** ** Public keys and hex *)
Lemma forbidden_points : map (fun k => spec_val (wire k)) forbidden_curve_values = low_order_points.
Proof. vm_compute. reflexivity. Qed.

Lemma spec_val_inj : forall a b, len a = len b -> spec_val (wire a) = spec_val (wire b) -> a = b.
Proof.
  intros a b HL H. rewrite <- !of_le_spec_val in H.
  rewrite <- (to_le_of_le a), <- (to_le_of_le b), H. unfold len in HL.
  assert (length a = length b) as -> by lia. reflexivity.
Qed.

Lemma forbidden_len : Forall (fun k => len k = 32) forbidden_curve_values.
Proof. repeat (constructor; [vm_compute; reflexivity|]). constructor. Qed.

Lemma public_key_from_bytes_spec : forall k, len k = 32 ->
  (low_order k /\ public_key_from_bytes k = Err InvalidPublicKeyError) \/
  (~ low_order k /\ public_key_from_bytes k = Ok k).
Proof.
  intros k HL. unfold public_key_from_bytes, low_order. rewrite <- forbidden_points.
  destruct (existsb (bytes_eqb k) forbidden_curve_values) eqn:E; [left|right]; split; try reflexivity.
  - apply existsb_exists in E. destruct E as [x [Hin Hx]]. apply bytes_eqb_iff in Hx. subst x.
    apply (in_map (fun k => spec_val (wire k))). exact Hin.
  - intro H. apply in_map_iff in H. destruct H as [x [Hx Hin]].
    pose proof (proj1 (Forall_forall _ _) forbidden_len x Hin) as Hl. cbn beta in Hl.
    apply spec_val_inj in Hx; [|lia]. subst x.
    assert (existsb (bytes_eqb k) forbidden_curve_values = true).
    { apply existsb_exists. exists k. split; [exact Hin | apply bytes_eqb_refl]. }
    congruence.
Qed.

Lemma public_key_ok : forall k, len k = 32 -> ~ low_order k -> public_key_from_bytes k = Ok k.
Proof. intros k HL HN. destruct (public_key_from_bytes_spec k HL) as [[H _]|[_ H]]; [contradiction|exact H]. Qed.

Lemma public_key_not_panic : forall k, public_key_from_bytes k <> Panic.
Proof. intro k. unfold public_key_from_bytes. destruct (existsb _ _); discriminate. Qed.
Lemma public_key_ok_same : forall k k', public_key_from_bytes k = Ok k' -> k' = k.
Proof. intros k k'. unfold public_key_from_bytes. destruct (existsb _ _); congruence. Qed.

(** ** The mac split *)
Lemma split_mac_app : forall p m, len m = 16 -> split_mac (p ++ m) = Some (p, m).
Proof.
  intros p m H. unfold split_mac. rewrite len_app, H.
  destruct (len p + 16 <? 16) eqn:E; [lia|].
  unfold MAC_LENGTH. rewrite app_length. unfold len in H.
  replace (length p + length m - 16)%nat with (length p) by lia.
  rewrite firstn_app, Nat.sub_diag, firstn_all, skipn_app, Nat.sub_diag, skipn_all. cbn.
  rewrite app_nil_r. reflexivity.
Qed.

Lemma split_16 : forall b : bytes, 16 <= len b -> exists p m, b = p ++ m /\ len m = 16.
Proof.
  intros b H. exists (firstn (length b - 16) b), (skipn (length b - 16) b).
  split; [symmetry; apply firstn_skipn | rewrite len_skipn; unfold len in *; lia].
Qed.

Lemma split_mac_short : forall b, len b < 16 -> split_mac b = None.
Proof. intros b H. unfold split_mac. destruct (len b <? 16) eqn:E; [reflexivity|lia]. Qed.

(** ** Everything that depends on the primitives *)
Section Facts.
Variable C : crypto.

Lemma nonce_get_ok : forall n, n < MAX_NONCE -> nonce_get n = Ok n.
Proof. intros n H. unfold nonce_get. destruct (n =? MAX_NONCE) eqn:E; [lia|reflexivity]. Qed.

Lemma prep_nonce_spec : forall n, prep_nonce n = nonce96 n.
Proof.
  intro n. unfold prep_nonce, nonce96. apply wire_inj.
  rewrite wire_app, wire_to_le. unfold wire. rewrite map_map, map_app. f_equal.
  transitivity (map (fun x => x) (spec_le 8 n)); [symmetry; apply map_id|].
  apply map_ext_in. intros a Ha. rewrite to_N_b8. symmetry. apply N.mod_small.
  unfold spec_le in Ha. apply in_map_iff in Ha. destruct Ha as [i [<- _]].
  apply N.mod_lt. discriminate.
Qed.

Lemma nonce96_inj : forall n m, n < 2 ^ 64 -> m < 2 ^ 64 -> nonce96 n = nonce96 m -> n = m.
Proof.
  intros n m Hn Hm H. rewrite <- !prep_nonce_spec in H. unfold prep_nonce in H.
  apply app_inv_head in H. apply (f_equal of_le) in H.
  rewrite !of_le_to_le in H; [exact H| |]; cbn [N.of_nat Pos.of_succ_nat] in *; assumption.
Qed.

(** Transport encryption and decryption. *)
Definition sealed (k : bytes) (n : N) (ad pt : bytes) : bytes :=
  fst (c_seal C (firstn 32 k) (prep_nonce n) ad pt) ++ snd (c_seal C (firstn 32 k) (prep_nonce n) ad pt).

Lemma write_regular_ok : forall c p m, len m = 16 -> cs_n c < MAX_NONCE -> cs_k c <> EMPTY_KEY ->
  cs_write_message_regular C c (p ++ m) = (mkCS (cs_k c) (cs_n c + 1), sealed (cs_k c) (cs_n c) [] p, Ok tt).
Proof.
  intros c p m Hm Hn Hk. unfold cs_write_message_regular, cs_encrypt_with_ad.
  rewrite split_mac_app, nonce_get_ok, (proj2 (cs_has_key_iff c)) by assumption.
  unfold sealed, from_slice_hashlen. destruct (c_seal _ _ _ _ _) as [ct mac]. reflexivity.
Qed.

Lemma write_regular_cases : forall c b c' b' r, 16 <= len b -> cs_write_message_regular C c b = (c', b', r) ->
  (r = Err ExhaustedNonceError /\ c' = c /\ b' = b /\ cs_n c = MAX_NONCE) \/
  (r = Err EmptyKeyError /\ c' = c /\ b' = b /\ cs_k c = EMPTY_KEY /\ cs_n c <> MAX_NONCE) \/
  (r = Ok tt /\ c' = mkCS (cs_k c) (cs_n c + 1) /\ cs_k c <> EMPTY_KEY /\ cs_n c <> MAX_NONCE /\
   exists p m, b = p ++ m /\ len m = 16 /\ b' = sealed (cs_k c) (cs_n c) [] p).
Proof.
  intros c b c' b' r Hb H. destruct (split_16 b Hb) as [p [m [-> Hm]]].
  unfold cs_write_message_regular, cs_encrypt_with_ad in H. rewrite split_mac_app in H by assumption.
  unfold nonce_get in H. destruct (cs_n c =? MAX_NONCE) eqn:E.
  - injection H as <- <- <-. left. repeat split; try reflexivity. lia.
  - destruct (cs_has_key c) eqn:K.
    + right; right. apply cs_has_key_iff in K. unfold sealed.
      unfold from_slice_hashlen in H.
      destruct (c_seal C (firstn 32 (cs_k c)) (prep_nonce (cs_n c)) [] p) as [ct mac] eqn:S.
      injection H as <- <- <-. repeat split; try assumption; try lia.
      exists p, m. rewrite S. auto.
    + right; left. injection H as <- <- <-. repeat split; try reflexivity; try lia.
      destruct (bytes_eqb (cs_k c) EMPTY_KEY) eqn:E2; [apply bytes_eqb_iff; exact E2|].
      unfold cs_has_key, is_zero_key in K. rewrite E2 in K. discriminate.
Qed.

Lemma read_regular_cases : forall c b c' b' r, 16 <= len b -> cs_read_message_regular C c b = (c', b', r) ->
  (r = Err ExhaustedNonceError /\ c' = c /\ b' = b /\ cs_n c = MAX_NONCE) \/
  (r = Err EmptyKeyError /\ c' = c /\ b' = b /\ cs_k c = EMPTY_KEY /\ cs_n c <> MAX_NONCE) \/
  (r = Err DecryptionError /\ c' = c /\ cs_k c <> EMPTY_KEY /\ cs_n c <> MAX_NONCE /\
   exists ct mac pt, b = ct ++ mac /\ len mac = 16 /\ b' = pt ++ mac /\
     c_open C (firstn 32 (cs_k c)) (prep_nonce (cs_n c)) [] ct mac = (false, pt)) \/
  (r = Ok tt /\ c' = mkCS (cs_k c) (cs_n c + 1) /\ cs_k c <> EMPTY_KEY /\ cs_n c <> MAX_NONCE /\
   exists ct mac pt, b = ct ++ mac /\ len mac = 16 /\ b' = pt ++ mac /\
     c_open C (firstn 32 (cs_k c)) (prep_nonce (cs_n c)) [] ct mac = (true, pt)).
Proof.
  intros c b c' b' r Hb H. destruct (split_16 b Hb) as [p [m [-> Hm]]].
  unfold cs_read_message_regular, cs_decrypt_with_ad in H. rewrite split_mac_app in H by assumption.
  unfold nonce_get in H. destruct (cs_n c =? MAX_NONCE) eqn:E.
  - injection H as <- <- <-. left. repeat split; try reflexivity. lia.
  - destruct (cs_has_key c) eqn:K.
    + apply cs_has_key_iff in K. unfold from_slice_hashlen in H.
      destruct (c_open C (firstn 32 (cs_k c)) (prep_nonce (cs_n c)) [] p m) as [ok pt] eqn:S.
      destruct ok; injection H as <- <- <-; right; right; [right|left];
        repeat split; try assumption; try lia; exists p, m, pt; auto.
    + right; left. injection H as <- <- <-. repeat split; try reflexivity; try lia.
      destruct (bytes_eqb (cs_k c) EMPTY_KEY) eqn:E2; [apply bytes_eqb_iff; exact E2|].
      unfold cs_has_key, is_zero_key in K. rewrite E2 in K. discriminate.
Qed.

Hypothesis OK : crypto_ok C.

Lemma sealed_len : forall k n ad p, len (sealed k n ad p) = len p + 16.
Proof. intros. unfold sealed. rewrite len_app, (seal_ct_len C OK), (seal_mac_len C OK). reflexivity. Qed.

Lemma read_sealed : forall c p, cs_n c < MAX_NONCE -> cs_k c <> EMPTY_KEY ->
  exists mac, len mac = 16 /\ mac = snd (c_seal C (firstn 32 (cs_k c)) (prep_nonce (cs_n c)) [] p) /\
  cs_read_message_regular C c (sealed (cs_k c) (cs_n c) [] p) = (mkCS (cs_k c) (cs_n c + 1), p ++ mac, Ok tt).
Proof.
  intros c p Hn Hk. exists (snd (c_seal C (firstn 32 (cs_k c)) (prep_nonce (cs_n c)) [] p)).
  split; [apply (seal_mac_len C OK)|]. split; [reflexivity|].
  unfold cs_read_message_regular, cs_decrypt_with_ad, sealed.
  rewrite split_mac_app by apply (seal_mac_len C OK).
  rewrite nonce_get_ok, (proj2 (cs_has_key_iff c)) by assumption.
  unfold from_slice_hashlen. rewrite (open_seal C OK). reflexivity.
Qed.

Lemma hash_ctx : forall a b, hash_with_context C a b = c_hash C (a ++ b).
Proof. intros. unfold hash_with_context, from_slice_hashlen. apply firstn_exact, (hash_len C OK). Qed.
Lemma hash_eq : forall a, hash C a = c_hash C a.
Proof. intros. unfold hash, from_slice_hashlen. apply firstn_exact, (hash_len C OK). Qed.

(** ** HMAC and HKDF *)
Lemma xor_into_spec : forall key pad n, (length key <= n)%nat ->
  xor_into (repeat pad n) key = map (fun x => xor_byte pad x) key ++ repeat pad (n - length key).
Proof.
  induction key as [|k key IH]; intros pad n H.
  - cbn [map app length]. rewrite Nat.sub_0_r. destruct n; reflexivity.
  - cbn [length] in H. destruct n as [|n]; [lia|]. cbn [repeat xor_into map app length].
    rewrite IH by lia. reflexivity.
Qed.

Lemma xor_pad_spec : forall key pad, (length key <= 64)%nat ->
  xor_into (repeat (b8 pad) 64) key = xor_all (pad mod 256) (key ++ repeat (b8 0) (64 - length key)%nat).
Proof.
  intros key pad H. rewrite xor_into_spec by exact H. unfold xor_all. rewrite map_app. f_equal.
  - apply map_ext. intro x. unfold xor_byte. rewrite to_N_b8. reflexivity.
  - generalize (64 - length key)%nat. intro n. induction n as [|n IH]; [reflexivity|].
    cbn [repeat map]. rewrite <- IH. f_equal. rewrite to_N_b8. change (0 mod 256) with 0.
    rewrite N.lxor_0_r. apply to_N_inj. rewrite !to_N_b8, N.mod_mod; [reflexivity|discriminate].
Qed.

Lemma hmac_spec : forall key data, len key <= 64 -> hmac C key data = HMAC C key data.
Proof.
  intros key data H. assert (HL : (length key <= 64)%nat) by (unfold len in H; lia).
  unfold hmac, HMAC, BLOCKLEN, HASHLEN.
  change (repeat x36 64) with (repeat (b8 0x36) 64). change (repeat x5c 64) with (repeat (b8 0x5c) 64).
  rewrite !xor_pad_spec by exact HL. rewrite firstn_exact by apply (hash_len C OK). reflexivity.
Qed.

Lemma HMAC_len : forall k d, len (HMAC C k d) = 32.
Proof. intros. apply (hash_len C OK). Qed.
Lemma hmac_len : forall k d, len (hmac C k d) = 32.
Proof. intros. apply (hash_len C OK). Qed.

Lemma hkdf3_spec : forall ck ikm, len ck <= 64 -> hkdf3 C ck ikm = HKDF C ck ikm.
Proof.
  intros ck ikm H. unfold hkdf3, HKDF. rewrite (hmac_spec ck) by exact H.
  rewrite !(hmac_spec (HMAC C ck ikm)) by (rewrite HMAC_len; discriminate).
  unfold HASHLEN. rewrite !firstn_exact by apply HMAC_len. reflexivity.
Qed.
Lemma hkdf2_spec : forall ck ikm, len ck <= 64 -> hkdf2 C ck ikm = fst (HKDF C ck ikm).
Proof.
  intros ck ikm H. rewrite <- hkdf3_spec by exact H. unfold hkdf2, hkdf3. reflexivity.
Qed.
Lemma hkdf2_len : forall ck ikm, len (fst (hkdf2 C ck ikm)) = 32 /\ len (snd (hkdf2 C ck ikm)) = 32.
Proof. intros. unfold hkdf2. cbn [fst snd]. split; apply hmac_len. Qed.

(** ** Handshake encryption *)
Lemma mix_hash_fields : forall s d, ss_cs (mix_hash C s d) = ss_cs s /\ ss_ck (mix_hash C s d) = ss_ck s /\
  ss_h (mix_hash C s d) = c_hash C (ss_h s ++ d).
Proof. intros. unfold mix_hash. cbn [ss_cs ss_ck ss_h]. rewrite hash_ctx. auto. Qed.

Lemma mix_key_n : forall s d, cs_n (ss_cs (mix_key C s d)) = 0.
Proof. intros. unfold mix_key. destruct (hkdf2 _ _ _). reflexivity. Qed.

Lemma enc_cases : forall s p m s' b' r, len m = 16 -> cs_n (ss_cs s) = 0 ->
  encrypt_and_hash C s (p ++ m) = (s', b', r) ->
  (r = Err EmptyKeyError /\ cs_k (ss_cs s) = EMPTY_KEY) \/
  (r = Ok tt /\ cs_k (ss_cs s) <> EMPTY_KEY /\ b' = sealed (cs_k (ss_cs s)) 0 (ss_h s) p /\
   s' = mix_hash C (ss_set_cs s (mkCS (cs_k (ss_cs s)) 1)) b').
Proof.
  intros s p m s' b' r Hm Hn H. unfold encrypt_and_hash in H.
  rewrite split_mac_app in H by exact Hm. rewrite len_app, Hm in H.
  destruct (len p + 16 <? 16) eqn:E; [lia|].
  unfold cs_encrypt_with_ad in H. rewrite Hn, nonce_get_ok in H by reflexivity.
  destruct (cs_has_key (ss_cs s)) eqn:K.
  - right. apply cs_has_key_iff in K. unfold sealed. unfold from_slice_hashlen in H.
    destruct (c_seal C (firstn 32 (cs_k (ss_cs s))) (prep_nonce 0) (ss_h s) p) as [ct mac].
    injection H as <- <- <-. auto.
  - left. injection H as <- <- <-. split; [reflexivity|].
    destruct (bytes_eqb (cs_k (ss_cs s)) EMPTY_KEY) eqn:E2; [apply bytes_eqb_iff; exact E2|].
    unfold cs_has_key, is_zero_key in K. rewrite E2 in K. discriminate.
Qed.

Lemma dec_sealed : forall s p, cs_n (ss_cs s) = 0 -> cs_k (ss_cs s) <> EMPTY_KEY -> len p + 16 <= 2048 ->
  exists mac, len mac = 16 /\
  decrypt_and_hash C s (sealed (cs_k (ss_cs s)) 0 (ss_h s) p) =
  (mix_hash C (ss_set_cs s (mkCS (cs_k (ss_cs s)) 1)) (sealed (cs_k (ss_cs s)) 0 (ss_h s) p), p ++ mac, Ok tt).
Proof.
  intros s p Hn Hk Hp.
  exists (snd (c_seal C (firstn 32 (cs_k (ss_cs s))) (prep_nonce 0) (ss_h s) p)).
  split; [apply (seal_mac_len C OK)|].
  unfold decrypt_and_hash. rewrite sealed_len. destruct (2048 <? len p + 16) eqn:E; [lia|].
  unfold sealed at 1. rewrite split_mac_app by apply (seal_mac_len C OK).
  unfold cs_decrypt_with_ad. rewrite Hn, nonce_get_ok by reflexivity.
  rewrite (proj2 (cs_has_key_iff _)) by exact Hk.
  unfold from_slice_hashlen. rewrite (open_seal C OK). reflexivity.
Qed.

End Facts.
