(** * LocalsProofs: proofs for C138. *)
From Verif Require Import Base Codec Noise Locals SpecNoise SpecSession SpecIndex SpecLocals CryptoFacts NoiseFacts IndexProofs NoiseSamples.
From Coq Require Import PeanoNat Lia ZifyBool ZifyNat ZifyN.
Local Open Scope N_scope.
Local Open Scope list_scope.

Lemma surjective_pairing_eq : forall (A B : Type) (p : A * B) (a : A) (b : B), fst p = a -> snd p = b -> p = (a, b).
Proof. intros A B [x y] a b E1 E2. cbn [fst snd] in *. subst. reflexivity. Qed.
Arguments surjective_pairing_eq {A B p a b} _ _.

Lemma quad : forall (A B D F : Type) (a a' : A) (b b' : B) (d d' : D) (f f' : F),
  (a, b, d, f) = (a', b', d', f') -> a = a' /\ b = b' /\ d = d' /\ f = f'.
Proof. intros. inversion H. repeat split. Qed.

Lemma drop_drop : forall n m (x : bytes), skipn n (skipn m x) = skipn (m + n) x.
Proof.
  intros n m. revert n. induction m as [|m IH]; intros n x; [reflexivity|].
  destruct x as [|a x]; [rewrite !skipn_nil; reflexivity|]. cbn [skipn Nat.add]. apply IH.
Qed.

Section WithC.
Variable C : crypto.

(** ** The results are those of Noise.v *)
Lemma hkdf_l_2 : forall ck ikm, exists l, hkdf_l C ck ikm 2 = (fst (hkdf2 C ck ikm), snd (hkdf2 C ck ikm), EMPTY_KEY, l).
Proof. intros. eexists. reflexivity. Qed.
Lemma mix_key_l_same : forall s d, fst (mix_key_l C s d) = mix_key C s d.
Proof. intros. reflexivity. Qed.
Lemma mix_both_l_same : forall s d, fst (mix_key_and_hash_l C s d) = mix_key_and_hash C s d.
Proof. intros. reflexivity. Qed.
Lemma split_l_same : forall s, fst (split_l C s) = split C s.
Proof. intros. reflexivity. Qed.
Lemma init_l_left : forall n, initialize_symmetric_l C n =
  (initialize_symmetric C n, if len n <? 32 then [(init_temp, n ++ zeros (32 - length n))] else []).
Proof. intro n. unfold initialize_symmetric_l, initialize_symmetric. destruct (len n <? 32); reflexivity. Qed.
Lemma enc_l_same : forall s b, fst (encrypt_and_hash_l C s b) = encrypt_and_hash C s b.
Proof.
  intros. unfold encrypt_and_hash_l, encrypt_and_hash. destruct (len b <? 16); [reflexivity|].
  destruct (split_mac b) as [[p m]|]; [|reflexivity].
  destruct (cs_encrypt_with_ad C (ss_cs s) (ss_h s) p) as [[[c ct] tm] r]. destruct r; reflexivity.
Qed.
Lemma dec_l_same : forall s b, fst (decrypt_and_hash_l C s b) = decrypt_and_hash C s b.
Proof.
  intros. unfold decrypt_and_hash_l, decrypt_and_hash. destruct (2048 <? len b); [reflexivity|].
  destruct (split_mac b) as [[p m]|]; [|reflexivity].
  destruct (cs_decrypt_with_ad C (ss_cs s) (ss_h s) p m) as [[c ct] r].
  rewrite firstn_app, Nat.sub_diag, firstn_all, firstn_O, app_nil_r. destruct r; reflexivity.
Qed.
Lemma write_l_same : forall c b, fst (cs_write_message_regular_l C c b) = cs_write_message_regular C c b.
Proof.
  intros. unfold cs_write_message_regular_l, cs_write_message_regular. destruct (split_mac b) as [[p m]|]; [|reflexivity].
  destruct (cs_encrypt_with_ad C c [] p) as [[[c' ct] tm] r]. destruct r; reflexivity.
Qed.
Lemma read_l_same : forall c b, fst (cs_read_message_regular_l C c b) = cs_read_message_regular C c b.
Proof.
  intros. unfold cs_read_message_regular_l, cs_read_message_regular. destruct (split_mac b) as [[p m]|]; [|reflexivity].
  destruct (cs_decrypt_with_ad C c [] p m) as [[c' ct] r]. destruct r; reflexivity.
Qed.
Lemma write_b_l_same : forall rnd h b, fst (write_message_b_l C rnd h b) = write_message_b C rnd h b.
Proof.
  intros. unfold write_message_b_l, write_message_b. destruct (len b <? 32); [reflexivity|]. cbv zeta.
  set (h1 := ensure_ephemeral C rnd h).
  rewrite <- (mix_key_l_same (mix_hash C (hs_ss h1) (kp_public (hs_e h1)))).
  destruct (mix_key_l C (mix_hash C (hs_ss h1) (kp_public (hs_e h1))) _) as [ss l1]. cbn [fst].
  destruct (len (skipn DHLEN b) <? 48); [reflexivity|].
  rewrite <- (enc_l_same ss). destruct (encrypt_and_hash_l C ss _) as [[[ss2 ns] r] l2]. cbn [fst]. destruct r; try reflexivity.
  rewrite <- (mix_key_l_same ss2). destruct (mix_key_l C ss2 _) as [ss3 l3]. cbn [fst].
  rewrite <- (enc_l_same ss3). destruct (encrypt_and_hash_l C ss3 _) as [[[ss4 rest] r] l4]. cbn [fst]. destruct r; try reflexivity.
Qed.
Lemma read_b_l_same : forall h b, fst (read_message_b_l C h b) = read_message_b C h b.
Proof.
  intros. unfold read_message_b_l, read_message_b. destruct (len b <? 48); [reflexivity|]. cbv zeta.
  destruct (public_key_from_bytes (from_slice_hashlen (firstn DHLEN b))) as [re|e|]; try reflexivity.
  set (h1 := hs_set_re h re).
  rewrite <- (mix_key_l_same (mix_hash C (hs_ss h1) (firstn DHLEN re))).
  destruct (mix_key_l C (mix_hash C (hs_ss h1) (firstn DHLEN re)) _) as [ss l1]. cbn [fst].
  destruct (len (skipn DHLEN b) <? 48); [reflexivity|].
  rewrite <- (dec_l_same ss). destruct (decrypt_and_hash_l C ss _) as [[[ss2 ns] r] l2]. cbn [fst]. destruct r; try reflexivity.
  destruct (public_key_from_bytes (from_slice_hashlen ns)) as [rs|e|]; try reflexivity.
  rewrite <- (mix_key_l_same ss2). destruct (mix_key_l C ss2 _) as [ss3 l3]. cbn [fst].
  rewrite <- (dec_l_same ss3). destruct (decrypt_and_hash_l C ss3 _) as [[[ss4 rest] r] l4]. cbn [fst]. destruct r; try reflexivity.
Qed.
Lemma send_l_same : forall rnd s b, fst (send_message_l C rnd s b) = send_message C rnd s b.
Proof.
  intros. unfold send_message_l. destruct ((len b <? 16) || (MAX_MESSAGE <? len b)) eqn:E.
  { unfold send_message. rewrite E. reflexivity. }
  destruct (se_mc s =? 0) eqn:E0; [reflexivity|]. unfold send_message. rewrite E, E0.
  destruct (se_mc s =? 1).
  { rewrite <- write_b_l_same. destruct (write_message_b_l C rnd (se_hs s) b) as [[[h x] r] l]. cbn [fst].
    destruct r as [[[hh c1] c2]|e|]; reflexivity. }
  destruct (se_i s); rewrite <- write_l_same; destruct (cs_write_message_regular_l C _ b) as [[[c x] r] l]; cbn [fst];
    destruct r; reflexivity.
Qed.
Lemma recv_l_same : forall s b, fst (recv_message_l C s b) = recv_message C s b.
Proof.
  intros. unfold recv_message_l. destruct ((len b <? 16) || (MAX_MESSAGE <? len b)) eqn:E.
  { unfold recv_message. rewrite E. reflexivity. }
  destruct (se_mc s =? 0) eqn:E0; [reflexivity|]. unfold recv_message. rewrite E, E0.
  destruct (se_mc s =? 1).
  { rewrite <- read_b_l_same. destruct (read_message_b_l C (se_hs s) b) as [[[h x] r] l]. cbn [fst].
    destruct r as [[[hh c1] c2]|e|]; reflexivity. }
  destruct (se_i s); rewrite <- read_l_same; destruct (cs_read_message_regular_l C _ b) as [[[c x] r] l]; cbn [fst];
    destruct r; reflexivity.
Qed.
Lemma step_l_same : forall s c, fst (step_l C s c) = step C s c.
Proof. intros s [rnd b|b| | | | |e]; try reflexivity; [apply send_l_same|apply recv_l_same]. Qed.

(** ** What is left *)
Hypothesis HC : crypto_ok C.

Lemma hmac_l_eq : forall key data, len key <= 64 -> hmac_l C key data = (HMAC C key data, pads key).
Proof.
  intros key data H. rewrite <- (hmac_spec C HC) by exact H. unfold hmac_l, hmac, pads, BLOCKLEN.
  change (repeat x36 64) with (repeat (b8 0x36) 64). change (repeat x5c 64) with (repeat (b8 0x5c) 64).
  assert (L : (length key <= 64)%nat) by (unfold len in H; lia). rewrite !xor_pad_spec by exact L. reflexivity.
Qed.
Lemma hkdf_l_eq : forall ck ikm, len ck <= 64 ->
  hkdf_l C ck ikm 2 = (fst (fst (HKDF C ck ikm)), snd (fst (HKDF C ck ikm)), zeros 32, trail2 C ck ikm).
Proof.
  intros ck ikm H. unfold hkdf_l, trail2, HKDF. rewrite hmac_l_eq by exact H.
  assert (T : len (HMAC C ck ikm) <= 64) by (rewrite HMAC_len by exact HC; discriminate).
  rewrite hmac_l_eq by exact T. change (2 =? 1) with false. cbv iota.
  unfold HASHLEN. rewrite firstn_exact by (apply HMAC_len; exact HC).
  rewrite hmac_l_eq by exact T. change (2 =? 2) with true. cbv iota. reflexivity.
Qed.
Lemma hkdf_l_eq3 : forall ck ikm, len ck <= 64 ->
  hkdf_l C ck ikm 3 = (fst (fst (HKDF C ck ikm)), snd (fst (HKDF C ck ikm)), snd (HKDF C ck ikm), trail3 C ck ikm).
Proof.
  intros ck ikm H. unfold hkdf_l, trail3, HKDF. rewrite hmac_l_eq by exact H.
  assert (T : len (HMAC C ck ikm) <= 64) by (rewrite HMAC_len by exact HC; discriminate).
  rewrite hmac_l_eq by exact T. change (3 =? 1) with false. change (3 =? 2) with false. cbv iota.
  unfold HASHLEN. rewrite !firstn_exact by (apply HMAC_len; exact HC).
  rewrite !hmac_l_eq by exact T. cbv iota beta. unfold HASHLEN.
  rewrite !firstn_exact by (apply HMAC_len; exact HC). reflexivity.
Qed.
Lemma hkdf_l_all : forall ck ikm n, len ck <= 64 ->
  let '(a, b, c) := HKDF C ck ikm in
  hkdf_l C ck ikm n =
    if n =? 1 then (a, zeros 32, zeros 32, pads ck ++ pads (HMAC C ck ikm) ++ [(hkdf_temp_key, HMAC C ck ikm)])
    else if n =? 2 then (a, b, zeros 32, trail2 C ck ikm) else (a, b, c, trail3 C ck ikm).
Proof.
  intros ck ikm n H. pose proof (hkdf_l_eq ck ikm H) as E2. pose proof (hkdf_l_eq3 ck ikm H) as E3. destruct (HKDF C ck ikm) as [[a b] c] eqn:K.
  cbn [fst snd] in *. destruct (n =? 1) eqn:N1.
  - unfold hkdf_l. rewrite hmac_l_eq by exact H. rewrite hmac_l_eq by (rewrite HMAC_len by exact HC; discriminate). rewrite N1.
    assert (a = HMAC C (HMAC C ck ikm) [b8 1]) as -> by (unfold HKDF in K; congruence). reflexivity.
  - destruct (n =? 2) eqn:N2; [apply N.eqb_eq in N2; subst n; exact E2|].
    rewrite <- E3. unfold hkdf_l. destruct (hmac_l C ck ikm) as [t l0]. destruct (hmac_l C t [x01]) as [o1 l1]. rewrite N1, N2. reflexivity.
Qed.
Lemma HKDF_lens : forall ck ikm, len (fst (fst (HKDF C ck ikm))) = 32 /\ len (snd (fst (HKDF C ck ikm))) = 32 /\ len (snd (HKDF C ck ikm)) = 32.
Proof. intros. unfold HKDF. cbn [fst snd]. repeat split; apply HMAC_len; exact HC. Qed.

Lemma mix_key_l_eq : forall s d, len (ss_ck s) = 32 -> mix_key_l C s d = (mix_key C s d, trail_mix C (ss_ck s) d).
Proof.
  intros s d H. apply (surjective_pairing_eq (mix_key_l_same s d)). unfold mix_key_l, trail_mix.
  rewrite hkdf_l_eq by lia. destruct (HKDF_lens (ss_ck s) d) as (L1 & L2 & _). destruct (HKDF C (ss_ck s) d) as [[a b] c].
  cbn [fst snd] in *. rewrite firstn_exact by exact L2. reflexivity.
Qed.
Lemma mix_both_l_eq : forall s d, len (ss_ck s) = 32 ->
  mix_key_and_hash_l C s d = (mix_key_and_hash C s d,
    let '(_, b, c) := HKDF C (ss_ck s) d in
    trail3 C (ss_ck s) d ++ [(both_out0, zeros 32); (both_out1, zeros 32); (both_out2, zeros 32); (both_temp_h, b); (both_temp_k, c)]).
Proof.
  intros s d H. apply (surjective_pairing_eq (mix_both_l_same s d)). unfold mix_key_and_hash_l.
  rewrite hkdf_l_eq3 by lia. destruct (HKDF_lens (ss_ck s) d) as (L1 & L2 & L3). destruct (HKDF C (ss_ck s) d) as [[a b] c].
  cbn [fst snd] in *. rewrite firstn_exact by exact L3. unfold zeroize, len in *.
  replace (length a) with 32%nat by lia. replace (length b) with 32%nat by lia. replace (length c) with 32%nat by lia. reflexivity.
Qed.
Lemma split_l_eq : forall s, len (ss_ck s) = 32 -> split_l C s = (split C s, trail_split C (ss_ck s)).
Proof.
  intros s H. apply (surjective_pairing_eq (split_l_same s)). unfold split_l, trail_split. rewrite hkdf_l_eq by lia. reflexivity.
Qed.
Lemma rekey_l_eq : forall c, cs_rekey_l C c = (cs_rekey C c, [(rekey_in_out, zeros 32)]).
Proof.
  intro c. unfold cs_rekey_l, cs_rekey, zeroize. cbv zeta. do 3 f_equal.
  pose proof (seal_ct_len C HC (cs_k c) (repeat xff 12) [] EMPTY_KEY) as L. change (len EMPTY_KEY) with 32 in L. unfold len in L.
  replace (length (fst (c_seal C (cs_k c) (repeat xff 12) [] EMPTY_KEY))) with 32%nat by lia. reflexivity.
Qed.

Lemma mix_key_ck : forall s d, len (ss_ck s) = 32 -> ss_ck (mix_key C s d) = next_ck C (ss_ck s) d.
Proof.
  intros s d H. unfold mix_key, next_ck. rewrite (hkdf2_spec C HC) by lia. destruct (HKDF C (ss_ck s) d) as [[a b] c]. reflexivity.
Qed.
Lemma next_ck_len : forall ck d, len (next_ck C ck d) = 32.
Proof. intros. unfold next_ck. apply HKDF_lens. Qed.

(** One encryption and one decryption of the handshake. *)
Lemma enc_l_left : forall s b, 16 <= len b -> exists m,
  snd (encrypt_and_hash_l C s b) = [(encrypt_temp_mac, m)] /\
  ss_ck (fst (fst (fst (encrypt_and_hash_l C s b)))) = ss_ck s /\
  len (snd (fst (fst (encrypt_and_hash_l C s b)))) = len b /\
  (snd (fst (encrypt_and_hash_l C s b)) = Ok tt ->
   m = skipn (length b - 16) (snd (fst (fst (encrypt_and_hash_l C s b))))).
Proof.
  intros s b H. unfold encrypt_and_hash_l. rewrite (proj2 (N.ltb_ge _ _)) by exact H. unfold split_mac.
  rewrite (proj2 (N.ltb_ge _ _)) by exact H. cbv zeta. unfold cs_encrypt_with_ad.
  set (p := firstn (length b - MAC_LENGTH) b). set (m := skipn (length b - MAC_LENGTH) b).
  assert (Lp : length p = (length b - 16)%nat) by (unfold p, MAC_LENGTH; rewrite firstn_length; lia).
  assert (Lm : length m = 16%nat) by (unfold m, MAC_LENGTH; rewrite skipn_length; unfold len in H; lia).
  destruct (nonce_get (cs_n (ss_cs s))) as [n|e|].
  - destruct (cs_has_key (ss_cs s)).
    + pose proof (seal_ct_len C HC (from_slice_hashlen (cs_k (ss_cs s))) (prep_nonce n) (ss_h s) p) as L1.
      pose proof (seal_mac_len C HC (from_slice_hashlen (cs_k (ss_cs s))) (prep_nonce n) (ss_h s) p) as L2.
      destruct (c_seal C _ (prep_nonce n) (ss_h s) p) as [ct mac]. cbn [fst snd] in *.
      exists mac. split; [reflexivity|]. split; [reflexivity|]. split; [unfold len in *; rewrite app_length; lia|].
      intros _. replace (length b - 16)%nat with (length ct) by (unfold len in *; lia).
      rewrite skipn_app, skipn_all, Nat.sub_diag. reflexivity.
    + cbn [fst snd]. eexists. split; [reflexivity|]. split; [reflexivity|]. split; [unfold len in *; rewrite app_length; lia|]. discriminate.
  - cbn [fst snd]. eexists. split; [reflexivity|]. split; [reflexivity|]. split; [unfold len in *; rewrite app_length; lia|]. discriminate.
  - cbn [fst snd]. eexists. split; [reflexivity|]. split; [reflexivity|]. split; [unfold len in *; rewrite app_length; lia|]. discriminate.
Qed.
Lemma dec_l_left : forall s b, snd (fst (decrypt_and_hash_l C s b)) <> Panic ->
  snd (decrypt_and_hash_l C s b) = taken_in b /\
  ss_ck (fst (fst (fst (decrypt_and_hash_l C s b)))) = ss_ck s /\
  len (snd (fst (fst (decrypt_and_hash_l C s b)))) = len b.
Proof.
  intros s b. unfold decrypt_and_hash_l. destruct (2048 <? len b); [intro E; elim E; reflexivity|]. cbv zeta.
  unfold split_mac. destruct (N.ltb_spec (len b) 16) as [H|H]; [intro E; elim E; reflexivity|].
  unfold taken_in, zeros, MAC_LENGTH. set (p := firstn (length b - 16) b). set (m := skipn (length b - 16) b).
  assert (Lb : (length p + length m)%nat = length b) by (rewrite <- app_length; unfold p, m; rewrite firstn_skipn; reflexivity).
  unfold cs_decrypt_with_ad.
  destruct (nonce_get (cs_n (ss_cs s))) as [n|e|].
  - destruct (cs_has_key (ss_cs s)).
    + pose proof (open_len C HC (from_slice_hashlen (cs_k (ss_cs s))) (prep_nonce n) (ss_h s) p m) as L1.
      destruct (c_open C _ (prep_nonce n) (ss_h s) p m) as [[] pt]; cbn [fst snd] in *; intros _;
        (split; [reflexivity|]; split; [reflexivity|]; unfold len in *; rewrite app_length; lia).
    + cbn [fst snd]. intros _. split; [reflexivity|]. split; [reflexivity|]. unfold len in *. rewrite app_length. lia.
  - cbn [fst snd]. intros _. split; [reflexivity|]. split; [reflexivity|]. unfold len in *. rewrite app_length. lia.
  - cbn [fst snd]. intro E. elim E. reflexivity.
Qed.

(** The second message, sent. *)
Lemma split_keys : forall s, len (ss_ck s) = 32 -> both_keys C (ss_ck s) (fst (split C s)) (snd (split C s)).
Proof.
  intros s H. unfold both_keys, split. rewrite (hkdf2_spec C HC) by lia. destruct (HKDF_lens (ss_ck s) []) as (L1 & L2 & _).
  destruct (HKDF C (ss_ck s) []) as [[a b] c]. cbn [fst snd] in *. unfold from_slice_hashlen, cs_from_key. cbn [cs_k].
  rewrite !firstn_firstn. change (Nat.min 32 32) with 32%nat. rewrite !firstn_exact by assumption. split; reflexivity.
Qed.
Lemma own_e_eq : forall rnd h, kp_private (hs_e (ensure_ephemeral C rnd h)) = own_e rnd h.
Proof. intros. unfold ensure_ephemeral, own_e, keypair_is_empty, is_zero_key. change EMPTY_KEY with zeros32. destruct (bytes_eqb (kp_private (hs_e h)) zeros32); reflexivity. Qed.

Lemma write_b_left : forall rnd h b h' b' r l, typed_hs h -> 32 <= len b ->
  write_message_b_l C rnd h b = (h', b', r, l) ->
  let d1 := c_dh C (own_e rnd h) (hs_re h) in let d2 := c_dh C (kp_private (hs_s h)) (hs_re h) in
  exists m1 m2 more,
    trail_send C (ss_ck (hs_ss h)) d1 d2 m1 m2 = l ++ more /\
    forall hh c1 c2, r = Ok (hh, c1, c2) ->
      both_keys C (next_ck C (next_ck C (ss_ck (hs_ss h)) d1) d2) c1 c2 /\
      more = [] /\ m1 = skipn 64 (firstn 80 b') /\ m2 = skipn (length b' - 16) b'.
Proof.
  intros rnd h b h' b' r l Ht Hb H d1 d2. revert H. unfold write_message_b_l.
  rewrite (proj2 (N.ltb_ge _ _)) by exact Hb. cbv zeta.
  destruct Ht as (Hss & Hs & He & Hrs & Hre & Hpsk).
  pose proof (own_e_eq rnd h) as E0.
  set (h1 := ensure_ephemeral C rnd h) in *.
  assert (E1 : hs_ss h1 = hs_ss h /\ hs_s h1 = hs_s h /\ hs_re h1 = hs_re h).
  { unfold h1, ensure_ephemeral. destruct (keypair_is_empty (hs_e h)); repeat split. }
  destruct E1 as (E1 & E2 & E3).
  assert (Lpub : len (kp_public (hs_e h1)) = 32).
  { unfold h1, ensure_ephemeral. destruct (keypair_is_empty (hs_e h)); [apply (pub_len C HC)|apply He]. }
  unfold keypair_dh. rewrite E0, E1, E2, E3. fold d1 d2.
  set (ck := ss_ck (hs_ss h)). assert (Lck : len ck = 32) by apply Hss.
  rewrite (mix_key_l_eq (mix_hash C (hs_ss h) (kp_public (hs_e h1)))) by exact Lck.
  change (ss_ck (mix_hash C (hs_ss h) (kp_public (hs_e h1)))) with ck.
  set (ss1 := mix_key C (mix_hash C (hs_ss h) (kp_public (hs_e h1))) d1).
  assert (C1 : ss_ck ss1 = next_ck C ck d1) by (apply mix_key_ck; exact Lck).
  destruct (N.ltb_spec (len (skipn DHLEN b)) 48) as [S|S].
  { intro H. apply quad in H. destruct H as (<- & <- & <- & <-). exists [], []. eexists. split; [reflexivity|]. discriminate. }
  assert (Lns : len (kp_public (hs_s h) ++ skipn DHLEN (firstn 48 (skipn DHLEN b))) = 48).
  { destruct Hs as [_ Hs]. unfold len in *. rewrite app_length, skipn_length, firstn_length, skipn_length.
    rewrite skipn_length in S. unfold DHLEN in *. lia. }
  set (n0 := kp_public (hs_s h) ++ skipn DHLEN (firstn 48 (skipn DHLEN b))) in *.
  destruct (enc_l_left ss1 n0) as (m1 & El & Ec & Eb & Em); [lia|].
  destruct (encrypt_and_hash_l C ss1 n0) as [[[ss2 ns] r1] l2]. cbn [fst snd] in El, Ec, Eb, Em. subst l2.
  destruct r1 as [[]|e|].
  2,3: intro H; apply quad in H; destruct H as (<- & <- & <- & <-); exists m1, []; eexists;
       split; [unfold trail_send; rewrite <- app_assoc; reflexivity|discriminate].
  specialize (Em eq_refl).
  rewrite (mix_key_l_eq ss2) by (rewrite Ec, C1; apply next_ck_len).
  set (ss3 := mix_key C ss2 d2).
  assert (C3 : ss_ck ss3 = next_ck C (next_ck C ck d1) d2) by (unfold ss3; rewrite mix_key_ck, Ec, C1; [reflexivity|rewrite ?Ec, ?C1; apply next_ck_len]).
  rewrite Ec, C1. set (rest0 := skipn 48 (skipn DHLEN b)).
  destruct (N.ltb_spec (len rest0) 16) as [S2|S2].
  { unfold encrypt_and_hash_l. rewrite (proj2 (N.ltb_lt _ _)) by exact S2. cbv zeta.
    intro H. apply quad in H. destruct H as (<- & <- & <- & <-).
    exists m1. eexists. eexists. split; [|discriminate]. unfold trail_send. rewrite <- !app_assoc. reflexivity. }
  destruct (enc_l_left ss3 rest0) as (m2 & Fl & Fc & Fb & Fm); [exact S2|].
  destruct (encrypt_and_hash_l C ss3 rest0) as [[[ss4 rest] r2] l4]. cbn [fst snd] in Fl, Fc, Fb, Fm. subst l4.
  destruct r2 as [[]|e|].
  2,3: intro H; apply quad in H; destruct H as (<- & <- & <- & <-); exists m1, m2; eexists;
       split; [unfold trail_send; rewrite <- !app_assoc; reflexivity|discriminate].
  specialize (Fm eq_refl).
  rewrite split_l_eq by (rewrite Fc, C3; apply next_ck_len). rewrite Fc, C3.
  pose proof (split_keys ss4) as SK. rewrite Fc, C3 in SK. specialize (SK (next_ck_len _ _)).
  destruct (split C ss4) as [c1 c2]. cbn [fst snd] in SK. intro H. apply quad in H. destruct H as (<- & <- & <- & <-).
  exists m1, m2, []. split; [rewrite app_nil_r; reflexivity|]. intros hh x1 x2 X. injection X as _ <- <-. split; [exact SK|]. split; [reflexivity|].
  assert (N1 : length (kp_public (hs_e h1)) = 32%nat) by (unfold len in Lpub; lia).
  assert (N2 : length ns = 48%nat) by (unfold len in *; lia).
  split.
  - rewrite Em. replace (length n0 - 16)%nat with 32%nat by (unfold len in Lns; lia).
    rewrite firstn_app, N1. rewrite (firstn_all2 (n := 80)) by lia. rewrite firstn_app, N2.
    change (80 - 32 - 48)%nat with 0%nat. rewrite firstn_O, app_nil_r, (firstn_all2 (n := 80 - 32)) by lia.
    rewrite skipn_app, N1, (skipn_all2 (n := 64)) by lia. reflexivity.
  - rewrite Fm. assert (N3 : length rest = length rest0) by (unfold len in *; lia).
    rewrite !app_length, N1, N2, N3. unfold len in S2, Fb.
    rewrite skipn_app, (skipn_all2 (kp_public (hs_e h1))) by lia. rewrite app_nil_l, skipn_app, (skipn_all2 ns) by lia.
    rewrite app_nil_l. f_equal. lia.
Qed.

(** The second message, received. *)
Lemma read_b_left : forall h b h' b' r l, typed_hs h -> r <> Panic -> read_message_b_l C h b = (h', b', r, l) ->
  let d1 := c_dh C (kp_private (hs_e h)) (firstn 32 b) in
  exists d2 more,
    trail_recv C (ss_ck (hs_ss h)) d1 d2 (skipn 32 (firstn 80 b)) (skipn 80 b) = l ++ more /\
    forall hh c1 c2, r = Ok (hh, c1, c2) ->
      both_keys C (next_ck C (next_ck C (ss_ck (hs_ss h)) d1) d2) c1 c2 /\
      more = [] /\ d2 = c_dh C (kp_private (hs_e h)) (hs_rs h').
Proof.
  intros h b h' b' r l Ht Hp H d1. revert H. unfold read_message_b_l.
  destruct (N.ltb_spec (len b) 48) as [S0|S0].
  { intro H. apply quad in H. destruct H as (<- & <- & <- & <-). exists []. eexists. split; [reflexivity|]. discriminate. }
  cbv zeta. assert (L0 : length (firstn DHLEN b) = 32%nat) by (rewrite firstn_length; unfold len, DHLEN in *; lia).
  assert (F0 : from_slice_hashlen (firstn DHLEN b) = firstn 32 b) by (unfold from_slice_hashlen, DHLEN; rewrite firstn_firstn; reflexivity).
  rewrite F0.
  destruct (public_key_from_bytes (firstn 32 b)) as [re|e|] eqn:E.
  2: intro H; apply quad in H; destruct H as (<- & <- & <- & <-); exists []; eexists; split; [reflexivity|]; discriminate.
  2: intro H; apply quad in H; destruct H as (<- & <- & <- & <-); elim Hp; reflexivity.
  assert (re = firstn 32 b).
  { unfold public_key_from_bytes in E. destruct (existsb _ _); [discriminate|]. injection E as <-. reflexivity. }
  subst re. clear E. destruct Ht as (Hss & Hs & He & Hrs & Hre & Hpsk).
  set (ck := ss_ck (hs_ss h)). assert (Lck : len ck = 32) by apply Hss.
  unfold keypair_dh.
  rewrite (mix_key_l_eq (mix_hash C (hs_ss (hs_set_re h (firstn 32 b))) (firstn DHLEN (firstn 32 b)))) by exact Lck.
  change (ss_ck (mix_hash C (hs_ss (hs_set_re h (firstn 32 b))) (firstn DHLEN (firstn 32 b)))) with ck.
  change (c_dh C (kp_private (hs_e (hs_set_re h (firstn 32 b)))) (firstn 32 b)) with d1.
  set (ss1 := mix_key C (mix_hash C (hs_ss (hs_set_re h (firstn 32 b))) (firstn DHLEN (firstn 32 b))) d1).
  assert (C1 : ss_ck ss1 = next_ck C ck d1) by (apply mix_key_ck; exact Lck).
  destruct (N.ltb_spec (len (skipn DHLEN b)) 48) as [S|S].
  { intro H. apply quad in H. destruct H as (<- & <- & <- & <-). exists []. eexists. split; [reflexivity|]. discriminate. }
  assert (P1 : firstn 48 (skipn DHLEN b) = skipn 32 (firstn 80 b)) by (rewrite skipn_firstn_comm; reflexivity).
  assert (P2 : skipn 48 (skipn DHLEN b) = skipn 80 b) by (rewrite drop_drop; reflexivity).
  rewrite P1, P2. set (p1 := skipn 32 (firstn 80 b)). set (p2 := skipn 80 b).
  pose proof (dec_l_left ss1 p1) as D1.
  destruct (decrypt_and_hash_l C ss1 p1) as [[[ss2 ns] r1] l2]. cbn [fst snd] in D1.
  destruct r1 as [[]|e|].
  3: intro H; apply quad in H; destruct H as (<- & <- & <- & <-); elim Hp; reflexivity.
  2: { intro H. apply quad in H. destruct H as (<- & <- & <- & <-). destruct D1 as (El & Ec & Eb); [discriminate|]. subst l2. exists []. eexists.
       split; [unfold trail_recv; rewrite <- app_assoc; reflexivity|discriminate]. }
  destruct D1 as (El & Ec & Eb); [discriminate|]. subst l2.
  destruct (public_key_from_bytes (from_slice_hashlen ns)) as [rs|e|].
  3: intro H; apply quad in H; destruct H as (<- & <- & <- & <-); elim Hp; reflexivity.
  2: { intro H. apply quad in H. destruct H as (<- & <- & <- & <-). exists []. eexists.
       split; [unfold trail_recv; rewrite <- app_assoc; reflexivity|discriminate]. }
  rewrite (mix_key_l_eq ss2) by (rewrite Ec, C1; apply next_ck_len).
  set (d2 := c_dh C (kp_private (hs_e (hs_set_rs (hs_set_re h (firstn 32 b)) rs))) rs).
  set (ss3 := mix_key C ss2 d2).
  assert (C3 : ss_ck ss3 = next_ck C (next_ck C ck d1) d2) by (unfold ss3; rewrite mix_key_ck, Ec, C1; [reflexivity|rewrite ?Ec, ?C1; apply next_ck_len]).
  rewrite Ec, C1.
  pose proof (dec_l_left ss3 p2) as D.
  destruct (decrypt_and_hash_l C ss3 p2) as [[[ss4 rest] r2] l4]. cbn [fst snd] in D.
  destruct r2 as [[]|e|].
  3: intro H; apply quad in H; destruct H as (<- & <- & <- & <-); elim Hp; reflexivity.
  - destruct D as (Fl & Fc & Fb); [discriminate|]. subst l4.
    rewrite split_l_eq by (rewrite Fc, C3; apply next_ck_len). rewrite Fc, C3.
    pose proof (split_keys ss4) as SK. rewrite Fc, C3 in SK. specialize (SK (next_ck_len _ _)).
    destruct (split C ss4) as [c1 c2]. cbn [fst snd] in SK. intro H. apply quad in H. destruct H as (<- & <- & <- & <-).
    exists d2, []. split; [rewrite app_nil_r; reflexivity|]. intros hh x1 x2 X. injection X as _ <- <-. split; [exact SK|]. split; reflexivity.
  - intro H. apply quad in H. destruct H as (<- & <- & <- & <-). destruct D as (Fl & Fc & Fb); [discriminate|]. subst l4.
    exists d2. eexists. split; [unfold trail_recv; rewrite <- !app_assoc; reflexivity|discriminate].
Qed.

(** A panic in the second message received. *)
Lemma dec_l_panic : forall s b, snd (fst (decrypt_and_hash_l C s b)) = Panic ->
  (len b < 16 \/ 2048 < len b) /\
  snd (decrypt_and_hash_l C s b) = [(decrypt_temp, if 2048 <? len b then zeros (N.to_nat 2048) else b ++ zeros (N.to_nat 2048 - length b))].
Proof.
  intros s b. unfold decrypt_and_hash_l. destruct (N.ltb_spec 2048 (len b)) as [L|L]; [intros _; split; [right; exact L|reflexivity]|]. cbv zeta.
  unfold split_mac. destruct (N.ltb_spec (len b) 16) as [H|H]; [intros _; split; [left; exact H|reflexivity]|].
  unfold cs_decrypt_with_ad, nonce_get. destruct (_ =? MAX_NONCE); [discriminate|]. destruct (cs_has_key _); [|discriminate].
  destruct (c_open C _ _ _ _ _) as [[] pt]; discriminate.
Qed.
Lemma read_b_panic : forall h b h' b' l, typed_hs h -> read_message_b_l C h b = (h', b', Panic, l) ->
  let d1 := c_dh C (kp_private (hs_e h)) (firstn 32 b) in
  exists d2, (80 <= len b < 96 \/ 2128 < len b) /\
    l = trail_mix C (ss_ck (hs_ss h)) d1 ++ taken_in (skipn 32 (firstn 80 b)) ++ trail_mix C (next_ck C (ss_ck (hs_ss h)) d1) d2 ++
        [(decrypt_temp, if 2128 <? len b then zeros (N.to_nat 2048) else skipn 80 b ++ zeros (N.to_nat 2048 - (length b - 80)))].
Proof.
  intros h b h' b' l Ht H d1. revert H. unfold read_message_b_l.
  destruct (N.ltb_spec (len b) 48) as [S0|S0]; [discriminate|].
  cbv zeta. assert (L0 : length (firstn DHLEN b) = 32%nat) by (rewrite firstn_length; unfold len, DHLEN in *; lia).
  assert (F0 : from_slice_hashlen (firstn DHLEN b) = firstn 32 b) by (unfold from_slice_hashlen, DHLEN; rewrite firstn_firstn; reflexivity).
  rewrite F0.
  destruct (public_key_from_bytes (firstn 32 b)) as [re|e|] eqn:E; [|discriminate|unfold public_key_from_bytes in E; destruct (existsb _ _); discriminate E].
  assert (re = firstn 32 b).
  { unfold public_key_from_bytes in E. destruct (existsb _ _); [discriminate|]. injection E as <-. reflexivity. }
  subst re. clear E. destruct Ht as (Hss & Hs & He & Hrs & Hre & Hpsk).
  set (ck := ss_ck (hs_ss h)). assert (Lck : len ck = 32) by apply Hss.
  unfold keypair_dh.
  rewrite (mix_key_l_eq (mix_hash C (hs_ss (hs_set_re h (firstn 32 b))) (firstn DHLEN (firstn 32 b)))) by exact Lck.
  change (ss_ck (mix_hash C (hs_ss (hs_set_re h (firstn 32 b))) (firstn DHLEN (firstn 32 b)))) with ck.
  change (c_dh C (kp_private (hs_e (hs_set_re h (firstn 32 b)))) (firstn 32 b)) with d1.
  set (ss1 := mix_key C (mix_hash C (hs_ss (hs_set_re h (firstn 32 b))) (firstn DHLEN (firstn 32 b))) d1).
  assert (C1 : ss_ck ss1 = next_ck C ck d1) by (apply mix_key_ck; exact Lck).
  destruct (N.ltb_spec (len (skipn DHLEN b)) 48) as [S|S]; [discriminate|].
  assert (P1 : firstn 48 (skipn DHLEN b) = skipn 32 (firstn 80 b)) by (rewrite skipn_firstn_comm; reflexivity).
  assert (P2 : skipn 48 (skipn DHLEN b) = skipn 80 b) by (rewrite drop_drop; reflexivity).
  assert (L80 : (80 <= length b)%nat) by (unfold len, DHLEN in S; rewrite skipn_length in S; lia).
  rewrite P1, P2. set (p1 := skipn 32 (firstn 80 b)). set (p2 := skipn 80 b).
  assert (Lp1 : len p1 = 48) by (unfold p1, len; rewrite skipn_length, firstn_length; lia).
  assert (Lp2 : length p2 = (length b - 80)%nat) by (unfold p2; apply skipn_length).
  pose proof (dec_l_left ss1 p1) as D1. pose proof (dec_l_panic ss1 p1) as X1.
  destruct (decrypt_and_hash_l C ss1 p1) as [[[ss2 ns] r1] l2]. cbn [fst snd] in D1, X1.
  destruct r1 as [[]|e|]; [|discriminate|destruct (X1 eq_refl) as [X _]; lia].
  destruct D1 as (El & Ec & Eb); [discriminate|]. subst l2.
  destruct (public_key_from_bytes (from_slice_hashlen ns)) as [rs|e|] eqn:E; [|discriminate|unfold public_key_from_bytes in E; destruct (existsb _ _); discriminate E].
  rewrite (mix_key_l_eq ss2) by (rewrite Ec, C1; apply next_ck_len).
  set (d2 := c_dh C (kp_private (hs_e (hs_set_rs (hs_set_re h (firstn 32 b)) rs))) rs).
  set (ss3 := mix_key C ss2 d2). rewrite Ec, C1.
  pose proof (dec_l_panic ss3 p2) as X2.
  destruct (decrypt_and_hash_l C ss3 p2) as [[[ss4 rest] r2] l4]. cbn [fst snd] in X2.
  destruct r2 as [[]|e|]; [destruct (split_l C ss4) as [[? ?] ?]; discriminate|discriminate|].
  destruct (X2 eq_refl) as [X ->]. intro H. apply quad in H. destruct H as (_ & _ & _ & <-).
  exists d2. unfold len in X. rewrite Lp2 in X. split; [unfold len; lia|].
  rewrite Lp2. replace (2048 <? len p2) with (2128 <? len b) by (unfold len; rewrite Lp2; lia). reflexivity.
Qed.

(** ** Calls *)
Lemma send_b_left : forall s rnd b s' b' r l, typed s -> se_mc s = 1 -> 32 <= len b <= 65535 ->
  step_l C s (Send rnd b) = (s', b', r, l) ->
  let h := se_hs s in
  let d1 := c_dh C (own_e rnd h) (hs_re h) in let d2 := c_dh C (kp_private (hs_s h)) (hs_re h) in
  exists m1 m2 more,
    trail_send C (ss_ck (hs_ss h)) d1 d2 m1 m2 = l ++ more /\
    (r = Ok tt -> both_keys C (next_ck C (next_ck C (ss_ck (hs_ss h)) d1) d2) (se_cs1 s') (se_cs2 s') /\ more = [] /\ m1 = skipn 64 (firstn 80 b') /\ m2 = skipn (length b' - 16) b').
Proof.
  intros s rnd b s' b' r l Ht Hm Hb H. cbn [step_l] in H. unfold send_message_l in H.
  rewrite (proj2 (N.ltb_ge (len b) 16)) in H by lia. rewrite (proj2 (N.ltb_ge MAX_MESSAGE (len b))) in H by (unfold MAX_MESSAGE; lia).
  cbn [orb] in H. rewrite Hm in H. change (1 =? 0) with false in H. change (1 =? 1) with true in H. cbv iota in H.
  destruct (write_message_b_l C rnd (se_hs s) b) as [[[h' x] r1] l1] eqn:E.
  destruct (write_b_left rnd (se_hs s) b h' x r1 l1 (proj1 Ht) (proj1 Hb) E) as (m1 & m2 & more & E1 & E2).
  destruct r1 as [[[hh c1] c2]|e|]; apply quad in H; destruct H as (<- & <- & <- & <-); exists m1, m2, more; (split; [exact E1|]); try discriminate.
  intros _. apply (E2 _ _ _ eq_refl).
Qed.
Lemma recv_b_left : forall s b s' b' r l, typed s -> se_mc s = 1 -> 16 <= len b <= 65535 -> r <> Panic ->
  step_l C s (Recv b) = (s', b', r, l) ->
  let h := se_hs s in
  let d1 := c_dh C (kp_private (hs_e h)) (firstn 32 b) in
  exists d2 more,
    trail_recv C (ss_ck (hs_ss h)) d1 d2 (skipn 32 (firstn 80 b)) (skipn 80 b) = l ++ more /\
    (r = Ok tt -> both_keys C (next_ck C (next_ck C (ss_ck (hs_ss h)) d1) d2) (se_cs1 s') (se_cs2 s') /\ more = [] /\ d2 = c_dh C (kp_private (hs_e h)) (hs_rs (se_hs s'))).
Proof.
  intros s b s' b' r l Ht Hm Hb Hp H. cbn [step_l] in H. unfold recv_message_l in H.
  rewrite (proj2 (N.ltb_ge (len b) 16)) in H by lia. rewrite (proj2 (N.ltb_ge MAX_MESSAGE (len b))) in H by (unfold MAX_MESSAGE; lia).
  cbn [orb] in H. rewrite Hm in H. change (1 =? 0) with false in H. change (1 =? 1) with true in H. cbv iota in H.
  destruct (read_message_b_l C (se_hs s) b) as [[[h' x] r1] l1] eqn:E.
  assert (P1 : r1 <> Panic). { intro X. subst r1. apply quad in H; destruct H as (<- & <- & <- & <-). apply Hp. reflexivity. }
  destruct (read_b_left (se_hs s) b h' x r1 l1 (proj1 Ht) P1 E) as (d2 & more & E1 & E2).
  destruct r1 as [[[hh c1] c2]|e|]; apply quad in H; destruct H as (<- & <- & <- & <-); exists d2, more; (split; [exact E1|]); try discriminate.
  intros _. apply (E2 _ _ _ eq_refl).
Qed.

Lemma recv_b_panic : forall s b s' b' l, typed s -> se_mc s = 1 -> step_l C s (Recv b) = (s', b', Panic, l) ->
  let h := se_hs s in
  let d1 := c_dh C (kp_private (hs_e h)) (firstn 32 b) in
  exists d2, (80 <= len b < 96 \/ 2128 < len b) /\
    l = trail_mix C (ss_ck (hs_ss h)) d1 ++ taken_in (skipn 32 (firstn 80 b)) ++ trail_mix C (next_ck C (ss_ck (hs_ss h)) d1) d2 ++
        [(decrypt_temp, if 2128 <? len b then zeros (N.to_nat 2048) else skipn 80 b ++ zeros (N.to_nat 2048 - (length b - 80)))].
Proof.
  intros s b s' b' l Ht Hm H. cbn [step_l] in H. unfold recv_message_l in H.
  destruct ((len b <? 16) || (MAX_MESSAGE <? len b)); [discriminate H|].
  rewrite Hm in H. change (1 =? 0) with false in H. change (1 =? 1) with true in H. cbv iota in H.
  destruct (read_message_b_l C (se_hs s) b) as [[[h' x] r1] l1] eqn:E.
  destruct r1 as [[[hh c1] c2]|e|]; [discriminate H|discriminate H|]. apply quad in H; destruct H as (_ & _ & _ & <-).
  exact (read_b_panic (se_hs s) b h' x l1 (proj1 Ht) E).
Qed.

Lemma write_left : forall c b c' b' r l, 16 <= len b -> cs_write_message_regular_l C c b = (c', b', r, l) ->
  l = [(write_temp_mac, match r with Ok _ => skipn (length b - 16) b' | _ => zeros 16 end)].
Proof.
  intros c b c' b' r l Hb H. unfold cs_write_message_regular_l, split_mac in H. rewrite (proj2 (N.ltb_ge _ _)) in H by exact Hb.
  cbv zeta in H. unfold MAC_LENGTH in H. set (p := firstn (length b - 16) b) in *.
  assert (Lp : length p = (length b - 16)%nat) by (unfold p; rewrite firstn_length; lia).
  unfold cs_encrypt_with_ad in H. destruct (nonce_get (cs_n c)) as [n|e|].
  - destruct (cs_has_key c).
    + pose proof (seal_ct_len C HC (from_slice_hashlen (cs_k c)) (prep_nonce n) [] p) as L1.
      destruct (c_seal C _ (prep_nonce n) [] p) as [ct mac]. cbn [fst] in L1. apply quad in H; destruct H as (<- & <- & <- & <-).
      replace (length b - 16)%nat with (length ct) by (unfold len in *; lia).
      rewrite skipn_app, skipn_all, Nat.sub_diag. reflexivity.
    + apply quad in H; destruct H as (<- & <- & <- & <-). reflexivity.
  - apply quad in H; destruct H as (<- & <- & <- & <-). reflexivity.
  - apply quad in H; destruct H as (<- & <- & <- & <-). reflexivity.
Qed.
Lemma read_left : forall c b c' b' r l, 16 <= len b -> cs_read_message_regular_l C c b = (c', b', r, l) ->
  l = [(read_temp_mac, match r with Ok _ => zeros 16 | _ => skipn (length b - 16) b end)].
Proof.
  intros c b c' b' r l Hb H. unfold cs_read_message_regular_l, split_mac in H. rewrite (proj2 (N.ltb_ge _ _)) in H by exact Hb.
  cbv zeta in H. unfold MAC_LENGTH in H. set (m := skipn (length b - 16) b) in *.
  assert (Lm : length m = 16%nat) by (unfold m; rewrite skipn_length; unfold len in Hb; lia).
  destruct (cs_decrypt_with_ad C c [] (firstn (length b - 16) b) m) as [[c1 pt] r1].
  destruct r1 as [u|e|]; apply quad in H; destruct H as (<- & <- & <- & <-); [|reflexivity|reflexivity].
  unfold zeroize. rewrite Lm. reflexivity.
Qed.
Lemma quiet_left : forall s c s' b' r l, se_mc s <> 1 -> step_l C s c = (s', b', r, l) -> l = quiet (se_mc s) c b' r.
Proof.
  intros s c s' b' r l Hm H. destruct c as [rnd b|b| | | | |e]; cbn [step_l quiet] in *.
  - unfold send_message_l, MAX_MESSAGE in H. change 0xFFFF with 65535 in H. rewrite (proj2 (N.eqb_neq _ _) Hm) in H.
    rewrite <- orb_assoc. destruct ((len b <? 16) || (65535 <? len b)) eqn:E.
    { apply quad in H; destruct H as (<- & <- & <- & <-). rewrite orb_true_r. reflexivity. }
    rewrite orb_false_r. destruct (se_mc s =? 0). { injection H as _ <-. reflexivity. }
    apply orb_false_elim in E. destruct E as [E _]. apply N.ltb_ge in E.
    destruct (se_i s).
    + destruct (cs_write_message_regular_l C (se_cs1 s) b) as [[[c1 x] r1] l1] eqn:W. pose proof (write_left _ _ _ _ _ _ E W) as ->.
      destruct r1 as [[]|e|]; apply quad in H; destruct H as (<- & <- & <- & <-); reflexivity.
    + destruct (cs_write_message_regular_l C (se_cs2 s) b) as [[[c1 x] r1] l1] eqn:W. pose proof (write_left _ _ _ _ _ _ E W) as ->.
      destruct r1 as [[]|e|]; apply quad in H; destruct H as (<- & <- & <- & <-); reflexivity.
  - unfold recv_message_l, MAX_MESSAGE in H. change 0xFFFF with 65535 in H. rewrite (proj2 (N.eqb_neq _ _) Hm) in H.
    rewrite <- orb_assoc. destruct ((len b <? 16) || (65535 <? len b)) eqn:E.
    { apply quad in H; destruct H as (<- & <- & <- & <-). rewrite orb_true_r. reflexivity. }
    rewrite orb_false_r. destruct (se_mc s =? 0). { injection H as _ <-. reflexivity. }
    apply orb_false_elim in E. destruct E as [E _]. apply N.ltb_ge in E.
    destruct (se_i s).
    + destruct (cs_read_message_regular_l C (se_cs2 s) b) as [[[c1 x] r1] l1] eqn:W. pose proof (read_left _ _ _ _ _ _ E W) as ->.
      destruct r1 as [[]|e|]; apply quad in H; destruct H as (<- & <- & <- & <-); reflexivity.
    + destruct (cs_read_message_regular_l C (se_cs1 s) b) as [[[c1 x] r1] l1] eqn:W. pose proof (read_left _ _ _ _ _ _ E W) as ->.
      destruct r1 as [[]|e|]; apply quad in H; destruct H as (<- & <- & <- & <-); reflexivity.
  - apply quad in H; destruct H as (<- & <- & <- & <-). reflexivity.
  - apply quad in H; destruct H as (<- & <- & <- & <-). reflexivity.
  - rewrite rekey_l_eq in H. apply quad in H; destruct H as (<- & <- & <- & <-). reflexivity.
  - rewrite rekey_l_eq in H. apply quad in H; destruct H as (<- & <- & <- & <-). reflexivity.
  - apply quad in H; destruct H as (<- & <- & <- & <-). reflexivity.
Qed.

(** ** What is always wiped *)
Definition clean (l : left_over) : Prop := Forall (fun x => wiped (fst x) -> snd x = zeros 32) l.
Ltac not_wiped := let H := fresh in intro H; unfold wiped in H; cbn [In fst] in H; intuition discriminate.
Ltac each := repeat (apply Forall_cons; [cbn [fst snd]; first [intros _; reflexivity|not_wiped]|]); apply Forall_nil.
Lemma clean_app : forall a b, clean a -> clean b -> clean (a ++ b).
Proof. intros a b Ha Hb. apply Forall_app. split; assumption. Qed.
Lemma clean_hkdf : forall ck ikm, clean (snd (hkdf_l C ck ikm 2)) /\ snd (fst (hkdf_l C ck ikm 2)) = zeros 32.
Proof.
  intros ck ikm. unfold hkdf_l, hmac_l. change (2 =? 1) with false. change (2 =? 2) with true. cbv iota. cbn [fst snd app].
  split; [|reflexivity]. unfold clean. each.
Qed.
Lemma clean_mix : forall s d, clean (snd (mix_key_l C s d)).
Proof.
  intros s d. unfold mix_key_l. destruct (clean_hkdf (ss_ck s) d) as [H1 H2].
  destruct (hkdf_l C (ss_ck s) d 2) as [[[a b] c] l]. cbn [fst snd] in *. subst c. apply clean_app; [exact H1|]. unfold clean. each.
Qed.
Lemma clean_split : forall s, clean (snd (split_l C s)).
Proof.
  intros s. unfold split_l. destruct (clean_hkdf (ss_ck s) []) as [H1 H2].
  destruct (hkdf_l C (ss_ck s) [] 2) as [[[a b] c] l]. cbn [fst snd] in *. subst c. apply clean_app; [exact H1|]. unfold clean. each.
Qed.
Lemma clean_enc : forall s b, clean (snd (encrypt_and_hash_l C s b)).
Proof.
  intros. unfold encrypt_and_hash_l. destruct (len b <? 16); [unfold clean; each|]. destruct (split_mac b) as [[p m]|]; [|unfold clean; each].
  destruct (cs_encrypt_with_ad C (ss_cs s) (ss_h s) p) as [[[c ct] tm] r]. destruct r; unfold clean; each.
Qed.
Lemma clean_dec : forall s b, clean (snd (decrypt_and_hash_l C s b)).
Proof.
  intros. unfold decrypt_and_hash_l. destruct (2048 <? len b); [unfold clean; each|]. destruct (split_mac b) as [[p m]|]; [|unfold clean; each].
  destruct (cs_decrypt_with_ad C (ss_cs s) (ss_h s) p m) as [[c ct] r]. destruct r; unfold clean; each.
Qed.
Lemma clean_write_b : forall rnd h b, clean (snd (write_message_b_l C rnd h b)).
Proof.
  intros. unfold write_message_b_l. destruct (len b <? 32); [apply Forall_nil|]. cbv zeta.
  set (h1 := ensure_ephemeral C rnd h).
  match goal with |- context [mix_key_l C ?x ?y] => pose proof (clean_mix x y) as K1; destruct (mix_key_l C x y) as [ss l1] end.
  destruct (len (skipn DHLEN b) <? 48); [exact K1|].
  match goal with |- context [encrypt_and_hash_l C ?x ?y] => pose proof (clean_enc x y) as K2; destruct (encrypt_and_hash_l C x y) as [[[ss2 ns] r] l2] end.
  cbn [snd] in *. destruct r; try (apply clean_app; assumption).
  match goal with |- context [mix_key_l C ?x ?y] => pose proof (clean_mix x y) as K3; destruct (mix_key_l C x y) as [ss3 l3] end.
  match goal with |- context [encrypt_and_hash_l C ?x ?y] => pose proof (clean_enc x y) as K4; destruct (encrypt_and_hash_l C x y) as [[[ss4 rest] r] l4] end.
  cbn [snd] in *. destruct r; try (repeat apply clean_app; assumption).
  pose proof (clean_split ss4) as K5. destruct (split_l C ss4) as [[c1 c2] l5]. cbn [snd] in *. repeat apply clean_app; assumption.
Qed.
Lemma clean_read_b : forall h b, clean (snd (read_message_b_l C h b)).
Proof.
  intros. unfold read_message_b_l. destruct (len b <? 48); [apply Forall_nil|]. cbv zeta.
  destruct (public_key_from_bytes (from_slice_hashlen (firstn DHLEN b))) as [re|e|]; try apply Forall_nil.
  match goal with |- context [mix_key_l C ?x ?y] => pose proof (clean_mix x y) as K1; destruct (mix_key_l C x y) as [ss l1] end.
  destruct (len (skipn DHLEN b) <? 48); [exact K1|].
  match goal with |- context [decrypt_and_hash_l C ?x ?y] => pose proof (clean_dec x y) as K2; destruct (decrypt_and_hash_l C x y) as [[[ss2 ns] r] l2] end.
  cbn [snd] in *. destruct r; try (apply clean_app; assumption).
  destruct (public_key_from_bytes (from_slice_hashlen ns)) as [rs|e|]; try (apply clean_app; assumption).
  match goal with |- context [mix_key_l C ?x ?y] => pose proof (clean_mix x y) as K3; destruct (mix_key_l C x y) as [ss3 l3] end.
  match goal with |- context [decrypt_and_hash_l C ?x ?y] => pose proof (clean_dec x y) as K4; destruct (decrypt_and_hash_l C x y) as [[[ss4 rest] r] l4] end.
  cbn [snd] in *. destruct r; try (repeat apply clean_app; assumption).
  pose proof (clean_split ss4) as K5. destruct (split_l C ss4) as [[c1 c2] l5]. cbn [snd] in *. repeat apply clean_app; assumption.
Qed.
Lemma clean_quiet : forall mc c b r, clean (quiet mc c b r).
Proof.
  intros mc c b r. destruct c as [rnd x|x| | | | |e]; cbn [quiet]; try (unfold clean; each);
    destruct ((mc =? 0) || (len x <? 16) || (65535 <? len x)); unfold clean; each.
Qed.
Lemma step_clean : forall s c n b, In (n, b) (snd (step_l C s c)) -> wiped n -> b = zeros 32.
Proof.
  assert (K : forall s c, clean (snd (step_l C s c))).
  { intros s c. destruct (N.eq_dec (se_mc s) 1) as [E|E].
    2: { destruct (step_l C s c) as [[[s' b'] r] l] eqn:S. cbn [snd]. rewrite (quiet_left _ _ _ _ _ _ E S). apply clean_quiet. }
    destruct c as [rnd b|b| | | | |e]; cbn [step_l].
    - unfold send_message_l. rewrite E. change (1 =? 0) with false. change (1 =? 1) with true. cbv iota.
      destruct ((len b <? 16) || (MAX_MESSAGE <? len b)); [apply Forall_nil|]. pose proof (clean_write_b rnd (se_hs s) b) as K.
      destruct (write_message_b_l C rnd (se_hs s) b) as [[[h x] r] l]. destruct r as [[[hh c1] c2]|e|]; exact K.
    - unfold recv_message_l. rewrite E. change (1 =? 0) with false. change (1 =? 1) with true. cbv iota.
      destruct ((len b <? 16) || (MAX_MESSAGE <? len b)); [apply Forall_nil|]. pose proof (clean_read_b (se_hs s) b) as K.
      destruct (read_message_b_l C (se_hs s) b) as [[[h x] r] l]. destruct r as [[[hh c1] c2]|e|]; exact K.
    - apply Forall_nil.
    - apply Forall_nil.
    - rewrite rekey_l_eq. unfold clean. each.
    - rewrite rekey_l_eq. unfold clean. each.
    - apply Forall_nil. }
  intros s c n b Hi Hw. specialize (K s c). unfold clean in K. rewrite Forall_forall in K. apply (K (n, b) Hi Hw).
Qed.

(** ** The transport keys *)
Lemma in_trail2 : forall ck ikm, In (hkdf_temp_key, HMAC C ck ikm) (trail2 C ck ikm) /\
  In (hkdf_in2, fst (fst (HKDF C ck ikm)) ++ [b8 2]) (trail2 C ck ikm) /\
  snd (fst (HKDF C ck ikm)) = HMAC C (HMAC C ck ikm) (fst (fst (HKDF C ck ikm)) ++ [b8 2]).
Proof.
  intros ck ikm. unfold trail2, HKDF. cbn [fst snd]. split; [|split; [|reflexivity]].
  - do 3 (apply in_or_app; right). left. reflexivity.
  - do 3 (apply in_or_app; right). right. left. reflexivity.
Qed.
Lemma in_split : forall ck x, In x (trail2 C ck []) -> In x (trail_split C ck).
Proof. intros. apply in_or_app. left. assumption. Qed.
Lemma finish_left : forall s c s' b' l, typed s -> se_mc s = 1 -> step_l C s c = (s', b', Ok tt, l) ->
  (exists rnd b, c = Send rnd b) \/ (exists b, c = Recv b) -> keys_left C l s'.
Proof.
  intros s c s' b' l Ht Hm H [(rnd & b & ->)|(b & ->)].
  - assert (L : 32 <= len b <= 65535).
    { cbn [step_l] in H. unfold send_message_l in H. destruct ((len b <? 16) || (MAX_MESSAGE <? len b)) eqn:E; [discriminate|].
      rewrite Hm in H. change (1 =? 0) with false in H. change (1 =? 1) with true in H. cbv iota in H.
      unfold write_message_b_l in H. destruct (N.ltb_spec (len b) 32) as [X|X]; [discriminate|].
      apply orb_false_elim in E. destruct E as [_ E]. apply N.ltb_ge in E. unfold MAX_MESSAGE in E. lia. }
    destruct (send_b_left s rnd b s' b' (Ok tt) l Ht Hm L H) as (m1 & m2 & more & E1 & E2).
    destruct (E2 eq_refl) as ([K1 K2] & -> & _ & _). rewrite app_nil_r in E1. subst l.
    match type of K1 with _ = fst (fst (HKDF C ?ck [])) => destruct (in_trail2 ck []) as (I1 & I2 & I3); set (ck2 := ck) in * end.
    exists (HMAC C ck2 []). rewrite K1, K2. unfold trail_send. fold ck2.
    split; [do 4 (apply in_or_app; right); apply in_split; exact I1|].
    split; [do 4 (apply in_or_app; right); apply in_split; exact I2|exact I3].
  - assert (L : 16 <= len b <= 65535).
    { cbn [step_l] in H. unfold recv_message_l in H. destruct ((len b <? 16) || (MAX_MESSAGE <? len b)) eqn:E; [discriminate|].
      apply orb_false_elim in E. destruct E as [E0 E]. apply N.ltb_ge in E, E0. unfold MAX_MESSAGE in E. lia. }
    destruct (recv_b_left s b s' b' (Ok tt) l Ht Hm L ltac:(discriminate) H) as (d2 & more & E1 & E2).
    destruct (E2 eq_refl) as ([K1 K2] & -> & _). rewrite app_nil_r in E1. subst l.
    match type of K1 with _ = fst (fst (HKDF C ?ck [])) => destruct (in_trail2 ck []) as (I1 & I2 & I3); set (ck2 := ck) in * end.
    exists (HMAC C ck2 []). rewrite K1, K2. unfold trail_recv. fold ck2.
    split; [do 4 (apply in_or_app; right); apply in_split; exact I1|].
    split; [do 4 (apply in_or_app; right); apply in_split; exact I2|exact I3].
Qed.
End WithC.

(** ** A handshake of two parties *)
Lemma typed_x2 : typed (st d_x2) /\ se_mc (st d_x2) = 1.
Proof. vm_compute. repeat split. Qed.
Lemma typed_x1 : typed (st d_x1) /\ se_mc (st d_x1) = 1.
Proof. vm_compute. repeat split. Qed.
Lemma send_gives : forall C rnd s b s' b' r, send_message C rnd s b = (s', b', r) -> exists l, step_l C s (Send rnd b) = (s', b', r, l).
Proof.
  intros C rnd s b s' b' r H. rewrite <- send_l_same in H. cbn [step_l].
  destruct (send_message_l C rnd s b) as [x l]. exists l. cbn [fst] in H. rewrite H. reflexivity.
Qed.
Lemma recv_gives : forall C s b s' b' r, recv_message C s b = (s', b', r) -> exists l, step_l C s (Recv b) = (s', b', r, l).
Proof.
  intros C s b s' b' r H. rewrite <- recv_l_same in H. cbn [step_l].
  destruct (recv_message_l C s b) as [x l]. exists l. cbn [fst] in H. rewrite H. reflexivity.
Qed.
Lemma x3_shape : d_x3 = (st d_x3, out d_x3, Ok tt). Proof. reflexivity. Qed.
Lemma x4_shape : d_x4 = (st d_x4, out d_x4, Ok tt). Proof. reflexivity. Qed.
Lemma x3_left : exists l, step_l demo_crypto (st d_x2) (Send k_er d_b2) = (st d_x3, out d_x3, Ok tt, l).
Proof. apply send_gives. rewrite d_x3_eq. exact x3_shape. Qed.
Lemma panic_gives : forall C s b, res (recv_message C s b) = Panic -> exists s' b' l, step_l C s (Recv b) = (s', b', Panic, l).
Proof.
  intros C s b H. pose proof (step_l_same C s (Recv b)) as S. cbn [step] in S.
  destruct (step_l C s (Recv b)) as [[[s' b'] r] l]. cbn [fst] in S. rewrite <- S in H. cbn [res snd] in H. unfold res in H. cbn [snd] in H. subst r.
  exists s', b', l. reflexivity.
Qed.
Lemma x4_left : exists l, step_l demo_crypto (st d_x1) (Recv (out d_x3)) = (st d_x4, out d_x4, Ok tt, l).
Proof. apply recv_gives. rewrite d_x4_eq. exact x4_shape. Qed.
Lemma x3_keys : is_transport (st d_x3) = true /\ cs_k (se_cs1 (st d_x3)) <> zeros32 /\ length (cs_k (se_cs1 (st d_x3))) = 32%nat.
Proof. vm_compute. repeat split. discriminate. Qed.
Lemma after_recv : forall C s b s' b' r, recv_message C s b = (s', b', r) -> run_calls C s [Recv b] = s'.
Proof. intros C s b s' b' r H. cbn [run_calls step]. rewrite H. reflexivity. Qed.
Lemma d_x2_shape : d_x2 = (st d_x2, out d_x2, snd d_x2). Proof. reflexivity. Qed.
Lemma x2_run : run_calls demo_crypto (init_session demo_crypto false d_prologue d_sr) [Recv (out d_x1)] = st d_x2.
Proof. apply (after_recv _ _ _ _ (out d_x2) (snd d_x2)). fold d_R0; rewrite d_x2_eq. exact d_x2_shape. Qed.
Lemma key_found : exists C i pro kp cs c, crypto_ok C /\ keypair_ok kp /\ Forall typed_call (cs ++ [c]) /\
  let '(s', _, r, l) := step_l C (run_calls C (init_session C i pro kp) cs) c in
  r = Ok tt /\ is_transport s' = true /\ cs_k (se_cs1 s') <> zeros32 /\
  exists n b, In (n, b) l /\ firstn 32 b = cs_k (se_cs1 s').
Proof.
  exists demo_crypto, false, d_prologue, d_sr, [Recv (out d_x1)], (Send k_er d_b2).
  split; [exact demo_ok|]. split; [split; reflexivity|]. split; [repeat constructor|].
  rewrite x2_run. destruct x3_left as [l E]. rewrite E. destruct x3_keys as (K1 & K2 & L).
  split; [reflexivity|]. split; [exact K1|]. split; [exact K2|].
  destruct typed_x2 as [T M].
  destruct (finish_left demo_crypto demo_ok _ _ _ _ _ T M E) as (t & _ & I2 & _). { left. exists k_er, d_b2. reflexivity. }
  exists hkdf_in2. eexists. split; [exact I2|].
  rewrite firstn_app, L, firstn_O, app_nil_r. apply firstn_all2. rewrite L. apply le_n.
Qed.
