(** * IndexProofs: lemmas behind PropIndex.v. *)
From Coq Require Import Lia ZifyBool ZifyNat ZifyN.
From Verif Require Import Base BaseFacts Codec Noise SpecNoise NoiseFacts SpecSession SpecTransport SpecStory SpecPanic PanicProofs SessionProofs Index SpecIndex.
Local Open Scope N_scope.

Lemma slice_to_ok : forall n b, n <= len b -> slice_to n b = Some (firstn (N.to_nat n) b).
Proof. intros n b H. unfold slice_to. replace (n <=? len b) with true by lia. reflexivity. Qed.
Lemma slice_to_all : forall b, slice_to (len b) b = Some b.
Proof. intros b. rewrite slice_to_ok by lia. unfold len. rewrite Nnat.Nat2N.id, firstn_all. reflexivity. Qed.
Lemma slice_to_eq : forall n b, len b = n -> slice_to n b = Some b.
Proof. intros n b <-. apply slice_to_all. Qed.
Lemma copy_ok : forall dst src, len dst = len src -> copy_from dst src = Some src.
Proof. intros dst src H. unfold copy_from. replace (len dst =? len src) with true by lia. reflexivity. Qed.
Lemma split_at_ok : forall n b, n <= len b -> split_at n b = Some (firstn (N.to_nat n) b, skipn (N.to_nat n) b).
Proof. intros n b H. unfold split_at. replace (n <=? len b) with true by lia. reflexivity. Qed.
Lemma len_rep : forall (x : byte) n, len (repeat x n) = N.of_nat n.
Proof. intros. unfold len. rewrite repeat_length. reflexivity. Qed.
Lemma fsh : forall b, 32 <= len b -> from_slice_hashlen_x b = Some (from_slice_hashlen b).
Proof.
  intros b H. unfold from_slice_hashlen_x, EMPTY_KEY. rewrite len_rep, slice_to_ok by lia.
  rewrite copy_ok; [reflexivity|]. rewrite len_rep, len_firstn'. lia.
Qed.
Lemma fsh_len : forall b, 32 <= len b -> len (from_slice_hashlen b) = 32.
Proof. intros b H. unfold from_slice_hashlen. rewrite len_firstn'. lia. Qed.
Lemma prep : forall n, prep_nonce_x n = Some (prep_nonce n).
Proof. intros n. reflexivity. Qed.
Lemma xor_ok : forall key pad, len key <= len pad -> xor_at pad key = Some (xor_into pad key).
Proof.
  induction key as [|k key IH]; intros [|p pad] H; try reflexivity.
  - unfold len in H. cbn [length] in H. lia.
  - cbn [xor_at xor_into]. rewrite IH; [reflexivity|]. unfold len in *. cbn [length] in H. lia.
Qed.
Lemma xor_len : forall pad key, len (xor_into pad key) = len pad.
Proof.
  induction pad as [|p pad IH]; intros [|k key]; try reflexivity.
  cbn [xor_into]. unfold len in *. cbn [length]. specialize (IH key). lia.
Qed.
Lemma split_mac_same : forall pf b, split_mac_x pf b = split_mac b.
Proof.
  intros pf b. unfold split_mac_x, usize_sub, split_mac, MAC_LENGTH.
  destruct (N.ltb_spec (len b) 16) as [L|L].
  - replace (16 <=? len b) with false by lia. destruct pf; [reflexivity|]. unfold split_at.
    replace (len b + 2 ^ 64 - 16 <=? len b) with false by (change (2 ^ 64) with 18446744073709551616; lia). reflexivity.
  - replace (16 <=? len b) with true by lia. rewrite split_at_ok by lia.
    replace (N.to_nat (len b - 16)) with (length b - 16)%nat by (unfold len; lia). reflexivity.
Qed.

Section Ok.
Variable C : crypto.
Hypothesis HC : crypto_ok C.
Variable pf : profile.

Lemma hash_same : forall d, hash_x C d = Some (hash C d) /\ len (hash C d) = 32.
Proof.
  intros d. unfold hash_x, hash. pose proof (hash_len C HC d) as H.
  split; [apply fsh|apply fsh_len]; lia.
Qed.
Lemma hashc_same : forall c d, hash_with_context_x C c d = Some (hash_with_context C c d) /\ len (hash_with_context C c d) = 32.
Proof.
  intros c d. unfold hash_with_context_x, hash_with_context. pose proof (hash_len C HC (c ++ d)) as H.
  split; [apply fsh|apply fsh_len]; lia.
Qed.
Lemma hmac_same : forall key data o, len key <= 64 -> len o = 32 -> hmac_x C key data o = Some (hmac C key data).
Proof.
  intros key data o Hk Ho. unfold hmac_x, hmac, BLOCKLEN, HASHLEN.
  rewrite !xor_ok by (rewrite len_rep; lia).
  rewrite !slice_to_eq with (n := 64) by (rewrite xor_len, len_rep; reflexivity).
  rewrite slice_to_ok by (rewrite (hash_len C HC); lia).
  rewrite copy_ok; [reflexivity|]. rewrite (hash_len C HC). exact Ho.
Qed.
Lemma len32 : len EMPTY_KEY = 32. Proof. reflexivity. Qed.
Lemma tail_byte : forall b v, len b = 32 ->
  match copy_slices b (repeat x00 33) with
  | Some i => match set_at 32 v i with Some i => slice_to 33 i | None => None end
  | None => None
  end = Some (b ++ [v]).
Proof.
  intros b v H. assert (L : length b = 32%nat) by (unfold len in H; lia). unfold copy_slices.
  rewrite slice_to_ok by (rewrite H, len_rep; lia). rewrite copy_ok by (rewrite len_firstn', len_rep; lia).
  rewrite L. change (skipn 32 (repeat x00 33)) with [x00]. unfold set_at.
  replace (32 <? len (b ++ [x00])) with true by (unfold len; rewrite app_length; cbn [length]; lia).
  change (N.to_nat 32) with 32%nat.
  rewrite <- L, firstn_app, firstn_all, Nat.sub_diag. cbn [firstn]. rewrite app_nil_r.
  rewrite skipn_all2 by (rewrite app_length; cbn [length]; lia).
  apply slice_to_eq. unfold len. rewrite app_length. cbn [length]. lia.
Qed.
Lemma front32 : forall b : bytes, len b = 32 -> firstn HASHLEN b = b.
Proof. intros b H. apply firstn_all2. unfold HASHLEN, len in *. lia. Qed.
Lemma hkdf2_same : forall ck ikm o1 o2 o3, len ck <= 64 -> len o1 = 32 -> len o2 = 32 ->
  hkdf_x C ck ikm 2 o1 o2 o3 = Some (fst (hkdf2 C ck ikm), snd (hkdf2 C ck ikm), o3).
Proof.
  intros ck ikm o1 o2 o3 Hc H1 H2. unfold hkdf_x, hkdf2. cbn [fst snd].
  assert (T : len (hmac C ck ikm) = 32) by apply (hmac_len C HC).
  rewrite hmac_same by (try reflexivity; lia). rewrite hmac_same by lia.
  change (2 =? 1) with false. change (2 =? 2) with true. cbv iota zeta.
  set (a := hmac C (hmac C ck ikm) [x01]). assert (A : len a = 32) by apply (hmac_len C HC).
  rewrite slice_to_eq by exact A. pose proof (tail_byte a x02 A) as E. rewrite (front32 a A).
  destruct (copy_slices a (repeat x00 33)) as [i|]; [|discriminate].
  destruct (set_at 32 x02 i) as [i'|]; [|discriminate]. rewrite E, hmac_same by lia. reflexivity.
Qed.
Lemma hkdf_many_same : forall ck ikm n o1 o2 o3, n <> 1 -> n <> 2 -> len ck <= 64 -> len o1 = 32 -> len o2 = 32 -> len o3 = 32 ->
  hkdf_x C ck ikm n o1 o2 o3 = Some (hkdf3 C ck ikm).
Proof.
  intros ck ikm n o1 o2 o3 N1 N2 Hc H1 H2 H3. unfold hkdf_x, hkdf3.
  assert (T : len (hmac C ck ikm) = 32) by apply (hmac_len C HC).
  rewrite hmac_same by (try reflexivity; lia). rewrite hmac_same by lia.
  replace (n =? 1) with false by lia. replace (n =? 2) with false by lia. cbv iota zeta.
  set (a := hmac C (hmac C ck ikm) [x01]). assert (A : len a = 32) by apply (hmac_len C HC).
  rewrite slice_to_eq by exact A. pose proof (tail_byte a x02 A) as E. rewrite (front32 a A).
  destruct (copy_slices a (repeat x00 33)) as [i|]; [|discriminate].
  destruct (set_at 32 x02 i) as [i'|]; [|discriminate]. rewrite E, hmac_same by lia.
  set (b := hmac C (hmac C ck ikm) (a ++ [x02])). assert (B : len b = 32) by apply (hmac_len C HC).
  rewrite slice_to_eq by exact B. pose proof (tail_byte b x03 B) as E'. rewrite (front32 b B).
  destruct (copy_slices b (repeat x00 33)) as [j|]; [|discriminate].
  destruct (set_at 32 x03 j) as [j'|]; [|discriminate]. rewrite E', hmac_same by lia. reflexivity.
Qed.
Lemma hkdf3_same : forall ck ikm o1 o2 o3, len ck <= 64 -> len o1 = 32 -> len o2 = 32 -> len o3 = 32 ->
  hkdf_x C ck ikm 3 o1 o2 o3 = Some (hkdf3 C ck ikm).
Proof. intros. apply hkdf_many_same; assumption || lia. Qed.
Lemma hkdf_exact : forall ck ikm n o1 o2 o3, len ck <= 64 -> len o1 = 32 -> len o2 = 32 -> len o3 = 32 ->
  exists a b c, HKDF C ck ikm = (a, b, c) /\
    hkdf_x C ck ikm n o1 o2 o3 = Some (a, if n =? 1 then o2 else b, if n <=? 2 then if n =? 0 then c else o3 else c).
Proof.
  intros ck ikm n o1 o2 o3 Hc H1 H2 H3.
  pose proof (hkdf3_spec C HC ck ikm Hc) as S3. pose proof (hkdf2_spec C HC ck ikm Hc) as S2.
  destruct (HKDF C ck ikm) as [[a b] c]. exists a, b, c. split; [reflexivity|]. cbn [fst] in S2.
  assert (n = 1 \/ n = 2 \/ n <> 1 /\ n <> 2) as [E|[E|[E1 E2]]] by lia.
  - subst n. change (1 =? 1) with true. change (1 <=? 2) with true. change (1 =? 0) with false. cbv iota.
    unfold hkdf_x. rewrite hmac_same by (try reflexivity; lia).
    rewrite hmac_same by (try assumption; rewrite (hmac_len C HC); lia). change (1 =? 1) with true. cbv iota.
    unfold hkdf2 in S2. injection S2 as <- _. reflexivity.
  - subst n. rewrite hkdf2_same by assumption. rewrite S2. reflexivity.
  - rewrite hkdf_many_same by assumption. rewrite S3. replace (n =? 1) with false by lia.
    destruct (n <=? 2) eqn:L; [|reflexivity]. replace (n =? 0) with true by lia. reflexivity.
Qed.

(** ** state.rs *)
Lemma incr_ok : forall n v, n < 2 ^ 64 -> nonce_get n = Ok v -> v = n /\ increment_x pf n = Some (n + 1) /\ n + 1 < 2 ^ 64.
Proof.
  intros n v H E. unfold nonce_get, MAX_NONCE in E. destruct (N.eqb_spec n (2 ^ 64 - 1)) as [K|K]; [discriminate|].
  injection E as <-. unfold increment_x, usize_add, USIZE_MOD.
  assert (L : n + 1 < 2 ^ 64) by (change (2 ^ 64) with 18446744073709551616 in *; lia).
  replace (n + 1 <? 2 ^ 64) with true by lia. auto.
Qed.
Lemma enc_same : forall c ad pt, typed_cs c ->
  cs_encrypt_with_ad_x C pf c ad pt (repeat x00 16) = cs_encrypt_with_ad C c ad pt /\
  typed_cs (fst (fst (fst (cs_encrypt_with_ad C c ad pt)))) /\
  len (snd (fst (fst (cs_encrypt_with_ad C c ad pt)))) = len pt /\
  len (snd (fst (cs_encrypt_with_ad C c ad pt))) = 16.
Proof.
  intros c ad pt [Hk Hn]. unfold cs_encrypt_with_ad_x, cs_encrypt_with_ad, MAC_LENGTH.
  destruct (nonce_get (cs_n c)) as [v|e|] eqn:G.
  - destruct (incr_ok _ _ Hn G) as (-> & I & L).
    destruct (cs_has_key c).
    + rewrite fsh by lia. rewrite prep, I.
      pose proof (seal_ct_len C HC (from_slice_hashlen (cs_k c)) (prep_nonce (cs_n c)) ad pt) as S1.
      pose proof (seal_mac_len C HC (from_slice_hashlen (cs_k c)) (prep_nonce (cs_n c)) ad pt) as S2.
      destruct (c_seal C _ _ _ _) as [ct mac]. cbn [fst snd] in *. repeat split; assumption.
    + cbn [fst snd]. repeat split; try assumption; reflexivity.
  - cbn [fst snd]. repeat split; try assumption; reflexivity.
  - cbn [fst snd]. repeat split; try assumption; reflexivity.
Qed.
Lemma dec_same : forall c ad ct mac, typed_cs c ->
  cs_decrypt_with_ad_x C pf c ad ct mac = cs_decrypt_with_ad C c ad ct mac /\
  typed_cs (fst (fst (cs_decrypt_with_ad C c ad ct mac))) /\
  len (snd (fst (cs_decrypt_with_ad C c ad ct mac))) = len ct.
Proof.
  intros c ad ct mac [Hk Hn]. unfold cs_decrypt_with_ad_x, cs_decrypt_with_ad.
  destruct (nonce_get (cs_n c)) as [v|e|] eqn:G.
  - destruct (incr_ok _ _ Hn G) as (-> & I & L).
    destruct (cs_has_key c).
    + rewrite fsh by lia. rewrite prep, I.
      pose proof (open_len C HC (from_slice_hashlen (cs_k c)) (prep_nonce (cs_n c)) ad ct mac) as S1.
      destruct (c_open C _ _ _ _ _) as [ok pt]. cbn [fst snd] in *. destruct ok; cbn [fst snd]; repeat split; assumption.
    + cbn [fst snd]. repeat split; assumption.
  - cbn [fst snd]. repeat split; assumption.
  - cbn [fst snd]. repeat split; assumption.
Qed.
Lemma split_lens : forall b x y, split_mac b = Some (x, y) -> b = x ++ y /\ len y = 16.
Proof.
  intros b x y. unfold split_mac, MAC_LENGTH. destruct (N.ltb_spec (len b) 16) as [L|L]; [discriminate|].
  intros [= <- <-]. rewrite firstn_skipn. split; [reflexivity|]. rewrite len_skipn. unfold len in *. lia.
Qed.
Lemma write_same : forall c b, typed_cs c ->
  cs_write_message_regular_x C pf c b = cs_write_message_regular C c b /\
  typed_cs (fst (fst (cs_write_message_regular C c b))).
Proof.
  intros c b H. unfold cs_write_message_regular_x, cs_write_message_regular. rewrite split_mac_same.
  destruct (split_mac b) as [[pt mac]|] eqn:S; [|split; [reflexivity|exact H]].
  destruct (split_lens _ _ _ S) as [_ M]. destruct (enc_same c [] pt H) as (E & T & _ & L). rewrite E.
  destruct (cs_encrypt_with_ad C c [] pt) as [[[c' ct] tm] r]. cbn [fst snd] in *.
  destruct r; [rewrite copy_ok by lia| |]; split; try reflexivity; exact T.
Qed.
Lemma read_same : forall c b, typed_cs c ->
  cs_read_message_regular_x C pf c b = cs_read_message_regular C c b /\
  typed_cs (fst (fst (cs_read_message_regular C c b))).
Proof.
  intros c b H. unfold cs_read_message_regular_x, cs_read_message_regular. rewrite split_mac_same.
  destruct (split_mac b) as [[ct mac]|] eqn:S; [|split; [reflexivity|exact H]].
  destruct (split_lens _ _ _ S) as [_ M]. rewrite copy_ok by (rewrite len_rep; lia).
  destruct (dec_same c [] ct mac H) as (E & T & _). rewrite E.
  destruct (cs_decrypt_with_ad C c [] ct mac) as [[c' pt] r]. cbn [fst snd] in *. split; [reflexivity|exact T].
Qed.
Lemma mix_hash_same : forall s d, typed_ss s -> mix_hash_x C s d = Some (mix_hash C s d) /\ typed_ss (mix_hash C s d).
Proof.
  intros s d (H1 & H2 & H3). unfold mix_hash_x, mix_hash. destruct (hashc_same (ss_h s) d) as [E L]. rewrite E.
  repeat split; try assumption; apply H1.
Qed.
Lemma mix_key_same : forall s d, typed_ss s -> mix_key_x C s d = Some (mix_key C s d) /\ typed_ss (mix_key C s d).
Proof.
  intros s d (H1 & H2 & H3). unfold mix_key_x, mix_key. rewrite hkdf2_same by (try apply len32; lia).
  destruct (hkdf2_len C HC (ss_ck s) d) as [L1 L2]. destruct (hkdf2 C (ss_ck s) d) as [o0 o1]. cbn [fst snd] in *.
  rewrite slice_to_ok by lia. change (N.to_nat 32) with 32%nat.
  rewrite copy_ok by (rewrite len32, len_firstn'; lia).
  repeat split; try assumption; cbn [ss_cs cs_from_key cs_k cs_n].
  - rewrite len_firstn'. lia.
Qed.
Lemma hkdf3_lens : forall ck ikm, let '(a, b, c) := hkdf3 C ck ikm in len a = 32 /\ len b = 32 /\ len c = 32.
Proof. intros. unfold hkdf3. repeat split; apply (hmac_len C HC). Qed.
Lemma mix_both_same : forall s d, typed_ss s ->
  mix_key_and_hash_x C s d = Some (mix_key_and_hash C s d) /\ typed_ss (mix_key_and_hash C s d).
Proof.
  intros s d (H1 & H2 & H3). unfold mix_key_and_hash_x, mix_key_and_hash. rewrite hkdf3_same by (try apply len32; lia).
  pose proof (hkdf3_lens (ss_ck s) d) as L. destruct (hkdf3 C (ss_ck s) d) as [[o0 o1] o2]. destruct L as (L0 & L1 & L2).
  destruct (mix_hash_same (mkSS (ss_cs s) o0 (ss_h s)) o1) as [E T]; [repeat split; try assumption; apply H1|].
  rewrite E. rewrite slice_to_ok by lia. change (N.to_nat 32) with 32%nat.
  rewrite copy_ok by (rewrite len_firstn'; lia). split; [reflexivity|].
  destruct T as (T1 & T2 & T3). repeat split; cbn [ss_cs ss_ck ss_h cs_from_key cs_k cs_n] in *; try assumption.
  rewrite len_firstn'. lia.
Qed.
Lemma set_cs_typed : forall s c, typed_ss s -> typed_cs c -> typed_ss (ss_set_cs s c).
Proof. intros s c (H1 & H2 & H3) H. repeat split; try assumption; apply H. Qed.
Lemma eah_same : forall s b, typed_ss s ->
  encrypt_and_hash_x C pf s b = encrypt_and_hash C s b /\ typed_ss (fst (fst (encrypt_and_hash C s b))) /\
  len (snd (fst (encrypt_and_hash C s b))) = len b.
Proof.
  intros s b H. unfold encrypt_and_hash_x, encrypt_and_hash.
  destruct (len b <? 16); [repeat split; try apply H|]. rewrite split_mac_same.
  destruct (split_mac b) as [[pt mac]|] eqn:S; [|repeat split; apply H].
  destruct (split_lens _ _ _ S) as [B M]. destruct (enc_same (ss_cs s) (ss_h s) pt (proj1 H)) as (E & T & Lc & L). rewrite E.
  destruct (cs_encrypt_with_ad C (ss_cs s) (ss_h s) pt) as [[[c' ct] tm] r]. cbn [fst snd] in *.
  assert (W : typed_ss (ss_set_cs s c')) by (apply set_cs_typed; assumption).
  destruct r as [u|e|].
  - rewrite copy_ok by lia. destruct (mix_hash_same (ss_set_cs s c') (ct ++ tm) W) as [E' T']. rewrite E'.
    split; [reflexivity|]. split; [exact T'|]. cbn [fst snd]. rewrite B, !len_app. lia.
  - split; [reflexivity|]. split; [exact W|]. cbn [fst snd]. rewrite B, !len_app. lia.
  - split; [reflexivity|]. split; [exact W|]. cbn [fst snd]. rewrite B, !len_app. lia.
Qed.
Lemma dah_same : forall s b, typed_ss s ->
  decrypt_and_hash_x C pf s b = decrypt_and_hash C s b /\ typed_ss (fst (fst (decrypt_and_hash C s b))) /\
  len (snd (fst (decrypt_and_hash C s b))) = len b.
Proof.
  intros s b H. unfold decrypt_and_hash_x, decrypt_and_hash. remember (repeat x00 2048) as big eqn:Hbig.
  assert (Lbig : len big = 2048) by (rewrite Hbig; apply len_rep). clear Hbig.
  destruct (N.ltb_spec 2048 (len b)) as [L|L].
  { unfold slice_to. rewrite Lbig. replace (len b <=? 2048) with false by lia. repeat split; apply H. }
  rewrite slice_to_ok by lia. rewrite copy_ok by (rewrite len_firstn'; lia). rewrite split_mac_same.
  destruct (split_mac b) as [[ct mac]|] eqn:S; [|repeat split; apply H].
  destruct (split_lens _ _ _ S) as [B M]. rewrite copy_ok by (rewrite len_rep; lia).
  destruct (dec_same (ss_cs s) (ss_h s) ct mac (proj1 H)) as (E & T & Lp). rewrite E.
  destruct (cs_decrypt_with_ad C (ss_cs s) (ss_h s) ct mac) as [[c' pt] r]. cbn [fst snd] in *.
  assert (W : typed_ss (ss_set_cs s c')) by (apply set_cs_typed; assumption).
  assert (LL : len (pt ++ mac) = len b) by (rewrite B, !len_app; lia).
  destruct r as [u|e|].
  - rewrite LL. rewrite slice_to_ok by (rewrite len_app; lia).
    replace (firstn (N.to_nat (len b)) (b ++ skipn (length b) big)) with b
      by (unfold len; rewrite Nnat.Nat2N.id, firstn_app, firstn_all, Nat.sub_diag; cbn [firstn]; rewrite app_nil_r; reflexivity).
    destruct (mix_hash_same (ss_set_cs s c') b W) as [E' T']. rewrite E'.
    split; [reflexivity|]. split; [exact T'|exact LL].
  - split; [reflexivity|]. split; [exact W|exact LL].
  - split; [reflexivity|]. split; [exact W|exact LL].
Qed.
Lemma split_same : forall s, typed_ss s -> split_x C s = Some (split C s) /\ typed_cs (fst (split C s)) /\ typed_cs (snd (split C s)).
Proof.
  intros s (H1 & H2 & H3). unfold split_x, split. rewrite hkdf2_same by (try apply len32; lia).
  destruct (hkdf2_len C HC (ss_ck s) []) as [L1 L2]. destruct (hkdf2 C (ss_ck s) []) as [a b]. cbn [fst snd] in *.
  assert (P : forall x : bytes, len x = 32 -> len (firstn 32 x) = 32) by (intros x Hx; rewrite len_firstn'; lia).
  rewrite !slice_to_ok by lia. change (N.to_nat 32) with 32%nat.
  rewrite !fsh by (rewrite P; lia). rewrite !copy_ok by (rewrite len32; assumption).
  split; [reflexivity|]. unfold typed_cs, cs_from_key. cbn [cs_k cs_n].
  rewrite !fsh_len by (rewrite P; lia). repeat split; reflexivity.
Qed.
Lemma clear_typed : forall s, typed_ss s -> typed_ss (ss_clear s).
Proof. intros s ([H1 H1'] & H2 & H3). repeat split; assumption. Qed.
Lemma init_sym_same : forall name,
  initialize_symmetric_x C name = Some (initialize_symmetric C name) /\ typed_ss (initialize_symmetric C name).
Proof.
  intros name. unfold initialize_symmetric_x, initialize_symmetric.
  assert (F : forall x, len x = 32 -> from_slice_hashlen x = x).
  { intros x Hx. unfold from_slice_hashlen. apply firstn_all2. unfold len in Hx. lia. }
  assert (K : forall h h', h = Some h' -> len h' = 32 ->
    match h with
    | Some h0 => match from_slice_hashlen_x h0 with Some ck => Some (mkSS cs_new ck h0) | None => None end
    | None => None
    end = Some (mkSS cs_new (from_slice_hashlen h') h') /\ typed_ss (mkSS cs_new (from_slice_hashlen h') h')).
  { intros h h' -> L. rewrite fsh by lia. rewrite (F _ L). repeat split; assumption. }
  apply K.
  - destruct (N.leb_spec (len name) 31) as [L|L].
    + replace (len name <? 32) with true by lia. cbv zeta. rewrite split_at_ok by (rewrite len_rep; lia).
      rewrite copy_ok by (rewrite len_firstn', len_rep; lia).
      assert (Q : skipn (N.to_nat (len name)) (repeat x00 32) = repeat x00 (32 - length name)).
      { unfold len. rewrite Nnat.Nat2N.id. assert (Hn : (length name <= 32)%nat) by (unfold len in L; lia).
        replace 32%nat with (length name + (32 - length name))%nat at 1 by lia.
        rewrite repeat_app, skipn_app, repeat_length, Nat.sub_diag.
        rewrite skipn_all2 by (rewrite repeat_length; lia). reflexivity. }
      rewrite Q. assert (W : len (name ++ repeat x00 (32 - length name)) = 32)
        by (rewrite len_app, len_rep; unfold len in *; lia).
      rewrite fsh by lia. rewrite (F _ W). reflexivity.
    + replace (len name <? 32) with false by lia. destruct (N.eqb_spec (len name) 32) as [E|E].
      * apply fsh. lia.
      * apply hash_same.
  - destruct (N.ltb_spec (len name) 32) as [L|L].
    + rewrite len_app, len_rep. unfold len in *. lia.
    + destruct (N.eqb_spec (len name) 32) as [E|E]; [apply fsh_len; lia|apply hash_same].
Qed.
Lemma init_same : forall i pro kp, keypair_ok kp ->
  init_session_x C i pro kp = Some (init_session C i pro kp) /\ typed (init_session C i pro kp).
Proof.
  intros i pro kp H. unfold init_session_x, initialize_x. destruct (init_sym_same protocol_name) as [E T]. rewrite E.
  destruct (mix_hash_same _ pro T) as [E' T']. rewrite E'.
  split; [destruct i; reflexivity|].
  destruct i; (split; [split; [exact T'|]; split; [exact H|]; repeat split|]; repeat split).
Qed.

Lemma ensure_typed : forall rnd h, len rnd = 32 -> typed_hs h -> typed_hs (ensure_ephemeral C rnd h).
Proof.
  intros rnd h Hr (H1 & H2 & H3 & H4 & H5 & H6). unfold ensure_ephemeral.
  destruct (keypair_is_empty (hs_e h)).
  - split; [exact H1|]. split; [exact H2|]. split; [split; [exact Hr|apply (pub_len C HC)]|]. repeat split; assumption.
  - split; [exact H1|]. split; [exact H2|]. split; [exact H3|]. repeat split; assumption.
Qed.
Lemma set_ss_typed : forall h ss, typed_hs h -> typed_ss ss -> typed_hs (hs_set_ss h ss).
Proof.
  intros h ss (H1 & H2 & H3 & H4 & H5 & H6) H. split; [exact H|]. split; [exact H2|]. split; [exact H3|].
  repeat split; assumption.
Qed.
Lemma set_re_typed : forall h re, typed_hs h -> len re = 32 -> typed_hs (hs_set_re h re).
Proof.
  intros h ss (H1 & H2 & H3 & H4 & H5 & H6) H. split; [exact H1|]. split; [exact H2|]. split; [exact H3|].
  repeat split; assumption.
Qed.
Lemma set_rs_typed : forall h re, typed_hs h -> len re = 32 -> typed_hs (hs_set_rs h re).
Proof.
  intros h ss (H1 & H2 & H3 & H4 & H5 & H6) H. split; [exact H1|]. split; [exact H2|]. split; [exact H3|].
  repeat split; assumption.
Qed.
Lemma pk_len : forall b k, public_key_from_bytes b = Ok k -> k = b.
Proof. intros b k. unfold public_key_from_bytes. destruct (existsb _ _); [discriminate|]. intros [= <-]. reflexivity. Qed.

Lemma wa_same : forall rnd h b, len rnd = 32 -> typed_hs h ->
  write_message_a_x C rnd h b = write_message_a C rnd h b /\ typed_hs (fst (fst (write_message_a C rnd h b))).
Proof.
  intros rnd h b Hr H. unfold write_message_a_x, write_message_a, DHLEN.
  destruct (N.ltb_spec (len b) 32) as [L|L]; [split; [reflexivity|exact H]|].
  pose proof (ensure_typed rnd h Hr H) as T. destruct T as (T1 & T2 & T3 & T4). set (g := ensure_ephemeral C rnd h) in *.
  cbv zeta. rewrite split_at_ok by lia. change (N.to_nat 32) with 32%nat.
  rewrite copy_ok by (rewrite len_firstn', (proj2 T3); lia).
  destruct (mix_hash_same (hs_ss g) (kp_public (hs_e g)) T1) as [E1 W1]. rewrite E1.
  destruct (mix_hash_same _ (skipn 32 b) W1) as [E2 W2]. rewrite E2. split; [reflexivity|].
  apply set_ss_typed; [split; [exact T1|split; [exact T2|split; [exact T3|exact T4]]]|exact W2].
Qed.
Lemma wb_same : forall rnd h b, len rnd = 32 -> typed_hs h ->
  write_message_b_x C pf rnd h b = write_message_b C rnd h b /\ typed_hs (fst (fst (write_message_b C rnd h b))) /\
  (forall hh c1 c2, snd (write_message_b C rnd h b) = Ok (hh, c1, c2) -> len hh = 32 /\ typed_cs c1 /\ typed_cs c2).
Proof.
  intros rnd h b Hr H. unfold write_message_b_x, write_message_b, DHLEN.
  destruct (N.ltb_spec (len b) 32) as [L|L]; [split; [reflexivity|split; [exact H|discriminate]]|].
  pose proof (ensure_typed rnd h Hr H) as T. assert (T0 := T). destruct T as (T1 & T2 & T3 & T4). set (g := ensure_ephemeral C rnd h) in *.
  cbv zeta. rewrite split_at_ok by lia. change (N.to_nat 32) with 32%nat.
  rewrite copy_ok by (rewrite len_firstn', (proj2 T3); lia).
  destruct (mix_hash_same (hs_ss g) (kp_public (hs_e g)) T1) as [E1 W1]. rewrite E1.
  destruct (mix_key_same _ (keypair_dh C (hs_e g) (hs_re g)) W1) as [E2 W2]. rewrite E2.
  remember (skipn 32 b) as rest eqn:Rr. clear Rr.
  destruct (N.ltb_spec (len rest) 48) as [L'|L'];
    [split; [reflexivity|split; [apply set_ss_typed; assumption|discriminate]]|].
  rewrite split_at_ok by lia. change (N.to_nat 48) with 48%nat.
  rewrite slice_to_ok by (rewrite len_firstn'; lia). change (N.to_nat 32) with 32%nat.
  rewrite copy_ok by (rewrite !len_firstn', (proj2 T2); lia).
  set (ns := kp_public (hs_s g) ++ skipn 32 (firstn 48 rest)).
  match type of W2 with typed_ss ?x => set (ss := x) in * end.
  destruct (eah_same ss ns W2) as (E3 & W3 & _). rewrite E3.
  destruct (encrypt_and_hash C ss ns) as [[ss3 ns3] r3]. cbn [fst snd] in *.
  destruct r3 as [u|e|]; [|split; [reflexivity|split; [apply set_ss_typed; assumption|discriminate]]..].
  destruct (mix_key_same _ (keypair_dh C (hs_s g) (hs_re g)) W3) as [E4 W4]. rewrite E4.
  match type of W4 with typed_ss ?x => set (ss4 := x) in * end.
  destruct (eah_same ss4 (skipn 48 rest) W4) as (E5 & W5 & _). rewrite E5.
  destruct (encrypt_and_hash C ss4 (skipn 48 rest)) as [[ss5 rest5] r5]. cbn [fst snd] in *.
  destruct r5 as [u5|e|]; [|split; [reflexivity|split; [apply set_ss_typed; assumption|discriminate]]..].
  assert (Lh : len (ss_h ss5) = 32) by apply W5. rewrite fsh by lia.
  destruct (split_same ss5 W5) as (E6 & X1 & X2). rewrite E6. destruct (split C ss5) as [c1 c2]. cbn [fst snd] in *.
  split; [reflexivity|]. split; [apply set_ss_typed; [assumption|apply clear_typed; assumption]|].
  intros hh d1 d2 [= <- <- <-]. rewrite fsh_len by lia. auto.
Qed.
Lemma ra_same : forall h b, typed_hs h ->
  read_message_a_x C h b = read_message_a C h b /\ typed_hs (fst (fst (read_message_a C h b))).
Proof.
  intros h b H. unfold read_message_a_x, read_message_a, DHLEN.
  destruct (N.ltb_spec (len b) 48) as [L|L]; [split; [reflexivity|exact H]|].
  rewrite split_at_ok by lia. change (N.to_nat 32) with 32%nat.
  assert (F : len (firstn 32 b) = 32) by (rewrite len_firstn'; lia).
  rewrite fsh by lia. destruct (public_key_from_bytes _) as [re|e|] eqn:P; [|split; [reflexivity|exact H]..].
  apply pk_len in P. assert (Lr : len re = 32) by (rewrite P; apply fsh_len; lia).
  pose proof (set_re_typed h re H Lr) as T. cbv zeta. cbn [hs_re hs_set_re].
  rewrite slice_to_ok by lia. change (N.to_nat 32) with 32%nat.
  destruct (mix_hash_same (hs_ss (hs_set_re h re)) (firstn 32 re) (proj1 T)) as [E1 W1]. rewrite E1.
  destruct (mix_hash_same _ (skipn 32 b) W1) as [E2 W2]. rewrite E2. split; [reflexivity|].
  cbn [fst snd]. apply set_ss_typed; assumption.
Qed.
Lemma rb_same : forall h b, typed_hs h ->
  read_message_b_x C pf h b = read_message_b C h b /\ typed_hs (fst (fst (read_message_b C h b))) /\
  (forall hh c1 c2, snd (read_message_b C h b) = Ok (hh, c1, c2) -> len hh = 32 /\ typed_cs c1 /\ typed_cs c2).
Proof.
  intros h b H. unfold read_message_b_x, read_message_b, DHLEN.
  destruct (N.ltb_spec (len b) 48) as [L|L]; [split; [reflexivity|split; [exact H|discriminate]]|].
  rewrite split_at_ok by lia. change (N.to_nat 32) with 32%nat.
  assert (F : len (firstn 32 b) = 32) by (rewrite len_firstn'; lia).
  cbv zeta. rewrite fsh by lia.
  destruct (public_key_from_bytes _) as [re|e|] eqn:P; [|split; [reflexivity|split; [exact H|discriminate]]..].
  apply pk_len in P. assert (Lr : len re = 32) by (rewrite P; apply fsh_len; lia).
  pose proof (set_re_typed h re H Lr) as T. set (g := hs_set_re h re) in *.
  change (hs_re g) with re. rewrite slice_to_ok by lia. change (N.to_nat 32) with 32%nat.
  destruct (mix_hash_same (hs_ss g) (firstn 32 re) (proj1 T)) as [E1 W1]. rewrite E1.
  destruct (mix_key_same _ (keypair_dh C (hs_e g) re) W1) as [E2 W2]. rewrite E2.
  remember (skipn 32 b) as rest eqn:Rr. clear Rr.
  destruct (N.ltb_spec (len rest) 48) as [L'|L'];
    [split; [reflexivity|split; [apply set_ss_typed; assumption|discriminate]]|].
  rewrite split_at_ok by lia. change (N.to_nat 48) with 48%nat.
  match type of W2 with typed_ss ?x => set (ss := x) in * end.
  destruct (dah_same ss (firstn 48 rest) W2) as (E3 & W3 & L3). rewrite E3.
  destruct (decrypt_and_hash C ss (firstn 48 rest)) as [[ss3 rs3] r3]. cbn [fst snd] in *.
  destruct r3 as [u|e|]; [|split; [reflexivity|split; [apply set_ss_typed; assumption|discriminate]]..].
  rewrite len_firstn' in L3. rewrite fsh by lia.
  destruct (public_key_from_bytes (from_slice_hashlen rs3)) as [rs|e|] eqn:P';
    [|split; [reflexivity|split; [apply set_ss_typed; assumption|discriminate]]..].
  apply pk_len in P'. assert (Ls : len rs = 32) by (rewrite P'; apply fsh_len; lia).
  pose proof (set_rs_typed g rs T Ls) as T'. set (g' := hs_set_rs g rs) in *. change (hs_rs g') with rs.
  destruct (mix_key_same _ (keypair_dh C (hs_e g') rs) W3) as [E4 W4]. rewrite E4.
  match type of W4 with typed_ss ?x => set (ss4 := x) in * end.
  destruct (dah_same ss4 (skipn 48 rest) W4) as (E5 & W5 & _). rewrite E5.
  destruct (decrypt_and_hash C ss4 (skipn 48 rest)) as [[ss5 rest5] r5]. cbn [fst snd] in *.
  destruct r5 as [u5|e|]; [|split; [reflexivity|split; [apply set_ss_typed; assumption|discriminate]]..].
  assert (Lh : len (ss_h ss5) = 32) by apply W5. rewrite fsh by lia.
  destruct (split_same ss5 W5) as (E6 & X1 & X2). rewrite E6. destruct (split C ss5) as [c1 c2]. cbn [fst snd] in *.
  split; [reflexivity|]. split; [apply set_ss_typed; [assumption|apply clear_typed; assumption]|].
  intros hh d1 d2 [= <- <- <-]. rewrite fsh_len by lia. auto.
Qed.

(** ** noisesession.rs *)
Lemma set_hs_typed : forall s h, typed s -> typed_hs h -> typed (se_set_hs s h).
Proof. intros s h (H1 & H2 & H3 & H4) H. split; [exact H|]. split; [exact H2|]. split; [exact H3|exact H4]. Qed.
Lemma set1_typed : forall s c, typed s -> typed_cs c -> typed (se_set_cs1 s c).
Proof. intros s h (H1 & H2 & H3 & H4) H. split; [exact H1|]. split; [exact H2|]. split; [exact H|exact H4]. Qed.
Lemma set2_typed : forall s c, typed s -> typed_cs c -> typed (se_set_cs2 s c).
Proof. intros s h (H1 & H2 & H3 & H4) H. split; [exact H1|]. split; [exact H2|]. split; [exact H3|exact H]. Qed.
Lemma incr_typed : forall s, typed s -> typed (se_incr s).
Proof. intros s H. exact H. Qed.
Lemma enter_typed : forall s hh c1 c2, typed s -> len hh = 32 -> typed_cs c1 -> typed_cs c2 -> typed (se_enter_transport s hh c1 c2).
Proof.
  intros s hh c1 c2 ((H1 & H2 & H3 & H4 & H5 & H6) & _) L X1 X2.
  split; [|split; [exact L|split; [exact X1|exact X2]]].
  split; [exact H1|]. repeat split; exact H4.
Qed.
Lemma send_same : forall rnd s b, len rnd = 32 -> typed s ->
  send_message_x C pf rnd s b = send_message C rnd s b /\ typed (st (send_message C rnd s b)).
Proof.
  intros rnd s b Hr H. unfold send_message_x, send_message, st.
  destruct ((len b <? 16) || (MAX_MESSAGE <? len b)); [split; [reflexivity|exact H]|].
  destruct (se_mc s =? 0).
  { destruct (wa_same rnd (se_hs s) b Hr (proj1 H)) as [E T]. rewrite E.
    destruct (write_message_a C rnd (se_hs s) b) as [[h o] r]. cbn [fst snd] in *.
    split; [reflexivity|]. destruct r; cbn [fst]; apply set_hs_typed; assumption. }
  destruct (se_mc s =? 1).
  { destruct (wb_same rnd (se_hs s) b Hr (proj1 H)) as (E & T & K). rewrite E.
    destruct (write_message_b C rnd (se_hs s) b) as [[h o] r]. cbn [fst snd] in *.
    split; [reflexivity|]. destruct r as [[[hh c1] c2]|e|]; cbn [fst]; try (apply set_hs_typed; assumption).
    destruct (K _ _ _ eq_refl) as (K1 & K2 & K3). apply incr_typed, enter_typed; try assumption. apply set_hs_typed; assumption. }
  destruct H as (H1 & H2 & H3 & H4). assert (H : typed s) by (split; [exact H1|split; [exact H2|split; [exact H3|exact H4]]]).
  destruct (se_i s).
  - destruct (write_same (se_cs1 s) b H3) as [E T]. rewrite E.
    destruct (cs_write_message_regular C (se_cs1 s) b) as [[c o] r]. cbn [fst snd] in *.
    split; [reflexivity|]. destruct r; cbn [fst]; apply set1_typed; assumption.
  - destruct (write_same (se_cs2 s) b H4) as [E T]. rewrite E.
    destruct (cs_write_message_regular C (se_cs2 s) b) as [[c o] r]. cbn [fst snd] in *.
    split; [reflexivity|]. destruct r; cbn [fst]; apply set2_typed; assumption.
Qed.
Lemma recv_same : forall s b, typed s ->
  recv_message_x C pf s b = recv_message C s b /\ typed (st (recv_message C s b)).
Proof.
  intros s b H. unfold recv_message_x, recv_message, st.
  destruct ((len b <? 16) || (MAX_MESSAGE <? len b)); [split; [reflexivity|exact H]|].
  destruct (se_mc s =? 0).
  { destruct (ra_same (se_hs s) b (proj1 H)) as [E T]. rewrite E.
    destruct (read_message_a C (se_hs s) b) as [[h o] r]. cbn [fst snd] in *.
    split; [reflexivity|]. destruct r; cbn [fst]; apply set_hs_typed; assumption. }
  destruct (se_mc s =? 1).
  { destruct (rb_same (se_hs s) b (proj1 H)) as (E & T & K). rewrite E.
    destruct (read_message_b C (se_hs s) b) as [[h o] r]. cbn [fst snd] in *.
    split; [reflexivity|]. destruct r as [[[hh c1] c2]|e|]; cbn [fst]; try (apply set_hs_typed; assumption).
    destruct (K _ _ _ eq_refl) as (K1 & K2 & K3). apply incr_typed, enter_typed; try assumption. apply set_hs_typed; assumption. }
  destruct H as (H1 & H2 & H3 & H4). assert (H : typed s) by (split; [exact H1|split; [exact H2|split; [exact H3|exact H4]]]).
  destruct (se_i s).
  - destruct (read_same (se_cs2 s) b H4) as [E T]. rewrite E.
    destruct (cs_read_message_regular C (se_cs2 s) b) as [[c o] r]. cbn [fst snd] in *.
    split; [reflexivity|]. destruct r; cbn [fst]; apply set2_typed; assumption.
  - destruct (read_same (se_cs1 s) b H3) as [E T]. rewrite E.
    destruct (cs_read_message_regular C (se_cs1 s) b) as [[c o] r]. cbn [fst snd] in *.
    split; [reflexivity|]. destruct r; cbn [fst]; apply set1_typed; assumption.
Qed.
Lemma rekey_typed : forall c, typed_cs c -> typed_cs (cs_rekey C c).
Proof. intros c [H1 H2]. split; [|exact H2]. cbn [cs_rekey cs_k]. rewrite (seal_ct_len C HC). reflexivity. Qed.
Lemma step_same : forall s c, typed s -> typed_call c -> step_x C pf s c = step C s c /\ typed (st (step C s c)).
Proof.
  intros s c H Hc. assert (P := H). destruct P as (H1 & H2 & H3 & H4).
  destruct c as [rnd b|b| | | | |e]; cbn [step_x step].
  - apply send_same; assumption.
  - apply recv_same; assumption.
  - split; [reflexivity|]. apply set1_typed; [exact H|]. split; reflexivity.
  - split; [reflexivity|]. apply set2_typed; [exact H|]. split; reflexivity.
  - split; [reflexivity|]. apply set1_typed; [exact H|]. apply rekey_typed, H3.
  - split; [reflexivity|]. apply set1_typed; [exact H|]. apply rekey_typed, H3.
  - split; [reflexivity|]. apply set_hs_typed; [exact H|]. destruct H1 as (G1 & G2 & G3 & G4).
    split; [exact G1|]. split; [exact G2|]. split; [exact Hc|exact G4].
Qed.
Lemma run_same : forall cs s, typed s -> Forall typed_call cs ->
  run_x C pf s cs = (run_calls C s cs, results C s cs) /\ typed (run_calls C s cs).
Proof.
  induction cs as [|c cs IH]; intros s H F; [split; [reflexivity|exact H]|].
  inversion F as [|? ? Fc Fs]; subst. destruct (step_same s c H Fc) as [E T]. cbn [run_x run_calls results]. rewrite E.
  destruct (IH _ T Fs) as [E' T']. unfold st, out, res in *.
  destruct (step C s c) as [[s' b] r]. cbn [fst snd] in *. rewrite E'. split; [reflexivity|exact T'].
Qed.
Lemma history_same : forall i pro kp cs, keypair_ok kp -> Forall typed_call cs ->
  exists s0, init_session_x C i pro kp = Some s0 /\
    run_x C pf s0 cs = (run_calls C (init_session C i pro kp) cs, results C (init_session C i pro kp) cs).
Proof.
  intros i pro kp cs H F. destruct (init_same i pro kp H) as [E T]. exists (init_session C i pro kp).
  split; [exact E|apply run_same; assumption].
Qed.
Lemma panics_only : forall i pro kp cs, keypair_ok kp -> Forall typed_call cs -> exists s0 s g,
  init_session_x C i pro kp = Some s0 /\ fst (run_x C pf s0 cs) = s /\
  story C i (Handshake false (newcomer C i pro kp)) cs (snd (run_x C pf s0 cs)) g /\
  forall c, typed_call c -> (res (step_x C pf s c) = Panic <-> exists m, c = Recv m /\ bursts C g m).
Proof.
  intros i pro kp cs H F. destruct (init_same i pro kp H) as [E T].
  destruct (run_same cs _ T F) as [E' T']. destruct (history_panics C HC i pro kp cs H) as (g & G1 & G2).
  exists (init_session C i pro kp), (run_calls C (init_session C i pro kp) cs), g. rewrite E'. cbn [fst snd].
  split; [exact E|]. split; [reflexivity|]. split; [exact G1|].
  intros c Hc. destruct (step_same _ c T' Hc) as [Es _]. rewrite Es. destruct c as [rnd b|b| | | | |e]; cbn [step];
    try (split; [discriminate|intros (m & Q & _); discriminate]).
  - split; [|intros (m & Q & _); discriminate]. intros P. exfalso. revert P. apply (send_no_panic C).
  - rewrite G2. split; [intros B; exists b; auto|]. intros (m & Q & B). injection Q as ->. exact B.
Qed.
Lemma hmac_range : forall key data o, hmac_x C key data o = None <-> 64 < len key \/ len o <> 32.
Proof.
  intros key data o. split.
  - intros E. destruct (N.leb_spec (len key) 64) as [L|L]; [|left; exact L]. right. intros Ho.
    rewrite (hmac_same key data o L Ho) in E. discriminate.
  - intros H. destruct (N.leb_spec (len key) 64) as [L|L].
    + destruct H as [H|H]; [lia|]. unfold hmac_x, BLOCKLEN. rewrite !xor_ok by (rewrite len_rep; lia).
      rewrite !slice_to_eq with (n := 64) by (rewrite xor_len, len_rep; reflexivity).
      rewrite slice_to_ok by (rewrite (hash_len C HC); lia). unfold copy_from. rewrite (hash_len C HC).
      replace (len o =? 32) with false by lia. reflexivity.
    + unfold hmac_x, BLOCKLEN.
      assert (X : forall k p, len p < len k -> xor_at p k = None).
      { induction k as [|b k IH]; intros [|c p] Hl; unfold len in Hl; cbn [length] in Hl; try lia; [reflexivity|].
        cbn [xor_at]. rewrite IH; [reflexivity|]. unfold len. lia. }
      rewrite X by (rewrite len_rep; lia). reflexivity.
Qed.
Lemma hkdf_long : forall ck ikm n o1 o2 o3, 64 < len ck -> hkdf_x C ck ikm n o1 o2 o3 = None.
Proof.
  intros ck ikm n o1 o2 o3 H. unfold hkdf_x. assert (E : hmac_x C ck ikm EMPTY_KEY = None) by (apply hmac_range; left; exact H).
  rewrite E. reflexivity.
Qed.
End Ok.
