(** * AlteredProofs: a handshake altered on the way, other than in the ephemeral keys (C110). *)
From Coq Require Import Lia ZifyBool ZifyNat ZifyN.
From Verif Require Import Base SpecWire BaseFacts Noise Crypto CryptoFacts SpecNoise SpecSession SpecReply SpecBinding SpecTransport SpecForgery SpecAltered
  NoiseFacts HandshakeProofs NxProofs NetProofs SessionProofs RecvProofs NoiseClaims ReplyProofs BindingProofs TransportProofs ForgeryProofs ActiveProofs
  KeyProofs NoiseSamples.
Local Open Scope N_scope.

Section Altered.
Variable C : crypto.
Hypothesis OK : crypto_ok C.

Lemma mixkey_es : forall s s' d d', sy_ck s = h_name C -> sy_ck s' = sy_ck (MixKey C s d) ->
  sy_k (MixKey C s' d') = Some (es_key C d d') /\ sy_n (MixKey C s' d') = 0.
Proof.
  intros * E E'. unfold es_key, MixKey in *. rewrite E in E'. destruct (HKDF C (h_name C) d) as [[a b] c]. cbn [sy_ck] in E'.
  rewrite E'. destruct (HKDF C a d') as [[a' b'] c']. split; reflexivity.
Qed.

Lemma write2_payload : forall p1 pl p2 m2 re, WriteMessage C p1 NX2 pl = Some (p2, m2) ->
  len (kp_public (p_e p1)) = 32 -> len (kp_public (p_s p1)) = 32 -> p_initiator p1 = false ->
  sy_ck (p_sym p1) = h_name C -> p_re p1 = Some re ->
  skipn 80 m2 = ENCRYPT C (es_key C (c_dh C (kp_private (p_e p1)) re) (c_dh C (kp_private (p_s p1)) re)) 0
    (chain C (sy_h (p_sym p1)) [firstn 32 m2; firstn 48 (skipn 32 m2)]) pl.
Proof.
  intros * H He Hs Hi Hck Hre. unfold WriteMessage, NX2 in H. cbn [write_tokens dh_token mix_dh with_sym p_re p_e p_sym p_s p_initiator] in H.
  rewrite Hre in H. cbn [mix_dh with_sym p_re p_e p_sym p_s p_initiator] in H.
  set (sy0 := MixHash C (p_sym p1) (kp_public (p_e p1))) in *.
  set (sy1 := MixKey C sy0 (c_dh C (kp_private (p_e p1)) re)) in *.
  destruct (mixkey_k C sy0 (c_dh C (kp_private (p_e p1)) re) Hck) as [K1 N1].
  fold sy1 in K1, N1. fold (ee_key C (kp_private (p_e p1)) re) in K1. set (k1 := ee_key C (kp_private (p_e p1)) re) in *.
  unfold EncryptAndHash in H. rewrite K1, N1 in H. cbn [with_sym p_re p_e p_sym p_s p_initiator mix_dh] in H.
  rewrite ?Hi, ?Hre in H. cbn [mix_dh p_re p_s with_sym p_sym] in H. rewrite ?Hre in H. cbn [mix_dh p_re p_s with_sym p_sym] in H.
  assert (H1 : sy_h sy1 = c_hash C (sy_h (p_sym p1) ++ kp_public (p_e p1))) by (unfold sy1; rewrite mixkey_h; reflexivity).
  set (box := ENCRYPT C k1 0 (sy_h sy1) (kp_public (p_s p1))) in *.
  assert (HB : len box = 48) by (unfold box; rewrite (enc_len C OK); lia).
  set (sy2 := MixHash C (next_nonce sy1) box) in *.
  destruct (mixkey_es sy0 sy2 (c_dh C (kp_private (p_e p1)) re) (c_dh C (kp_private (p_s p1)) re) Hck eq_refl) as [K3 N3].
  set (sy3 := MixKey C sy2 (c_dh C (kp_private (p_s p1)) re)) in *.
  assert (H3 : sy_h sy3 = c_hash C (sy_h sy1 ++ box)) by (unfold sy3; rewrite mixkey_h; reflexivity).
  rewrite K3, N3 in H. injection H as _ <-.
  cbn [app]. rewrite ?app_nil_r.
  match goal with |- context [skipn 80 (_ ++ ?z)] => set (box3 := z) end.
  assert (F : firstn 32 ((kp_public (p_e p1) ++ box) ++ box3) = kp_public (p_e p1)).
  { rewrite <- app_assoc. apply firstn_app_exact. unfold len in *; lia. }
  assert (G : skipn 32 ((kp_public (p_e p1) ++ box) ++ box3) = box ++ box3).
  { rewrite <- app_assoc. apply skipn_app_exact. unfold len in *; lia. }
  change 80%nat with (48 + 32)%nat. rewrite <- skipn_skipn, F, G.
  rewrite firstn_app_exact, skipn_app_exact by (unfold len in *; lia).
  cbn [chain fold_left]. rewrite <- H1, <- H3. reflexivity.
Qed.

Lemma read2_boxes : forall p1 pl p2 m2, ReadMessage C p1 NX2 m2 = Some (p2, pl) ->
  p_initiator p1 = true -> sy_ck (p_sym p1) = h_name C ->
  exists rs,
  DECRYPT C (ee_key C (kp_private (p_e p1)) (firstn 32 m2)) 0 (chain C (sy_h (p_sym p1)) [firstn 32 m2]) (firstn 48 (skipn 32 m2)) = Some rs /\
  DECRYPT C (es_key C (c_dh C (kp_private (p_e p1)) (firstn 32 m2)) (c_dh C (kp_private (p_e p1)) rs)) 0
    (chain C (sy_h (p_sym p1)) [firstn 32 m2; firstn 48 (skipn 32 m2)]) (skipn 80 m2) <> None.
Proof.
  intros * H Hi Hck. unfold ReadMessage, NX2 in H. cbn [read_tokens] in H. destruct (len m2 <? 32); [discriminate|].
  cbn [dh_token mix_dh with_sym p_re p_e p_sym p_s p_initiator] in H.
  set (re := firstn 32 m2) in *.
  set (sy0 := MixHash C (p_sym p1) re) in *.
  set (sy1 := MixKey C sy0 (c_dh C (kp_private (p_e p1)) re)) in *.
  destruct (mixkey_k C sy0 (c_dh C (kp_private (p_e p1)) re) Hck) as [K1 N1].
  fold sy1 in K1, N1. fold (ee_key C (kp_private (p_e p1)) re) in K1. set (k1 := ee_key C (kp_private (p_e p1)) re) in *.
  unfold has_key in H. rewrite K1 in H. destruct (len (skipn 32 m2) <? N.of_nat 48); [discriminate|].
  set (box := firstn 48 (skipn 32 m2)) in *.
  unfold DecryptAndHash in H. rewrite K1, N1 in H.
  assert (H1 : sy_h sy1 = c_hash C (sy_h (p_sym p1) ++ re)) by (unfold sy1; rewrite mixkey_h; reflexivity).
  destruct (DECRYPT C k1 0 (sy_h sy1) box) as [rs|] eqn:ED; [|discriminate].
  cbn [dh_token mix_dh with_sym p_re p_rs p_e p_sym p_s p_initiator] in H. rewrite Hi in H. cbn [mix_dh with_sym p_re p_rs p_e p_sym p_s p_initiator] in H.
  set (sy2 := MixHash C (next_nonce sy1) box) in *.
  destruct (mixkey_es sy0 sy2 (c_dh C (kp_private (p_e p1)) re) (c_dh C (kp_private (p_e p1)) rs) Hck eq_refl) as [K3 N3].
  set (sy3 := MixKey C sy2 (c_dh C (kp_private (p_e p1)) rs)) in *.
  assert (H3 : sy_h sy3 = c_hash C (sy_h sy1 ++ box)) by (unfold sy3; rewrite mixkey_h; reflexivity).
  exists rs. cbn [chain fold_left]. rewrite <- H1, <- H3. split; [exact ED|].
  rewrite K3, N3, skipn_skipn in H. change (48 + 32)%nat with 80%nat in H.
  destruct (DECRYPT C _ 0 (sy_h sy3) (skipn 80 m2)); [discriminate|discriminate].
Qed.

(** ** Runs *)
Lemma initiator_boxes : forall pro si ei rnd I0 b1 m2, started C true pro si rnd ei I0 -> keypair_ok ei ->
  let x1 := send_message C rnd I0 b1 in let x4 := recv_message C (st x1) m2 in
  res x1 = Ok tt -> res x4 = Ok tt ->
  96 <= len m2 <= 2128 /\ firstn 32 (out x1) = kp_public ei /\ exists rs,
  DECRYPT C (ee_key C (kp_private ei) (firstn 32 m2)) 0 (chain C (h_name C) (first_pieces pro (out x1) ++ [firstn 32 m2])) (firstn 48 (skipn 32 m2)) = Some rs /\
  DECRYPT C (es_key C (c_dh C (kp_private ei) (firstn 32 m2)) (c_dh C (kp_private ei) rs)) 0
    (chain C (h_name C) (first_pieces pro (out x1) ++ [firstn 32 m2; firstn 48 (skipn 32 m2)])) (skipn 80 m2) <> None.
Proof.
  intros * HS Ke x1 x4 H1 H4.
  assert (Hb1 : 32 <= len b1 <= 65535).
  { pose proof (opening_exact C true pro si ei rnd I0 b1 HS) as X. fold x1 in X. rewrite H1 in X. inversion X. assumption. }
  assert (HL : 96 <= len m2 <= 2128).
  { destruct (reply_exact C OK pro si ei rnd I0 b1 m2 HS Hb1) as [q [_ X]]. fold x1 in X. fold x4 in X. rewrite H4 in X.
    inversion X; subst. match goal with H : static_result _ _ _ _ _ |- _ => inversion H; assumption end. }
  split; [exact HL|].
  destruct (nx_write_1 C OK pro si ei rnd true I0 b1 HS Hb1) as (p1 & E1 & _). fold x1 in E1.
  destruct (write1 C _ _ _ _ _ _ _ (proj2 Ke) E1) as (W1 & W2 & W3 & W4 & W5 & W6).
  split; [exact W6|].
  destruct (nx_initiator C OK pro si ei rnd I0 b1 m2 HS Ke Hb1 ltac:(lia)) as (p1' & E1' & _ & X).
  fold x1 in E1'. rewrite E1 in E1'. injection E1' as <-.
  fold x1 in X. fold x4 in X. destruct (ReadMessage C p1 NX2 m2) as [[p2 pl]|] eqn:ER; [|contradiction].
  destruct (read2_boxes _ _ _ _ ER W3 W2) as (rs & R1 & R2). rewrite W5 in R1, R2. rewrite W1 in R1, R2.
  exists rs. unfold chain in *. rewrite !fold_left_app in *. split; [exact R1|exact R2].
Qed.
Lemma responder_boxes : forall pro sr er rnd R0 m1 b2, started C false pro sr rnd er R0 -> keypair_ok sr -> keypair_ok er ->
  let x2 := recv_message C R0 m1 in let x3 := send_message C rnd (st x2) b2 in
  res x2 = Ok tt -> res x3 = Ok tt ->
  len (out x3) <= 65535 /\ exists pt,
  skipn 80 (out x3) =
    ENCRYPT C (es_key C (c_dh C (kp_private er) (firstn 32 m1)) (c_dh C (kp_private sr) (firstn 32 m1))) 0
      (chain C (h_name C) (first_pieces pro m1 ++ [firstn 32 (out x3); firstn 48 (skipn 32 (out x3))])) pt.
Proof.
  intros * HS Ks Ke x2 x3 H2 H3.
  assert (Hm1 : 48 <= len m1 <= 65535 /\ ~ low_order (firstn 32 m1)).
  { pose proof (first_exact C false pro sr er rnd R0 m1 HS) as X. fold x2 in X. rewrite H2 in X. inversion X. split; assumption. }
  destruct Hm1 as [Hm1 Hlo].
  assert (Hb2 : 96 <= len b2 <= 65535).
  { destruct (answer_exact C OK pro sr er rnd R0 m1 b2 HS Ks Hm1 Hlo) as [q [_ X]]. fold x2 in X. fold x3 in X. rewrite H3 in X.
    inversion X; assumption. }
  destruct (nx_responder C OK pro sr er rnd R0 m1 b2 HS Ks Ke Hm1 Hlo Hb2) as (p1 & p2 & msg & E1 & _ & _ & E2 & _ & X).
  fold x2 in X. fold x3 in X. destruct (X H3) as (X1 & X2 & _).
  destruct (read1 C _ _ _ _ _ _ _ E1) as (W1 & W2 & W3 & W4 & W5 & W6).
  rewrite <- X1 in E2. split.
  - rewrite (written2_len C OK _ _ _ _ _ E2 W6 ltac:(rewrite W5; apply Ke) ltac:(rewrite W4; apply Ks) W3).
    unfold payload2, len. rewrite firstn_length, skipn_length. unfold len in Hb2. lia.
  - pose proof (write2_payload _ _ _ _ _ E2 ltac:(rewrite W5; apply Ke) ltac:(rewrite W4; apply Ks) W3 W2 W6) as R.
    rewrite W4, W5, W1 in R. exists (payload2 b2). unfold chain in *. rewrite fold_left_app. exact R.
Qed.

Lemma small_forgery : forall ad m ad' m', c_seal C = aead_seal -> c_open C = aead_open -> len ad = 32 -> len ad' = 32 -> len m <= 65455 -> len m' <= 65455 ->
  (ad, m) <> (ad', m') ->
  exists bad, NoDup bad /\ len bad <= 2 ^ 15 /\ (len m <= 48 -> len m' <= 48 -> len bad <= 40) /\
    forall k n pt, ENCRYPT C k n ad pt = m -> DECRYPT C k n ad' m' <> None -> In (one_time_r k (nonce96 n)) bad.
Proof.
  intros * CS CO A A' M M' NE.
  assert (P64 : forall x, x <= 65535 -> x < 2 ^ 64) by (intros x X; change (2 ^ 64) with 18446744073709551616; lia).
  destruct (forgery ad m ad' m') as (bad & ND & B & H); try (apply P64; lia); [exact NE|].
  exists bad. split; [exact ND|]. rewrite A, A' in B. unfold blocks in B. change ((32 + 15) / 16) with 2 in B.
  split; [|split].
  - assert (Q : forall x, x <= 65455 -> (x - 16 + 15) / 16 <= 4092) by (intros x X; apply N.lt_succ_r; apply N.div_lt_upper_bound; lia).
    pose proof (Q _ M). pose proof (Q _ M'). change (2 ^ 15) with 32768. lia.
  - intros L L'. assert (Q : forall x, x <= 48 -> (x - 16 + 15) / 16 <= 2) by (intros x X; apply N.lt_succ_r; apply N.div_lt_upper_bound; lia).
    pose proof (Q _ L). pose proof (Q _ L'). lia.
  - intros k n pt S O. destruct (DECRYPT C k n ad' m') as [pt'|] eqn:D; [|congruence].
    apply (H k n pt pt').
    + rewrite <- S. unfold ENCRYPT. cbn [real_crypto c_seal]. rewrite CS. reflexivity.
    + rewrite <- D. unfold DECRYPT. cbn [real_crypto c_open]. rewrite CO. reflexivity.
Qed.
Lemma pair_dec : forall a b a' b' : bytes, {(a, b) = (a', b')} + {(a, b) <> (a', b')}.
Proof. intros. destruct (bytes_dec a a'), (bytes_dec b b'); [left; congruence|right; congruence..]. Defined.

Theorem altered_handshake : c_seal C = aead_seal -> c_open C = aead_open -> forall pro m1 m2 pro' m1' m2',
  (pro, m1, m2) <> (pro', m1', m2') ->
  exists bad_ee bad_es, NoDup bad_ee /\ NoDup bad_es /\ len bad_ee <= 40 /\ len bad_es <= 2 ^ 15 /\
  forall si sr ei er rnd1 rnd2 I0 R0 b1 b2,
  keypair_ok si -> keypair_ok sr -> keypair_ok ei -> keypair_ok er ->
  started C true pro si rnd1 ei I0 -> started C false pro' sr rnd2 er R0 -> dh_agree C ei sr ->
  let x1 := send_message C rnd1 I0 b1 in
  let x2 := recv_message C R0 m1' in
  let x3 := send_message C rnd2 (st x2) b2 in
  let x4 := recv_message C (st x1) m2 in
  out x1 = m1 -> out x3 = m2' ->
  res x1 = Ok tt -> res x2 = Ok tt -> res x3 = Ok tt -> res x4 = Ok tt ->
  let ee := c_dh C (kp_private ei) (firstn 32 m2) in
  ee = c_dh C (kp_private er) (firstn 32 m1') ->
  collide C (hashed C (h_name C) (first_pieces pro m1 ++ [firstn 32 m2])) (hashed C (h_name C) (first_pieces pro' m1' ++ [firstn 32 m2'])) \/
  In (one_time_r (ee_key C (kp_private ei) (firstn 32 m2)) (nonce96 0)) bad_ee \/
  In (one_time_r (es_key C ee (c_dh C (kp_private ei) (kp_public sr))) (nonce96 0)) bad_es.
Proof.
  intros CS CO * NE.
  assert (NIL : NoDup (@nil N) /\ len (@nil N) <= 40 /\ len (@nil N) <= 2 ^ 15).
  { split; [constructor|]. rewrite len_nil. change (2 ^ 15) with 32768. split; lia. }
  destruct NIL as (N0 & N1 & N2).
  destruct (N.le_gt_cases (len m2) 65535) as [L2|L2].
  2:{ exists [], []. do 4 (split; [assumption|]).
      intros * Ksi Ksr Kei Ker SI SR D2 x1 x2 x3 x4 O1 O3 H1 H2 H3 H4. exfalso.
      destruct (initiator_boxes pro si ei rnd1 I0 b1 m2 SI Kei H1 H4) as (L & _). lia. }
  destruct (N.le_gt_cases (len m2') 65535) as [L2'|L2'].
  2:{ exists [], []. do 4 (split; [assumption|]).
      intros * Ksi Ksr Kei Ker SI SR D2 x1 x2 x3 x4 O1 O3 H1 H2 H3 H4. exfalso.
      destruct (responder_boxes pro' sr er rnd2 R0 m1' b2 SR Ksr Ker H2 H3) as (L & _). fold x2 in L. fold x3 in L. rewrite O3 in L. lia. }
  set (h := chain C (h_name C) (first_pieces pro m1 ++ [firstn 32 m2])).
  set (h' := chain C (h_name C) (first_pieces pro' m1' ++ [firstn 32 m2'])).
  assert (HH : len h = 32 /\ len h' = 32).
  { unfold h, h', chain. rewrite !fold_left_app. split; apply (hash_len C OK). }
  destruct HH as [Hh Hh'].
  set (box := firstn 48 (skipn 32 m2)). set (box' := firstn 48 (skipn 32 m2')).
  assert (HB : len box <= 48 /\ len box' <= 48) by (unfold box, box', len; rewrite !firstn_length; lia). destruct HB as [HB HB'].
  destruct (pair_dec h' box' h box) as [EQ|NQ].
  2:{ destruct (small_forgery h' box' h box CS CO Hh' Hh ltac:(lia) ltac:(lia) NQ) as (bad & ND & _ & B & F). specialize (B HB' HB).
      exists bad, []. do 4 (split; [assumption|]).
      intros * Ksi Ksr Kei Ker SI SR D2 x1 x2 x3 x4 O1 O3 H1 H2 H3 H4 ee HE. right. left.
      destruct (initiator_boxes pro si ei rnd1 I0 b1 m2 SI Kei H1 H4) as (_ & Pe & rs & X1 & _).
      destruct (responder_run C OK pro' sr er rnd2 R0 m1' b2 SR Ksr Ker H2 H3) as (_ & _ & Bx).
      fold x1 in X1, Pe. fold x2 in Bx. fold x3 in Bx. rewrite O1 in X1, Pe. rewrite O3 in Bx.
      fold h in X1. fold box in X1. fold h' in Bx. fold box' in Bx.
      apply (F _ 0 (kp_public sr)).
      - unfold ee_key in *. fold ee. rewrite HE. symmetry. exact Bx.
      - rewrite X1. discriminate. }
  injection EQ as Eh Eb.
  destruct (chain_binds C OK (first_pieces pro m1 ++ [firstn 32 m2]) (first_pieces pro' m1' ++ [firstn 32 m2']) _ _ eq_refl
    (hash_len C OK _) (hash_len C OK _) (eq_sym Eh)) as [[_ Y]|Y].
  2:{ exists [], []. do 4 (split; [assumption|]). intros. left. exact Y. }
  apply app_inj_tail in Y. destruct Y as [Y E2]. apply first_inj in Y. destruct Y as [<- <-].
  set (g := chain C (h_name C) (first_pieces pro m1 ++ [firstn 32 m2; box])).
  assert (Hg : len g = 32) by (unfold g, chain; rewrite fold_left_app; apply (hash_len C OK)).
  assert (NP : (g, skipn 80 m2') <> (g, skipn 80 m2)).
  { intro E. apply NE. f_equal. apply (join2 32); [exact E2|]. apply (join2 48); [symmetry; exact Eb|].
    rewrite !skipn_skipn. change (48 + 32)%nat with 80%nat. congruence. }
  assert (LS : forall x : bytes, len x <= 65535 -> len (skipn 80 x) <= 65455) by (intros x X; unfold len in *; rewrite skipn_length; lia).
  destruct (small_forgery g (skipn 80 m2') g (skipn 80 m2) CS CO Hg Hg (LS _ L2') (LS _ L2) NP) as (bad & ND & B & _ & F).
  exists [], bad. do 4 (split; [assumption|]).
  intros * Ksi Ksr Kei Ker SI SR D2 x1 x2 x3 x4 O1 O3 H1 H2 H3 H4 ee HE. right. right.
  destruct (initiator_boxes pro si ei rnd1 I0 b1 m2 SI Kei H1 H4) as (_ & Pe & rs & X1 & X2).
  destruct (responder_run C OK pro sr er rnd2 R0 m1 b2 SR Ksr Ker H2 H3) as (_ & _ & Bx).
  destruct (responder_boxes pro sr er rnd2 R0 m1 b2 SR Ksr Ker H2 H3) as (_ & pt & Px).
  fold x1 in X1, X2, Pe. fold x2 in Bx, Px. fold x3 in Bx, Px. rewrite O1 in X1, X2, Pe. rewrite O3 in Bx, Px.
  fold box in X1, X2. fold box' in Bx, Px. rewrite Eb, <- E2 in Bx, Px. fold g in X2, Px. fold ee in X2.
  rewrite <- HE in Px.
  assert (RS : rs = kp_public sr).
  { rewrite Bx in X1. unfold ee_key in X1. fold ee in X1. rewrite HE in X1. rewrite (open_sealed C OK) in X1. injection X1 as <-. reflexivity. }
  subst rs. rewrite Pe in Px. apply (F _ 0 pt).
  - rewrite D2. symmetry. exact Px.
  - exact X2.
Qed.
End Altered.

Theorem real_altered_handshake : forall pro m1 m2 pro' m1' m2', (pro, m1, m2) <> (pro', m1', m2') ->
  exists bad_ee bad_es, NoDup bad_ee /\ NoDup bad_es /\ len bad_ee <= 40 /\ len bad_es <= 2 ^ 15 /\
  forall ksi ksr kei ker rnd1 rnd2 I0 R0 b1 b2,
  len ksi = 32 -> len ksr = 32 -> len kei = 32 -> len ker = 32 ->
  started real_crypto true pro (real_pair ksi) rnd1 (real_pair kei) I0 ->
  started real_crypto false pro' (real_pair ksr) rnd2 (real_pair ker) R0 ->
  let x1 := send_message real_crypto rnd1 I0 b1 in
  let x2 := recv_message real_crypto R0 m1' in
  let x3 := send_message real_crypto rnd2 (st x2) b2 in
  let x4 := recv_message real_crypto (st x1) m2 in
  out x1 = m1 -> out x3 = m2' ->
  res x1 = Ok tt -> res x2 = Ok tt -> res x3 = Ok tt -> res x4 = Ok tt ->
  firstn 32 m1' = firstn 32 m1 -> firstn 32 m2 = firstn 32 m2' ->
  collide real_crypto (hashed real_crypto (h_name real_crypto) (first_pieces pro m1 ++ [firstn 32 m2]))
    (hashed real_crypto (h_name real_crypto) (first_pieces pro' m1' ++ [firstn 32 m2'])) \/
  In (one_time_r (ee_key real_crypto kei (c_pub real_crypto ker)) (nonce96 0)) bad_ee \/
  In (one_time_r (es_key real_crypto (c_dh real_crypto kei (c_pub real_crypto ker)) (c_dh real_crypto kei (c_pub real_crypto ksr))) (nonce96 0)) bad_es.
Proof.
  intros * NE. destruct (altered_handshake real_crypto real_crypto_ok eq_refl eq_refl _ _ _ _ _ _ NE) as (b1 & b2 & A1 & A2 & A3 & A4 & F).
  exists b1, b2. do 4 (split; [assumption|]).
  assert (K : forall k, len k = 32 -> keypair_ok (real_pair k)) by (intros k H; split; [exact H|apply (pub_len _ real_crypto_ok)]).
  intros * L1 L2 L3 L4 SI SR x1 x2 x3 x4 O1 O3 H1 H2 H3 H4 E1 E2.
  assert (Pe : firstn 32 m1 = kp_public (real_pair kei)).
  { destruct (initiator_run real_crypto real_crypto_ok pro (real_pair ksi) (real_pair kei) rnd1 I0 b0 [] SI (K _ L3) H1) as [X _].
    fold x1 in X. rewrite O1 in X. exact X. }
  assert (Re : firstn 32 m2' = kp_public (real_pair ker)).
  { destruct (responder_run real_crypto real_crypto_ok pro' (real_pair ksr) (real_pair ker) rnd2 R0 m1' b3 SR (K _ L2) (K _ L4) H2 H3) as (_ & X & _).
    fold x2 in X. fold x3 in X. rewrite O3 in X. exact X. }
  assert (EE : c_dh real_crypto (kp_private (real_pair kei)) (firstn 32 m2) = c_dh real_crypto (kp_private (real_pair ker)) (firstn 32 m1')).
  { rewrite E1, E2, Pe, Re. apply (real_agree kei ker). }
  pose proof (F (real_pair ksi) (real_pair ksr) (real_pair kei) (real_pair ker) rnd1 rnd2 I0 R0 b0 b3 (K _ L1) (K _ L2) (K _ L3) (K _ L4) SI SR
    (real_agree kei ksr) O1 O3 H1 H2 H3 H4 EE) as X. cbv zeta in X. rewrite E2 in X at 2 3. rewrite Re in X at 2 3. exact X.
Qed.

(** For an Example: a constant hash function. *)
Definition flat_crypto : crypto := mkCrypto (fun _ => repeat x01 32) aead_seal aead_open demo_dh demo_pub.
