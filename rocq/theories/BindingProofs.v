(** * BindingProofs: the handshake hash is the chain over the transcript (C88, C89). *)
From Coq Require Import Lia ZifyBool ZifyNat ZifyN Strings.String.
From Verif Require Import Base BaseFacts SpecWire Noise SpecNoise SpecSession SpecBinding SpecReply NoiseFacts HandshakeProofs NxProofs
  NoiseClaims ReplyProofs.
Open Scope N_scope.

Section Proofs.
Variable C : crypto.
Hypothesis OK : crypto_ok C.

Lemma bytes_dec : forall x y : bytes, {x = y} + {x <> y}.
Proof. exact (list_eq_dec Byte.byte_eq_dec). Qed.

Lemma chain_binds : forall ds ds' h h', length ds = length ds' -> len h = 32 -> len h' = 32 ->
  chain C h ds = chain C h' ds' -> (h = h' /\ ds = ds') \/ collide C (hashed C h ds) (hashed C h' ds').
Proof.
  induction ds as [|d ds IH]; destruct ds' as [|d' ds']; intros h h' HL Hh Hh' HC; try discriminate.
  - left. cbn in HC. split; [exact HC|reflexivity].
  - cbn in HL. injection HL as HL. cbn [chain fold_left] in HC.
    destruct (IH ds' _ _ HL (hash_len C OK _) (hash_len C OK _) HC) as [[E1 E2]|[i [x [y [X [Y [NE HE]]]]]]].
    + destruct (bytes_dec (h ++ d) (h' ++ d')) as [E|N].
      * left. apply (f_equal (firstn 32)) in E as F1. apply (f_equal (skipn 32)) in E as F2.
        rewrite !firstn_app_exact in F1 by (unfold len in *; lia). rewrite !skipn_app_exact in F2 by (unfold len in *; lia).
        subst. split; reflexivity.
      * right. exists O, (h ++ d), (h' ++ d'). repeat split; assumption.
    + right. exists (S i), x, y. repeat split; assumption.
Qed.

Lemma skipn_skipn : forall n m (x : bytes), skipn n (skipn m x) = skipn (n + m) x.
Proof. intros n m. induction m; intro x; [rewrite Nat.add_0_r; reflexivity|]. rewrite Nat.add_succ_r. destruct x; [destruct n; reflexivity|]. cbn [skipn]. apply IHm. Qed.
Lemma some_inj : forall (x y : bytes), Some x = Some y -> x = y.
Proof. intros x y E. injection E as ->. reflexivity. Qed.
Lemma list3_inj : forall (a b c a' b' c' : bytes), [a; b; c] = [a'; b'; c'] -> a = a' /\ b = b' /\ c = c'.
Proof. intros * E. injection E as -> -> ->. auto. Qed.
Lemma list6_inj : forall (a b c d e f a' b' c' d' e' f' : bytes), [a; b; c; d; e; f] = [a'; b'; c'; d'; e'; f'] ->
  a = a' /\ b = b' /\ c = c' /\ d = d' /\ e = e' /\ f = f'.
Proof. intros * E. injection E as -> -> -> -> -> ->. auto 10. Qed.
Lemma join2 : forall n (x y : bytes), firstn n x = firstn n y -> skipn n x = skipn n y -> x = y.
Proof. intros n x y H1 H2. rewrite <- (firstn_skipn n x), H1, H2. apply firstn_skipn. Qed.
Lemma pieces_inj : forall pro m1 m2 pro' m1' m2', pieces pro m1 m2 = pieces pro' m1' m2' -> pro = pro' /\ m1 = m1' /\ m2 = m2'.
Proof.
  unfold pieces, first_pieces. intros * E. apply list6_inj in E. destruct E as [E1 [E2 [E3 [E4 [E5 E6]]]]].
  split; [exact E1|]. split; [exact (join2 32 _ _ E2 E3)|].
  apply (join2 32); [exact E4|]. apply (join2 48); [exact E5|]. rewrite !skipn_skipn. exact E6.
Qed.
Lemma first_inj : forall pro m1 pro' m1', first_pieces pro m1 = first_pieces pro' m1' -> pro = pro' /\ m1 = m1'.
Proof.
  unfold first_pieces. intros * E. apply list3_inj in E. destruct E as [E1 [E2 E3]].
  split; [exact E1|exact (join2 32 _ _ E2 E3)].
Qed.
(** ** The specification's symmetric state along the two messages *)
Lemma name_state : InitializeSymmetric C (list_byte_of_string "Noise_NX_25519_ChaChaPoly_BLAKE2s") = mkSym None 0 (h_name C) (h_name C) [].
Proof. reflexivity. Qed.
Lemma write1 : forall i pro s e pl p1 m1, len (kp_public e) = 32 ->
  WriteMessage C (Initialize C i pro s e) NX1 pl = Some (p1, m1) ->
  sy_h (p_sym p1) = chain C (h_name C) (first_pieces pro m1) /\ sy_ck (p_sym p1) = h_name C /\
  p_initiator p1 = i /\ p_s p1 = s /\ p_e p1 = e /\ firstn 32 m1 = kp_public e.
Proof.
  intros * He H. unfold Initialize in H. rewrite name_state in H.
  cbn in H. injection H as <- <-. cbn [with_sym p_sym MixHash sy_h sy_ck p_initiator p_s p_e].
  unfold first_pieces. rewrite app_nil_r. rewrite firstn_app_exact, skipn_app_exact by (unfold len in *; lia).
  repeat split.
Qed.
Lemma read1 : forall i pro s e pl p1 m1, ReadMessage C (Initialize C i pro s e) NX1 m1 = Some (p1, pl) ->
  sy_h (p_sym p1) = chain C (h_name C) (first_pieces pro m1) /\ sy_ck (p_sym p1) = h_name C /\
  p_initiator p1 = i /\ p_s p1 = s /\ p_e p1 = e /\ p_re p1 = Some (firstn 32 m1).
Proof.
  intros * H. unfold Initialize in H. rewrite name_state in H.
  unfold ReadMessage, NX1 in H. cbn [read_tokens] in H. destruct (len m1 <? 32); [discriminate|].
  cbn in H. injection H as <- <-. repeat split.
Qed.
Lemma mixkey_h : forall s d, sy_h (MixKey C s d) = sy_h s.
Proof. intros. unfold MixKey. destruct (HKDF C (sy_ck s) d) as [[a b] c]. reflexivity. Qed.
Lemma mixkey_k : forall s d, sy_ck s = h_name C -> sy_k (MixKey C s d) = Some (let '(_, k, _) := HKDF C (h_name C) d in k) /\ sy_n (MixKey C s d) = 0.
Proof. intros s d E. unfold MixKey. rewrite E. destruct (HKDF C (h_name C) d) as [[a b] c]. split; reflexivity. Qed.

Definition second_pieces (m2 : bytes) := [firstn 32 m2; firstn 48 (skipn 32 m2); skipn 80 m2].
Lemma enc_len : forall k n ad pt, len (ENCRYPT C k n ad pt) = len pt + 16.
Proof.
  intros. unfold ENCRYPT. pose proof (seal_ct_len C OK k (nonce96 n) ad pt). pose proof (seal_mac_len C OK k (nonce96 n) ad pt).
  destruct (c_seal C k (nonce96 n) ad pt). cbn in *. rewrite len_app. lia.
Qed.
Lemma write2 : forall p1 pl p2 m2 re, WriteMessage C p1 NX2 pl = Some (p2, m2) ->
  len (kp_public (p_e p1)) = 32 -> len (kp_public (p_s p1)) = 32 -> p_initiator p1 = false ->
  sy_ck (p_sym p1) = h_name C -> p_re p1 = Some re ->
  sy_h (p_sym p2) = chain C (sy_h (p_sym p1)) (second_pieces m2) /\ firstn 32 m2 = kp_public (p_e p1) /\
  firstn 48 (skipn 32 m2) =
    ENCRYPT C (ee_key C (kp_private (p_e p1)) re) 0 (chain C (sy_h (p_sym p1)) [firstn 32 m2]) (kp_public (p_s p1)).
Proof.
  intros * H He Hs Hi Hck Hre. unfold WriteMessage, NX2 in H. cbn [write_tokens dh_token mix_dh with_sym p_re p_e p_sym p_s p_initiator] in H.
  rewrite Hre in H. cbn [mix_dh with_sym p_re p_e p_sym p_s p_initiator] in H.
  set (sy1 := MixKey C (MixHash C (p_sym p1) (kp_public (p_e p1))) (c_dh C (kp_private (p_e p1)) re)) in *.
  destruct (mixkey_k (MixHash C (p_sym p1) (kp_public (p_e p1))) (c_dh C (kp_private (p_e p1)) re) Hck) as [K1 N1].
  fold sy1 in K1, N1. fold (ee_key C (kp_private (p_e p1)) re) in K1. set (k1 := ee_key C (kp_private (p_e p1)) re) in *.
  unfold EncryptAndHash in H. rewrite K1, N1 in H. cbn [with_sym p_re p_e p_sym p_s p_initiator mix_dh] in H.
  rewrite ?Hi, ?Hre in H. cbn [mix_dh p_re p_s with_sym p_sym] in H. rewrite ?Hre in H. cbn [mix_dh p_re p_s with_sym p_sym] in H.
  assert (H1 : sy_h sy1 = c_hash C (sy_h (p_sym p1) ++ kp_public (p_e p1))) by (unfold sy1; rewrite mixkey_h; reflexivity).
  set (box := ENCRYPT C k1 0 (sy_h sy1) (kp_public (p_s p1))) in *.
  assert (HB : len box = 48) by (unfold box; rewrite enc_len; lia).
  set (sy2 := MixHash C (next_nonce sy1) box) in *.
  set (sy3 := MixKey C sy2 (c_dh C (kp_private (p_s p1)) re)) in *.
  assert (H3 : sy_h sy3 = c_hash C (sy_h sy1 ++ box)) by (unfold sy3; rewrite mixkey_h; reflexivity).
  assert (HK : exists k3, sy_k sy3 = Some k3).
  { unfold sy3, MixKey. destruct (HKDF C (sy_ck sy2) (c_dh C (kp_private (p_s p1)) re)) as [[a b] c]. eexists. reflexivity. }
  destruct HK as [k3 HK]. rewrite HK in H. injection H as <- <-. cbn [with_sym p_sym MixHash sy_h next_nonce].
  cbn [app]. rewrite ?app_nil_r.
  match goal with |- context [second_pieces (_ ++ ?z)] => set (box3 := z) end.
  assert (F : firstn 32 ((kp_public (p_e p1) ++ box) ++ box3) = kp_public (p_e p1)).
  { rewrite <- app_assoc. apply firstn_app_exact. unfold len in *; lia. }
  assert (G : skipn 32 ((kp_public (p_e p1) ++ box) ++ box3) = box ++ box3).
  { rewrite <- app_assoc. apply skipn_app_exact. unfold len in *; lia. }
  unfold second_pieces. change 80%nat with (48 + 32)%nat. rewrite <- skipn_skipn, F, G.
  rewrite firstn_app_exact, skipn_app_exact by (unfold len in *; lia).
  cbn [chain fold_left]. rewrite ?H3, <- H1. split; [|split]; reflexivity.
Qed.
Lemma read2 : forall p1 pl p2 m2, ReadMessage C p1 NX2 m2 = Some (p2, pl) ->
  p_initiator p1 = true -> sy_ck (p_sym p1) = h_name C ->
  sy_h (p_sym p2) = chain C (sy_h (p_sym p1)) (second_pieces m2) /\
  DECRYPT C (ee_key C (kp_private (p_e p1)) (firstn 32 m2)) 0 (chain C (sy_h (p_sym p1)) [firstn 32 m2]) (firstn 48 (skipn 32 m2)) <> None.
Proof.
  intros * H Hi Hck. unfold ReadMessage, NX2 in H. cbn [read_tokens] in H. destruct (len m2 <? 32); [discriminate|].
  cbn [dh_token mix_dh with_sym p_re p_e p_sym p_s p_initiator] in H.
  set (re := firstn 32 m2) in *.
  set (sy1 := MixKey C (MixHash C (p_sym p1) re) (c_dh C (kp_private (p_e p1)) re)) in *.
  destruct (mixkey_k (MixHash C (p_sym p1) re) (c_dh C (kp_private (p_e p1)) re) Hck) as [K1 N1].
  fold sy1 in K1, N1. fold (ee_key C (kp_private (p_e p1)) re) in K1. set (k1 := ee_key C (kp_private (p_e p1)) re) in *.
  unfold has_key in H. rewrite K1 in H. destruct (len (skipn 32 m2) <? N.of_nat 48); [discriminate|].
  set (box := firstn 48 (skipn 32 m2)) in *.
  unfold DecryptAndHash in H. rewrite K1, N1 in H.
  assert (H1 : sy_h sy1 = c_hash C (sy_h (p_sym p1) ++ re)) by (unfold sy1; rewrite mixkey_h; reflexivity).
  destruct (DECRYPT C k1 0 (sy_h sy1) box) as [rs|] eqn:ED; [|discriminate].
  cbn [dh_token mix_dh with_sym p_re p_rs p_e p_sym p_s p_initiator] in H. rewrite Hi in H. cbn [mix_dh with_sym p_re p_rs p_e p_sym p_s p_initiator] in H.
  set (sy2 := MixHash C (next_nonce sy1) box) in *.
  set (sy3 := MixKey C sy2 (c_dh C (kp_private (p_e p1)) rs)) in *.
  assert (H3 : sy_h sy3 = c_hash C (sy_h sy1 ++ box)) by (unfold sy3; rewrite mixkey_h; reflexivity).
  cbn [chain fold_left]. rewrite <- H1. split; [|rewrite ED; discriminate].
  assert (HH : sy_h (p_sym p2) = c_hash C (sy_h sy3 ++ skipn 48 (skipn 32 m2))).
  { destruct (sy_k sy3) as [k3|]; [|injection H as <- _; reflexivity].
    destruct (DECRYPT C k3 (sy_n sy3) (sy_h sy3) (skipn 48 (skipn 32 m2))); [|discriminate]. injection H as <- _. reflexivity. }
  rewrite HH. unfold second_pieces. cbn [chain fold_left]. fold re. fold box. rewrite <- H1, <- H3, skipn_skipn. reflexivity.
Qed.

(** ** Runs of the code *)
Lemma initiator_run : forall pro si ei rnd I0 b1 m2, started C true pro si rnd ei I0 -> keypair_ok ei ->
  res (send_message C rnd I0 b1) = Ok tt -> 
  let x1 := send_message C rnd I0 b1 in let x4 := recv_message C (st x1) m2 in
  firstn 32 (out x1) = kp_public ei /\
  (res x4 = Ok tt ->
   get_handshake_hash (st x4) = Some (chain C (h_name C) (pieces pro (out x1) m2)) /\
   DECRYPT C (ee_key C (kp_private ei) (firstn 32 m2)) 0 (chain C (h_name C) (first_pieces pro (out x1) ++ [firstn 32 m2])) (firstn 48 (skipn 32 m2)) <> None).
Proof.
  intros * HS Ke H1 x1 x4.
  assert (Hb1 : 32 <= len b1 <= 65535).
  { pose proof (opening_exact C true pro si ei rnd I0 b1 HS) as X. rewrite H1 in X. inversion X. assumption. }
  assert (HL : res x4 = Ok tt -> 96 <= len m2 <= 2128).
  { intro H4. destruct (reply_exact C OK pro si ei rnd I0 b1 m2 HS Hb1) as [q [_ X]]. fold x1 in X. fold x4 in X. rewrite H4 in X.
    inversion X; subst. match goal with H : static_result _ _ _ _ _ |- _ => inversion H; assumption end. }
  destruct (nx_write_1 C OK pro si ei rnd true I0 b1 HS Hb1) as (p1 & E1 & _).
  destruct (write1 _ _ _ _ _ _ _ (proj2 Ke) E1) as (W1 & W2 & W3 & W4 & W5 & W6).
  split; [exact W6|]. intro H4. specialize (HL H4).
  destruct (nx_initiator C OK pro si ei rnd I0 b1 m2 HS Ke Hb1 ltac:(lia)) as (p1' & E1' & _ & X).
  rewrite E1 in E1'. injection E1' as <-.
  fold x1 in X. fold x4 in X. destruct (ReadMessage C p1 NX2 m2) as [[p2 pl]|] eqn:ER; [|contradiction].
  destruct X as [_ X]. destruct (X H4) as (X1 & _).
  destruct (read2 _ _ _ _ ER W3 W2) as [R1 R2]. rewrite W5 in R2. rewrite W1 in R1, R2.
  split.
  - rewrite X1, R1. unfold pieces, chain. rewrite fold_left_app. reflexivity.
  - unfold chain. rewrite fold_left_app. exact R2.
Qed.
Lemma responder_run : forall pro sr er rnd R0 m1 b2, started C false pro sr rnd er R0 -> keypair_ok sr -> keypair_ok er ->
  let x2 := recv_message C R0 m1 in let x3 := send_message C rnd (st x2) b2 in
  res x2 = Ok tt -> res x3 = Ok tt ->
  get_handshake_hash (st x3) = Some (chain C (h_name C) (pieces pro m1 (out x3))) /\ firstn 32 (out x3) = kp_public er /\
  firstn 48 (skipn 32 (out x3)) =
    ENCRYPT C (ee_key C (kp_private er) (firstn 32 m1)) 0 (chain C (h_name C) (first_pieces pro m1 ++ [firstn 32 (out x3)])) (kp_public sr).
Proof.
  intros * HS Ks Ke x2 x3 H2 H3.
  assert (Hm1 : 48 <= len m1 <= 65535 /\ ~ low_order (firstn 32 m1)).
  { pose proof (first_exact C false pro sr er rnd R0 m1 HS) as X. fold x2 in X. rewrite H2 in X. inversion X. split; assumption. }
  destruct Hm1 as [Hm1 Hlo].
  assert (Hb2 : 96 <= len b2 <= 65535).
  { destruct (answer_exact C OK pro sr er rnd R0 m1 b2 HS Ks Hm1 Hlo) as [q [_ X]]. fold x2 in X. fold x3 in X. rewrite H3 in X.
    inversion X; assumption. }
  destruct (nx_responder C OK pro sr er rnd R0 m1 b2 HS Ks Ke Hm1 Hlo Hb2) as (p1 & p2 & msg & E1 & _ & _ & E2 & _ & X).
  fold x2 in X. fold x3 in X. destruct (X H3) as (X1 & X2 & _).
  destruct (read1 _ _ _ _ _ _ _ E1) as (W1 & W2 & W3 & W4 & W5 & W6).
  rewrite <- X1 in E2.
  destruct (write2 _ _ _ _ _ E2 ltac:(rewrite W5; apply Ke) ltac:(rewrite W4; apply Ks) W3 W2 W6) as [R1 [R0' R2]].
  rewrite W4, W5, W1 in R2. rewrite W5 in R0'. rewrite W1 in R1. split; [|split; [exact R0'|]].
  - rewrite X2, R1. unfold pieces, chain. rewrite fold_left_app. reflexivity.
  - unfold chain. rewrite fold_left_app. exact R2.
Qed.

Theorem transcript_hash : forall pro m1 m2 s, finished C pro m1 m2 s ->
  get_handshake_hash s = Some (chain C (h_name C) (pieces pro m1 m2)).
Proof.
  intros * H. destruct H.
  - apply (initiator_run pro si ei rnd I0 b1 m2); assumption.
  - apply (responder_run pro sr er rnd R0 m1 b2); assumption.
Qed.
Theorem hash_binds : forall pro m1 m2 s pro' m1' m2' s', finished C pro m1 m2 s -> finished C pro' m1' m2' s' ->
  get_handshake_hash s = get_handshake_hash s' ->
  (pro = pro' /\ m1 = m1' /\ m2 = m2') \/
  collide C (hashed C (h_name C) (pieces pro m1 m2)) (hashed C (h_name C) (pieces pro' m1' m2')).
Proof.
  intros * F F' E. rewrite (transcript_hash _ _ _ _ F), (transcript_hash _ _ _ _ F') in E. apply some_inj in E.
  destruct (chain_binds (pieces pro m1 m2) (pieces pro' m1' m2') _ _ eq_refl (hash_len C OK _) (hash_len C OK _) E) as [[_ X]|X]; [left|right; exact X].
  apply pieces_inj. exact X.
Qed.

(** The same opening pieces are needed for the reply to be accepted. *)
Theorem opening_bound : forall pro pro' si sr ei er rnd1 rnd2 I0 R0 b1 m1' b2,
  started C true pro si rnd1 ei I0 -> keypair_ok ei ->
  started C false pro' sr rnd2 er R0 -> keypair_ok sr -> keypair_ok er ->
  let x1 := send_message C rnd1 I0 b1 in
  let x2 := recv_message C R0 m1' in
  let x3 := send_message C rnd2 (st x2) b2 in
  let m2 := out x3 in
  res x1 = Ok tt -> res x2 = Ok tt -> res x3 = Ok tt -> res (recv_message C (st x1) m2) = Ok tt ->
  (pro = pro' /\ out x1 = m1') \/
  let ds := first_pieces pro (out x1) ++ [firstn 32 m2] in
  let ds' := first_pieces pro' m1' ++ [firstn 32 m2] in
  collide C (hashed C (h_name C) ds) (hashed C (h_name C) ds') \/
  (chain C (h_name C) ds <> chain C (h_name C) ds' /\
   DECRYPT C (ee_key C (kp_private ei) (firstn 32 m2)) 0 (chain C (h_name C) ds)
     (ENCRYPT C (ee_key C (kp_private er) (firstn 32 m1')) 0 (chain C (h_name C) ds') (kp_public sr)) <> None).
Proof.
  intros * HI Kei HR Ksr Ker x1 x2 x3 m2 H1 H2 H3 H4.
  destruct (initiator_run pro si ei rnd1 I0 b1 m2 HI Kei H1) as [_ X]. destruct (X H4) as [_ D].
  destruct (responder_run pro' sr er rnd2 R0 m1' b2 HR Ksr Ker H2 H3) as [_ [_ Bx]].
  fold x1 in D. fold x2 in Bx. fold x3 in Bx. fold m2 in Bx. rewrite Bx in D. cbv zeta.
  destruct (bytes_dec (chain C (h_name C) (first_pieces pro (out x1) ++ [firstn 32 m2])) (chain C (h_name C) (first_pieces pro' m1' ++ [firstn 32 m2]))) as [E|N].
  - destruct (chain_binds (first_pieces pro (out x1) ++ [firstn 32 m2]) (first_pieces pro' m1' ++ [firstn 32 m2]) _ _ eq_refl (hash_len C OK _) (hash_len C OK _) E) as [[_ Y]|Y].
    + left. apply app_inj_tail in Y. apply first_inj. apply Y.
    + right. left. exact Y.
  - right. right. split; assumption.
Qed.

Theorem same_key : forall pro pro' si sr ei er rnd1 rnd2 I0 R0 b1 m1' b2,
  started C true pro si rnd1 ei I0 -> keypair_ok ei ->
  started C false pro' sr rnd2 er R0 -> keypair_ok sr -> keypair_ok er -> dh_agree C ei er ->
  let x1 := send_message C rnd1 I0 b1 in
  let x2 := recv_message C R0 m1' in
  let x3 := send_message C rnd2 (st x2) b2 in
  res x1 = Ok tt -> res x2 = Ok tt -> res x3 = Ok tt -> firstn 32 m1' = firstn 32 (out x1) ->
  ee_key C (kp_private ei) (firstn 32 (out x3)) = ee_key C (kp_private er) (firstn 32 m1').
Proof.
  intros * HI Kei HR Ksr Ker DH x1 x2 x3 H1 H2 H3 HE.
  destruct (initiator_run pro si ei rnd1 I0 b1 [] HI Kei H1) as [F _].
  destruct (responder_run pro' sr er rnd2 R0 m1' b2 HR Ksr Ker H2 H3) as [_ [G _]].
  fold x1 in F. fold x2 in G. fold x3 in G. rewrite HE, F, G. unfold ee_key. rewrite DH. reflexivity.
Qed.
End Proofs.
