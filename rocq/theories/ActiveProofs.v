(** * ActiveProofs: matching hashes mean matching keys; altered transport messages. *)
From Coq Require Import Lia ZifyBool ZifyNat ZifyN.
From Verif Require Import Base SpecWire BaseFacts Noise Crypto SpecNoise SpecSession SpecReply SpecBinding SpecTransport SpecForgery SpecActive
  NoiseFacts HandshakeProofs NxProofs NetProofs SessionProofs RecvProofs NoiseClaims ReplyProofs BindingProofs TransportProofs ForgeryProofs.
Local Open Scope N_scope.

Section Active.
Variable C : crypto.
Hypothesis OK : crypto_ok C.

(** ** Handshake *)
Lemma some_pair : forall (A : Type) (a c : A) (b d : bytes), Some (a, b) = Some (c, d) -> b = d.
Proof. intros * E. injection E as _ ->. reflexivity. Qed.
Lemma open_sealed : forall k n ad pt, DECRYPT C k n ad (ENCRYPT C k n ad pt) = Some pt.
Proof.
  intros. unfold DECRYPT. rewrite (enc_len C OK). destruct (len pt + 16 <? 16) eqn:E; [lia|]. clear E.
  unfold ENCRYPT. pose proof (seal_mac_len C OK k (nonce96 n) ad pt) as L. pose proof (seal_ct_len C OK k (nonce96 n) ad pt) as L'.
  pose proof (open_seal C OK k (nonce96 n) ad pt) as O. destruct (c_seal C k (nonce96 n) ad pt) as [ct tag]. cbn [fst snd] in *.
  assert (X : (length (ct ++ tag) - 16)%nat = length ct) by (rewrite app_length; unfold len in L; lia).
  rewrite X, firstn_app_exact, skipn_app_exact by reflexivity. rewrite O. reflexivity.
Qed.
Lemma read_static : forall p1 ps rest m2, read_tokens C p1 [TE; TEE; TS] m2 = Some (ps, rest) ->
  sy_ck (p_sym p1) = h_name C ->
  p_rs ps = DECRYPT C (ee_key C (kp_private (p_e p1)) (firstn 32 m2)) 0 (chain C (sy_h (p_sym p1)) [firstn 32 m2]) (firstn 48 (skipn 32 m2)).
Proof.
  intros * H Hck. cbn [read_tokens] in H. destruct (len m2 <? 32); [discriminate|].
  cbn [dh_token mix_dh with_sym p_re p_e p_sym p_s p_initiator] in H.
  set (re := firstn 32 m2) in *.
  set (sy1 := MixKey C (MixHash C (p_sym p1) re) (c_dh C (kp_private (p_e p1)) re)) in *.
  destruct (mixkey_k C (MixHash C (p_sym p1) re) (c_dh C (kp_private (p_e p1)) re) Hck) as [K1 N1].
  fold sy1 in K1, N1. fold (ee_key C (kp_private (p_e p1)) re) in K1. set (k1 := ee_key C (kp_private (p_e p1)) re) in *.
  unfold has_key in H. rewrite K1 in H. destruct (len (skipn 32 m2) <? N.of_nat 48); [discriminate|].
  set (box := firstn 48 (skipn 32 m2)) in *.
  unfold DecryptAndHash in H. rewrite K1, N1 in H.
  assert (H1 : sy_h sy1 = c_hash C (sy_h (p_sym p1) ++ re)) by (unfold sy1; rewrite mixkey_h; reflexivity).
  cbn [chain fold_left]. rewrite <- H1.
  destruct (DECRYPT C k1 0 (sy_h sy1) box) as [rs|] eqn:ED; [|discriminate].
  injection H as <- _. reflexivity.
Qed.

Lemma written2_len : forall p1 pl p2 m2 re, WriteMessage C p1 NX2 pl = Some (p2, m2) -> p_re p1 = Some re ->
  len (kp_public (p_e p1)) = 32 -> len (kp_public (p_s p1)) = 32 -> p_initiator p1 = false -> len m2 = 96 + len pl.
Proof.
  intros * H Hre He Hs Hi. unfold WriteMessage, NX2 in H. cbn [write_tokens dh_token mix_dh with_sym p_re p_e p_sym p_s p_initiator] in H.
  rewrite Hre in H. cbn [mix_dh with_sym p_re p_e p_sym p_s p_initiator] in H.
  set (sy1 := MixKey C (MixHash C (p_sym p1) (kp_public (p_e p1))) (c_dh C (kp_private (p_e p1)) re)) in *.
  assert (K : forall s d, exists k, sy_k (MixKey C s d) = Some k).
  { intros s d. unfold MixKey. destruct (HKDF C (sy_ck s) d) as [[a b] c]. eexists. reflexivity. }
  destruct (K (MixHash C (p_sym p1) (kp_public (p_e p1))) (c_dh C (kp_private (p_e p1)) re)) as [k1 K1]. fold sy1 in K1.
  unfold EncryptAndHash in H. rewrite K1 in H. cbn [with_sym p_re p_e p_sym p_s p_initiator mix_dh] in H.
  rewrite ?Hi, ?Hre in H. cbn [mix_dh p_re p_s with_sym p_sym] in H. rewrite ?Hre in H. cbn [mix_dh p_re p_s with_sym p_sym] in H.
  match type of H with context [MixKey C ?s ?d] => destruct (K s d) as [k3 K3] end.
  rewrite K3 in H. injection H as _ <-. rewrite ?len_app, ?(enc_len C OK). unfold len in *. cbn [length]. lia.
Qed.

Lemma matching : forall pro si sr ei er rnd1 rnd2 I0 R0 b1 b2,
  keypair_ok si -> keypair_ok sr -> keypair_ok ei -> keypair_ok er ->
  started C true pro si rnd1 ei I0 -> started C false pro sr rnd2 er R0 -> dh_agree C ei er -> dh_agree C ei sr ->
  let x1 := send_message C rnd1 I0 b1 in
  let x2 := recv_message C R0 (out x1) in
  let x3 := send_message C rnd2 (st x2) b2 in
  let x4 := recv_message C (st x1) (out x3) in
  res x1 = Ok tt -> res x2 = Ok tt -> res x3 = Ok tt -> res x4 = Ok tt ->
  completed C (st x4) (st x3).
Proof.
  intros * Ksi Ksr Kei Ker SI SR D1 D2 x1 x2 x3 x4 H1 H2 H3 H4.
  assert (Hb1 : 32 <= len b1 <= 65535).
  { pose proof (opening_exact C true pro si ei rnd1 I0 b1 SI) as X. fold x1 in X. rewrite H1 in X. inversion X. assumption. }
  assert (Hm1 : 48 <= len (out x1) <= 65535 /\ ~ low_order (firstn 32 (out x1))).
  { pose proof (first_exact C false pro sr er rnd2 R0 (out x1) SR) as X. fold x2 in X. rewrite H2 in X. inversion X. split; assumption. }
  destruct Hm1 as [Hm1 Hlo].
  destruct (nx_write_1 C OK pro si ei rnd1 true I0 b1 SI Hb1) as (p1 & E1 & _). fold x1 in E1.
  destruct (write1 C _ _ _ _ _ _ _ (proj2 Kei) E1) as (W1 & W2 & W3 & W4 & W5 & W6).
  assert (L1 : len (out x1) = len b1).
  { unfold WriteMessage, NX1 in E1. cbn [write_tokens Initialize p_sym p_e kp_public] in E1.
    unfold EncryptAndHash in E1. cbn [with_sym p_sym MixHash InitializeSymmetric sy_k] in E1. apply some_pair in E1. rewrite <- E1.
    rewrite app_nil_r, len_app, (proj2 Kei). unfold len in *. rewrite skipn_length. lia. }
  assert (Hb2 : 96 <= len b2 <= 65535).
  { destruct (answer_exact C OK pro sr er rnd2 R0 (out x1) b2 SR Ksr Hm1 Hlo) as [q [_ X]]. fold x2 in X. fold x3 in X. rewrite H3 in X.
    inversion X; assumption. }
  destruct (nx_responder C OK pro sr er rnd2 R0 (out x1) b2 SR Ksr Ker Hm1 Hlo Hb2) as (q1 & q2 & msg & F1 & _ & _ & F2 & _ & X).
  fold x2 in X. fold x3 in X. destruct (X H3) as (X1 & X2 & _). rewrite <- X1 in F2.
  destruct (read1 C _ _ _ _ _ _ _ F1) as (V1 & V2 & V3 & V4 & V5 & V6).
  assert (L2 : len (out x3) = len b2).
  { rewrite (written2_len _ _ _ _ _ F2 V6 ltac:(rewrite V5; apply Ker) ltac:(rewrite V4; apply Ksr) V3).
    unfold payload2, len. rewrite firstn_length, skipn_length. unfold len in Hb2. lia. }
  destruct (responder_run C OK pro sr er rnd2 R0 (out x1) b2 SR Ksr Ker H2 H3) as (_ & Re & Box). fold x2 in Re, Box. fold x3 in Re, Box.
  assert (A : 96 <= len (out x3) <= 2128 /\ ~ low_order (firstn 32 (out x3)) /\ ~ low_order (kp_public sr)).
  { destruct (reply_exact C OK pro si ei rnd1 I0 b1 (out x3) SI Hb1) as [q [Q Y]]. fold x1 in Q, Y. fold x4 in Y. rewrite H4 in Y.
    rewrite E1 in Q. injection Q as <-.
    inversion Y as [| | | | | |pe rest ps rest' k r Z1 Z2 Z3 Z4 Z5 Z6 Z7]; try subst r.
    assert (k = kp_public sr).
    { rewrite (read_static _ _ _ _ Z5 W2), W1, W5, Box in Z6.
      replace (chain C (h_name C) (first_pieces pro (out x1) ++ [firstn 32 (out x3)]))
        with (chain C (chain C (h_name C) (first_pieces pro (out x1))) [firstn 32 (out x3)]) in Z6
        by (unfold chain; rewrite fold_left_app; reflexivity).
      rewrite Re, W6 in Z6. unfold ee_key in Z6. rewrite D1 in Z6.
      rewrite open_sealed in Z6. injection Z6 as <-. reflexivity. }
    subst k. inversion Z7; auto. }
  destruct A as (A1 & A2 & A3).
  exists pro, si, sr, ei, er, rnd1, rnd2, I0, R0, b1, b2. cbv zeta. fold x1. fold x2. fold x3. fold x4.
  rewrite W6 in Hlo. rewrite Re in A2.
  repeat (split; [assumption|]). split; [lia|]. split; [lia|]. split; [rewrite H3; discriminate|]. split; reflexivity.
Qed.

Theorem same_hash : forall pro pro' si sr ei er rnd1 rnd2 I0 R0 b1 m1 b2 m2,
  keypair_ok si -> keypair_ok sr -> keypair_ok ei -> keypair_ok er ->
  started C true pro si rnd1 ei I0 -> started C false pro' sr rnd2 er R0 -> dh_agree C ei er -> dh_agree C ei sr ->
  let x1 := send_message C rnd1 I0 b1 in
  let x2 := recv_message C R0 m1 in
  let x3 := send_message C rnd2 (st x2) b2 in
  let x4 := recv_message C (st x1) m2 in
  res x1 = Ok tt -> res x2 = Ok tt -> res x3 = Ok tt -> res x4 = Ok tt ->
  get_handshake_hash (st x4) = get_handshake_hash (st x3) ->
  completed C (st x4) (st x3) \/
  collide C (hashed C (h_name C) (pieces pro (out x1) m2)) (hashed C (h_name C) (pieces pro' m1 (out x3))).
Proof.
  intros * Ksi Ksr Kei Ker SI SR D1 D2 x1 x2 x3 x4 H1 H2 H3 H4 HH.
  destruct (hash_binds C OK _ _ _ _ _ _ _ _ (fin_initiator C pro si ei rnd1 I0 b1 m2 SI Kei H1 H4)
    (fin_responder C pro' sr er rnd2 R0 m1 b2 SR Ksr Ker H2 H3) HH) as [(E1 & E2 & E3)|X]; [left|right; exact X].
  subst pro'. unfold x4, x3, x2 in *. fold x1 in E2. rewrite <- E2 in *. fold x2 in E3. clear HH.
  assert (E3' : m2 = out (send_message C rnd2 (st (recv_message C R0 (out x1))) b2)) by exact E3. rewrite E3' in *.
  exact (matching pro si sr ei er rnd1 rnd2 I0 R0 b1 b2 Ksi Ksr Kei Ker SI SR D1 D2 H1 H2 H3 H4).
Qed.

Theorem accepted_reply : forall pro pro' si sr ei er rnd1 rnd2 I0 R0 b1 m1 b2,
  keypair_ok si -> keypair_ok sr -> keypair_ok ei -> keypair_ok er ->
  started C true pro si rnd1 ei I0 -> started C false pro' sr rnd2 er R0 -> dh_agree C ei er -> dh_agree C ei sr ->
  let x1 := send_message C rnd1 I0 b1 in
  let x2 := recv_message C R0 m1 in
  let x3 := send_message C rnd2 (st x2) b2 in
  let m2 := out x3 in
  let x4 := recv_message C (st x1) m2 in
  res x1 = Ok tt -> res x2 = Ok tt -> res x3 = Ok tt -> res x4 = Ok tt ->
  completed C (st x4) (st x3) \/
  let ds := first_pieces pro (out x1) ++ [firstn 32 m2] in
  let ds' := first_pieces pro' m1 ++ [firstn 32 m2] in
  collide C (hashed C (h_name C) ds) (hashed C (h_name C) ds') \/
  (chain C (h_name C) ds <> chain C (h_name C) ds' /\
   DECRYPT C (ee_key C (kp_private ei) (firstn 32 m2)) 0 (chain C (h_name C) ds)
     (ENCRYPT C (ee_key C (kp_private er) (firstn 32 m1)) 0 (chain C (h_name C) ds') (kp_public sr)) <> None).
Proof.
  intros * Ksi Ksr Kei Ker SI SR D1 D2 x1 x2 x3 m2 x4 H1 H2 H3 H4.
  destruct (opening_bound C OK pro pro' si sr ei er rnd1 rnd2 I0 R0 b1 m1 b2 SI Kei SR Ksr Ker H1 H2 H3 H4) as [[E1 E2]|X]; [left|right; exact X].
  subst pro'. unfold x4, m2, x3, x2 in *. fold x1 in E2. rewrite <- E2 in *.
  exact (matching pro si sr ei er rnd1 rnd2 I0 R0 b1 b2 Ksi Ksr Kei Ker SI SR D1 D2 H1 H2 H3 H4).
Qed.

(** ** Transport *)
Definition first_recv (s : session) (c : call) : list (bytes * bytes) :=
  match c, res (step C s c) with
  | Recv b, Ok _ => if is_transport s then [(b, out (step C s c))] else []
  | _, _ => []
  end.
Lemma recvs_cons : forall s c cs, transport_recvs C s (c :: cs) = first_recv s c ++ transport_recvs C (st (step C s c)) cs.
Proof. intros s [] cs; reflexivity. Qed.

Lemma send_keeps : forall i c rnd b c' o r, served C i c (Send rnd b) c' o r -> receiving i c' = receiving i c.
Proof. intros * H. inversion H; subst; try reflexivity; assumption. Qed.
Lemma eph_keeps : forall i c e c' o r, served C i c (SetEphemeral e) c' o r -> c' = c.
Proof. intros * H. inversion H. reflexivity. Qed.
Lemma recv_moves : forall i c b c' o r k n, served C i c (Recv b) c' o r -> receiving i c = (k, n) ->
  (r <> Ok tt /\ receiving i c' = (k, n)) \/
  (r = Ok tt /\ receiving i c' = (k, n + 1) /\ k <> zeros32 /\ n < 2 ^ 64 - 1 /\ len b <= 65535 /\ b = ENCRYPT C k n [] (plaintext_of o)).
Proof.
  intros * H G.
  inversion H as [| | | |b' L|b' k' L G'|b' n' L G' Ln|ct tag k' n' any L Lt G' Ln Nz D La|ct tag k' n' pt c0 L Lt G' Ln Nz D Gr Gs| | | | |]; subst;
    try (left; split; [discriminate|exact G]).
  right. rewrite G in G'. injection G' as <- <-. split; [reflexivity|]. split; [exact Gr|]. split; [exact Nz|]. split; [exact Ln|]. split; [lia|].
  unfold plaintext_of. replace (length (pt ++ tag) - 16)%nat with (length pt) by (rewrite app_length; unfold len in Lt; lia).
  rewrite firstn_app_exact by reflexivity.
  unfold DECRYPT in D. destruct (len (ct ++ tag) <? 16); [discriminate|].
  replace (length (ct ++ tag) - 16)%nat with (length ct) in D by (rewrite app_length; unfold len in Lt; lia).
  rewrite firstn_app_exact, skipn_app_exact in D by reflexivity.
  destruct (c_open C k (nonce96 n) [] ct tag) as [ok pt'] eqn:O. destruct ok; [|discriminate]. injection D as ->.
  apply (open_exact C OK) in O. unfold ENCRYPT. rewrite O. reflexivity.
Qed.
Lemma send_moves : forall i c rnd b c' o r k n, served C i c (Send rnd b) c' o r -> sending i c = (k, n) ->
  (r <> Ok tt /\ sending i c' = (k, n)) \/
  (r = Ok tt /\ sending i c' = (k, n + 1) /\ k <> zeros32 /\ n < 2 ^ 64 - 1 /\ len o <= 65535 /\ o = ENCRYPT C k n [] (plaintext_of b)).
Proof.
  intros * H G.
  inversion H as [rnd' b' L|rnd' b' k' L G'|rnd' b' n' L G' Ln|rnd' pt room k' n' c0 L Lt G' Ln Nz Gs Gr| | | | | | | | | |]; subst;
    try (left; split; [discriminate|exact G]).
  right. rewrite G in G'. injection G' as <- <-. split; [reflexivity|]. split; [exact Gs|]. split; [exact Nz|]. split; [exact Ln|].
  unfold plaintext_of. replace (length (pt ++ room) - 16)%nat with (length pt) by (rewrite app_length; unfold len in Lt; lia).
  rewrite firstn_app_exact by reflexivity. split; [|reflexivity]. rewrite (enc_len C OK). rewrite len_app in L. lia.
Qed.

Lemma quiet_recvs : forall cs s k n, wf s -> is_transport s = true ->
  receiving (se_i s) (channel_of s) = (k, n) -> Forall quiet cs ->
  forall j b o, nth_error (transport_recvs C s cs) j = Some (b, o) ->
  k <> zeros32 /\ n + N.of_nat j < 2 ^ 64 - 1 /\ len b <= 65535 /\ b = ENCRYPT C k (n + N.of_nat j) [] (plaintext_of o).
Proof.
  induction cs as [|c cs IH]; intros s k n W T Hk F j b o; [destruct j; discriminate|].
  inversion F as [|c0 cs0 Q F']; subst. rewrite recvs_cons.
  destruct (step_stays C OK s c W T) as [W' T']. pose proof (step_role C s c) as R.
  pose proof (step_served C OK s c W T) as SV. remember (step C s c) as x eqn:Ex.
  assert (A : (first_recv s c = [] /\ receiving (se_i s) (channel_of (st x)) = (k, n)) \/
    (exists b0, first_recv s c = [(b0, out x)] /\ receiving (se_i s) (channel_of (st x)) = (k, n + 1) /\
       k <> zeros32 /\ n < 2 ^ 64 - 1 /\ len b0 <= 65535 /\ b0 = ENCRYPT C k n [] (plaintext_of (out x)))).
  { unfold first_recv. rewrite <- Ex, T. destruct c as [rnd b0|b0| | | | |e]; try (destruct Q; contradiction).
    - left. split; [reflexivity|]. rewrite (send_keeps _ _ _ _ _ _ _ SV). exact Hk.
    - destruct (recv_moves _ _ _ _ _ _ _ _ SV Hk) as [[X Y]|(X & Y & Z)].
      + left. split; [|exact Y]. rewrite <- ?Ex. destruct (res x) as [[]| |] eqn:RX; [contradiction X; reflexivity|reflexivity|reflexivity].
      + right. exists b0. rewrite <- ?Ex, X. split; [reflexivity|]. split; [exact Y|exact Z].
    - left. split; [reflexivity|]. rewrite (eph_keeps _ _ _ _ _ _ SV). exact Hk. }
  rewrite <- R in A. destruct A as [[A1 A2]|(b0 & A1 & A2 & A3 & A4 & A5 & A6)]; rewrite A1; cbn [app].
  - intro Hj. exact (IH _ k n W' T' A2 F' j b o Hj).
  - destruct j as [|j]; cbn [nth_error]; intro Hj.
    + injection Hj as <- <-. rewrite N.add_0_r. auto.
    + destruct (IH _ k (n + 1) W' T' A2 F' j b o Hj) as (B1 & B2 & B3 & B4).
      replace (n + N.of_nat (Datatypes.S j)) with (n + 1 + N.of_nat j) by lia. auto.
Qed.
Lemma quiet_sends : forall cs s k n, wf s -> is_transport s = true ->
  sending (se_i s) (channel_of s) = (k, n) -> Forall quiet cs ->
  forall j b o, nth_error (transport_sends C s cs) j = Some (b, o) ->
  k <> zeros32 /\ n + N.of_nat j < 2 ^ 64 - 1 /\ len o <= 65535 /\ o = ENCRYPT C k (n + N.of_nat j) [] (plaintext_of b).
Proof.
  induction cs as [|c cs IH]; intros s k n W T Hk F j b o; [destruct j; discriminate|].
  inversion F as [|c0 cs0 Q F']; subst. rewrite sends_cons.
  destruct (step_stays C OK s c W T) as [W' T']. pose proof (step_role C s c) as R.
  pose proof (step_served C OK s c W T) as SV. remember (step C s c) as x eqn:Ex.
  assert (A : (first_send C s c = [] /\ sending (se_i s) (channel_of (st x)) = (k, n)) \/
    (exists b0, first_send C s c = [(b0, out x)] /\ sending (se_i s) (channel_of (st x)) = (k, n + 1) /\
       k <> zeros32 /\ n < 2 ^ 64 - 1 /\ len (out x) <= 65535 /\ out x = ENCRYPT C k n [] (plaintext_of b0))).
  { unfold first_send. rewrite <- Ex, T. destruct c as [rnd b0|b0| | | | |e]; try (destruct Q; contradiction).
    - destruct (send_moves _ _ _ _ _ _ _ _ _ SV Hk) as [[X Y]|(X & Y & Z)].
      + left. split; [|exact Y]. rewrite <- ?Ex. destruct (res x) as [[]| |] eqn:RX; [contradiction X; reflexivity|reflexivity|reflexivity].
      + right. exists b0. rewrite <- ?Ex, X. split; [reflexivity|]. split; [exact Y|exact Z].
    - left. split; [reflexivity|]. rewrite (served_recv C _ _ _ _ _ _ SV). exact Hk.
    - left. split; [reflexivity|]. rewrite (eph_keeps _ _ _ _ _ _ SV). exact Hk. }
  rewrite <- R in A. destruct A as [[A1 A2]|(b0 & A1 & A2 & A3 & A4 & A5 & A6)]; rewrite A1; cbn [app].
  - intro Hj. exact (IH _ k n W' T' A2 F' j b o Hj).
  - destruct j as [|j]; cbn [nth_error]; intro Hj.
    + injection Hj as <- <-. rewrite N.add_0_r. auto.
    + destruct (IH _ k (n + 1) W' T' A2 F' j b o Hj) as (B1 & B2 & B3 & B4).
      replace (n + N.of_nat (Datatypes.S j)) with (n + 1 + N.of_nat j) by lia. auto.
Qed.
End Active.

Section Channel.
Variable C : crypto.
Hypothesis OK : crypto_ok C.

Lemma completed_wf : forall I R, completed C I R ->
  (wf I /\ is_transport I = true /\ se_i I = true) /\ (wf R /\ is_transport R = true /\ se_i R = false) /\
  channel_of I = channel_of R /\ cs_n (se_cs1 I) = 0 /\ cs_n (se_cs2 I) = 0.
Proof.
  intros I R H. destruct (completed_linked C OK I R H) as (M1 & I1 & T1 & M2 & I2 & T2 & E1 & E2 & N1 & N2 & _ & K & _).
  assert (K' : keys32 R) by (unfold keys32 in *; rewrite <- E1, <- E2; exact K).
  assert (M : 0 <= MAX_NONCE) by discriminate.
  unfold wf, gate, is_transport, channel_of. rewrite M1, M2, T1, T2, I1, I2, <- E1, <- E2, N1, N2.
  split; [|split; [|repeat split; reflexivity]].
  - split; [|split; reflexivity]. split; [split; [intros _; discriminate|reflexivity]|]. split; [exact K|split; exact M].
  - split; [|split; reflexivity]. split; [split; [intros _; discriminate|reflexivity]|]. split; [exact K'|split; exact M].
Qed.

Lemma peers_channel : forall S D, peers C S D ->
  wf S /\ is_transport S = true /\ wf D /\ is_transport D = true /\
  sending (se_i S) (channel_of S) = (sending_key S, 0) /\ receiving (se_i D) (channel_of D) = (sending_key S, 0).
Proof.
  intros S D [H|H]; destruct (completed_wf _ _ H) as ((A1 & A2 & A3) & (B1 & B2 & B3) & E & N1 & N2);
    unfold sending_key; rewrite A3, B3; unfold sending, receiving; repeat (split; [assumption|]).
  - rewrite <- E. unfold channel_of. cbn [to_r to_i]. rewrite N1. split; reflexivity.
  - rewrite <- E. unfold channel_of in E |- *. cbn [to_r to_i]. injection E as _ _ E3 _. rewrite N2, E3. split; reflexivity.
Qed.

Lemma seal_inj : forall k n ad p q, ENCRYPT C k n ad p = ENCRYPT C k n ad q -> p = q.
Proof.
  intros k n ad p q E. pose proof (open_sealed C OK k n ad p) as A. rewrite E, (open_sealed C OK) in A. injection A as ->. reflexivity.
Qed.

Theorem positions : forall S D cs cd, peers C S D -> Forall quiet cs -> Forall quiet cd ->
  forall j b o, nth_error (transport_recvs C D cd) j = Some (b, o) ->
  b = ENCRYPT C (sending_key S) (N.of_nat j) [] (plaintext_of o) /\
  forall b0 m, nth_error (transport_sends C S cs) j = Some (b0, m) ->
    m = ENCRYPT C (sending_key S) (N.of_nat j) [] (plaintext_of b0) /\ (b = m <-> plaintext_of o = plaintext_of b0).
Proof.
  intros S D cs cd P QS QD j b o HR. destruct (peers_channel S D P) as (W1 & T1 & W2 & T2 & K1 & K2).
  destruct (quiet_recvs C OK cd D _ _ W2 T2 K2 QD j b o HR) as (_ & _ & _ & E). rewrite N.add_0_l in E. split; [exact E|].
  intros b0 m HS. destruct (quiet_sends C OK cs S _ _ W1 T1 K1 QS j b0 m HS) as (_ & _ & _ & E'). rewrite N.add_0_l in E'.
  split; [exact E'|]. rewrite E, E' at 1. split; [apply seal_inj|intros ->; reflexivity].
Qed.

Theorem altered : c_seal C = aead_seal -> c_open C = aead_open -> forall m b, m <> b ->
  exists bad, NoDup bad /\ len bad <= 2 ^ 15 /\
  forall S D cs cd j b0 o, peers C S D -> Forall quiet cs -> Forall quiet cd ->
    nth_error (transport_sends C S cs) j = Some (b0, m) -> nth_error (transport_recvs C D cd) j = Some (b, o) ->
    In (one_time_r (sending_key S) (nonce96 (N.of_nat j))) bad.
Proof.
  intros CS CO m b NE.
  destruct (N.le_gt_cases (len m) 65535) as [LM|LM]; [destruct (N.le_gt_cases (len b) 65535) as [LB|LB]|].
  2,3: exists []; split; [constructor|]; split; [rewrite len_nil; lia|]; intros S D cs cd j b0 o P QS QD HS HR; exfalso;
    destruct (peers_channel S D P) as (W1 & T1 & W2 & T2 & K1 & K2);
    destruct (quiet_recvs C OK cd D _ _ W2 T2 K2 QD j b o HR) as (_ & _ & X & _);
    destruct (quiet_sends C OK cs S _ _ W1 T1 K1 QS j b0 m HS) as (_ & _ & Y & _); lia.
  assert (P64 : forall x, x <= 65535 -> x < 2 ^ 64) by (intros x X; change (2 ^ 64) with 18446744073709551616; lia).
  destruct (forgery [] m [] b) as (bad & ND & B & H); [reflexivity|apply P64; exact LM|reflexivity|apply P64; exact LB|congruence|].
  exists bad. split; [exact ND|]. split.
  - eapply N.le_trans; [exact B|]. unfold blocks. rewrite len_nil.
    assert (Q : forall x, x <= 65535 -> (x - 16 + 15) / 16 <= 4095).
    { intros x X. apply N.lt_succ_r. apply N.div_lt_upper_bound; lia. }
    change ((0 + 15) / 16) with 0. change (2 ^ 15) with 32768. pose proof (Q _ LM). pose proof (Q _ LB). lia.
  - intros S D cs cd j b0 o P QS QD HS HR.
    destruct (positions S D cs cd P QS QD j b o HR) as [E X]. destruct (X b0 m HS) as [E' _].
    assert (AE : forall k n pt, ENCRYPT real_crypto k n [] pt = ENCRYPT C k n [] pt).
    { intros. unfold ENCRYPT. cbn [real_crypto c_seal]. rewrite CS. reflexivity. }
    apply (H _ _ (plaintext_of b0) (plaintext_of o)); [rewrite AE; symmetry; exact E'|].
    replace (DECRYPT real_crypto (sending_key S) (N.of_nat j) [] b) with (DECRYPT C (sending_key S) (N.of_nat j) [] b)
      by (unfold DECRYPT; cbn [real_crypto c_open]; rewrite CO; reflexivity).
    rewrite E at 1. apply (open_sealed C OK).
Qed.
End Channel.
