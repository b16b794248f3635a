(** * NetworkProofs: encryptors and channel ids. *)
From Coq Require Import Lia ZifyBool ZifyNat ZifyN.
From Verif Require Import Base SpecWire BaseFacts Codec Types Messages Frame Noise Crypto CryptoFacts SpecNoise SpecSession
  NoiseFacts HandshakeProofs NxProofs SessionProofs NetProofs RecvProofs NoiseClaims FailureProofs NoiseSamples SessionClaims
  Network SpecNetwork.
Open Scope N_scope.

Section Enc.
Variable C : crypto.
Hypothesis OK : crypto_ok C.

(** A handshake in which the responder answers in the buffer it received. *)
Lemma in_place : forall si sr ei er rnd1 rnd2 I0 R0,
  honest C [] si sr ei er rnd1 rnd2 I0 R0 ->
  let m1 := kp_public ei ++ repeat x00 992 in
  ~ In zeros32 (nx_keys C [] sr er m1 (payload2 m1)) ->
  ~ In zeros32 (nx_transport_keys C [] sr er m1 (payload2 m1)) ->
  let x1 := send_message C rnd1 I0 (repeat x00 1024) in
  let x2 := recv_message C R0 m1 in
  let x3 := send_message C rnd2 (st x2) m1 in
  let x4 := recv_message C (st x1) (out x3) in
  out x1 = m1 /\ res x1 = Ok tt /\ res x2 = Ok tt /\ out x2 = m1 /\ res x3 = Ok tt /\ res x4 = Ok tt /\
  completed C (st x4) (st x3) /\ get_remote_static_public_key (st x4) = Some (kp_public sr) /\
  cs_k (se_cs1 (st x4)) <> zeros32 /\ cs_k (se_cs2 (st x4)) <> zeros32 /\
  len m1 = 1024 /\ len (out x4) = 1024.
Proof.
  intros * HO m1 NK NT x1 x2 x3 x4. pose proof HO as [Ksi Ksr Kei Ker HI HR L1 L2 L3 D1 D2].
  assert (LM : len m1 = 1024) by (unfold m1; rewrite len_app, (proj2 Kei); reflexivity).
  assert (O1 : out x1 = m1).
  { unfold x1. rewrite (started_len1 C [] si rnd1 ei I0 (repeat x00 1024) true); auto. rewrite len_repeat. lia. }
  assert (B0 : 48 <= len (repeat x00 1024) <= 65535) by (rewrite len_repeat; lia).
  pose proof (agreement C OK [] si sr ei er rnd1 rnd2 I0 R0 (repeat x00 1024) m1 HO B0 ltac:(lia)) as A.
  cbv zeta in A. fold x1 in A. rewrite O1 in A. fold x2 in A. fold x3 in A. fold x4 in A. specialize (A NK).
  destruct A as (A1 & A2 & A3 & A4 & _ & _ & _ & A5 & A6 & A7 & _ & _).
  assert (F1 : firstn 32 m1 = kp_public ei) by (unfold m1; apply firstn_app_exact; rewrite (proj2 Kei); reflexivity).
  pose proof (nx_responder C OK [] sr er rnd2 R0 m1 m1 HR Ksr Ker ltac:(lia) ltac:(rewrite F1; exact L1) ltac:(lia)) as B.
  cbv zeta in B. fold x2 in B. fold x3 in B.
  destruct B as (p1 & p2 & msg & R1 & _ & O2 & W2 & _ & B). specialize (B A3). destruct B as (O3 & _ & K1 & K2).
  unfold nx_transport_keys in NT. rewrite R1, W2 in NT.
  rewrite <- A6, <- A7, K1, K2. cbn [cs_k].
  assert (L3' : len (out x3) = 1024).
  { pose proof (exchange C OK [] si sr ei er rnd1 rnd2 I0 R0 (repeat x00 1024) m1 Ksi Ksr Kei Ker HI HR L1 L2 L3 D1 D2 B0 ltac:(lia)) as X.
    cbv zeta in X. fold x1 in X. rewrite O1 in X. fold x2 in X. fold x3 in X. destruct X as (_ & _ & _ & _ & X).
    specialize (X ltac:(rewrite A3; discriminate)). destruct X as (_ & _ & s4 & q1 & q2 & hr & hi & X). destruct X as (_ & _ & _ & _ & _ & _ & _ & X & _). rewrite X. exact LM. }
  do 6 (split; [assumption|]). split.
  { exists [], si, sr, ei, er, rnd1, rnd2, I0, R0, (repeat x00 1024), m1. cbv zeta. fold x1. rewrite O1. fold x2. fold x3. fold x4.
    rewrite A3. repeat (split; [assumption || lia || discriminate|]). split; reflexivity. }
  split; [assumption|]. split; [intro X; apply NT; left; exact X|]. split; [intro X; apply NT; right; left; exact X|].
  split; [exact LM|]. unfold x4. rewrite recv_len by exact OK. exact L3'.
Qed.

Lemma snd_init : forall s, se_i s = true -> snd_cs s = se_cs1 s. Proof. intros s H. unfold snd_cs. rewrite H. reflexivity. Qed.
Lemma rcv_init : forall s, se_i s = true -> rcv_cs s = se_cs2 s. Proof. intros s H. unfold rcv_cs. rewrite H. reflexivity. Qed.

(** The initiator's last step sends a transport message of 1008 bytes. *)
Lemma extra_message : forall I R buf rnd, completed C I R -> cs_k (se_cs1 I) <> zeros32 -> len buf = 1024 ->
  send_message C rnd I buf =
  (se_incr (se_set_cs1 I (mkCS (cs_k (se_cs1 I)) 1)), ENCRYPT C (cs_k (se_cs1 I)) 0 [] (plaintext_of buf), Ok tt) /\
  send_message C rnd I buf = send_message C [] I (plaintext_of buf ++ placeholder).
Proof.
  intros I R buf rnd HC HK HB.
  destruct (completed_linked C OK I R HC) as (M1 & I1 & T1 & M2 & I2 & T2 & E1 & E2 & N1 & N2 & _ & (K32 & _) & _).
  assert (S : forall rnd buf, len buf = 1024 -> send_message C rnd I buf =
    (se_incr (se_set_cs1 I (mkCS (cs_k (se_cs1 I)) 1)), ENCRYPT C (cs_k (se_cs1 I)) 0 [] (plaintext_of buf), Ok tt)).
  { clear buf rnd HB. intros rnd buf HB.
    destruct (send_cases C rnd I buf ltac:(lia)) as [[Q _]|[[_ [Q _]]|[[_ [_ [Q _]]]|[_ [_ [_ Q]]]]]].
    - lia.
    - rewrite snd_init, N1 in Q by exact I1. discriminate Q.
    - rewrite snd_init in Q by exact I1. contradiction.
    - rewrite Q. rewrite snd_init by exact I1. rewrite N1. unfold set_snd. rewrite I1.
      rewrite sealed_spec by exact K32. reflexivity. }
  assert (P : plaintext_of (plaintext_of buf ++ placeholder) = plaintext_of buf) by (apply plaintext_app; reflexivity).
  rewrite !S; try exact HB.
  - rewrite P. auto.
  - unfold plaintext_of, placeholder. rewrite len_app, len_repeat, len_firstn'. unfold len in *. lia.
Qed.

(** What the two constructors give, for any keys. *)
Lemma new_usable : forall sk rsi rsr rnd1 rnd2,
  let si := mkKeypair rsi (c_pub C rsi) in
  let sr := match sk with Some k => k | None => mkKeypair rsr (c_pub C rsr) end in
  let ei := mkKeypair rnd1 (c_pub C rnd1) in
  let er := mkKeypair rnd2 (c_pub C rnd2) in
  usable_keys C si sr ei er -> honest C [] si sr ei er rnd1 rnd2 (new_outbound C rsi) (new_inbound C sk rsr).
Proof.
  intros * [U1 U2 U3 U4 U5 U6 U7 U8 U9]. constructor; try assumption; left; split; reflexivity.
Qed.
Theorem enc_handshake : forall sk rsi rsr rnd1 rnd2 rnd3,
  let si := mkKeypair rsi (c_pub C rsi) in
  let sr := match sk with Some k => k | None => mkKeypair rsr (c_pub C rsr) end in
  let ei := mkKeypair rnd1 (c_pub C rnd1) in
  let er := mkKeypair rnd2 (c_pub C rnd2) in
  usable_keys C si sr ei er ->
  let m1 := kp_public ei ++ repeat x00 992 in
  ~ In zeros32 (nx_keys C [] sr er m1 (payload2 m1)) ->
  ~ In zeros32 (nx_transport_keys C [] sr er m1 (payload2 m1)) ->
  exists I1 R m2 b2 I I' m3 b3,
    init_handshake C rnd1 (new_outbound C rsi) = (I1, Ok m1) /\ len m1 = 1024 /\
    recv_handshake C rnd2 (new_inbound C sk rsr) m1 = (R, b2, Ok m2) /\
    recv_handshake C rnd3 I1 m2 = (I', b3, Ok m3) /\
    is_handshake_complete I' = true /\ is_handshake_complete R = true /\
    get_remote_pubkey I' = Some (kp_public sr) /\
    (** what the two sides hold: a completed handshake, then one message from the initiator *)
    completed C I R /\ cs_k (se_cs1 I) <> zeros32 /\ cs_k (se_cs2 I) <> zeros32 /\
    exists pt, len pt = 1008 /\ send_message C [] I (pt ++ placeholder) = (I', m3, Ok tt) /\
      m3 = ENCRYPT C (cs_k (se_cs1 I)) 0 [] pt /\ se_cs1 I' = mkCS (cs_k (se_cs1 I)) 1 /\ se_cs1 R = mkCS (cs_k (se_cs1 I)) 0.
Proof.
  intros * UK m1 NK NT. assert (HO : honest C [] si sr ei er rnd1 rnd2 (new_outbound C rsi) (new_inbound C sk rsr)) by exact (new_usable sk rsi rsr rnd1 rnd2 UK). pose proof (in_place si sr ei er rnd1 rnd2 _ _ HO NK NT) as X. cbv zeta in X. fold m1 in X.
  set (x1 := send_message C rnd1 (new_outbound C rsi) (repeat x00 1024)) in *.
  set (x2 := recv_message C (new_inbound C sk rsr) m1) in *.
  set (x3 := send_message C rnd2 (st x2) m1) in *.
  set (x4 := recv_message C (st x1) (out x3)) in *.
  destruct X as (O1 & R1 & R2 & O2 & R3 & R4 & HC & RK & K1 & K2 & LM & L4).
  destruct (completed_linked C OK _ _ HC) as (M1 & I1 & T1 & M2 & I2 & T2 & E1 & E2 & N1 & N2 & _ & _ & _).
  destruct (extra_message _ _ (out x4) rnd3 HC K1 L4) as [S5 S6].
  exists (st x1), (st x3), (out x3), (out x3), (st x4), (se_incr (se_set_cs1 (st x4) (mkCS (cs_k (se_cs1 (st x4))) 1))),
    (ENCRYPT C (cs_k (se_cs1 (st x4))) 0 [] (plaintext_of (out x4))), (ENCRYPT C (cs_k (se_cs1 (st x4))) 0 [] (plaintext_of (out x4))).
  split.
  { unfold init_handshake. fold x1. destruct x1 as [[s b] r]. unfold st, out, res in *. cbn [fst snd] in *. rewrite R1, O1. reflexivity. }
  split; [exact LM|]. split.
  { unfold recv_handshake. fold x2. destruct x2 as [[s b] r]. unfold st, out, res in O2, R2. cbn [fst snd] in O2, R2. rewrite R2.
    subst b. change (st (s, m1, r)) with s in x3. fold x3. destruct x3 as [[s3 b3] r3].
    unfold st, out, res in *. cbn [fst snd] in *. rewrite R3. reflexivity. }
  split.
  { unfold recv_handshake. fold x4. destruct x4 as [[s b] r]. unfold st, out, res in *. cbn [fst snd] in *. rewrite R4.
    rewrite S5. reflexivity. }
  split; [exact T1|]. split; [exact T2|]. split; [exact RK|]. split; [exact HC|]. split; [exact K1|]. split; [exact K2|].
  exists (plaintext_of (out x4)). split.
  { unfold plaintext_of. rewrite len_firstn'. unfold len in *. lia. }
  split; [rewrite <- S6; exact S5|]. split; [reflexivity|]. split; [reflexivity|].
  rewrite <- E1. destruct (se_cs1 (st x4)) as [k n]. cbn in N1 |- *. rewrite N1. reflexivity.
Qed.

(** After that handshake both directions work once the responder takes the extra message. *)
Theorem enc_channel : forall I R I' m3 pt es, completed C I R -> cs_k (se_cs1 I) <> zeros32 -> cs_k (se_cs2 I) <> zeros32 ->
  len pt = 1008 -> send_message C [] I (pt ++ placeholder) = (I', m3, Ok tt) ->
  Forall sized es -> (forall l, ~ In (IRekey l) es) ->
  1 + len (i_sends es) <= 2 ^ 64 - 1 -> len (r_sends es) <= 2 ^ 64 - 1 ->
  let n := net_run C (mkNet I' R [Packet m3] [] [pt] [] [] []) es in
  exists pi pr, pt :: i_sends es = n_got_r n ++ pi /\ length pi = packets (n_ir n) /\
                r_sends es = n_got_i n ++ pr /\ length pr = packets (n_ri n).
Proof.
  intros * HC K1 K2 LP SM F NR LI LR n.
  pose proof (channel_no_rekey C OK I R (ISend pt :: es) HC K1 K2) as X.
  assert (F' : Forall sized (ISend pt :: es)) by (constructor; [cbn; lia|exact F]).
  assert (NR' : forall l, ~ In (IRekey l) (ISend pt :: es)) by (intros l [X0|X0]; [discriminate|exact (NR l X0)]).
  specialize (X F' NR'). cbn [i_sends r_sends flat_map app] in X. fold (i_sends es) in X. fold (r_sends es) in X.
  rewrite len_cons in X. specialize (X LI LR). cbv zeta in X.
  assert (E : net_run C (net_start I R) (ISend pt :: es) = n).
  { unfold n, net_run. cbn [fold_left]. f_equal. cbn [net_step net_start n_i n_r n_ir n_ri n_sent_i n_sent_r n_got_i n_got_r].
    rewrite SM. reflexivity. }
  rewrite E in X. destruct X as (_ & _ & X). exact X.
Qed.

(** Without it, whatever the initiator sends next can only be accepted through a collision of ciphertexts
    under two different nonces. *)
Theorem enc_out_of_step : forall I R I' m3 pt rnd b, completed C I R -> cs_k (se_cs1 I) <> zeros32 ->
  len pt = 1008 -> send_message C [] I (pt ++ placeholder) = (I', m3, Ok tt) -> 16 <= len b <= 65535 ->
  res (send_message C rnd I' b) = Ok tt /\
  out (send_message C rnd I' b) = ENCRYPT C (cs_k (se_cs1 I)) 1 [] (plaintext_of b) /\
  (res (recv_message C R (out (send_message C rnd I' b))) = Ok tt ->
   exists other, ENCRYPT C (cs_k (se_cs1 I)) 1 [] (plaintext_of b) = ENCRYPT C (cs_k (se_cs1 I)) 0 [] other).
Proof.
  intros * HC K1 LP SM HB.
  assert (LPP : len (pt ++ placeholder) = 1024) by (rewrite len_app, LP; reflexivity).
  destruct (extra_message I R (pt ++ placeholder) [] HC K1 LPP) as [S5 _].
  destruct (completed_linked C OK I R HC) as (M1 & I1 & T1 & M2 & I2 & T2 & E1 & E2 & N1 & N2 & _ & (K32 & _) & _).
  rewrite S5 in SM. injection SM as SI _. subst I'.
  set (I' := se_incr (se_set_cs1 I (mkCS (cs_k (se_cs1 I)) 1))).
  assert (M' : 2 <= se_mc I') by (unfold I'; cbn [se_incr se_set_cs1 se_mc]; lia).
  assert (CS : snd_cs I' = mkCS (cs_k (se_cs1 I)) 1) by (rewrite snd_init by exact I1; reflexivity).
  assert (S : res (send_message C rnd I' b) = Ok tt /\
              out (send_message C rnd I' b) = ENCRYPT C (cs_k (se_cs1 I)) 1 [] (plaintext_of b)).
  { destruct (send_cases C rnd I' b M') as [[Q _]|[[_ [Q _]]|[[_ [_ [Q _]]]|[_ [_ [_ Q]]]]]].
    - lia.
    - rewrite CS in Q. discriminate Q.
    - rewrite CS in Q. contradiction.
    - rewrite Q, CS. unfold res, out. cbn [fst snd cs_k cs_n]. rewrite sealed_spec by exact K32. auto. }
  destruct S as [SR SO]. split; [exact SR|]. split; [exact SO|]. rewrite SO.
  intro RO. set (m := ENCRYPT C (cs_k (se_cs1 I)) 1 [] (plaintext_of b)) in *.
  assert (CR : rcv_cs R = se_cs1 I) by (unfold rcv_cs; rewrite I2; symmetry; exact E1).
  destruct (recv_cases C R m ltac:(lia)) as [[_ Q]|[[_ [_ Q]]|[[_ [_ [_ Q]]]|[_ [_ [_ Q]]]]]];
    try (rewrite Q in RO; discriminate RO).
  destruct Q as (ct & mac & p & EM & LMc & [[_ Q]|[Q _]]); [rewrite Q in RO; discriminate RO|].
  exists p. rewrite EM. rewrite CR, N1 in Q. apply (open_exact C OK) in Q.
  rewrite <- sealed_spec by exact K32. unfold sealed. rewrite Q. reflexivity.
Qed.

(** ** Panics *)
Lemma recv_handshake_panic : forall rnd s buf, snd (recv_handshake C rnd s buf) = Panic <-> res (recv_message C s buf) = Panic.
Proof.
  intros rnd s buf. unfold recv_handshake. destruct (recv_message C s buf) as [[s1 b1] r1]. unfold res. cbn [snd].
  destruct r1 as [u|e|]; cbn [snd]; try (split; intro X; (reflexivity || discriminate X)).
  pose proof (send_no_panic C rnd s1 b1) as NP. destruct (send_message C rnd s1 b1) as [[s2 b2] r2]. unfold res in NP. cbn [snd] in NP.
  destruct r2; cbn [snd]; split; intro X; try discriminate X. contradiction.
Qed.
Lemma init_handshake_no_panic : forall rnd s, snd (init_handshake C rnd s) <> Panic.
Proof.
  intros rnd s. unfold init_handshake. pose proof (send_no_panic C rnd s (repeat x00 1024)) as NP.
  destruct (send_message C rnd s (repeat x00 1024)) as [[s2 b2] r2]. unfold res in NP. cbn [snd] in NP.
  destruct r2; cbn [snd]; discriminate || contradiction.
Qed.

(** An honest reply cut anywhere between 80 and 95 bytes. *)
Theorem enc_cut_reply : forall sk rsi rsr rnd1 rnd2 rnd3 k,
  let si := mkKeypair rsi (c_pub C rsi) in
  let sr := match sk with Some k => k | None => mkKeypair rsr (c_pub C rsr) end in
  let ei := mkKeypair rnd1 (c_pub C rnd1) in
  let er := mkKeypair rnd2 (c_pub C rnd2) in
  usable_keys C si sr ei er ->
  let m1 := kp_public ei ++ repeat x00 992 in
  ~ In zeros32 (nx_keys C [] sr er m1 (payload2 m1)) -> 80 <= k < 96 ->
  exists I1 R b2 m2,
    init_handshake C rnd1 (new_outbound C rsi) = (I1, Ok m1) /\
    recv_handshake C rnd2 (new_inbound C sk rsr) m1 = (R, b2, Ok m2) /\
    snd (recv_handshake C rnd3 I1 (firstn (N.to_nat k) m2)) = Panic.
Proof.
  intros * UK m1 NK HK. assert (HO : honest C [] si sr ei er rnd1 rnd2 (new_outbound C rsi) (new_inbound C sk rsr)) by exact (new_usable sk rsi rsr rnd1 rnd2 UK). pose proof HO as [Ksi Ksr Kei Ker HI HR L1 L2 L3 D1 D2].
  assert (LM : len m1 = 1024) by (unfold m1; rewrite len_app, (proj2 Kei); reflexivity).
  assert (B0 : 48 <= len (repeat x00 1024) <= 65535) by (rewrite len_repeat; lia).
  set (x1 := send_message C rnd1 (new_outbound C rsi) (repeat x00 1024)).
  assert (O1 : out x1 = m1).
  { unfold x1. rewrite (started_len1 C [] si rnd1 ei _ (repeat x00 1024) true); auto; rewrite len_repeat; lia. }
  pose proof (agreement C OK [] si sr ei er rnd1 rnd2 _ _ (repeat x00 1024) m1 HO B0 ltac:(lia)) as A.
  cbv zeta in A. fold x1 in A. rewrite O1 in A. specialize (A NK).
  set (x2 := recv_message C (new_inbound C sk rsr) m1) in *.
  set (x3 := send_message C rnd2 (st x2) m1) in *.
  destruct A as (A1 & A2 & A3 & _).
  assert (F1 : firstn 32 m1 = kp_public ei) by (unfold m1; apply firstn_app_exact; rewrite (proj2 Kei); reflexivity).
  pose proof (nx_responder C OK [] sr er rnd2 _ m1 m1 HR Ksr Ker ltac:(lia) ltac:(rewrite F1; exact L1) ltac:(lia)) as B.
  cbv zeta in B. fold x2 in B. destruct B as (_ & _ & _ & _ & _ & O2 & _).
  exists (st x1), (st x3), (out x3), (out x3).
  split.
  { unfold init_handshake. fold x1. destruct x1 as [[s b] r]. unfold st, out, res in *. cbn [fst snd] in *. rewrite A1, O1. reflexivity. }
  split.
  { unfold recv_handshake. fold x2. destruct x2 as [[s b] r]. unfold st, out, res in O2, A2. cbn [fst snd] in O2, A2. rewrite A2.
    subst b. change (st (s, m1, r)) with s in x3. fold x3. destruct x3 as [[s3 b3] r3].
    unfold st, out, res in *. cbn [fst snd] in *. rewrite A3. reflexivity. }
  apply recv_handshake_panic.
  pose proof (honest_panic C OK [] si sr ei er rnd1 rnd2 _ _ (repeat x00 1024) m1 (firstn (N.to_nat k) (out x3)) HO B0 ltac:(lia)) as P.
  cbv zeta in P. fold x1 in P. rewrite O1 in P. fold x2 in P. fold x3 in P. apply P; [exact NK|]. right. exists k. auto.
Qed.
Theorem enc_panic_only : forall rnd s b, snd (recv_handshake C rnd s b) = Panic ->
  get_message_count s = 1 /\ (80 <= len b < 96 \/ 2128 < len b <= 65535).
Proof. intros rnd s b H. apply recv_handshake_panic in H. exact (recv_panic_cond C s b H). Qed.
End Enc.

(** ** Channel ids *)
Lemma range_split : forall v, 1 <= v < 2 ^ 32 ->
  v * (2 ^ 32 - 1) / 2 ^ 32 = v - 1 /\ v * (2 ^ 32 - 1) mod 2 ^ 32 = 2 ^ 32 - v.
Proof.
  intros v H. assert (E : v * (2 ^ 32 - 1) = 2 ^ 32 * (v - 1) + (2 ^ 32 - v)) by lia.
  split; symmetry; [eapply N.div_unique|eapply N.mod_unique]; try exact E; lia.
Qed.
Lemma channel_id_cons : forall v draws, v < 2 ^ 32 ->
  new_channel_id (v :: draws) = if v =? 1 then new_channel_id draws else Ok (Some (v - 1)).
Proof.
  intros v draws H. unfold new_channel_id, gen_range. change (0 <? 2 ^ 32 - 1) with true. cbv iota.
  change ((N.shiftl (2 ^ 32 - 1 - 0) (32 - N.size (2 ^ 32 - 1 - 0)) mod 2 ^ 32 + 2 ^ 32 - 1) mod 2 ^ 32) with (2 ^ 32 - 2).
  change (2 ^ 32 - 1 - 0) with (2 ^ 32 - 1). cbv zeta. cbn [sample_single].
  destruct (N.eq_dec v 0) as [->|N0]; [reflexivity|].
  destruct (range_split v ltac:(lia)) as [-> ->].
  destruct (v =? 1) eqn:E1.
  - assert (E : (2 ^ 32 - v <=? 2 ^ 32 - 2) = false) by lia. rewrite E. reflexivity.
  - assert (E : (2 ^ 32 - v <=? 2 ^ 32 - 2) = true) by lia. rewrite E. rewrite N.add_0_l, N.mod_small by lia. reflexivity.
Qed.
Lemma channel_id_range : forall draws, Forall (fun v => v < 2 ^ 32) draws ->
  (exists id, new_channel_id draws = Ok (Some id) /\ id < 2 ^ 32 - 1) \/
  (new_channel_id draws = Ok None /\ Forall (fun v => v = 1) draws).
Proof.
  induction 1 as [|v draws Hv F IH]; [right; split; [reflexivity|constructor]|].
  rewrite channel_id_cons by exact Hv. destruct (v =? 1) eqn:E.
  - apply N.eqb_eq in E. destruct IH as [IH|[A B]]; [left; exact IH|right]. split; [exact A|]. constructor; assumption.
  - left. exists (v - 1). split; [reflexivity|]. destruct (N.eq_dec v 0) as [->|]; [reflexivity|lia].
Qed.
Lemma channel_id_uniform : forall id, id < 2 ^ 32 - 1 ->
  exists v, v < 2 ^ 32 /\ (forall draws, new_channel_id (v :: draws) = Ok (Some id)) /\
    forall v', v' < 2 ^ 32 -> new_channel_id [v'] = Ok (Some id) -> v' = v.
Proof.
  intros id H.
  exists (if id =? 0 then 0 else id + 1). destruct (N.eq_dec id 0) as [->|N].
  - split; [reflexivity|]. split; [intro; apply channel_id_cons; reflexivity|].
    intros v' H' X. rewrite channel_id_cons in X by exact H'. destruct (v' =? 1) eqn:E; [discriminate|]. injection X as X. cbn. lia.
  - destruct (id =? 0) eqn:E0; [lia|]. split; [lia|]. split.
    + intro draws. rewrite channel_id_cons by lia. destruct (id + 1 =? 1) eqn:E1; [lia|]. do 2 f_equal. lia.
    + intros v' H' X. rewrite channel_id_cons in X by exact H'. destruct (v' =? 1) eqn:E; [discriminate|]. injection X as X. lia.
Qed.

(** ** Sample handshake between two encryptors *)
Definition de_I0 := new_outbound demo_crypto k_si.
Definition de_R0 := new_inbound demo_crypto None k_sr.
Lemma de_usable : usable_keys demo_crypto d_si d_sr d_ei d_er.
Proof.
  constructor; try apply demo_agree; try (split; vm_compute; reflexivity); apply not_low; vm_compute; reflexivity.
Qed.
Definition de_m1 : bytes := kp_public d_ei ++ repeat x00 992.

Lemma de_keys : ~ In zeros32 (nx_keys demo_crypto [] d_sr d_er de_m1 (payload2 de_m1)).
Proof. vm_compute. intros H. repeat (destruct H as [H|H]; [discriminate H|]). exact H. Qed.
Lemma de_tkeys : ~ In zeros32 (nx_transport_keys demo_crypto [] d_sr d_er de_m1 (payload2 de_m1)).
Proof. vm_compute. intros H. repeat (destruct H as [H|H]; [discriminate H|]). exact H. Qed.

Definition de_1 := Eval vm_compute in init_handshake demo_crypto k_ei de_I0.
Definition de_2 := Eval vm_compute in recv_handshake demo_crypto k_er de_R0 de_m1.
Definition de_3 := Eval vm_compute in recv_handshake demo_crypto [] (fst de_1) (snd (fst de_2)).
Definition de_buf : bytes := repeat x2a 100 ++ repeat x00 16.
Lemma de_run :
  init_handshake demo_crypto k_ei de_I0 = de_1 /\ recv_handshake demo_crypto k_er de_R0 de_m1 = de_2 /\
  recv_handshake demo_crypto [] (fst de_1) (snd (fst de_2)) = de_3.
Proof. split; [|split]; vm_compute; reflexivity. Qed.
Lemma de_results : snd de_1 = Ok de_m1 /\ snd de_2 = Ok (snd (fst de_2)) /\ snd de_3 = Ok (snd (fst de_3)) /\
  is_handshake_complete (st de_3) = true /\ is_handshake_complete (st de_2) = true /\
  get_remote_pubkey (st de_3) = Some (kp_public d_sr).
Proof. do 5 (split; [vm_compute; reflexivity|]). vm_compute. reflexivity. Qed.
(** The initiator's message is refused, the responder's is not. *)
Lemma de_refused :
  res (send_message demo_crypto [] (st de_3) de_buf) = Ok tt /\
  res (recv_message demo_crypto (st de_2) (out (send_message demo_crypto [] (st de_3) de_buf))) = Err DecryptionError /\
  res (recv_message demo_crypto (st de_3) (out (send_message demo_crypto [] (st de_2) de_buf))) = Ok tt.
Proof. split; [|split]; vm_compute; reflexivity. Qed.

Lemma enc_refused : exists C rsi rsr rnd1 rnd2 I1 m1 R b2 m2 I b3 m3 buf,
  crypto_ok C /\
  init_handshake C rnd1 (new_outbound C rsi) = (I1, Ok m1) /\
  recv_handshake C rnd2 (new_inbound C None rsr) m1 = (R, b2, Ok m2) /\
  recv_handshake C [] I1 m2 = (I, b3, Ok m3) /\
  is_handshake_complete I = true /\ is_handshake_complete R = true /\
  res (send_message C [] I buf) = Ok tt /\
  res (recv_message C R (out (send_message C [] I buf))) = Err DecryptionError.
Proof.
  exists demo_crypto, k_si, k_sr, k_ei, k_er, (fst de_1), de_m1, (st de_2), (snd (fst de_2)), (snd (fst de_2)),
    (st de_3), (snd (fst de_3)), (snd (fst de_3)), de_buf.
  destruct de_run as (A & B & D). destruct de_results as (E1 & E2 & E3 & E4 & E5 & _). destruct de_refused as (F1 & F2 & _).
  split; [exact demo_ok|]. split; [fold de_I0; rewrite A; rewrite <- E1; destruct de_1; reflexivity|].
  split; [fold de_R0; rewrite B; rewrite <- E2; destruct de_2 as [[? ?] ?]; reflexivity|].
  split; [rewrite D; rewrite <- E3; destruct de_3 as [[? ?] ?]; reflexivity|]. auto.
Qed.
Lemma enc_panics : exists C rsi rsr rnd1 rnd2 I1 m1 R b2 m2,
  crypto_ok C /\ init_handshake C rnd1 (new_outbound C rsi) = (I1, Ok m1) /\
  recv_handshake C rnd2 (new_inbound C None rsr) m1 = (R, b2, Ok m2) /\
  snd (recv_handshake C [] I1 (firstn 80 m2)) = Panic.
Proof.
  exists demo_crypto, k_si, k_sr, k_ei, k_er, (fst de_1), de_m1, (st de_2), (snd (fst de_2)), (snd (fst de_2)).
  destruct de_run as (A & B & _). destruct de_results as (E1 & E2 & _).
  split; [exact demo_ok|]. split; [fold de_I0; rewrite A; rewrite <- E1; destruct de_1; reflexivity|].
  split; [fold de_R0; rewrite B; rewrite <- E2; destruct de_2 as [[? ?] ?]; reflexivity|].
  vm_compute. reflexivity.
Qed.
Lemma enc_stub_iff : forall b, decrypt_message (encrypt_message b) = b <-> b = [].
Proof. intro b. unfold decrypt_message. split; intro H; congruence. Qed.
Lemma enc_stub : exists b, decrypt_message (encrypt_message b) <> b.
Proof. exists [x00]. discriminate. Qed.
