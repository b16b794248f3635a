(** * AppProofs: the two example programs. *)
From Coq Require Import ZArith Lia ZifyBool ZifyNat ZifyN.
From Verif Require Import Base Codec Types Messages Frame Catalog SpecWire SpecTypes BaseFacts CodecFacts TypesFacts MessagesFacts
  FrameFacts CodecProofs MsgProofs TypesProofs FrameProofs Samples
  Certs SpecCerts CertProofs Noise SpecNoise SpecSession NoiseFacts HandshakeProofs SessionProofs NetProofs NoiseClaims
  RecvProofs SessionClaims Base58Facts Network SpecNetwork NetworkProofs Apps.
Open Scope N_scope.

(** ** setup_connection.rs *)
Lemma read_fits : forall bs, len bs <= 1024 -> exists z, read_1024 bs = bs ++ z /\ len (bs ++ z) = 1024.
Proof.
  intros bs H. exists (repeat x00 (1024 - length bs)). unfold read_1024. split.
  - rewrite firstn_all2; [reflexivity|]. unfold len in H. lia.
  - rewrite len_app. unfold len in *. rewrite repeat_length. lia.
Qed.
Lemma read_cut : forall bs, 1024 < len bs -> read_1024 bs = firstn 1024 bs.
Proof.
  intros bs H. unfold read_1024. replace (1024 - length bs)%nat with 0%nat by (unfold len in H; lia).
  cbn [repeat]. apply app_nil_r.
Qed.
Lemma slice_1024 : forall bs, len bs <= 1024 -> rust_slice bs.
Proof. intros bs H. unfold rust_slice. assert (1024 < 2 ^ 63) by reflexivity. lia. Qed.

Lemma frame_len : forall fr enc, len (m_payload fr) < 16777216 -> serialize (ser_message fr) = Ok enc ->
  len enc = 6 + len (m_payload fr) /\ wire enc = frame_layout fr.
Proof.
  intros fr enc H S. destruct (frame_serialized fr ltac:(lia)) as (e1 & W1 & R1).
  destruct (count_written T_frame fr H) as (e2 & W2 & R2). cbn [ser_of] in R2.
  unfold serialize in S. rewrite R2 in S. injection S as S. cbn [app] in S. subst e2.
  specialize (R1 []). rewrite R2 in R1. injection R1 as E1 E2. rewrite E2. split; [reflexivity|exact W2].
Qed.

(** Whatever arrives whole is decoded; whatever does not is a ParseError. *)
Lemma framed : forall k m, msg_ok k m -> exists fr enc,
  frame (frameable_of k) m = Ok fr /\ m_type fr = fr_type (frameable_of k) /\ wire (m_payload fr) = layout k m /\
  (forall pf, unframe (frameable_of k) pf fr = Ok m) /\ serialize (ser_message fr) = Ok enc /\
  len enc = 6 + len (layout k m) /\
  (len enc <= 1024 -> forall pf, deserialize de_message pf (read_1024 enc) = Ok fr) /\
  (1024 < len enc -> forall pf, deserialize de_message pf (read_1024 enc) = Err ParseError).
Proof.
  intros k m H. destruct (frame_ok k m H) as (bs & Hw & Hl & Hf).
  destruct (frame_unframe k m H) as (fr & F & U & enc & S & D). exists fr, enc.
  assert (EF : fr = mkMessage (fr_type (frameable_of k)) bs) by congruence.
  assert (LP : len (m_payload fr) < 16777216) by (rewrite EF; exact Hl).
  destruct (frame_len fr enc LP S) as [LE _].
  split; [exact F|]. split; [exact (unframe_ok_type k Debug fr m (U Debug))|].
  split; [rewrite EF; exact Hw|].
  split; [exact U|]. split; [exact S|]. split; [rewrite LE, EF; cbn [m_payload]; rewrite <- Hw, len_wire; reflexivity|]. split.
  - intros L pf. destruct (read_fits enc L) as (z & -> & LZ). unfold deserialize. rewrite cursor_0.
    rewrite (D pf [] z) by (apply slice_1024; cbn [app]; lia). reflexivity.
  - intros L pf. rewrite read_cut by exact L. unfold deserialize. rewrite cursor_0.
    assert (BIG : 6 + 16777216 < 2 ^ 63) by reflexivity.
    apply (truncated T_frame pf [] enc [] fr) with (c2 := skipn 1024 enc).
    + cbn [app]. rewrite app_nil_r. unfold rust_slice. lia.
    + apply D. rewrite app_nil_r. cbn [app]. unfold rust_slice. lia.
    + symmetry. apply firstn_skipn.
    + intro X. apply (f_equal (@length byte)) in X. rewrite skipn_length in X. unfold len in L. cbn [length] in X. lia.
    + apply slice_1024. cbn [app]. rewrite len_firstn'. lia.
Qed.

Lemma mining_min : forall v, msg_ok K_CommonSetupConnection (CSC_Mining v) -> u16_ok (sc_min_version v).
Proof. intros v H. cbn [msg_ok] in H. unfold sc_ok in H. tauto. Qed.

Theorem setup_flow : forall v flags, constructed K_CommonSetupConnection (CSC_Mining v) ->
  flags_ok MiningSuccessFlags flags ->
  exists bs, sc_miner_send (CSC_Mining v) = Ok bs /\
    len bs = 6 + len (layout K_CommonSetupConnection (CSC_Mining v)) /\
    (len bs <= 1024 -> forall pf1 pf2, exists reply, sc_pool_recv pf1 flags (read_1024 bs) = Ok (Some reply) /\
       sc_miner_recv pf2 (read_1024 reply) = Ok (Some (mkSCS (sc_min_version v) flags))) /\
    (1024 < len bs -> forall pf, sc_pool_recv pf flags (read_1024 bs) = Panic).
Proof.
  intros v flags HC HF. apply constructed_iff in HC.
  destruct (framed _ _ HC) as (fr & enc & F & T & _ & U & S & LE & D1 & D2).
  exists enc. split; [unfold sc_miner_send; rewrite F; cbn [unwrap obind]; rewrite S; reflexivity|]. split; [exact LE|]. split.
  - intros L pf1 pf2.
    assert (HS : msg_ok K_MiningSetupConnectionSuccess (mkSCS (sc_min_version v) flags)).
    { split; [apply mining_min; exact HC|exact HF]. }
    destruct (framed _ _ HS) as (fr' & enc' & F' & T' & _ & U' & S' & LE' & D1' & _).
    exists enc'. split.
    + unfold sc_pool_recv. rewrite (D1 L). cbn [unwrap obind]. rewrite T. cbn [frameable_of fr_type].
      cbn [frameable_of] in U. rewrite U. cbn [unwrap obind scs_new]. cbn [frameable_of] in F'. rewrite F'. cbn [unwrap obind].
      rewrite S'. reflexivity.
    + unfold sc_miner_recv. rewrite D1'; [|rewrite LE'; vm_compute; discriminate].
      cbn [unwrap obind]. rewrite T'. cbn [frameable_of fr_type]. cbn [frameable_of] in U'. rewrite U'. reflexivity.
  - intros L pf. unfold sc_pool_recv. rewrite (D2 L). reflexivity.
Qed.

(** A job negotiation SetupConnection is decoded but not answered. *)
Theorem setup_ignored : forall v flags, constructed K_CommonSetupConnection (CSC_JobNegotiation v) ->
  exists bs, sc_miner_send (CSC_JobNegotiation v) = Ok bs /\
    (len bs <= 1024 -> forall pf, sc_pool_recv pf flags (read_1024 bs) = Ok None).
Proof.
  intros v flags HC. apply constructed_iff in HC.
  destruct (framed _ _ HC) as (fr & enc & F & T & _ & U & S & LE & D1 & D2).
  exists enc. split; [unfold sc_miner_send; rewrite F; cbn [unwrap obind]; rewrite S; reflexivity|].
  intros L pf. unfold sc_pool_recv. rewrite (D1 L). cbn [unwrap obind]. rewrite T. cbn [frameable_of fr_type].
  cbn [frameable_of] in U. rewrite U. reflexivity.
Qed.

(** ** noise_handshake.rs *)
Section NoiseApp.
Variable C : crypto.
Hypothesis OK : crypto_ok C.
Variable E : ed_ops.
Hypothesis EOK : ed_ok E.

Lemma certificate_flow : forall I R rnd kp key v f t text, completed C I R -> cs_k (se_cs2 I) <> zeros32 ->
  get_remote_static_public_key I = Some key -> ed_pair E kp -> base58 text (ek_public kp) ->
  v < 2 ^ 16 -> f < t -> t < 2 ^ 32 ->
  exists R' m3, nh_send_certificate C E rnd R kp key v f t = (R', Ok m3) /\ len m3 = 1024 /\
    forall pf now, exists I',
      nh_miner_recv C E pf text now I m3 = (I', Ok (Some ((0 <=? now)%Z && (secs32 now <? t)))).
Proof.
  intros * HC K2 RK PK HB Hv Hf Ht.
  destruct (completed_linked C OK I R HC) as (M1 & I1 & T1 & M2 & I2 & T2 & E1 & E2 & N1 & N2 & _ & _ & _).
  destruct (pool_verifies E kp v f t key text 0%Z Debug [] [] EOK PK Hv Hf Ht HB) as (cert & m & enc & cf & X1 & X2 & X3 & _ & X5 & X6).
  { lia. } { change (Z.to_N (0 / 10 ^ 9) mod 2 ^ 32) with 0. lia. }
  assert (SO : snm_ok m /\ sn_not_valid_after m = t /\ (forall pf pre rest, rust_slice (pre ++ enc ++ rest) -> de_snm E pf (cursor pre (enc ++ rest)) = (cursor (pre ++ enc) rest, Ok m))).
  { destruct (cert_new_exact v f t key) as [CN _]. rewrite (CN Hf) in X1. injection X1 as <-.
    unfold from_auth_key, authority_sign_cert in X2. rewrite ser_cert_bytes in X2. cbn [obind] in X2. injection X2 as <-.
    split; [|split; [reflexivity|]].
    - unfold snm_ok. cbn [sn_version sn_valid_from sn_not_valid_after sn_signature ce_version ce_valid_from ce_not_valid_after].
      repeat split; try assumption; [lia|apply (ed_sig_len E EOK)].
    - intros pf pre rest HR.
      destruct (pool_verifies E kp v f t key text 0%Z pf pre rest EOK PK Hv Hf Ht HB) as (cert' & m' & enc' & cf' & Y1 & Y2 & Y3 & Y4 & _).
      { lia. } { change (Z.to_N (0 / 10 ^ 9) mod 2 ^ 32) with 0. lia. }
      rewrite (CN Hf) in Y1. injection Y1 as <-. unfold from_auth_key, authority_sign_cert in Y2. rewrite ser_cert_bytes in Y2. cbn [obind] in Y2.
      injection Y2 as <-. rewrite X3 in Y3. injection Y3 as <-. apply Y4. exact HR. }
  destruct SO as (SO & NV & DEC).
  destruct (snm_serialized m SO) as (enc' & _ & HL & HR). unfold serialize in X3. rewrite HR in X3. injection X3 as X3. cbn [app] in X3. subst enc'.
  set (z := repeat x00 (1024 - length enc)).
  assert (LZ : len (enc ++ z) = 1024).
  { unfold z. rewrite len_app. unfold len in *. rewrite repeat_length. lia. }
  set (pt := plaintext_of (enc ++ z)).
  assert (LPT : len pt = 1008) by (unfold pt, plaintext_of; rewrite len_firstn'; unfold len in *; lia).
  assert (CSR : snd_cs R = se_cs2 I) by (unfold snd_cs; rewrite I2; symmetry; exact E2).
  assert (SND : exists R', send_message C rnd R (enc ++ z) = (R', sealed C (cs_k (se_cs2 I)) 0 [] pt, Ok tt)).
  { destruct (send_cases C rnd R (enc ++ z) ltac:(lia)) as [[Q _]|[[_ [Q _]]|[[_ [_ [Q _]]]|[_ [_ [_ Q]]]]]].
    - lia.
    - rewrite CSR, N2 in Q. discriminate Q.
    - rewrite CSR in Q. contradiction.
    - rewrite Q, CSR, N2. eexists. reflexivity. }
  destruct SND as [R' SND]. exists R', (sealed C (cs_k (se_cs2 I)) 0 [] pt). split.
  { unfold nh_send_certificate. rewrite X1, X2. cbn [obind]. unfold serialize. rewrite HR. cbn [app].
    assert (B : (1024 <? len enc) = false) by lia. rewrite B. unfold nh_send. fold z. rewrite SND. reflexivity. }
  split; [rewrite sealed_len by exact OK; lia|]. intros pf now.
  assert (CSI : rcv_cs I = se_cs2 I) by (unfold rcv_cs; rewrite I1; reflexivity).
  destruct (recv_ok C OK I pt ltac:(lia) ltac:(lia)) as (b' & RCV & PB); rewrite ?CSI, ?N2 in *; [reflexivity|exact K2|].
  set (I' := se_incr _) in RCV. exists I'. unfold nh_miner_recv. rewrite RCV. unfold is_transport. rewrite T1. f_equal.
  assert (BE : exists rest, b' = enc ++ rest /\ len b' = 1024).
  { assert (L0 : len b' = 1024).
    { pose proof (recv_len C OK I (sealed C (cs_k (se_cs2 I)) 0 [] pt)) as L. rewrite RCV in L. unfold out in L. cbn [fst snd] in L.
      rewrite L, sealed_len by exact OK. lia. }
    exists (skipn (length enc) b'). split; [|exact L0].
    rewrite <- (firstn_skipn (length enc) b') at 1. f_equal.
    assert (P1 : firstn (length enc) b' = firstn (length enc) (plaintext_of b')).
    { unfold plaintext_of. rewrite firstn_firstn. f_equal. unfold len in *. lia. }
    rewrite P1, PB. unfold pt, plaintext_of. rewrite firstn_firstn.
    rewrite firstn_app. replace (Nat.min _ _ - length enc)%nat with 0%nat by lia. cbn [firstn]. rewrite app_nil_r.
    apply firstn_all2. unfold len in *. rewrite app_length in LZ |- *. lia. }
  destruct BE as (rest & -> & LB). unfold deserialize. rewrite cursor_0.
  rewrite (DEC pf [] rest) by (apply slice_1024; cbn [app]; lia). cbn [snd unwrap obind].
  assert (RK' : get_remote_static_public_key I' = Some key).
  { rewrite <- RK. unfold I', get_remote_static_public_key, set_rcv. rewrite I1. reflexivity. }
  rewrite RK', X5. cbn [unwrap obind].
  destruct (cf_new_exact E text key m) as [_ CF]. specialize (CF _ HB). rewrite X5 in CF.
  destruct PK as (PL & PV & PS). rewrite PL, PV in CF. cbn in CF. injection CF as ->.
  pose proof X6 as X7. unfold cf_verify in X7 |- *. cbn [cf_message] in *.
  unfold system_unix_time_to_u32 in *. change (0 <? 0)%Z with false in X7. cbn [obind] in X7.
  change (Z.to_N (0 / 1000000000) mod 2 ^ 32) with 0 in X7. rewrite NV in *.
  assert (Q : (t <=? 0) = false) by lia. rewrite Q in X7.
  unfold secs32. change (10 ^ 9)%Z with 1000000000%Z. set (s := Z.to_N (now / 1000000000) mod 2 ^ 32). clearbody s.
  destruct (now <? 0)%Z eqn:Z0; cbn [obind].
  - assert (Z1 : (0 <=? now)%Z = false) by lia. rewrite Z1. reflexivity.
  - assert (Z1 : (0 <=? now)%Z = true) by lia. rewrite Z1. cbn [andb].
    destruct (t <=? s) eqn:TS.
    + assert (Z2 : (s <? t) = false) by lia. rewrite Z2. reflexivity.
    + assert (Z2 : (s <? t) = true) by lia. rewrite Z2. rewrite X7. reflexivity.
Qed.

Theorem noise_flow : forall sr rsi rsr rnd1 rnd2 rnd3 kp text t1 t2,
  let si := mkKeypair rsi (c_pub C rsi) in
  let ei := mkKeypair rnd1 (c_pub C rnd1) in
  let er := mkKeypair rnd2 (c_pub C rnd2) in
  usable_keys C si sr ei er ->
  let m1 := kp_public ei ++ repeat x00 992 in
  ~ In zeros32 (nx_keys C [] sr er m1 (payload2 m1)) ->
  ~ In zeros32 (nx_transport_keys C [] sr er m1 (payload2 m1)) ->
  ed_pair E kp -> base58 text (ek_public kp) ->
  (0 <= t1)%Z -> (0 <= t2)%Z -> secs32 t1 < secs32 (t2 + 5 * 10 ^ 9) ->
  exists I1 R m2 m3 I2,
    nh_send C rnd1 (new_outbound C rsi) (repeat x00 1024) = (I1, Ok m1) /\
    nh_pool_recv C E rnd2 rnd3 (new_inbound C (Some sr) rsr) kp (kp_public sr) t1 t2 (read_1024 m1) = (R, Ok (m2, m3)) /\
    forall pf now, nh_miner_recv C E pf text now I1 (read_1024 m2) = (I2, Ok None) /\
      exists I3, nh_miner_recv C E pf text now I2 (read_1024 m3) =
        (I3, Ok (Some ((0 <=? now)%Z && (secs32 now <? secs32 (t2 + 5 * 10 ^ 9))))).
Proof.
  intros * UK m1 NK NT PK HB H1 H2 HT. assert (HO : honest C [] si sr ei er rnd1 rnd2 (new_outbound C rsi) (new_inbound C (Some sr) rsr)) by exact (new_usable C (Some sr) rsi rsr rnd1 rnd2 UK).
  pose proof (in_place C OK si sr ei er rnd1 rnd2 _ _ HO NK NT) as X. cbv zeta in X. fold m1 in X.
  set (x1 := send_message C rnd1 (new_outbound C rsi) (repeat x00 1024)) in *.
  set (x2 := recv_message C (new_inbound C (Some sr) rsr) m1) in *.
  set (x3 := send_message C rnd2 (st x2) m1) in *.
  set (x4 := recv_message C (st x1) (out x3)) in *.
  destruct X as (O1 & R1 & R2 & O2 & R3 & R4 & HC & RK & K1 & K2 & LM & L4).
  assert (L3 : len (out x3) = 1024) by (rewrite <- L4; unfold x4; symmetry; apply recv_len; exact OK).
  assert (RD : forall b, len b = 1024 -> read_1024 b = b).
  { intros b L. unfold read_1024. replace (1024 - length b)%nat with 0%nat by (unfold len in L; lia).
    cbn [repeat]. rewrite app_nil_r. apply firstn_all2. unfold len in L. lia. }
  assert (HT2 : secs32 (t2 + 5 * 10 ^ 9) < 2 ^ 32) by (apply N.mod_lt; discriminate).
  destruct (certificate_flow (st x4) (st x3) rnd3 kp (kp_public sr) 0 (secs32 t1) (secs32 (t2 + 5 * 10 ^ 9)) text HC K2 RK PK HB
             ltac:(reflexivity) HT HT2) as (R' & m3 & SC & L5 & V).
  exists (st x1), R', (out x3), m3, (st x4). split.
  { unfold nh_send. fold x1. destruct x1 as [[s b] r]. unfold st, out, res in *. cbn [fst snd] in *. rewrite R1, O1. reflexivity. }
  split.
  { rewrite RD by exact LM. unfold nh_pool_recv. fold x2. destruct x2 as [[s b] r]. unfold st, out, res in O2, R2. cbn [fst snd] in O2, R2.
    rewrite R2, O2. change (st (s, b, r)) with s in x3. unfold nh_send at 1. fold x3.
    destruct x3 as [[s3 b3] r3]. unfold st, out, res in SC, R3 |- *. cbn [fst snd] in SC, R3 |- *. rewrite R3.
    unfold system_unix_time_to_u32. assert (Q1 : (t1 <? 0)%Z = false) by lia. rewrite Q1.
    assert (Q2 : (t2 + 5 * 10 ^ 9 <? 0)%Z = false) by lia. rewrite Q2.
    unfold secs32 in SC. change (10 ^ 9)%Z with 1000000000%Z in SC |- *. rewrite SC. reflexivity. }
  intros pf now. rewrite RD by exact L3. split.
  { unfold nh_miner_recv. fold x4. assert (T0 : is_transport (st x1) = false).
    { unfold x1. destruct HO as [_ _ Kei _ HI _ _ _ _ _ _]. destruct (started_state C _ _ _ _ _ _ HI) as [e0 [-> HE]].
      rewrite (send_a C rnd1 _ si e0 ei) by (try assumption; vm_compute; split; discriminate). reflexivity. }
    rewrite T0. destruct x4 as [[s b] r]. unfold st, out, res in *. cbn [fst snd] in *. rewrite R4. reflexivity. }
  rewrite RD by exact L5. apply V.
Qed.

(** The miner prints true only for a message of the authority about the key of its peer. *)
Theorem verdict_sound : forall pf text now I b I', reachable C I -> rust_slice b -> nh_miner_recv C E pf text now I b = (I', Ok (Some true)) ->
  is_transport I = true /\ res (recv_message C I b) = Ok tt /\
  exists k key m signed rest, base58 text k /\ get_remote_static_public_key I = Some key /\
    snm_ok m /\ wire (out (recv_message C I b)) = snm_layout m ++ rest /\
    wire signed = cert_layout (sn_version m) (sn_valid_from m) (sn_not_valid_after m) key /\
    ed_verify E k signed (sn_signature m) = true /\ (0 <= now)%Z /\ secs32 now < sn_not_valid_after m.
Proof.
  intros * HR HS H. unfold nh_miner_recv in H.
  pose proof (recv_len C OK I b) as LB.
  destruct (is_transport I) eqn:T; [|destruct (recv_message C I b) as [[s1 b1] [| |]]; discriminate H].
  assert (RK : get_remote_static_public_key (st (recv_message C I b)) = get_remote_static_public_key I).
  { destruct (recv_cases C I b (reachable_transport C OK I HR T)) as [[_ Q]|[[_ [_ Q]]|[[_ [_ [_ Q]]]|[_ [_ [_ Q]]]]]];
      try (rewrite Q; reflexivity).
    destruct Q as (ct & mac & p & _ & _ & [[_ Q]|[_ Q]]); rewrite Q; [reflexivity|].
    unfold st, set_rcv. cbn [fst]. destruct (se_i I); reflexivity. }
  destruct (recv_message C I b) as [[s1 b1] r1] eqn:RM. unfold res, out, st in *. cbn [fst snd] in *.
  destruct r1 as [u| |]; try discriminate H. destruct u. injection H as HI H. subst I'.
  split; [reflexivity|]. split; [reflexivity|]. rewrite RK in H.
  assert (HS1 : rust_slice b1) by (unfold rust_slice in *; rewrite LB; exact HS).
  unfold deserialize in H. rewrite cursor_0 in H.
  destruct (N.le_gt_cases 74 (len b1)) as [L|L].
  2:{ pose proof (snm_short E pf [] b1 HS1 L) as SH. change P with cursor in SH. rewrite SH in H. discriminate H. }
  destruct (snm_onto b1 L) as (m & enc & tail & Hm & -> & HW).
  destruct (snm_outcome E m pf [] enc tail Hm HW HS1) as [A B].
  assert (D : snd (de_snm E pf (cursor [] (enc ++ tail))) = Ok m).
  { destruct (ed_sig_checked E) eqn:SC; [|rewrite A by discriminate; reflexivity].
    pose proof (canonical_bits (sn_signature m) (proj2 (proj2 (proj2 Hm)))) as CB.
    destruct (N.land (Byte.to_N (nth 63 (sn_signature m) x00)) 0xE0 =? 0) eqn:BB;
      [rewrite A by (intros _; apply CB; reflexivity); reflexivity|].
    assert (CS : ~ canonical_sig (sn_signature m)) by (intro CS; apply CB in CS; discriminate CS).
    rewrite (B eq_refl CS) in H. discriminate H. }
  rewrite D in H. cbn [unwrap obind] in H.
  destruct (get_remote_static_public_key I) as [key|] eqn:GK; [|discriminate H].
  destruct (cf_new E text key m) as [cf| |] eqn:CF; try discriminate H. cbn [unwrap obind] in H.
  destruct (base58_from_spec text) as [BA BB]. destruct BB as [ [k Bk] | BB ].
  2:{ unfold cf_new in CF. rewrite BB in CF. discriminate CF. }
  destruct (cf_new_exact E text key m) as [_ X]. rewrite (X _ Bk) in CF.
  destruct (len k =? 32); [|discriminate CF]. destruct (ed_valid E k); [|discriminate CF]. injection CF as <-.
  destruct (verify_exact E now (mkCf k key m)) as (signed & WS & V). cbn [cf_message cf_authority cf_static] in WS, V. rewrite V in H.
  exists k, key, m, signed, (wire tail).
  destruct (now <? 0)%Z eqn:Z0; [discriminate H|].
  destruct (sn_not_valid_after m <=? Z.to_N (now / 10 ^ 9) mod 2 ^ 32) eqn:Z1; [discriminate H|].
  destruct (ed_verify E k signed (sn_signature m)) eqn:Z2; [|discriminate H].
  split; [exact Bk|]. split; [reflexivity|]. split; [exact Hm|]. split; [rewrite wire_app, HW; reflexivity|].
  split; [exact WS|]. split; [reflexivity|]. split; [lia|]. unfold secs32. apply N.leb_gt. exact Z1.
Qed.
End NoiseApp.
