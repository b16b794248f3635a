(** * RekeyProofs: attacker-controlled transport with rekeying. *)
From Coq Require Import Lia ZifyBool ZifyNat ZifyN.
From Verif Require Import Base SpecWire BaseFacts Noise Crypto SpecNoise SpecSession SpecReply SpecBinding SpecTransport SpecForgery SpecActive
  NoiseFacts HandshakeProofs NxProofs NetProofs SessionProofs RecvProofs NoiseClaims ReplyProofs BindingProofs TransportProofs ForgeryProofs CryptoFacts KeyProofs ActiveProofs.
Local Open Scope N_scope.

Section Rekey.
Variable C : crypto.
Hypothesis OK : crypto_ok C.

Lemma rekey_moves : forall i c call c' o r, is_rekey call = true -> served C i c call c' o r ->
  r = Ok tt /\ to_i c' = to_i c /\ fst (to_r c') = REKEY C (fst (to_r c)) /\ snd (to_r c') = snd (to_r c).
Proof.
  intros i c call c' o r H SV. destruct call; try discriminate H; inversion SV; subst; cbn [to_i to_r fst snd];
    match goal with E : to_r c = _ |- _ => rewrite E end; repeat split.
Qed.
Lemma rekeyed_S : forall j k, rekeyed C (Datatypes.S j) k = REKEY C (rekeyed C j k).
Proof. reflexivity. Qed.
Lemma rekeyed_shift : forall j k, rekeyed C j (REKEY C k) = rekeyed C (Datatypes.S j) k.
Proof. induction j as [|j IH]; intro k; [reflexivity|]. rewrite rekeyed_S, IH. reflexivity. Qed.

Lemma loud_sends : forall cs s k n, wf s -> is_transport s = true ->
  sending (se_i s) (channel_of s) = (k, n) -> Forall no_clear cs ->
  wf (run_calls C s cs) /\ is_transport (run_calls C s cs) = true /\ se_i (run_calls C s cs) = se_i s /\
  sending (se_i s) (channel_of (run_calls C s cs)) = (rekeyed C (rekeys_sent s cs) k, n + len (transport_sends C s cs)).
Proof.
  induction cs as [|c cs IH]; intros s k n W T Hk F.
  - cbn. rewrite N.add_0_r. unfold rekeys_sent. cbn. destruct (se_i s); auto.
  - inversion F as [|c0 cs0 Q F']; subst. rewrite sends_cons. cbn [run_calls].
    destruct (step_stays C OK s c W T) as [W' T']. pose proof (step_role C s c) as R.
    pose proof (step_served C OK s c W T) as SV. change (fst (fst (step C s c))) with (st (step C s c)).
    assert (A : exists k1 n1, sending (se_i s) (channel_of (st (step C s c))) = (k1, n1) /\ n1 = n + len (first_send C s c) /\
       k1 = if (se_i s && is_rekey c)%bool then REKEY C k else k).
    { unfold first_send. rewrite T. destruct c as [rnd b0|b0| | | | |e]; try contradiction; cbn [is_rekey].
      - destruct (send_moves C OK _ _ _ _ _ _ _ _ _ SV Hk) as [[X Y]|(X & Y & Z)].
        + exists k, n. rewrite andb_false_r. split; [exact Y|]. split; [|reflexivity].
          destruct (res (step C s (Send rnd b0))) as [[]| |]; [contradiction X; reflexivity| |]; rewrite len_nil; lia.
        + exists k, (n + 1). rewrite andb_false_r. split; [exact Y|]. split; [|reflexivity]. rewrite X, len_cons, len_nil. lia.
      - exists k, n. rewrite andb_false_r, len_nil. split; [|split; [lia|reflexivity]]. rewrite (served_recv C _ _ _ _ _ _ SV). exact Hk.
      - destruct (rekey_moves _ _ RekeyLocal _ _ _ eq_refl SV) as (_ & X1 & X2 & X3). rewrite andb_true_r, len_nil.
        destruct (se_i s); unfold sending in *.
        + exists (REKEY C k), n. split; [|split; [lia|reflexivity]]. rewrite (surjective_pairing (to_r _)), X2, X3, Hk. reflexivity.
        + exists k, n. split; [congruence|split; [lia|reflexivity]].
      - destruct (rekey_moves _ _ RekeyRemote _ _ _ eq_refl SV) as (_ & X1 & X2 & X3). rewrite andb_true_r, len_nil.
        destruct (se_i s); unfold sending in *.
        + exists (REKEY C k), n. split; [|split; [lia|reflexivity]]. rewrite (surjective_pairing (to_r _)), X2, X3, Hk. reflexivity.
        + exists k, n. split; [congruence|split; [lia|reflexivity]].
      - exists k, n. rewrite andb_false_r, len_nil. split; [|split; [lia|reflexivity]]. rewrite (eph_keeps C _ _ _ _ _ _ SV). exact Hk. }
    destruct A as (k1 & n1 & A1 & -> & ->). rewrite <- R in A1.
    destruct (IH _ _ _ W' T' A1 F') as (B1 & B2 & B3 & B4). rewrite R in B3, B4. split; [exact B1|]. split; [exact B2|]. split; [exact B3|].
    rewrite B4, len_app, N.add_assoc. f_equal. unfold rekeys_sent. rewrite R. cbn [filter].
    destruct (se_i s), (is_rekey c); cbn [andb length]; try reflexivity. apply rekeyed_shift.
Qed.
Lemma loud_recvs : forall cs s k n, wf s -> is_transport s = true ->
  receiving (se_i s) (channel_of s) = (k, n) -> Forall no_clear cs ->
  wf (run_calls C s cs) /\ is_transport (run_calls C s cs) = true /\ se_i (run_calls C s cs) = se_i s /\
  receiving (se_i s) (channel_of (run_calls C s cs)) = (rekeyed C (rekeys_received s cs) k, n + len (transport_recvs C s cs)).
Proof.
  induction cs as [|c cs IH]; intros s k n W T Hk F.
  - cbn. rewrite N.add_0_r. unfold rekeys_received. cbn. destruct (se_i s); auto.
  - inversion F as [|c0 cs0 Q F']; subst. rewrite recvs_cons. cbn [run_calls].
    destruct (step_stays C OK s c W T) as [W' T']. pose proof (step_role C s c) as R.
    pose proof (step_served C OK s c W T) as SV. change (fst (fst (step C s c))) with (st (step C s c)).
    assert (A : exists k1 n1, receiving (se_i s) (channel_of (st (step C s c))) = (k1, n1) /\ n1 = n + len (first_recv C s c) /\
       k1 = if (negb (se_i s) && is_rekey c)%bool then REKEY C k else k).
    { unfold first_recv. rewrite T. destruct c as [rnd b0|b0| | | | |e]; try contradiction; cbn [is_rekey].
      - exists k, n. rewrite andb_false_r, len_nil. split; [|split; [lia|reflexivity]]. rewrite (send_keeps C _ _ _ _ _ _ _ SV). exact Hk.
      - destruct (recv_moves C OK _ _ _ _ _ _ _ _ SV Hk) as [[X Y]|(X & Y & Z)].
        + exists k, n. rewrite andb_false_r. split; [exact Y|]. split; [|reflexivity].
          destruct (res (step C s (Recv b0))) as [[]| |]; [contradiction X; reflexivity| |]; rewrite len_nil; lia.
        + exists k, (n + 1). rewrite andb_false_r. split; [exact Y|]. split; [|reflexivity]. rewrite X, len_cons, len_nil. lia.
      - destruct (rekey_moves _ _ RekeyLocal _ _ _ eq_refl SV) as (_ & X1 & X2 & X3). rewrite andb_true_r, len_nil.
        destruct (se_i s); unfold receiving in *; cbn [negb].
        + exists k, n. split; [congruence|split; [lia|reflexivity]].
        + exists (REKEY C k), n. split; [|split; [lia|reflexivity]]. rewrite (surjective_pairing (to_r _)), X2, X3, Hk. reflexivity.
      - destruct (rekey_moves _ _ RekeyRemote _ _ _ eq_refl SV) as (_ & X1 & X2 & X3). rewrite andb_true_r, len_nil.
        destruct (se_i s); unfold receiving in *; cbn [negb].
        + exists k, n. split; [congruence|split; [lia|reflexivity]].
        + exists (REKEY C k), n. split; [|split; [lia|reflexivity]]. rewrite (surjective_pairing (to_r _)), X2, X3, Hk. reflexivity.
      - exists k, n. rewrite andb_false_r, len_nil. split; [|split; [lia|reflexivity]]. rewrite (eph_keeps C _ _ _ _ _ _ SV). exact Hk. }
    destruct A as (k1 & n1 & A1 & -> & ->). rewrite <- R in A1.
    destruct (IH _ _ _ W' T' A1 F') as (B1 & B2 & B3 & B4). rewrite R in B3, B4. split; [exact B1|]. split; [exact B2|]. split; [exact B3|].
    rewrite B4, len_app, N.add_assoc. f_equal. unfold rekeys_received. rewrite R. cbn [filter].
    destruct (se_i s), (is_rekey c); cbn [andb negb length]; try reflexivity. apply rekeyed_shift.
Qed.

Theorem rekeyed_positions : forall S D cs cd b, peers C S D -> Forall no_clear cs -> Forall no_clear cd ->
  let y := recv_message C (run_calls C D cd) b in
  res y = Ok tt ->
  b = ENCRYPT C (rekeyed C (rekeys_received D cd) (sending_key S)) (len (transport_recvs C D cd)) [] (plaintext_of (out y)) /\
  forall rnd b0, let x := send_message C rnd (run_calls C S cs) b0 in
  res x = Ok tt ->
  out x = ENCRYPT C (rekeyed C (rekeys_sent S cs) (sending_key S)) (len (transport_sends C S cs)) [] (plaintext_of b0) /\
  (len (transport_sends C S cs) = len (transport_recvs C D cd) -> rekeys_sent S cs = rekeys_received D cd ->
   (b = out x <-> plaintext_of (out y) = plaintext_of b0)).
Proof.
  intros S D cs cd b P QS QD y HR. destruct (peers_channel C OK S D P) as (W1 & T1 & W2 & T2 & K1 & K2).
  destruct (loud_recvs cd D _ _ W2 T2 K2 QD) as (A1 & A2 & A3 & A4). rewrite N.add_0_l in A4.
  pose proof (step_served C OK (run_calls C D cd) (Recv b) A1 A2) as SV. cbn [step] in SV. fold y in SV. rewrite A3 in SV.
  destruct (recv_moves C OK _ _ _ _ _ _ _ _ SV A4) as [[X _]|(_ & _ & _ & _ & _ & E)]; [contradiction|].
  split; [exact E|]. intros rnd b0 x HS. destruct (loud_sends cs S _ _ W1 T1 K1 QS) as (B1 & B2 & B3 & B4). rewrite N.add_0_l in B4.
  pose proof (step_served C OK (run_calls C S cs) (Send rnd b0) B1 B2) as SW. cbn [step] in SW. fold x in SW. rewrite B3 in SW.
  destruct (send_moves C OK _ _ _ _ _ _ _ _ _ SW B4) as [[X _]|(_ & _ & _ & _ & _ & E')]; [contradiction|].
  split; [exact E'|]. intros L R. rewrite E', L, R. rewrite E at 1. split; [apply (seal_inj C OK)|intros ->; reflexivity].
Qed.
Theorem rekeyed_altered : c_seal C = aead_seal -> c_open C = aead_open -> forall m b, m <> b ->
  exists bad, NoDup bad /\ len bad <= 2 ^ 15 /\
  forall S D cs cd rnd b0, peers C S D -> Forall no_clear cs -> Forall no_clear cd ->
    let x := send_message C rnd (run_calls C S cs) b0 in
    res x = Ok tt -> out x = m -> res (recv_message C (run_calls C D cd) b) = Ok tt ->
    len (transport_sends C S cs) = len (transport_recvs C D cd) -> rekeys_sent S cs = rekeys_received D cd ->
    In (one_time_r (rekeyed C (rekeys_sent S cs) (sending_key S)) (nonce96 (len (transport_sends C S cs)))) bad.
Proof.
  intros CS CO m b NE.
  assert (LENS : forall S D cs cd rnd b0, peers C S D -> Forall no_clear cs -> Forall no_clear cd ->
    let x := send_message C rnd (run_calls C S cs) b0 in
    res x = Ok tt -> res (recv_message C (run_calls C D cd) b) = Ok tt -> len (out x) <= 65535 /\ len b <= 65535).
  { intros S D cs cd rnd b0 P QS QD x HS HR. destruct (peers_channel C OK S D P) as (W1 & T1 & W2 & T2 & K1 & K2).
    destruct (loud_recvs cd D _ _ W2 T2 K2 QD) as (A1 & A2 & A3 & A4). destruct (loud_sends cs S _ _ W1 T1 K1 QS) as (B1 & B2 & B3 & B4).
    pose proof (step_served C OK (run_calls C D cd) (Recv b) A1 A2) as SV. cbn [step] in SV. rewrite A3 in SV.
    destruct (recv_moves C OK _ _ _ _ _ _ _ _ SV A4) as [[X _]|(_ & _ & _ & _ & LB & _)]; [contradiction|].
    pose proof (step_served C OK (run_calls C S cs) (Send rnd b0) B1 B2) as SW. cbn [step] in SW. fold x in SW. rewrite B3 in SW.
    destruct (send_moves C OK _ _ _ _ _ _ _ _ _ SW B4) as [[X _]|(_ & _ & _ & _ & LM & _)]; [contradiction|]. split; assumption. }
  destruct (N.le_gt_cases (len m) 65535) as [LM|LM]; [destruct (N.le_gt_cases (len b) 65535) as [LB|LB]|].
  2,3: exists []; split; [constructor|]; split; [rewrite len_nil; lia|]; intros S D cs cd rnd b0 P QS QD x HS E HR; exfalso;
    destruct (LENS S D cs cd rnd b0 P QS QD HS HR) as [X Y]; fold x in X; rewrite E in X; lia.
  assert (P64 : forall x, x <= 65535 -> x < 2 ^ 64) by (intros x X; change (2 ^ 64) with 18446744073709551616; lia).
  destruct (forgery [] m [] b) as (bad & ND & B & H); [reflexivity|apply P64; exact LM|reflexivity|apply P64; exact LB|congruence|].
  exists bad. split; [exact ND|]. split.
  - eapply N.le_trans; [exact B|]. unfold blocks. rewrite len_nil.
    assert (Q : forall x, x <= 65535 -> (x - 16 + 15) / 16 <= 4095).
    { intros x X. apply N.lt_succ_r. apply N.div_lt_upper_bound; lia. }
    change ((0 + 15) / 16) with 0. change (2 ^ 15) with 32768. pose proof (Q _ LM). pose proof (Q _ LB). lia.
  - intros S D cs cd rnd b0 P QS QD x HS EM HR L R.
    destruct (rekeyed_positions S D cs cd b P QS QD HR) as [E X]. destruct (X rnd b0 HS) as [E' _]. fold x in E'. rewrite EM in E'.
    rewrite <- L, <- R in E.
    set (k := rekeyed C (rekeys_sent S cs) (sending_key S)) in *. set (n := len (transport_sends C S cs)) in *.
    apply (H k n (plaintext_of b0) (plaintext_of (out (recv_message C (run_calls C D cd) b)))).
    + rewrite E'. unfold ENCRYPT. cbn [real_crypto c_seal]. rewrite CS. reflexivity.
    + replace (DECRYPT real_crypto k n [] b) with (DECRYPT C k n [] b) by (unfold DECRYPT; cbn [real_crypto c_open]; rewrite CO; reflexivity).
      rewrite E at 1. apply (open_sealed C OK).
Qed.
End Rekey.

(** C105 over the reference primitives, for all private keys. *)
Theorem real_same_hash : forall pro pro' ksi ksr kei ker rnd1 rnd2 I0 R0 b1 m1 b2 m2,
  len ksi = 32 -> len ksr = 32 -> len kei = 32 -> len ker = 32 ->
  started real_crypto true pro (real_pair ksi) rnd1 (real_pair kei) I0 ->
  started real_crypto false pro' (real_pair ksr) rnd2 (real_pair ker) R0 ->
  let x1 := send_message real_crypto rnd1 I0 b1 in
  let x2 := recv_message real_crypto R0 m1 in
  let x3 := send_message real_crypto rnd2 (st x2) b2 in
  let x4 := recv_message real_crypto (st x1) m2 in
  res x1 = Ok tt -> res x2 = Ok tt -> res x3 = Ok tt -> res x4 = Ok tt ->
  get_handshake_hash (st x4) = get_handshake_hash (st x3) ->
  completed real_crypto (st x4) (st x3) \/
  collide real_crypto (hashed real_crypto (h_name real_crypto) (pieces pro (out x1) m2))
    (hashed real_crypto (h_name real_crypto) (pieces pro' m1 (out x3))).
Proof.
  assert (K : forall k, len k = 32 -> keypair_ok (real_pair k)) by (intros k H; split; [exact H|apply (pub_len _ real_crypto_ok)]).
  intros pro pro' ksi ksr kei ker rnd1 rnd2 I0 R0 b1 m1 b2 m2 L1 L2 L3 L4 SI SR.
  exact (same_hash real_crypto real_crypto_ok pro pro' _ _ _ _ rnd1 rnd2 I0 R0 b1 m1 b2 m2 (K _ L1) (K _ L2) (K _ L3) (K _ L4) SI SR
    (real_agree kei ker) (real_agree kei ksr)).
Qed.
