(** * NetProofs: two connected sessions; clearing and rekeying. *)
From Coq Require Import Lia ZifyBool ZifyNat ZifyN.
From Verif Require Import Base SpecWire BaseFacts Noise SpecNoise SpecSession NoiseFacts HandshakeProofs NxProofs SessionProofs.
Open Scope N_scope.

Section Net.
Variable C : crypto.
Hypothesis OK : crypto_ok C.
Notation Z := EMPTY_KEY.

(** [pipe k j n q pts j' n']: a receiver that has done [j] rekeys and expects counter [n] will, after
    the items [q], have received [pts] and reached the sender's [j'] and [n']. *)
Inductive pipe (k : bytes) : nat -> N -> list item -> list bytes -> nat -> N -> Prop :=
| pipe_nil : forall j n, pipe k j n [] [] j n
| pipe_packet : forall j n q pts j' n' pt,
    n < MAX_NONCE -> rekeyed C j k <> Z -> len pt <= 65519 ->
    pipe k j (n + 1) q pts j' n' ->
    pipe k j n (Packet (sealed C (rekeyed C j k) n [] pt) :: q) (pt :: pts) j' n'
| pipe_mark : forall j n q pts j' n', pipe k (S j) n q pts j' n' -> pipe k j n (RekeyMark :: q) pts j' n'.

Lemma pipe_snoc_packet : forall k j n q pts j' n' pt, pipe k j n q pts j' n' ->
  n' < MAX_NONCE -> rekeyed C j' k <> Z -> len pt <= 65519 ->
  pipe k j n (q ++ [Packet (sealed C (rekeyed C j' k) n' [] pt)]) (pts ++ [pt]) j' (n' + 1).
Proof.
  intros k j n q pts j' n' pt P. induction P; intros; cbn [app].
  - apply pipe_packet; auto. apply pipe_nil.
  - apply pipe_packet; auto.
  - apply pipe_mark; auto.
Qed.
Lemma pipe_snoc_mark : forall k j n q pts j' n', pipe k j n q pts j' n' ->
  pipe k j n (q ++ [RekeyMark]) pts (S j') n'.
Proof.
  intros k j n q pts j' n' P. induction P; cbn [app].
  - apply pipe_mark, pipe_nil.
  - apply pipe_packet; auto.
  - apply pipe_mark; auto.
Qed.
Lemma pipe_packets : forall k j n q pts j' n', pipe k j n q pts j' n' -> length pts = packets q.
Proof.
  intros k j n q pts j' n' P. induction P; cbn [length]; unfold packets in *; cbn [filter length] in *; auto.
Qed.
Lemma pipe_le : forall k j n q pts j' n', pipe k j n q pts j' n' -> (j <= j')%nat /\ n' = n + len pts.
Proof.
  intros k j n q pts j' n' P. induction P; rewrite ?len_nil, ?len_cons; lia.
Qed.

Record inv (k1 k2 : bytes) (es : list event) (n : net) : Prop := {
  v_i : 2 <= se_mc (n_i n) /\ se_i (n_i n) = true;
  v_r : 2 <= se_mc (n_r n) /\ se_i (n_r n) = false;
  v_ir : exists j pts,
     cs_k (se_cs1 (n_r n)) = rekeyed C j k1 /\
     cs_k (se_cs1 (n_i n)) = rekeyed C (rekeys es) k1 /\
     pipe k1 j (cs_n (se_cs1 (n_r n))) (n_ir n) pts (rekeys es) (cs_n (se_cs1 (n_i n))) /\
     n_sent_i n = n_got_r n ++ pts /\ cs_n (se_cs1 (n_i n)) = len (n_sent_i n);
  v_ri : exists pts,
     cs_k (se_cs2 (n_i n)) = k2 /\ cs_k (se_cs2 (n_r n)) = k2 /\
     pipe k2 O (cs_n (se_cs2 (n_i n))) (n_ri n) pts O (cs_n (se_cs2 (n_r n))) /\
     n_sent_r n = n_got_i n ++ pts /\ cs_n (se_cs2 (n_r n)) = len (n_sent_r n);
  v_si : n_sent_i n = i_sends es;
  v_sr : n_sent_r n = r_sends es }.

Lemma rekeyed_S : forall j k, rekeyed C (S j) k = REKEY C (rekeyed C j k).
Proof. reflexivity. Qed.

Lemma i_sends_app : forall a b, i_sends (a ++ b) = i_sends a ++ i_sends b.
Proof. intros. apply flat_map_app. Qed.
Lemma r_sends_app : forall a b, r_sends (a ++ b) = r_sends a ++ r_sends b.
Proof. intros. apply flat_map_app. Qed.
Lemma rekeys_app : forall a b, rekeys (a ++ b) = (rekeys a + rekeys b)%nat.
Proof. intros. unfold rekeys. rewrite filter_app, app_length. reflexivity. Qed.

(** A send that goes through, a receive of the next sealed message. *)
Lemma send_ok : forall s pt, 2 <= se_mc s -> len pt <= 65519 -> cs_n (snd_cs s) < MAX_NONCE ->
  cs_k (snd_cs s) <> Z ->
  send_message C [] s (pt ++ placeholder) =
  (se_incr (set_snd s (mkCS (cs_k (snd_cs s)) (cs_n (snd_cs s) + 1))),
   sealed C (cs_k (snd_cs s)) (cs_n (snd_cs s)) [] pt, Ok tt).
Proof.
  intros s pt Hm Hp Hn Hk.
  assert (L : len (pt ++ placeholder) = len pt + 16) by (rewrite len_app; reflexivity).
  destruct (send_cases C [] s (pt ++ placeholder) Hm) as [[Q _]|[[_ [Q _]]|[[_ [_ [Q _]]]|[_ [_ [_ Q]]]]]]; try lia; try contradiction.
  rewrite Q, plaintext_app by reflexivity. reflexivity.
Qed.

Lemma recv_ok : forall s pt, 2 <= se_mc s -> len pt <= 65519 -> cs_n (rcv_cs s) < MAX_NONCE ->
  cs_k (rcv_cs s) <> Z ->
  exists b', recv_message C s (sealed C (cs_k (rcv_cs s)) (cs_n (rcv_cs s)) [] pt) =
  (se_incr (set_rcv s (mkCS (cs_k (rcv_cs s)) (cs_n (rcv_cs s) + 1))), b', Ok tt) /\ plaintext_of b' = pt.
Proof.
  intros s pt Hm Hp Hn Hk.
  rewrite recv_transport by (try assumption; rewrite sealed_len by exact OK; lia).
  destruct (read_sealed C OK (rcv_cs s) pt Hn Hk) as [mac [Hl [_ ->]]].
  eexists. split; [reflexivity|]. apply plaintext_app. exact Hl.
Qed.

Lemma inv_step : forall k1 k2 es n e, inv k1 k2 es n ->
  (forall j, (j <= rekeys (es ++ [e]))%nat -> rekeyed C j k1 <> Z) -> k2 <> Z ->
  (forall pt, e = ISend pt \/ e = RSend pt -> len pt <= 65519) ->
  len (i_sends (es ++ [e])) <= 2 ^ 64 - 1 /\ len (r_sends (es ++ [e])) <= 2 ^ 64 - 1 ->
  inv k1 k2 (es ++ [e]) (net_step C n e).
Proof.
  intros k1 k2 es n e [[I1 I2] [R1 R2] [j [pts [A1 [A2 [A3 [A4 A5]]]]]] [qts [B1 [B2 [B3 [B4 B5]]]]] S1 S2] HK HK2 Hsz Hlen.
  destruct Hlen as [HLi HLr]. rewrite i_sends_app, len_app in HLi. rewrite r_sends_app, len_app in HLr.
  assert (RK : rekeys (es ++ [e]) = (rekeys es + rekeys [e])%nat) by apply rekeys_app.
  assert (Hcur : rekeyed C (rekeys es) k1 <> Z) by (apply HK; lia).
  destruct (pipe_le _ _ _ _ _ _ _ A3) as [Jle Nle].
  destruct (pipe_le _ _ _ _ _ _ _ B3) as [_ Nle2].
  destruct e as [pt|pt| | |loc]; cbn [net_step].
  - (* initiator sends *)
    assert (Hs : snd_cs (n_i n) = se_cs1 (n_i n)) by (unfold snd_cs; rewrite I2; reflexivity).
    assert (Hp : len pt <= 65519) by (apply Hsz; auto).
    rewrite send_ok; rewrite ?Hs; try assumption.
    2:{ rewrite A5, S1. change (len (i_sends [ISend pt])) with 1 in HLi. unfold MAX_NONCE. lia. }
    2:{ rewrite A2. exact Hcur. }
    unfold res, st, out. cbn [fst snd]. unfold set_snd. rewrite I2.
    assert (RK0 : rekeys (es ++ [ISend pt]) = rekeys es) by (rewrite rekeys_app; apply Nat.add_0_r).
    constructor; cbn [n_i n_r n_ir n_ri n_sent_i n_sent_r n_got_i n_got_r se_incr se_set_cs1 se_mc se_i se_cs1 se_cs2 cs_k cs_n].
    + split; [lia|exact I2].
    + auto.
    + exists j, (pts ++ [pt]). rewrite RK0. split; [exact A1|]. split; [exact A2|].
      split. { rewrite A2. apply pipe_snoc_packet; auto. rewrite A5, S1. change (len (i_sends [ISend pt])) with 1 in HLi. unfold MAX_NONCE. lia. }
      split; [rewrite A4, app_assoc; reflexivity|]. rewrite len_app. change (len [pt]) with 1. lia.
    + exists qts. auto.
    + rewrite i_sends_app, S1. reflexivity.
    + rewrite r_sends_app, S2. cbn. rewrite app_nil_r. reflexivity.
  - (* responder sends *)
    assert (Hs : snd_cs (n_r n) = se_cs2 (n_r n)) by (unfold snd_cs; rewrite R2; reflexivity).
    assert (Hp : len pt <= 65519) by (apply Hsz; auto).
    rewrite send_ok; rewrite ?Hs; try assumption.
    2:{ rewrite B5, S2. change (len (r_sends [RSend pt])) with 1 in HLr. unfold MAX_NONCE. lia. }
    2:{ rewrite B2. exact HK2. }
    unfold res, st, out. cbn [fst snd]. unfold set_snd. rewrite R2.
    assert (RK0 : rekeys (es ++ [RSend pt]) = rekeys es) by (rewrite rekeys_app; apply Nat.add_0_r).
    constructor; cbn [n_i n_r n_ir n_ri n_sent_i n_sent_r n_got_i n_got_r se_incr se_set_cs2 se_mc se_i se_cs1 se_cs2 cs_k cs_n].
    + auto.
    + split; [lia|exact R2].
    + exists j, pts. rewrite RK0. auto.
    + exists (qts ++ [pt]). split; [exact B1|]. split; [exact B2|].
      split. { rewrite B2. change k2 with (rekeyed C 0 k2) at 2. apply pipe_snoc_packet; auto. rewrite B5, S2. change (len (r_sends [RSend pt])) with 1 in HLr. unfold MAX_NONCE. lia. }
      split; [rewrite B4, app_assoc; reflexivity|]. rewrite len_app. change (len [pt]) with 1. lia.
    + rewrite i_sends_app, S1. cbn. rewrite app_nil_r. reflexivity.
    + rewrite r_sends_app, S2. reflexivity.
  - (* initiator receives *)
    assert (RK0 : rekeys (es ++ [IRecv]) = rekeys es) by (rewrite rekeys_app; apply Nat.add_0_r).
    assert (Si : i_sends (es ++ [IRecv]) = i_sends es) by (rewrite i_sends_app; apply app_nil_r).
    assert (Sr : r_sends (es ++ [IRecv]) = r_sends es) by (rewrite r_sends_app; apply app_nil_r).
    inversion B3 as [j0 n0 Q1 Q2 Q3 Q4 Q5|j0 n0 q pts' j' n' pt Hn Hk Hp Q Q1 Q2 Q3 Q4 Q5|j0 n0 q pts' j' n' Q Q1 Q2 Q3 Q4 Q5]; subst.
    + constructor; rewrite ?RK0, ?Si, ?Sr; auto.
      * exists j, pts. auto.
      * rewrite <- Q3 in *. exists []. repeat split; auto. 
    + assert (Hs : rcv_cs (n_i n) = se_cs2 (n_i n)) by (unfold rcv_cs; rewrite I2; reflexivity).
      cbn [rekeyed Nat.iter nat_rect] in Hk |- *. 
      destruct (recv_ok (n_i n) pt I1 Hp) as [b' [E1 E2]]; rewrite ?Hs; try assumption.
      rewrite Hs in E1. rewrite E1. unfold res, st, out. cbn [fst snd]. unfold set_rcv. rewrite I2.
      constructor; rewrite ?RK0, ?Si, ?Sr; cbn [n_i n_r n_ir n_ri n_sent_i n_sent_r n_got_i n_got_r se_incr se_set_cs2 se_mc se_i se_cs1 se_cs2 cs_k cs_n]; auto.
      * split; [lia|exact I2].
      * exists j, pts. auto.
      * exists pts'. rewrite E2, <- app_assoc. repeat split; auto.
    + exfalso. destruct (pipe_le _ _ _ _ _ _ _ Q) as [Bad _]. lia.
  - (* responder receives *)
    assert (RK0 : rekeys (es ++ [RRecv]) = rekeys es) by (rewrite rekeys_app; apply Nat.add_0_r).
    assert (Si : i_sends (es ++ [RRecv]) = i_sends es) by (rewrite i_sends_app; apply app_nil_r).
    assert (Sr : r_sends (es ++ [RRecv]) = r_sends es) by (rewrite r_sends_app; apply app_nil_r).
    inversion A3 as [j0 n0 Q1 Q2 Q3 Q4 Q5|j0 n0 q pts' j' n' pt Hn Hk Hp Q Q1 Q2 Q3 Q4 Q5|j0 n0 q pts' j' n' Q Q1 Q2 Q3 Q4 Q5]; subst.
    + constructor; rewrite ?RK0, ?Si, ?Sr; auto.
      * rewrite <- Q3 in *. exists (rekeys es), []. repeat split; auto.
      * exists qts. auto.
    + assert (Hs : rcv_cs (n_r n) = se_cs1 (n_r n)) by (unfold rcv_cs; rewrite R2; reflexivity).
      destruct (recv_ok (n_r n) pt R1 Hp) as [b' [E1 E2]]; rewrite ?Hs; try assumption.
      { rewrite A1. exact Hk. }
      rewrite Hs, A1 in E1. rewrite E1. unfold res, st, out. cbn [fst snd]. unfold set_rcv. rewrite R2.
      constructor; rewrite ?RK0, ?Si, ?Sr; cbn [n_i n_r n_ir n_ri n_sent_i n_sent_r n_got_i n_got_r se_incr se_set_cs1 se_mc se_i se_cs1 se_cs2 cs_k cs_n]; auto.
      * split; [lia|exact R2].
      * exists j, pts'. rewrite E2, <- app_assoc. repeat split; auto.
      * exists qts. auto.
    + unfold rekey_remote_cipherstate. rewrite rekey_spec by exact OK.
      constructor; rewrite ?RK0, ?Si, ?Sr; cbn [n_i n_r n_ir n_ri n_sent_i n_sent_r n_got_i n_got_r se_set_cs1 se_mc se_i se_cs1 se_cs2 cs_k cs_n]; auto.
      * exists (S j), pts. rewrite A1. repeat split; auto.
      * exists qts. auto.
  - (* initiator rekeys *)
    assert (RK1 : rekeys (es ++ [IRekey loc]) = S (rekeys es)) by (rewrite rekeys_app; cbn; lia).
    assert (Si : i_sends (es ++ [IRekey loc]) = i_sends es) by (rewrite i_sends_app; apply app_nil_r).
    assert (Sr : r_sends (es ++ [IRekey loc]) = r_sends es) by (rewrite r_sends_app; apply app_nil_r).
    assert (E : (if loc then rekey_local_cipherstate C (n_i n) else rekey_remote_cipherstate C (n_i n)) =
                se_set_cs1 (n_i n) (mkCS (REKEY C (cs_k (se_cs1 (n_i n)))) (cs_n (se_cs1 (n_i n))))).
    { destruct loc; unfold rekey_local_cipherstate, rekey_remote_cipherstate; rewrite rekey_spec by exact OK; reflexivity. }
    rewrite E.
    constructor; rewrite ?RK1, ?Si, ?Sr; cbn [n_i n_r n_ir n_ri n_sent_i n_sent_r n_got_i n_got_r se_set_cs1 se_mc se_i se_cs1 se_cs2 cs_k cs_n]; auto.
    + exists j, pts. rewrite A2. repeat split; auto. apply pipe_snoc_mark. exact A3.
    + exists qts. auto.
Qed.

Lemma inv_run : forall k1 k2 es0 es n, inv k1 k2 es0 n ->
  (forall j, (j <= rekeys (es0 ++ es))%nat -> rekeyed C j k1 <> Z) -> k2 <> Z ->
  Forall sized es -> len (i_sends (es0 ++ es)) <= 2 ^ 64 - 1 -> len (r_sends (es0 ++ es)) <= 2 ^ 64 - 1 ->
  inv k1 k2 (es0 ++ es) (net_run C n es).
Proof.
  intros k1 k2 es0 es. revert es0. induction es as [|e es IH]; intros es0 n V HK HK2 F HL HL'.
  - rewrite app_nil_r. exact V.
  - cbn [net_run fold_left]. fold (net_run C (net_step C n e) es).
    replace (es0 ++ e :: es) with ((es0 ++ [e]) ++ es) in * by (rewrite <- app_assoc; reflexivity).
    inversion F as [|? ? Fe F']; subst. apply IH; auto.
    apply inv_step; auto.
    + intros j Hj. apply HK. rewrite rekeys_app. lia.
    + intros pt [->| ->]; exact Fe.
    + rewrite i_sends_app, len_app in HL. rewrite r_sends_app, len_app in HL'. lia.
Qed.

(** After a handshake. *)
Lemma completed_linked : forall I R, completed C I R ->
  se_mc I = 2 /\ se_i I = true /\ se_transport I = true /\ se_mc R = 2 /\ se_i R = false /\ se_transport R = true /\
  se_cs1 I = se_cs1 R /\ se_cs2 I = se_cs2 R /\ cs_n (se_cs1 I) = 0 /\ cs_n (se_cs2 I) = 0 /\
  se_h I = se_h R /\ keys32 I /\ hs_rs (se_hs R) = Z.
Proof.
  intros I R (pro & si & sr & ei & er & rnd1 & rnd2 & I0 & R0 & b1 & b2 & H).
  cbv zeta in H. destruct H as (K1 & K2 & K3 & K4 & SI & SR & L1 & L2 & L3 & D1 & D2 & B1 & B2 & NE & -> & ->).
  pose proof (exchange C OK pro si sr ei er rnd1 rnd2 I0 R0 b1 b2 K1 K2 K3 K4 SI SR L1 L2 L3 D1 D2 B1 B2) as X.
  cbv zeta in X. destruct X as (_ & _ & _ & _ & X). specialize (X NE).
  destruct X as (_ & _ & s4 & m1 & m2 & hr & hi & _ & _ & _ & Hi & Hr & E3 & E4 & _).
  rewrite E3, E4. cbn [se_mc se_i se_transport se_cs1 se_cs2 se_h se_hs].
  destruct (split_fields C OK s4) as (F1 & F2 & F3 & F4). unfold keys32. cbn [se_cs1 se_cs2].
  repeat split; auto.
Qed.

Theorem channel : forall I R es, completed C I R ->
  (forall j, (j <= rekeys es)%nat -> rekeyed C j (cs_k (se_cs1 I)) <> zeros32) ->
  cs_k (se_cs2 I) <> zeros32 -> Forall sized es -> len (i_sends es) <= 2 ^ 64 - 1 -> len (r_sends es) <= 2 ^ 64 - 1 ->
  let n := net_run C (net_start I R) es in
  n_sent_i n = i_sends es /\ n_sent_r n = r_sends es /\
  exists pi pr, i_sends es = n_got_r n ++ pi /\ length pi = packets (n_ir n) /\
                r_sends es = n_got_i n ++ pr /\ length pr = packets (n_ri n).
Proof.
  intros I R es HC HK HK2 F HL HL' n.
  destruct (completed_linked I R HC) as (M1 & I1 & T1 & M2 & I2 & T2 & E1 & E2 & N1 & N2 & _ & _ & _).
  assert (V : inv (cs_k (se_cs1 I)) (cs_k (se_cs2 I)) [] (net_start I R)).
  { constructor; cbn [net_start n_i n_r n_ir n_ri n_sent_i n_sent_r n_got_i n_got_r].
    - split; [lia|exact I1].
    - split; [lia|exact I2].
    - exists O, []. rewrite <- E1. repeat split; try constructor. exact N1.
    - exists []. rewrite <- E2. repeat split; try constructor. exact N2.
    - reflexivity.
    - reflexivity. }
  destruct (inv_run _ _ [] es _ V HK HK2 F HL HL') as [_ _ (j & pts & _ & _ & P1 & P2 & _) (qts & _ & _ & Q1 & Q2 & _) S1 S2].
  cbn [app] in *. fold n in P1, P2, Q1, Q2, S1, S2.
  split; [exact S1|]. split; [exact S2|]. exists pts, qts.
  rewrite <- S1, <- S2. repeat split; try assumption; eapply pipe_packets; eassumption.
Qed.

(** ** Clearing *)
Lemma empty_key_send : forall rnd s b, 2 <= se_mc s -> 16 <= len b <= 65535 -> cs_k (snd_cs s) = Z -> cs_n (snd_cs s) = 0 ->
  send_message C rnd s b = (s, b, Err EmptyKeyError).
Proof.
  intros rnd s b Hm Hb Hk Hn.
  destruct (send_cases C rnd s b Hm) as [[Q _]|[[_ [Q _]]|[[_ [_ [_ Q]]]|[_ [_ [Q _]]]]]].
  - contradiction.
  - rewrite Hn in Q. discriminate.
  - exact Q.
  - contradiction.
Qed.
Lemma empty_key_recv : forall s b, 2 <= se_mc s -> 16 <= len b <= 65535 -> cs_k (rcv_cs s) = Z -> cs_n (rcv_cs s) = 0 ->
  recv_message C s b = (s, b, Err EmptyKeyError).
Proof.
  intros s b Hm Hb Hk Hn.
  destruct (recv_cases C s b Hm) as [[Q _]|[[_ [Q _]]|[[_ [_ [_ Q]]]|[_ [_ [Q _]]]]]].
  - contradiction.
  - rewrite Hn in Q. discriminate.
  - exact Q.
  - contradiction.
Qed.

(** In transport mode, what one call does to the two cipher states. *)
Lemma step_cs : forall s c, 2 <= se_mc s ->
  let s' := st (step C s c) in
  2 <= se_mc s' /\ se_i s' = se_i s /\
  (cs_k (se_cs1 s) = Z -> cs_n (se_cs1 s) = 0 -> no_rekey c -> se_cs1 s' = se_cs1 s) /\
  (cs_k (se_cs2 s) = Z -> cs_n (se_cs2 s) = 0 -> se_cs2 s' = se_cs2 s) /\
  (no_clear c -> cs_k (se_cs2 s') = cs_k (se_cs2 s)).
Proof.
  intros s c Hm s'. unfold s'. destruct s as [hs h c1 c2 mc i t].
  cbn [se_mc se_cs1 se_cs2 se_i] in *.
  destruct c as [rnd b|b| | | | |e]; cbn [step].
  - destruct (send_cases C rnd (mkSession hs h c1 c2 mc i t) b Hm) as [[_ ->]|[[_ [_ ->]]|[[_ [_ [_ ->]]]|[_ [_ [NE ->]]]]]];
      unfold st; cbn [fst snd]; try (repeat split; auto; fail).
    unfold set_snd, snd_cs in *. destruct i; cbn in *; repeat split; auto; try lia; intros; contradiction.
  - destruct (recv_cases C (mkSession hs h c1 c2 mc i t) b Hm) as [[_ ->]|[[_ [_ ->]]|[[_ [_ [_ ->]]]|[_ [_ [NE [ct [mac [pt [_ [_ [[_ ->]|[_ ->]]]]]]]]]]]]];
      unfold st; cbn [fst snd]; try (repeat split; auto; fail).
    unfold set_rcv, rcv_cs in *. destruct i; cbn in *; repeat split; auto; try lia; intros; contradiction.
  - cbn. repeat split; auto. intros. unfold cs_clear. destruct c1. cbn in *. subst. reflexivity.
  - cbn. repeat split; auto; try contradiction. intros. unfold cs_clear. destruct c2. cbn in *. subst. reflexivity.
  - cbn. repeat split; auto. contradiction.
  - cbn. repeat split; auto. contradiction.
  - cbn. repeat split; auto.
Qed.

Lemma run_cs1_empty : forall cs s, 2 <= se_mc s -> cs_k (se_cs1 s) = Z -> cs_n (se_cs1 s) = 0 -> Forall no_rekey cs ->
  2 <= se_mc (run_calls C s cs) /\ se_i (run_calls C s cs) = se_i s /\ se_cs1 (run_calls C s cs) = se_cs1 s.
Proof.
  induction cs as [|c cs IH]; intros s Hm Hk Hn F; [auto|].
  inversion F as [|? ? Fc F']; subst. rewrite run_calls_cons.
  destruct (step_cs s c Hm) as [A [B [D _]]]. specialize (D Hk Hn Fc).
  destruct (IH (st (step C s c)) A ltac:(rewrite D; exact Hk) ltac:(rewrite D; exact Hn) F') as [A' [B' D']].
  rewrite B', D', B, D. auto.
Qed.
Lemma run_cs2_empty : forall cs s, 2 <= se_mc s -> cs_k (se_cs2 s) = Z -> cs_n (se_cs2 s) = 0 ->
  2 <= se_mc (run_calls C s cs) /\ se_i (run_calls C s cs) = se_i s /\ se_cs2 (run_calls C s cs) = se_cs2 s.
Proof.
  induction cs as [|c cs IH]; intros s Hm Hk Hn; [auto|].
  rewrite run_calls_cons.
  destruct (step_cs s c Hm) as [A [B [_ [D _]]]]. specialize (D Hk Hn).
  destruct (IH (st (step C s c)) A ltac:(rewrite D; exact Hk) ltac:(rewrite D; exact Hn)) as [A' [B' D']].
  rewrite B', D', B, D. auto.
Qed.
Lemma run_cs2_key : forall cs s, 2 <= se_mc s -> Forall no_clear cs ->
  cs_k (se_cs2 (run_calls C s cs)) = cs_k (se_cs2 s).
Proof.
  induction cs as [|c cs IH]; intros s Hm F; [reflexivity|].
  inversion F as [|? ? Fc F']; subst. rewrite run_calls_cons.
  destruct (step_cs s c Hm) as [A [_ [_ [_ D]]]]. rewrite IH by assumption. apply D. exact Fc.
Qed.
End Net.
