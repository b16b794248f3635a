(** * FailureProofs: panics, refusals and what failed calls leave behind. *)
From Coq Require Import Lia ZifyBool ZifyNat ZifyN.
From Verif Require Import Base SpecWire BaseFacts Noise SpecNoise SpecSession NoiseFacts HandshakeProofs NxProofs
  SessionProofs NetProofs RecvProofs NoiseClaims.
Open Scope N_scope.

Section Failure.
Variable C : crypto.
Hypothesis OK : crypto_ok C.
Notation Z := EMPTY_KEY.

(** ** Panics on the second handshake message *)
Lemma recv_b_tail : forall ss s e rs re psk h c1 c2 i t pe ps tail,
  len pe = 32 -> len ps = 32 -> ~ low_order pe -> ~ low_order ps ->
  (len tail < 16 \/ 2048 < len tail) -> 80 + len tail <= 65535 ->
  let s1 := ssB1 C ss pe (c_dh C (kp_private e) pe) in
  cs_k (ss_cs s1) <> Z ->
  res (recv_message C (mkSession (mkHS ss s e rs re psk) h c1 c2 1 i t) (pe ++ box C s1 ps ++ tail)) = Panic.
Proof.
  intros * Hpe Hps Hlo1 Hlo2 Ht Hl s1 Hk1.
  assert (B1 : len (box C s1 ps) = 48) by (unfold box; rewrite sealed_len by exact OK; lia).
  destruct (dec_sealed C OK s1 ps (mix_key_n C _ _) Hk1 ltac:(lia)) as [m1 [Hm1 D1]].
  assert (HL : len (pe ++ box C s1 ps ++ tail) = 80 + len tail) by (rewrite !len_app; lia).
  unfold recv_message. rewrite session_len_ok by lia.
  cbn [se_mc N.eqb Pos.eqb se_hs]. unfold read_message_b. unfold DHLEN.
  rewrite (firstn_app_exact _ 32 pe) by (rewrite Hpe; reflexivity).
  rewrite (skipn_app_exact _ 32 pe) by (rewrite Hpe; reflexivity).
  unfold from_slice_hashlen at 1. rewrite (firstn_exact _ 32 pe) by (rewrite Hpe; reflexivity).
  rewrite public_key_ok by assumption.
  destruct (len (pe ++ box C s1 ps ++ tail) <? 48) eqn:E1; [lia|].
  cbn [hs_e hs_ss hs_re hs_s hs_rs hs_psk hs_set_re]. unfold keypair_dh.
  rewrite (firstn_exact _ 32 pe) by (rewrite Hpe; reflexivity).
  fold (ssB1 C ss pe (c_dh C (kp_private e) pe)). fold s1.
  destruct (len (box C s1 ps ++ tail) <? 48) eqn:E2; [rewrite len_app in E2; lia|].
  rewrite firstn_app_exact by (rewrite B1; reflexivity).
  rewrite skipn_app_exact by (rewrite B1; reflexivity).
  fold (box C s1 ps) in D1. rewrite D1.
  unfold from_slice_hashlen at 1. rewrite (firstn_app_exact _ 32 ps) by (rewrite Hps; reflexivity).
  rewrite public_key_ok by assumption.
  match goal with |- context [decrypt_and_hash C ?x tail] => assert (E : decrypt_and_hash C x tail = (x, tail, Panic)) end.
  { unfold decrypt_and_hash. destruct (2048 <? len tail) eqn:E; [reflexivity|].
    rewrite split_mac_short by lia. reflexivity. }
  rewrite E. reflexivity.
Qed.

(** An honest second message, cut or oversized. *)
Theorem honest_panic : forall pro si sr ei er rnd1 rnd2 I0 R0 b1 b2 m,
  honest C pro si sr ei er rnd1 rnd2 I0 R0 ->
  48 <= len b1 <= 65535 -> 96 <= len b2 <= 65535 ->
  let x1 := send_message C rnd1 I0 b1 in
  let x2 := recv_message C R0 (out x1) in
  let x3 := send_message C rnd2 (st x2) b2 in
  ~ In zeros32 (nx_keys C pro sr er (out x1) (payload2 b2)) ->
  (2128 < len b2 /\ m = out x3) \/ (exists k, 80 <= k < 96 /\ m = firstn (N.to_nat k) (out x3)) ->
  res (recv_message C (st x1) m) = Panic.
Proof.
  intros * [Ksi Ksr Kei Ker HI HR L1 L2 L3 D1 D2] Hb1 Hb2 x1 x2 x3 NZ HM.
  assert (O1 : out x1 = kp_public ei ++ skipn 32 b1).
  { apply (started_len1 C pro si rnd1 ei I0 b1 true); auto; lia. }
  assert (X3 : res x3 = Ok tt).
  { unfold x3, x2. rewrite O1 in *. apply (responder_ok C OK pro sr er rnd2 R0 (kp_public ei) (skipn 32 b1) b2); auto; try apply Kei; try lia.
    rewrite len_app, len_skipn, (proj2 Kei). lia. }
  clear NZ.
  destruct (started_state _ _ _ _ _ _ _ HI) as [ei0 [-> EI]].
  destruct (started_state _ _ _ _ _ _ _ HR) as [er0 [-> ER]].
  assert (X1 : x1 = _) by (unfold x1; apply send_a; [lia|exact EI]).
  assert (X2 : x2 = (mkSession (mkHS (ssA C (ss0 C pro) (kp_public ei) (skipn 32 b1)) sr er0 Z (kp_public ei) Z)
                       Z cs_new cs_new 1 false false, kp_public ei ++ skipn 32 b1, Ok tt)).
  { unfold x2. rewrite X1. unfold out. cbn [fst snd]. apply recv_a.
    - apply (proj2 Kei).
    - exact L1.
    - rewrite len_app, len_skipn, (proj2 Kei). lia. }
  assert (X3' : x3 = send_message C rnd2 (st x2) b2) by reflexivity.
  clearbody x1 x2 x3. subst x1 x2. unfold res, out, st in *. cbn [fst snd] in *.
  destruct (split_b2 b2 ltac:(lia)) as [x [y1 [y2 [p [mm [Eb [Hx [Hy1 [Hy2 Hm]]]]]]]]].
  assert (Lb : len b2 = 96 + len p) by (rewrite Eb, !len_app; lia).
  set (SS := ssA C (ss0 C pro) (kp_public ei) (skipn 32 b1)) in *.
  pose proof (send_b C OK rnd2 SS sr er0 er Z (kp_public ei) Z Z cs_new cs_new false false x y1 y2 p mm
                Ksr Hx Hy1 Hy2 Hm ltac:(rewrite <- Eb; lia) ER) as SB.
  cbv zeta in SB. rewrite <- Eb in SB. rewrite <- X3' in SB. unfold res in SB.
  destruct SB as [[Bad _]|[K1 [K3 X3'']]]; [rewrite Bad in X3; discriminate|].
  clear X3' X3. subst x3. cbn [fst snd] in *.
  unfold dh_agree in D1, D2. rewrite <- D1 in *.
  set (s1 := ssB1 C SS (kp_public er) (c_dh C (kp_private ei) (kp_public er))) in *.
  match type of HM with context [box C s1 _ ++ ?t] => set (tail := t) in * end.
  assert (LT : len tail = len p + 16) by (unfold tail, box; apply sealed_len; exact OK).
  assert (LB : len (box C s1 (kp_public sr)) = 48) by (unfold box; rewrite sealed_len by exact OK; rewrite (proj2 Ksr); reflexivity).
  destruct HM as [[Hbig ->]|[k [Hk ->]]].
  - apply recv_b_tail; try assumption; try apply Ker; try apply Ksr; lia.
  - rewrite app_assoc, firstn_app, app_length.
    assert (LL : (length (kp_public er) + length (box C s1 (kp_public sr)) = 80)%nat).
    { destruct Ker as [_ Ker]. unfold len in *. lia. }
    rewrite LL, firstn_all2 by (rewrite app_length; lia). rewrite <- app_assoc.
    apply recv_b_tail; try assumption; try apply Ker; try apply Ksr.
    + left. rewrite len_firstn'. unfold len in *. lia.
    + rewrite len_firstn'. unfold len in *. lia.
Qed.

(** ** Low-order keys in handshake messages *)
Lemma low_order_refused : forall s b, se_mc s < 2 -> 48 <= len b <= 65535 -> low_order (firstn 32 b) ->
  recv_message C s b = (s, b, Err InvalidPublicKeyError).
Proof.
  intros s b Hm Hb LO. unfold recv_message. rewrite session_len_ok by lia.
  assert (L : len (firstn 32 b) = 32) by (rewrite len_firstn'; unfold len in *; lia).
  destruct (public_key_from_bytes_spec _ L) as [[_ PK]|[Bad _]]; [|contradiction].
  destruct (se_mc s =? 0) eqn:E0.
  - unfold read_message_a. destruct (len b <? 48) eqn:E; [lia|].
    unfold from_slice_hashlen, DHLEN. rewrite (firstn_exact _ 32 (firstn 32 b)) by exact L. rewrite PK.
    destruct s; reflexivity.
  - destruct (se_mc s =? 1) eqn:E1; [|lia]. unfold read_message_b. destruct (len b <? 48) eqn:E; [lia|].
    unfold from_slice_hashlen, DHLEN. rewrite (firstn_exact _ 32 (firstn 32 b)) by exact L. rewrite PK.
    destruct s; reflexivity.
Qed.

(** No handshake ever completes with a low-order static key. *)
Lemma static_not_low : forall s b, se_mc s = 1 -> res (recv_message C s b) = Ok tt ->
  ~ low_order (hs_rs (se_hs (st (recv_message C s b)))).
Proof.
  intros s b Hm. unfold recv_message.
  match goal with |- context [if ?c then _ else _] => destruct c; [discriminate|] end.
  rewrite Hm. cbn [N.eqb Pos.eqb]. unfold read_message_b. destruct (len b <? 48); [discriminate|].
  destruct (public_key_from_bytes _); try discriminate.
  destruct (len (skipn DHLEN b) <? 48) eqn:E2; [discriminate|].
  match goal with |- context [decrypt_and_hash C ?s ?x] => pose proof (dah_len C OK s x) as L1;
    destruct (decrypt_and_hash C s x) as [[ss1 rs] [r|e|]] end; try discriminate. cbn [fst snd] in L1.
  destruct (public_key_from_bytes (from_slice_hashlen rs)) as [rk|e|] eqn:E; try discriminate.
  destruct (decrypt_and_hash C (mix_key _ _ _) _) as [[ss2 rest] [r2|e|]]; try discriminate.
  destruct (split C ss2). intros _. unfold st. cbn [fst snd].
  cbn [se_incr se_enter_transport se_hs se_set_hs hs_clear hs_set_ss hs_set_rs hs_rs].
  assert (L : len (from_slice_hashlen rs) = 32).
  { unfold from_slice_hashlen, DHLEN in *. rewrite len_firstn'. rewrite len_firstn', len_skipn in L1.
    rewrite len_skipn in E2. unfold len in *. lia. }
  destruct (public_key_from_bytes_spec _ L) as [[_ PK]|[NL PK]]; rewrite PK in E; [discriminate|].
  injection E as <-. exact NL.
Qed.

(** ** What failed handshake calls leave behind *)
Lemma recv_first_reject : forall s b, se_mc s = 0 -> res (recv_message C s b) <> Ok tt ->
  st (recv_message C s b) = s /\ out (recv_message C s b) = b.
Proof.
  intros s b Hm. unfold recv_message.
  match goal with |- context [if ?c then _ else _] => destruct c; [auto|] end.
  rewrite Hm. cbn [N.eqb]. unfold read_message_a. destruct (len b <? 48).
  { intros _. destruct s; auto. }
  destruct (public_key_from_bytes _); intro H; try (destruct s; auto; fail). exfalso. apply H. reflexivity.
Qed.
Lemma recv_second_reject : forall s b, se_mc s = 1 ->
  (len b < 48 \/ 65535 < len b \/ low_order (firstn 32 b)) ->
  st (recv_message C s b) = s /\ out (recv_message C s b) = b /\ exists e, res (recv_message C s b) = Err e.
Proof.
  intros s b Hm HB.
  destruct (N.le_gt_cases 16 (len b)) as [H16|H16].
  2:{ destruct (size_refused C [] s b ltac:(lia)) as [_ ->]. cbn. eauto. }
  destruct (N.le_gt_cases (len b) 65535) as [HX|HX].
  2:{ destruct (size_refused C [] s b ltac:(lia)) as [_ ->]. cbn. eauto. }
  destruct (N.le_gt_cases 48 (len b)) as [H48|H48].
  2:{ unfold recv_message. rewrite session_len_ok by lia. rewrite Hm. cbn [N.eqb Pos.eqb].
      unfold read_message_b. destruct (len b <? 48) eqn:E; [|lia]. cbn. destruct s; eauto. }
  destruct HB as [HB|[HB|HB]]; try lia.
  rewrite low_order_refused by (try assumption; lia). cbn. eauto.
Qed.
Lemma send_first_reject : forall rnd s b, se_mc s = 0 -> res (send_message C rnd s b) <> Ok tt ->
  st (send_message C rnd s b) = s /\ out (send_message C rnd s b) = b.
Proof.
  intros rnd s b Hm. unfold send_message.
  match goal with |- context [if ?c then _ else _] => destruct c; [auto|] end.
  rewrite Hm. cbn [N.eqb]. unfold write_message_a. destruct (len b <? 32).
  { intros _. destruct s; auto. }
  intro H. exfalso. apply H. reflexivity.
Qed.
Lemma send_second_reject : forall rnd s b, se_mc s = 1 -> len b < 32 ->
  st (send_message C rnd s b) = s /\ out (send_message C rnd s b) = b /\ exists e, res (send_message C rnd s b) = Err e.
Proof.
  intros rnd s b Hm Hb.
  destruct (N.le_gt_cases 16 (len b)) as [H16|H16].
  2:{ destruct (size_refused C rnd s b ltac:(lia)) as [-> _]. cbn. eauto. }
  unfold send_message. rewrite session_len_ok by lia. rewrite Hm. cbn [N.eqb Pos.eqb].
  unfold write_message_b. destruct (len b <? 32) eqn:E; [|lia]. cbn. destruct s; eauto.
Qed.

(** ** Clearing, rekeying *)
Lemma clear_rekey_send : forall s rnd pt, 2 <= se_mc s -> se_i s = true -> len pt <= 65519 ->
  REKEY C zeros32 <> zeros32 ->
  let s1 := run_calls C s [ClearLocal; RekeyLocal] in
  res (send_message C rnd s1 (pt ++ placeholder)) = Ok tt /\
  out (send_message C rnd s1 (pt ++ placeholder)) = ENCRYPT C (REKEY C zeros32) 0 [] pt.
Proof.
  intros s rnd pt Hm Hi Hp NZ s1.
  assert (E1 : se_cs1 s1 = mkCS (REKEY C zeros32) 0).
  { unfold s1. cbn [run_calls step fst]. unfold rekey_local_cipherstate. rewrite rekey_spec by exact OK. reflexivity. }
  assert (M1 : se_mc s1 = se_mc s) by reflexivity. assert (I1 : se_i s1 = true) by exact Hi.
  clearbody s1.
  assert (L : len (pt ++ placeholder) = len pt + 16) by (rewrite len_app; reflexivity).
  assert (SC : snd_cs s1 = mkCS (REKEY C zeros32) 0) by (unfold snd_cs; rewrite I1; exact E1).
  destruct (send_cases C rnd s1 (pt ++ placeholder) ltac:(lia)) as [[Q _]|[[_ [Q _]]|[[_ [_ [Q _]]]|[_ [_ [_ Q]]]]]];
    rewrite ?SC in *; cbn [cs_n cs_k] in *; try lia; try discriminate; try contradiction.
  rewrite Q. unfold res, out. cbn [fst snd]. split; [reflexivity|]. rewrite plaintext_app by reflexivity.
  apply sealed_spec. apply REKEY_len. exact OK.
Qed.
Lemma rekey_remote_effect : forall s,
  se_cs2 (rekey_remote_cipherstate C s) = se_cs2 s /\
  cs_k (se_cs1 (rekey_remote_cipherstate C s)) = REKEY C (cs_k (se_cs1 s)) /\
  rekey_remote_cipherstate C s = rekey_local_cipherstate C s.
Proof. intro s. unfold rekey_remote_cipherstate. rewrite rekey_spec by exact OK. repeat split. unfold rekey_local_cipherstate. rewrite rekey_spec by exact OK. reflexivity. Qed.
End Failure.
