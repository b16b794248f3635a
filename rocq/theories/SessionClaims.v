(** * SessionClaims: the property statements about sessions, assembled from the lemmas. *)
From Coq Require Import Lia ZifyBool ZifyNat ZifyN.
From Verif Require Import Base SpecWire BaseFacts Noise Crypto CryptoFacts X25519Facts SpecNoise SpecSession NoiseFacts
  HandshakeProofs NxProofs SessionProofs NetProofs RecvProofs NoiseClaims FailureProofs NoiseSamples.
Open Scope N_scope.
Notation Z := EMPTY_KEY.

Lemma d_keys : ~ In zeros32 (nx_keys demo_crypto d_prologue d_sr d_er (out (send_message demo_crypto k_ei d_I0 d_b1)) (payload2 d_b2)).
Proof. vm_compute. intro H. repeat (destruct H as [H|H]; [discriminate|]). exact H. Qed.

Lemma d_completed : completed demo_crypto d_I d_R.
Proof.
  destruct d_honest as [H1 H2 H3 H4 H5 H6 H7 H8 H9 H10 H11].
  exists d_prologue, d_si, d_sr, d_ei, d_er, k_ei, k_er, d_I0, d_R0, d_b1, d_b2. cbv zeta.
  rewrite d_x1_eq, d_x2_eq, d_x3_eq, d_x4_eq.
  do 11 (split; [assumption|]). split; [vm_compute; split; discriminate|].
  split; [vm_compute; split; discriminate|]. split; [discriminate|]. split; reflexivity.
Qed.

Lemma d_reach_I : reachable demo_crypto d_I.
Proof.
  exists true, d_prologue, d_si, [Send k_ei d_b1; Recv (out d_x3)].
  fold d_I0 d_R0. cbn [run_calls step]. rewrite d_x1_eq. fold (st d_x1). rewrite d_x4_eq. reflexivity.
Qed.
Lemma d_reach_R : reachable demo_crypto d_R.
Proof.
  exists false, d_prologue, d_sr, [Recv (out d_x1); Send k_er d_b2].
  fold d_I0 d_R0. cbn [run_calls step]. rewrite d_x2_eq. fold (st d_x2). rewrite d_x3_eq. reflexivity.
Qed.

(** ** C44 *)
Lemma no_rekey_count : forall es, (forall l, ~ In (IRekey l) es) -> rekeys es = O.
Proof.
  induction es as [|e es IH]; intro H; [reflexivity|]. unfold rekeys in *. cbn [filter].
  destruct e; try (apply IH; intros l Hl; apply (H l); right; exact Hl). exfalso. apply (H local). left. reflexivity.
Qed.

(** What a whole transport history delivers. *)
Definition delivered (C : crypto) (I R : session) (es : list event) : Prop :=
  let n := net_run C (net_start I R) es in
  n_sent_i n = i_sends es /\ n_sent_r n = r_sends es /\
  exists pi pr, i_sends es = n_got_r n ++ pi /\ length pi = packets (n_ir n) /\
                r_sends es = n_got_i n ++ pr /\ length pr = packets (n_ri n).

Lemma channel_no_rekey : forall C, crypto_ok C -> forall I R es, completed C I R ->
  cs_k (se_cs1 I) <> zeros32 -> cs_k (se_cs2 I) <> zeros32 ->
  Forall sized es -> (forall l, ~ In (IRekey l) es) ->
  len (i_sends es) <= 2 ^ 64 - 1 -> len (r_sends es) <= 2 ^ 64 - 1 ->
  let n := net_run C (net_start I R) es in
  n_sent_i n = i_sends es /\ n_sent_r n = r_sends es /\
  exists pi pr, i_sends es = n_got_r n ++ pi /\ length pi = packets (n_ir n) /\
                r_sends es = n_got_i n ++ pr /\ length pr = packets (n_ri n).
Proof.
  intros C OK I R es HC K1 K2 F NR L1 L2. apply (channel C OK); auto.
  intros j Hj. rewrite no_rekey_count in Hj by exact NR. assert (j = O) by lia. subst. exact K1.
Qed.

(** ** C45, C46 *)
Lemma reject_no_effect : forall C, crypto_ok C -> forall s b, reachable C s -> is_transport s = true ->
  res (recv_message C s b) <> Ok tt -> st (recv_message C s b) = s.
Proof. intros C OK s b R T H. apply recv_reject; [apply (reachable_transport C OK); assumption|exact H]. Qed.

Lemma junk_no_effect : forall C, crypto_ok C -> forall s bs, reachable C s -> is_transport s = true ->
  Forall (fun b => res (recv_message C s b) <> Ok tt) bs -> run_calls C s (map Recv bs) = s.
Proof. intros C OK s bs R T H. apply junk_ignored; [apply (reachable_transport C OK); assumption|exact H]. Qed.

Lemma accepts_sealed : forall C, crypto_ok C -> forall s b, reachable C s -> is_transport s = true ->
  res (recv_message C s b) = Ok tt ->
  let c := if se_i s then se_cs2 s else se_cs1 s in
  let s' := st (recv_message C s b) in
  let c' := if se_i s' then se_cs2 s' else se_cs1 s' in
  b = ENCRYPT C (cs_k c) (cs_n c) [] (plaintext_of (out (recv_message C s b))) /\
  cs_k c <> zeros32 /\ c' = mkCS (cs_k c) (cs_n c + 1) /\ cs_n c < 2 ^ 64 - 1.
Proof.
  intros C OK s b R T H c s' c'. 
  destruct (recv_message C s b) as [[s1 b1] r] eqn:E. unfold res, out, st in *. cbn [fst snd] in *. subst r.
  destruct (recv_accept C OK s b s1 b1 (wf_reachable C OK s R) T E) as (A1 & A2 & A3 & A4 & _ & _).
  unfold c', s', c. subst s1. fold (rcv_cs s). split; [exact A3|]. split; [exact A1|].
  split; [|exact A2]. unfold set_rcv, rcv_cs. destruct s as [hs h c1 c2 mc i t]. destruct i; reflexivity.
Qed.

(** ** C47: no two sends of a history share a counter value *)
Lemma nonces_distinct : forall C, crypto_ok C -> forall i pro kp cs, Forall no_clear cs ->
  exists k0, forall j b o, nth_error (transport_sends C (init_session C i pro kp) cs) j = Some (b, o) ->
    exists k, k <> zeros32 /\ o = ENCRYPT C k (N.of_nat j) [] (plaintext_of b) /\
      (Forall no_rekey cs -> k = k0) /\
      forall j' b' o', nth_error (transport_sends C (init_session C i pro kp) cs) j' = Some (b', o') ->
        j <> j' -> nonce96 (N.of_nat j) <> nonce96 (N.of_nat j').
Proof.
  intros C OK i pro kp cs F. destruct (history_sends C OK i pro kp cs F) as [k0 H]. exists k0.
  intros j b o Hj. destruct (H j b o Hj) as [Lj [k [A1 [A2 A3]]]]. exists k.
  split; [exact A1|]. split; [exact A2|]. split; [exact A3|].
  intros j' b' o' Hj' NE EQ. destruct (H j' b' o' Hj') as [Lj' _].
  apply nonce96_inj in EQ; lia.
Qed.

(** ** C48 *)
Lemma gating : forall C i pro kp cs,
  let s := run_calls C (init_session C i pro kp) cs in
  get_message_count s = successes C (init_session C i pro kp) cs /\
  (is_transport s = true <-> 2 <= get_message_count s) /\
  (get_handshake_hash s = None <-> is_transport s = false) /\
  (get_remote_static_public_key s = None <-> is_transport s = false) /\
  (forall more, is_transport s = true -> is_transport (run_calls C s more) = true).
Proof.
  intros C i pro kp cs s. destruct (init_gate C i pro kp) as [G0 M0].
  destruct (run_gate C cs _ G0) as [G M]. fold s in G, M. rewrite M0, N.add_0_l in M.
  split; [exact M|]. split; [exact G|].
  split. { unfold get_handshake_hash, is_transport. destruct (se_transport s); split; congruence. }
  split. { unfold get_remote_static_public_key, is_transport. destruct (se_transport s); split; congruence. }
  intros more T. apply run_transport_stays; assumption.
Qed.

(** ** C52 *)
Lemma cleared_local : forall C, crypto_ok C -> forall s cs rnd b, reachable C s -> is_transport s = true ->
  Forall no_rekey cs -> 16 <= len b <= 65535 ->
  let s' := run_calls C s (ClearLocal :: cs) in
  if se_i s then send_message C rnd s' b = (s', b, Err EmptyKeyError)
  else recv_message C s' b = (s', b, Err EmptyKeyError).
Proof.
  intros C OK s cs rnd b R T F Hb s'. pose proof (reachable_transport C OK s R T) as Hm.
  set (s0 := clear_local_cipherstate s).
  assert (E : s' = run_calls C s0 cs) by reflexivity. clearbody s'.
  destruct (run_cs1_empty C cs s0) as (A & B & D); try assumption; try reflexivity. rewrite <- E in *.
  assert (I : se_i s' = se_i s) by exact B.
  assert (K : se_cs1 s' = mkCS Z 0) by exact D.
  destruct (se_i s).
  - apply empty_key_send; try assumption; unfold snd_cs; rewrite I, K; reflexivity.
  - apply empty_key_recv; try assumption; unfold rcv_cs; rewrite I, K; reflexivity.
Qed.
Lemma cleared_remote : forall C, crypto_ok C -> forall s cs rnd b, reachable C s -> is_transport s = true ->
  16 <= len b <= 65535 ->
  let s' := run_calls C s (ClearRemote :: cs) in
  if se_i s then recv_message C s' b = (s', b, Err EmptyKeyError)
  else send_message C rnd s' b = (s', b, Err EmptyKeyError).
Proof.
  intros C OK s cs rnd b R T Hb s'. pose proof (reachable_transport C OK s R T) as Hm.
  set (s0 := clear_remote_cipherstate s).
  assert (E : s' = run_calls C s0 cs) by reflexivity. clearbody s'.
  destruct (run_cs2_empty C cs s0) as (A & B & D); try assumption; try reflexivity. rewrite <- E in *.
  assert (I : se_i s' = se_i s) by exact B.
  assert (K : se_cs2 s' = mkCS Z 0) by exact D.
  destruct (se_i s).
  - apply empty_key_recv; try assumption; unfold rcv_cs; rewrite I, K; reflexivity.
  - apply empty_key_send; try assumption; unfold snd_cs; rewrite I, K; reflexivity.
Qed.
Lemma never_zero_key : forall C, crypto_ok C -> forall i pro kp cs b o,
  In (b, o) (transport_sends C (init_session C i pro kp) cs) ->
  exists k n, k <> zeros32 /\ n < 2 ^ 64 - 1 /\ o = ENCRYPT C k n [] (plaintext_of b).
Proof. intros C OK i pro kp cs b o H. exact (sends_nonzero C OK cs _ (wf_init C i pro kp) b o H). Qed.

(** ** C53 *)
Lemma predictable_key : forall C, crypto_ok C -> forall s rnd pt, reachable C s -> is_transport s = true ->
  se_i s = true -> len pt <= 65519 -> REKEY C zeros32 <> zeros32 ->
  let x := send_message C rnd (run_calls C s [ClearLocal; RekeyLocal]) (pt ++ placeholder) in
  res x = Ok tt /\ out x = ENCRYPT C (REKEY C zeros32) 0 [] pt.
Proof. intros C OK s rnd pt R T I Hp NZ. apply (clear_rekey_send C OK); auto. apply (reachable_transport C OK); assumption. Qed.

Lemma predictable_witness : exists C s pt, crypto_ok C /\ reachable C s /\ is_transport s = true /\
  let x := send_message C [] (run_calls C s [ClearLocal; RekeyLocal]) (pt ++ placeholder) in
  res x = Ok tt /\ out x = ENCRYPT C (REKEY C zeros32) 0 [] pt.
Proof.
  exists demo_crypto, d_I, [x61; x62; x63]. split; [exact demo_ok|]. split; [exact d_reach_I|]. split; [reflexivity|].
  cbv zeta. split; vm_compute; reflexivity.
Qed.

(** ** C54 *)
Lemma rekey_remote_wrong : exists C s, crypto_ok C /\ reachable C s /\ is_transport s = true /\
  se_cs2 (rekey_remote_cipherstate C s) = se_cs2 s /\ se_cs1 (rekey_remote_cipherstate C s) <> se_cs1 s.
Proof.
  exists demo_crypto, d_I. split; [exact demo_ok|]. split; [exact d_reach_I|]. split; [reflexivity|].
  split; [reflexivity|]. vm_compute. discriminate.
Qed.
Lemma cs2_key_fixed : forall C, crypto_ok C -> forall s cs, reachable C s -> is_transport s = true -> Forall no_clear cs ->
  cs_k (se_cs2 (run_calls C s cs)) = cs_k (se_cs2 s).
Proof. intros C OK s cs R T F. apply run_cs2_key; [apply (reachable_transport C OK); assumption|exact F]. Qed.

(** ** C56 *)
Lemma low_order_message : forall C, crypto_ok C -> forall s b, reachable C s -> is_transport s = false ->
  48 <= len b <= 65535 -> low_order (firstn 32 b) -> recv_message C s b = (s, b, Err InvalidPublicKeyError).
Proof. intros C OK s b R T Hb L. apply low_order_refused; auto. apply (reachable_handshake C OK); assumption. Qed.
(** The static key of a completed initiator is never of low order; nor is the key in the second message. *)
Lemma low_order_static : forall C, crypto_ok C -> forall s b, reachable C s -> get_message_count s = 1 ->
  res (recv_message C s b) = Ok tt ->
  exists k, get_remote_static_public_key (st (recv_message C s b)) = Some k /\ ~ low_order k.
Proof.
  intros C OK s b R M H. exists (hs_rs (se_hs (st (recv_message C s b)))).
  split; [|apply (static_not_low C OK); assumption].
  unfold get_remote_static_public_key. destruct (recv_mc C s b) as [_ [X _]]. destruct (X H) as [_ [Y _]].
  rewrite Y by exact M. reflexivity.
Qed.
Lemma from_bytes_exact : forall k, len k = 32 ->
  (public_key_from_bytes k = Err InvalidPublicKeyError <-> low_order k) /\
  (public_key_from_bytes k = Ok k <-> ~ low_order k).
Proof.
  intros k H. destruct (public_key_from_bytes_spec k H) as [[A B]|[A B]]; rewrite B; split; split; try tauto; discriminate.
Qed.

(** ** C57 *)
Lemma from_str_low_order : exists s k, public_key_from_str s = Ok k /\ low_order k /\ public_key_from_bytes k = Err InvalidPublicKeyError.
Proof.
  exists (repeat x30 64), zeros32. split; [vm_compute; reflexivity|]. split; [left; vm_compute; reflexivity|reflexivity].
Qed.
Lemma from_str_checked : forall s k, public_key_from_str s = Ok k ->
  (public_key_from_bytes k = Ok k <-> ~ low_order k).
Proof.
  intros s k H. apply from_bytes_exact. apply (proj1 (decode_str_32_spec s)) in H. destruct H as [L T].
  pose proof (hex_text_len _ _ T). lia.
Qed.

(** ** C59 *)
Definition d_garbled : bytes := firstn 79 (out d_x3) ++ [x00] ++ skipn 80 (out d_x3).
Lemma garbled_reply : exists C I genuine garbled, crypto_ok C /\ reachable C I /\
  res (recv_message C I genuine) = Ok tt /\
  res (recv_message C I garbled) = Err DecryptionError /\
  res (recv_message C (st (recv_message C I garbled)) genuine) = Err DecryptionError.
Proof.
  exists demo_crypto, (st d_x1), (out d_x3), d_garbled. split; [exact demo_ok|].
  split. { exists true, d_prologue, d_si, [Send k_ei d_b1]. fold d_I0 d_R0. cbn [run_calls step]. rewrite d_x1_eq. reflexivity. }
  split; [rewrite d_x4_eq; reflexivity|]. split; vm_compute; reflexivity.
Qed.

(** A failed send of the second message cannot be repeated either. *)
Lemma short_reply_buffer : exists C I R short b2, crypto_ok C /\ reachable C I /\ reachable C R /\
  res (send_message C k_er R b2) = Ok tt /\
  res (recv_message C I (out (send_message C k_er R b2))) = Ok tt /\
  res (send_message C k_er R short) = Err MissingneError /\
  let x := send_message C k_er (st (send_message C k_er R short)) b2 in
  res x = Ok tt /\ res (recv_message C I (out x)) = Err DecryptionError.
Proof.
  exists demo_crypto, (st d_x1), (st d_x2), (repeat x00 40), d_b2. split; [exact demo_ok|].
  split. { exists true, d_prologue, d_si, [Send k_ei d_b1]. fold d_I0 d_R0. cbn [run_calls step]. rewrite d_x1_eq. reflexivity. }
  split. { exists false, d_prologue, d_sr, [Recv (out d_x1)]. fold d_I0 d_R0. cbn [run_calls step]. rewrite d_x2_eq. reflexivity. }
  rewrite d_x3_eq. split; [reflexivity|]. rewrite d_x4_eq. split; [reflexivity|]. split; [vm_compute; reflexivity|].
  cbv zeta. split; vm_compute; reflexivity.
Qed.

(** ** C60 *)
Lemma responder_remote : forall C, crypto_ok C -> forall I R, completed C I R ->
  get_remote_static_public_key R = Some zeros32.
Proof.
  intros C OK I R H. destruct (completed_linked C OK I R H) as (_ & _ & _ & _ & _ & T & _ & _ & _ & _ & _ & _ & E).
  unfold get_remote_static_public_key. rewrite T, E. reflexivity.
Qed.
Lemma responder_remote_witness : exists C I R, crypto_ok C /\ completed C I R /\
  get_remote_static_public_key R = Some zeros32.
Proof. exists demo_crypto, d_I, d_R. split; [exact demo_ok|]. split; [exact d_completed|]. reflexivity. Qed.
Lemma initiator_remote : forall C, crypto_ok C -> forall pro si sr ei er rnd1 rnd2 I0 R0 b1 b2,
  honest C pro si sr ei er rnd1 rnd2 I0 R0 -> 48 <= len b1 <= 65535 -> 96 <= len b2 <= 2128 ->
  let x1 := send_message C rnd1 I0 b1 in
  let x3 := send_message C rnd2 (st (recv_message C R0 (out x1))) b2 in
  ~ In zeros32 (nx_keys C pro sr er (out x1) (payload2 b2)) ->
  get_remote_static_public_key (st (recv_message C (st x1) (out x3))) = Some (kp_public sr).
Proof.
  intros C OK * H B1 B2 x1 x3 NZ.
  pose proof (agreement C OK pro si sr ei er rnd1 rnd2 I0 R0 b1 b2 H B1 B2 NZ) as X. cbv zeta in X.
  destruct X as (_ & _ & _ & _ & _ & _ & _ & X & _). exact X.
Qed.

(** ** C61 *)
Lemma last_16 : forall C, crypto_ok C -> forall s b, reachable C s -> is_transport s = true ->
  res (recv_message C s b) = Ok tt ->
  let o := out (recv_message C s b) in
  len o = len b /\ skipn (length o - 16) o = skipn (length b - 16) b.
Proof.
  intros C OK s b R T H o. destruct (recv_message C s b) as [[s1 b1] r] eqn:E. unfold res, out in *. cbn [fst snd] in *.
  subst r o. destruct (recv_accept C OK s b s1 b1 (wf_reachable C OK s R) T E) as (_ & _ & _ & _ & A & B). auto.
Qed.
Lemma last_16_witness : exists C s b, crypto_ok C /\ reachable C s /\ is_transport s = true /\
  res (recv_message C s b) = Ok tt /\
  let o := out (recv_message C s b) in skipn (length o - 16) o <> repeat (b8 0) 16.
Proof.
  exists demo_crypto, d_R, (out (send_message demo_crypto [] d_I ([x61; x62] ++ placeholder))).
  split; [exact demo_ok|]. split; [exact d_reach_R|]. split; [reflexivity|].
  split; [vm_compute; reflexivity|]. vm_compute. discriminate.
Qed.

(** ** C51 *)
Lemma recv_panics : exists C s b, crypto_ok C /\ reachable C s /\ res (recv_message C s b) = Panic.
Proof.
  exists demo_crypto, (st d_x1), (firstn 90 (out d_x3)). split; [exact demo_ok|].
  split. { exists true, d_prologue, d_si, [Send k_ei d_b1]. fold d_I0 d_R0. cbn [run_calls step]. rewrite d_x1_eq. reflexivity. }
  vm_compute. reflexivity.
Qed.
Lemma recv_panic_cond : forall C s b, res (recv_message C s b) = Panic ->
  get_message_count s = 1 /\ (80 <= len b < 96 \/ 2128 < len b <= 65535).
Proof.
  intros C s b H. destruct (recv_panic_only C s b H) as [A B]. split; [exact A|].
  destruct B as [B|B]; [left; exact B|right]. split; [exact B|].
  destruct (N.le_gt_cases (len b) 65535) as [L|L]; [exact L|].
  destruct (size_refused C [] s b ltac:(lia)) as [_ E]. rewrite E in H. discriminate.
Qed.

(** ** C70, C71 *)
Definition top_bit : bytes := repeat x00 31 ++ [x80].
Lemma zero_secret : public_key_from_bytes top_bit = Ok top_bit /\ forall sk, c_dh real_crypto sk top_bit = zeros32.
Proof.
  split; [vm_compute; reflexivity|]. intro sk. cbn [c_dh real_crypto]. apply x25519_order_two.
  left. vm_compute. reflexivity.
Qed.
Lemma zero_secret_witness : exists pk, len pk = 32 /\ public_key_from_bytes pk = Ok pk /\
  forall sk, c_dh real_crypto sk pk = zeros32.
Proof. exists top_bit. split; [reflexivity|]. exact zero_secret. Qed.
(** Every accepted key whose low 255 bits are 0 or 2^255-19. *)
Lemma zero_secret_all : forall pk sk, len pk = 32 ->
  spec_val (wire pk) mod 2 ^ 255 = 0 \/ spec_val (wire pk) mod 2 ^ 255 = 2 ^ 255 - 19 ->
  c_dh real_crypto sk pk = zeros32.
Proof.
  intros pk sk L H. cbn [c_dh real_crypto]. apply x25519_order_two.
  rewrite firstn_exact by (rewrite L; reflexivity). rewrite N.land_ones, of_le_spec_val. exact H.
Qed.

Lemma nonce_reuse : exists C s b1 b2, crypto_ok C /\ reachable C s /\ is_transport s = true /\
  let cs := [ClearLocal; RekeyLocal; Send [] (b1 ++ placeholder); ClearLocal; RekeyLocal; Send [] (b2 ++ placeholder)] in
  exists k, transport_sends C s cs =
    [(b1 ++ placeholder, ENCRYPT C k 0 [] b1); (b2 ++ placeholder, ENCRYPT C k 0 [] b2)] /\ b1 <> b2.
Proof.
  exists demo_crypto, d_I, [x61], [x62]. split; [exact demo_ok|]. split; [exact d_reach_I|]. split; [reflexivity|].
  cbv zeta. exists (REKEY demo_crypto zeros32). split; [vm_compute; reflexivity|discriminate].
Qed.

(** ** First messages of 32..47 bytes *)
Lemma short_first : exists C I R b1, crypto_ok C /\ reachable C I /\ reachable C R /\
  res (send_message C k_ei I b1) = Ok tt /\ res (recv_message C R (out (send_message C k_ei I b1))) = Err MissingreError.
Proof.
  exists demo_crypto, d_I0, d_R0, (repeat x00 40). split; [exact demo_ok|].
  split; [exists true, d_prologue, d_si, []; reflexivity|]. split; [exists false, d_prologue, d_sr, []; reflexivity|].
  split; vm_compute; reflexivity.
Qed.
Lemma first_accepted : forall C, crypto_ok C -> forall pro si sr ei er rnd1 rnd2 I0 R0 b1,
  honest C pro si sr ei er rnd1 rnd2 I0 R0 -> 48 <= len b1 <= 65535 ->
  let x1 := send_message C rnd1 I0 b1 in
  res x1 = Ok tt /\ res (recv_message C R0 (out x1)) = Ok tt.
Proof.
  intros C OK * [Ksi Ksr Kei Ker HI HR L1 L2 L3 D1 D2] Hb x1.
  pose proof (exchange C OK pro si sr ei er rnd1 rnd2 I0 R0 b1 (repeat x00 96) Ksi Ksr Kei Ker HI HR L1 L2 L3 D1 D2 Hb
                ltac:(vm_compute; split; discriminate)) as X.
  cbv zeta in X. destruct X as (A & B & _). split; [exact A|exact B].
Qed.

Lemma first_message_exact : forall C, crypto_ok C -> forall pro si sr ei er rnd1 rnd2 I0 R0 b1,
  honest C pro si sr ei er rnd1 rnd2 I0 R0 ->
  let x1 := send_message C rnd1 I0 b1 in
  (res x1 = Ok tt <-> 32 <= len b1 <= 65535) /\
  (res x1 = Ok tt -> 48 <= len b1 -> res (recv_message C R0 (out x1)) = Ok tt) /\
  (res x1 = Ok tt -> len b1 < 48 -> recv_message C R0 (out x1) = (R0, out x1, Err MissingreError)).
Proof.
  intros C OK * H x1. pose proof (first_accepted C OK pro si sr ei er rnd1 rnd2 I0 R0 b1 H) as FA.
  destruct H as [Ksi Ksr Kei Ker HI HR L1 L2 L3 D1 D2].
  assert (MI : se_mc I0 = 0) by (destruct HI as [HI|HI]; rewrite (proj1 HI); reflexivity).
  assert (MR : se_mc R0 = 0) by (destruct HR as [HR|HR]; rewrite (proj1 HR); reflexivity).
  assert (A : res x1 = Ok tt <-> 32 <= len b1 <= 65535).
  { destruct (N.le_gt_cases 16 (len b1)) as [H16|H16].
    2:{ unfold x1. destruct (size_refused C rnd1 I0 b1 ltac:(lia)) as [-> _]. cbn. split; [discriminate|lia]. }
    destruct (N.le_gt_cases (len b1) 65535) as [HX|HX].
    2:{ unfold x1. destruct (size_refused C rnd1 I0 b1 ltac:(lia)) as [-> _]. cbn. split; [discriminate|lia]. }
    unfold x1, send_message. rewrite session_len_ok by lia. rewrite MI. change (0 =? 0) with true. cbv iota.
    unfold write_message_a. destruct (len b1 <? 32) eqn:E; cbn; (split; [try discriminate|]); lia || reflexivity. }
  split; [exact A|]. split.
  - intros S L. apply A in S. exact (proj2 (FA ltac:(lia))).
  - intros S L. pose proof (proj1 A S) as LB.
    assert (LO : len (out x1) = len b1).
    { destruct (started_state C _ _ _ _ _ _ HI) as [ei0 [-> EI]]. unfold x1. rewrite send_a with (e := ei) by (assumption || lia).
      unfold out. cbn [fst snd]. rewrite len_app, len_skipn, (proj2 Kei). lia. }
    unfold recv_message. rewrite session_len_ok by lia. rewrite MR. change (0 =? 0) with true. cbv iota.
    unfold read_message_a. destruct (len (out x1) <? 48) eqn:E; [|lia]. destruct R0; reflexivity.
Qed.

(** ** C46: exactly which buffers a transport receive accepts *)
Lemma accepts_iff : forall C, crypto_ok C -> forall s b, reachable C s -> is_transport s = true ->
  let c := if se_i s then se_cs2 s else se_cs1 s in
  (res (recv_message C s b) = Ok tt <->
   cs_k c <> zeros32 /\ cs_n c < 2 ^ 64 - 1 /\
   exists pt, len pt <= 65519 /\ b = ENCRYPT C (cs_k c) (cs_n c) [] pt).
Proof.
  intros C OK s b R T c. pose proof (reachable_transport C OK s R T) as Hm. split.
  - intro H. pose proof (accepts_sealed C OK s b R T H) as X. cbv zeta in X. fold c in X.
    destruct X as (A & B & _ & D). split; [exact B|]. split; [exact D|]. eexists. split; [|exact A].
    destruct (N.le_gt_cases (len b) 65535) as [L|L].
    2:{ destruct (size_refused C [] s b ltac:(lia)) as [_ E]. rewrite E in H. discriminate. }
    pose proof (f_equal (@len byte) A) as LA. unfold ENCRYPT in LA.
    pose proof (seal_ct_len C OK (cs_k c) (nonce96 (cs_n c)) [] (plaintext_of (out (recv_message C s b)))) as L1.
    pose proof (seal_mac_len C OK (cs_k c) (nonce96 (cs_n c)) [] (plaintext_of (out (recv_message C s b)))) as L2.
    destruct (c_seal C (cs_k c) (nonce96 (cs_n c)) [] _) as [ct mac]. cbn [fst snd] in L1, L2. rewrite len_app in LA. lia.
  - intros (K & Hn & pt & L & ->).
    assert (W : wf s) by (apply (wf_reachable C OK); exact R).
    assert (K32 : len (cs_k (rcv_cs s)) = 32).
    { destruct W as (_ & KK & _). unfold keys32 in KK. unfold rcv_cs. destruct (se_i s); apply KK. }
    pose proof (recv_ok C OK s pt Hm L ltac:(unfold MAX_NONCE; exact Hn) K) as (b' & E & _).
    assert (E2 : sealed C (cs_k (rcv_cs s)) (cs_n (rcv_cs s)) [] pt = ENCRYPT C (cs_k c) (cs_n c) [] pt).
    { change (cs_k c) with (cs_k (rcv_cs s)). change (cs_n c) with (cs_n (rcv_cs s)).
      apply sealed_spec; exact K32. }
    rewrite <- E2, E. reflexivity.
Qed.

(** ** Histories long enough to exhaust the counter exist *)
Lemma many_sends : forall C n s pt, 2 <= se_mc s -> se_transport s = true -> len pt <= 65519 -> cs_k (snd_cs s) <> Z ->
  cs_n (snd_cs s) + N.of_nat n <= 2 ^ 64 - 1 ->
  len (transport_sends C s (repeat (Send [] (pt ++ placeholder)) n)) = N.of_nat n.
Proof.
  induction n as [|n IH]; intros s pt Hm T Hp K Hn; [reflexivity|].
  cbn [repeat transport_sends step]. rewrite (send_ok C s pt) by (try assumption; unfold MAX_NONCE; lia).
  unfold res, out, st. cbn [fst snd]. unfold is_transport. rewrite T. rewrite len_app, len_cons, len_nil.
  set (s' := se_incr _).
  assert (S1 : snd_cs s' = mkCS (cs_k (snd_cs s)) (cs_n (snd_cs s) + 1)).
  { unfold s', snd_cs, se_incr, set_snd. destruct s as [hs h c1 c2 mc i t]. destruct i; reflexivity. }
  assert (S2 : se_mc s' = se_mc s + 1) by (unfold s', se_incr, set_snd; destruct s as [hs h c1 c2 mc i t]; destruct i; reflexivity).
  assert (S3 : se_transport s' = true) by (unfold s', se_incr, set_snd; destruct s as [hs h c1 c2 mc i t]; destruct i; exact T).
  rewrite IH; try assumption; try (rewrite S1; assumption); [lia|rewrite S2; lia|].
  rewrite S1. cbn [cs_n]. lia.
Qed.
Lemma d_sends : forall n, N.of_nat n <= 2 ^ 64 - 1 -> exists cs, Forall no_clear cs /\ len (transport_sends demo_crypto d_I0 cs) = N.of_nat n.
Proof.
  intros n Hn. exists ([Send k_ei d_b1; Recv (out d_x3)] ++ repeat (Send [] ([x61] ++ placeholder)) n).
  split.
  - apply Forall_app. split; [repeat constructor|]. apply Forall_forall. intros c H. apply repeat_spec in H. subst. exact I.
  - assert (E : transport_sends demo_crypto d_I0 ([Send k_ei d_b1; Recv (out d_x3)] ++ repeat (Send [] ([x61] ++ placeholder)) n)
              = transport_sends demo_crypto d_I (repeat (Send [] ([x61] ++ placeholder)) n)).
    { set (q := repeat _ n). clearbody q. cbn [app transport_sends step]. rewrite d_x1_eq. rewrite d_x4_eq. reflexivity. }
    rewrite E. apply many_sends; [discriminate|reflexivity|discriminate|vm_compute; discriminate|exact Hn].
Qed.
Lemma d_exhausting : exists cs, Forall no_clear cs /\ len (transport_sends demo_crypto d_I0 cs) = 2 ^ 64 - 1.
Proof.
  destruct (d_sends (N.to_nat (2 ^ 64 - 1))) as [cs [F L]].
  - rewrite N2Nat.id. apply N.le_refl.
  - exists cs. rewrite N2Nat.id in L. split; [exact F|exact L].
Qed.

(** ** C72 *)
Lemma failed_send_partial : forall C, crypto_ok C -> forall s rnd b, reachable C s ->
  res (send_message C rnd s b) <> Ok tt ->
  get_message_count s <> 1 \/ len b < 32 ->
  st (send_message C rnd s b) = s /\ out (send_message C rnd s b) = b.
Proof.
  intros C OK s rnd b R H D. unfold get_message_count in D.
  assert (M : se_mc s = 0 \/ se_mc s = 1 \/ 2 <= se_mc s) by lia.
  destruct M as [M|[M|M]].
  - apply (send_first_reject C); assumption.
  - destruct D as [D|D]; [contradiction|]. destruct (send_second_reject C rnd s b M D) as [A [B _]]. auto.
  - rewrite (send_reject C rnd s b M H). auto.
Qed.
(** ** C59 *)
Lemma failed_recv_partial : forall C, crypto_ok C -> forall s b, reachable C s ->
  res (recv_message C s b) <> Ok tt ->
  get_message_count s <> 1 \/ (len b < 48 \/ 65535 < len b \/ low_order (firstn 32 b)) ->
  st (recv_message C s b) = s.
Proof.
  intros C OK s b R H D. unfold get_message_count in D.
  assert (M : se_mc s = 0 \/ se_mc s = 1 \/ 2 <= se_mc s) by lia.
  destruct M as [M|[M|M]].
  - apply (recv_first_reject C); assumption.
  - destruct D as [D|D]; [contradiction|]. apply (recv_second_reject C s b M D).
  - apply (recv_reject C); assumption.
Qed.
(** ** C71 partial: without rekeying after a clear, counters never repeat (C47, C52).  The responder's send
    direction cannot come back at all. *)
Lemma d_rekeyed_nonzero : forall j, (j <= 2)%nat -> rekeyed demo_crypto j (cs_k (se_cs1 d_I)) <> zeros32.
Proof.
  intros j H. assert (D : j = 0%nat \/ j = 1%nat \/ j = 2%nat) by lia. destruct D as [E|[E|E]]; rewrite E; vm_compute; discriminate.
Qed.
Lemma hex_keys : forall parse, In parse [key_from_str; psk_from_str; private_key_from_str; public_key_from_str] ->
  forall s, (forall k, parse s = Ok k <-> len s = 64 /\ hex_text s k) /\
            ((exists k, parse s = Ok k) \/ parse s = Err InvalidInputError).
Proof.
  intros parse H s. assert (E : parse = decode_str_32).
  { cbn [In] in H. decompose [or] H; subst; try reflexivity. contradiction. }
  rewrite E. apply decode_str_32_spec.
Qed.
