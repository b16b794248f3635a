(** * PropNoise: C41-C50, handshake and transport of nx-noise.

    [C] is the record of external primitives; [crypto_ok C] states output lengths and that AEAD open and
    seal are inverse.  [real_crypto_ok] proves it for the reference BLAKE2s / ChaCha20-Poly1305 / X25519. *)
From Coq Require Import Strings.String.
From Verif Require Import Base SpecWire BaseFacts Noise Crypto CryptoFacts X25519Facts SpecNoise SpecSession NoiseFacts
  HandshakeProofs NxProofs SessionProofs NetProofs RecvProofs NoiseClaims FailureProofs NoiseSamples SessionClaims.
Open Scope N_scope.

(** C41. *)
Theorem C41_nx_agreement : forall C, crypto_ok C -> forall pro si sr ei er rnd1 rnd2 I0 R0 b1 b2,
  honest C pro si sr ei er rnd1 rnd2 I0 R0 ->
  48 <= len b1 <= 65535 -> 96 <= len b2 <= 2128 ->
  let x1 := send_message C rnd1 I0 b1 in
  let x2 := recv_message C R0 (out x1) in
  let x3 := send_message C rnd2 (st x2) b2 in
  let x4 := recv_message C (st x1) (out x3) in
  ~ In zeros32 (nx_keys C pro sr er (out x1) (payload2 b2)) ->
  res x1 = Ok tt /\ res x2 = Ok tt /\ res x3 = Ok tt /\ res x4 = Ok tt /\
  is_transport (st x3) = true /\ is_transport (st x4) = true /\
  (exists h, get_handshake_hash (st x3) = Some h /\ get_handshake_hash (st x4) = Some h) /\
  get_remote_static_public_key (st x4) = Some (kp_public sr) /\
  se_cs1 (st x3) = se_cs1 (st x4) /\ se_cs2 (st x3) = se_cs2 (st x4) /\
  skipn 32 (out x2) = skipn 32 b1 /\ payload2 (out x4) = payload2 b2.
Proof. exact agreement. Qed.
Print Assumptions C41_nx_agreement.

Example C41_ex : crypto_ok demo_crypto /\
  honest demo_crypto d_prologue d_si d_sr d_ei d_er k_ei k_er d_I0 d_R0 /\
  len d_b1 = 48 /\ len d_b2 = 98 /\
  ~ In zeros32 (nx_keys demo_crypto d_prologue d_sr d_er (out (send_message demo_crypto k_ei d_I0 d_b1)) (payload2 d_b2)) /\
  payload2 (out d_x4) = list_byte_of_string "hi" /\ res d_x4 = Ok tt.
Proof.
  split; [exact demo_ok|]. split; [exact d_honest|]. split; [reflexivity|]. split; [reflexivity|].
  split; [exact d_keys|]. split; vm_compute; reflexivity.
Qed.
Example C41_ex_real : crypto_ok real_crypto.
Proof. exact real_crypto_ok. Qed.

(** C42.  The initiator, against any reply; the responder, against any first message. *)
Theorem C42_initiator_is_NX : forall C, crypto_ok C -> forall pro si ei rnd I0 b1 m2,
  started C true pro si rnd ei I0 -> keypair_ok ei -> 32 <= len b1 <= 65535 -> 16 <= len m2 <= 2128 ->
  let x1 := send_message C rnd I0 b1 in
  let x4 := recv_message C (st x1) m2 in
  exists p1, WriteMessage C (Initialize C true pro si ei) NX1 (skipn 32 b1) = Some (p1, out x1) /\
    res x1 = Ok tt /\
    match ReadMessage C p1 NX2 m2 with
    | None => res x4 <> Ok tt
    | Some (p2, payload) =>
        (res x4 = Ok tt <->
           ~ low_order (firstn 32 m2) /\ (forall k, p_rs p2 = Some k -> ~ low_order k) /\
           ~ In zeros32 (sy_keys (p_sym p2))) /\
        (res x4 = Ok tt ->
           get_handshake_hash (st x4) = Some (sy_h (p_sym p2)) /\
           get_remote_static_public_key (st x4) = p_rs p2 /\
           se_cs1 (st x4) = mkCS (fst (Split C (p_sym p2))) 0 /\
           se_cs2 (st x4) = mkCS (snd (Split C (p_sym p2))) 0 /\
           payload2 (out x4) = payload)
    end.
Proof. exact nx_initiator. Qed.
Print Assumptions C42_initiator_is_NX.

Theorem C42_responder_is_NX : forall C, crypto_ok C -> forall pro sr er rnd R0 m1 b2,
  started C false pro sr rnd er R0 -> keypair_ok sr -> keypair_ok er ->
  48 <= len m1 <= 65535 -> ~ low_order (firstn 32 m1) -> 96 <= len b2 <= 65535 ->
  let x2 := recv_message C R0 m1 in
  let x3 := send_message C rnd (st x2) b2 in
  exists p1 p2 msg,
    ReadMessage C (Initialize C false pro sr er) NX1 m1 = Some (p1, skipn 32 m1) /\
    res x2 = Ok tt /\ out x2 = m1 /\
    WriteMessage C p1 NX2 (payload2 b2) = Some (p2, msg) /\
    (res x3 = Ok tt <-> ~ In zeros32 (sy_keys (p_sym p2))) /\
    (res x3 = Ok tt ->
       out x3 = msg /\ get_handshake_hash (st x3) = Some (sy_h (p_sym p2)) /\
       se_cs1 (st x3) = mkCS (fst (Split C (p_sym p2))) 0 /\
       se_cs2 (st x3) = mkCS (snd (Split C (p_sym p2))) 0).
Proof. exact nx_responder. Qed.
Print Assumptions C42_responder_is_NX.

Example C42_ex :
  started demo_crypto true d_prologue d_si k_ei d_ei d_I0 /\ keypair_ok d_ei /\
  started demo_crypto false d_prologue d_sr k_er d_er d_R0 /\ keypair_ok d_sr /\ keypair_ok d_er /\
  len (out d_x1) = 48 /\ ~ low_order (firstn 32 (out d_x1)) /\ len (out d_x3) = 98 /\
  match WriteMessage demo_crypto (Initialize demo_crypto true d_prologue d_si d_ei) NX1 (skipn 32 d_b1) with
  | Some (p1, _) => match ReadMessage demo_crypto p1 NX2 (out d_x3) with
                    | Some (_, payload) => payload = list_byte_of_string "hi"
                    | None => False
                    end
  | None => False
  end.
Proof.
  destruct d_honest as [H1 H2 H3 H4 H5 H6 H7 H8 H9 H10 H11].
  do 5 (split; [assumption|]). split; [reflexivity|]. split; [exact H7|]. split; [reflexivity|].
  vm_compute. reflexivity.
Qed.

(** C43. *)
Theorem C43_hmac : forall C, crypto_ok C -> forall key data, len key <= 64 -> hmac C key data = HMAC C key data.
Proof. exact hmac_spec. Qed.
Print Assumptions C43_hmac.
Theorem C43_hkdf2 : forall C, crypto_ok C -> forall ck ikm, len ck <= 64 -> hkdf2 C ck ikm = fst (HKDF C ck ikm).
Proof. exact hkdf2_spec. Qed.
Print Assumptions C43_hkdf2.
Theorem C43_hkdf3 : forall C, crypto_ok C -> forall ck ikm, len ck <= 64 -> hkdf3 C ck ikm = HKDF C ck ikm.
Proof. exact hkdf3_spec. Qed.
Print Assumptions C43_hkdf3.

Example C43_ex : len k_si <= 64 /\
  firstn 4 (HMAC real_crypto k_si [x61; x62]) = firstn 4 (hmac real_crypto k_si [x61; x62]) /\
  HMAC real_crypto k_si [x61; x62] <> HMAC real_crypto k_sr [x61; x62].
Proof. split; [vm_compute; discriminate|]. split; [vm_compute; reflexivity|vm_compute; discriminate]. Qed.

(** C44.  Every plaintext sent is delivered in order or still in flight, in both directions. *)
Theorem C44_channel : forall C, crypto_ok C -> forall I R es, completed C I R ->
  cs_k (se_cs1 I) <> zeros32 -> cs_k (se_cs2 I) <> zeros32 ->
  Forall sized es -> (forall l, ~ In (IRekey l) es) ->
  len (i_sends es) <= 2 ^ 64 - 1 -> len (r_sends es) <= 2 ^ 64 - 1 ->
  let n := net_run C (net_start I R) es in
  n_sent_i n = i_sends es /\ n_sent_r n = r_sends es /\
  exists pi pr, i_sends es = n_got_r n ++ pi /\ length pi = packets (n_ir n) /\
                r_sends es = n_got_i n ++ pr /\ length pr = packets (n_ri n).
Proof. exact channel_no_rekey. Qed.
Print Assumptions C44_channel.

Example C44_ex : completed demo_crypto d_I d_R /\
  cs_k (se_cs1 d_I) <> zeros32 /\ cs_k (se_cs2 d_I) <> zeros32 /\
  let es := [ISend [x61]; RSend []; ISend [x62; x63]; RRecv; IRecv; RSend [x64]; ISend [x65]; RRecv] in
  Forall sized es /\ (forall l, ~ In (IRekey l) es) /\
  let n := net_run demo_crypto (net_start d_I d_R) es in
  n_got_r n = [[x61]; [x62; x63]] /\ n_got_i n = [[]] /\ packets (n_ir n) = 1%nat /\ packets (n_ri n) = 1%nat.
Proof.
  split; [exact d_completed|]. split; [vm_compute; discriminate|]. split; [vm_compute; discriminate|].
  cbv zeta. split; [repeat constructor; vm_compute; discriminate|].
  split. { intros l H. cbn in H. repeat (destruct H as [H|H]; [discriminate|]). exact H. }
  vm_compute. repeat split.
Qed.

(** C45. *)
Theorem C45_reject_no_effect : forall C, crypto_ok C -> forall s b, reachable C s -> is_transport s = true ->
  res (recv_message C s b) <> Ok tt -> st (recv_message C s b) = s.
Proof. exact reject_no_effect. Qed.
Print Assumptions C45_reject_no_effect.
Theorem C45_any_number_of_rejects : forall C, crypto_ok C -> forall s bs, reachable C s -> is_transport s = true ->
  Forall (fun b => res (recv_message C s b) <> Ok tt) bs -> run_calls C s (map Recv bs) = s.
Proof. exact junk_no_effect. Qed.
Print Assumptions C45_any_number_of_rejects.

Example C45_ex : reachable demo_crypto d_R /\ is_transport d_R = true /\
  res (recv_message demo_crypto d_R (repeat x07 20)) = Err DecryptionError /\
  res (recv_message demo_crypto d_R (repeat x07 15)) = Err UnsupportedMessageLengthError /\
  res (recv_message demo_crypto d_R (out (send_message demo_crypto [] d_I ([x61] ++ placeholder)))) = Ok tt.
Proof. split; [exact d_reach_R|]. repeat split; vm_compute; reflexivity. Qed.

(** C46.  One call: what is accepted, exactly, and what is delivered.  A history: the j-th accepted
    message is the sealing of the j-th delivered plaintext under counter j. *)
Theorem C46_accepts_exactly : forall C, crypto_ok C -> forall s b, reachable C s -> is_transport s = true ->
  let c := if se_i s then se_cs2 s else se_cs1 s in
  (res (recv_message C s b) = Ok tt <->
   cs_k c <> zeros32 /\ cs_n c < 2 ^ 64 - 1 /\
   exists pt, len pt <= 65519 /\ b = ENCRYPT C (cs_k c) (cs_n c) [] pt).
Proof. exact accepts_iff. Qed.
Print Assumptions C46_accepts_exactly.
Theorem C46_delivers_what_was_sealed : forall C, crypto_ok C -> forall s b, reachable C s -> is_transport s = true ->
  res (recv_message C s b) = Ok tt ->
  let c := if se_i s then se_cs2 s else se_cs1 s in
  let s' := st (recv_message C s b) in
  let c' := if se_i s' then se_cs2 s' else se_cs1 s' in
  b = ENCRYPT C (cs_k c) (cs_n c) [] (plaintext_of (out (recv_message C s b))) /\
  cs_k c <> zeros32 /\ c' = mkCS (cs_k c) (cs_n c + 1) /\ cs_n c < 2 ^ 64 - 1.
Proof. exact accepts_sealed. Qed.
Print Assumptions C46_delivers_what_was_sealed.
Theorem C46_history : forall C, crypto_ok C -> forall i pro s cs, Forall no_clear cs ->
  exists k0,
  (forall j b o, nth_error (transport_recvs C (init_session C i pro s) cs) j = Some (b, o) ->
     N.of_nat j < 2 ^ 64 - 1 /\
     exists k, k <> zeros32 /\ b = ENCRYPT C k (N.of_nat j) [] (plaintext_of o) /\
               (Forall no_rekey cs -> k = k0)).
Proof. exact history_recvs. Qed.
Print Assumptions C46_history.

Example C46_ex :
  let m := out (send_message demo_crypto [] d_I ([x61] ++ placeholder)) in
  let m2 := out (send_message demo_crypto [] (st (send_message demo_crypto [] d_I ([x61] ++ placeholder))) ([x62] ++ placeholder)) in
  let cs := [Recv (out d_x1); Send k_er d_b2; Recv m; Recv m; Recv m2] in
  reachable demo_crypto d_R /\ Forall no_clear cs /\
  map (fun x => plaintext_of (snd x)) (transport_recvs demo_crypto d_R0 cs) = [[x61]; [x62]].
Proof. cbv zeta. split; [exact d_reach_R|]. split; [repeat constructor|]. vm_compute. reflexivity. Qed.

(** C47. *)
Theorem C47_nonces_distinct : forall C, crypto_ok C -> forall i pro kp cs, Forall no_clear cs ->
  exists k0, forall j b o, nth_error (transport_sends C (init_session C i pro kp) cs) j = Some (b, o) ->
    exists k, k <> zeros32 /\ o = ENCRYPT C k (N.of_nat j) [] (plaintext_of b) /\
      (Forall no_rekey cs -> k = k0) /\
      forall j' b' o', nth_error (transport_sends C (init_session C i pro kp) cs) j' = Some (b', o') ->
        j <> j' -> nonce96 (N.of_nat j) <> nonce96 (N.of_nat j').
Proof. exact nonces_distinct. Qed.
Print Assumptions C47_nonces_distinct.
Theorem C47_exhausted : forall C, crypto_ok C -> forall i pro s cs rnd b, Forall no_clear cs -> 16 <= len b <= 65535 ->
  len (transport_sends C (init_session C i pro s) cs) = 2 ^ 64 - 1 ->
  send_message C rnd (run_calls C (init_session C i pro s) cs) b =
  (run_calls C (init_session C i pro s) cs, b, Err ExhaustedNonceError).
Proof. exact history_exhausted. Qed.
Print Assumptions C47_exhausted.

Example C47_ex :
  let cs := [Send k_ei d_b1; Recv (out d_x3); Send [] ([x61] ++ placeholder); Recv (repeat x00 20); Send [] ([x61] ++ placeholder)] in
  Forall no_clear cs /\ Forall no_rekey cs /\
  length (transport_sends demo_crypto d_I0 cs) = 2%nat /\
  map snd (transport_sends demo_crypto d_I0 cs) =
    [ENCRYPT demo_crypto (cs_k (se_cs1 d_I)) 0 [] [x61]; ENCRYPT demo_crypto (cs_k (se_cs1 d_I)) 1 [] [x61]].
Proof. cbv zeta. split; [repeat constructor|]. split; [repeat constructor|]. split; vm_compute; reflexivity. Qed.

Example C47_ex_exhausting : exists cs, Forall no_clear cs /\ len (transport_sends demo_crypto d_I0 cs) = 2 ^ 64 - 1.
Proof. exact d_exhausting. Qed.

(** C48. *)
Theorem C48_gating : forall C i pro kp cs,
  let s := run_calls C (init_session C i pro kp) cs in
  get_message_count s = successes C (init_session C i pro kp) cs /\
  (is_transport s = true <-> 2 <= get_message_count s) /\
  (get_handshake_hash s = None <-> is_transport s = false) /\
  (get_remote_static_public_key s = None <-> is_transport s = false) /\
  (forall more, is_transport s = true -> is_transport (run_calls C s more) = true).
Proof. exact gating. Qed.
Print Assumptions C48_gating.

Example C48_ex :
  let cs := [Send k_ei d_b1; Recv (repeat x00 40); RekeyLocal; Recv (out d_x3); ClearLocal; Send [] (repeat x00 20)] in
  get_message_count (run_calls demo_crypto d_I0 cs) = 2 /\ is_transport (run_calls demo_crypto d_I0 cs) = true /\
  successes demo_crypto d_I0 (firstn 3 cs) = 1 /\ is_transport (run_calls demo_crypto d_I0 (firstn 3 cs)) = false.
Proof. vm_compute. repeat split. Qed.

(** C49. *)
Theorem C49_size_limits : forall C rnd s b, ~ (16 <= len b <= 65535) ->
  send_message C rnd s b = (s, b, Err UnsupportedMessageLengthError) /\
  recv_message C s b = (s, b, Err UnsupportedMessageLengthError).
Proof. exact size_refused. Qed.
Print Assumptions C49_size_limits.

Example C49_ex : ~ (16 <= len (repeat x00 15) <= 65535) /\
  ~ (16 <= len (repeat x00 (N.to_nat 65536)) <= 65535) /\
  res (send_message demo_crypto [] d_I (repeat x00 16)) = Ok tt.
Proof.
  split; [vm_compute; intros [H _]; apply H; reflexivity|].
  split; [vm_compute; intros [_ H]; apply H; reflexivity|]. vm_compute. reflexivity.
Qed.

(** C50. *)
Theorem C50_send_never_panics : forall C rnd s b, res (send_message C rnd s b) <> Panic.
Proof. exact send_no_panic. Qed.
Print Assumptions C50_send_never_panics.

Example C50_ex :
  res (send_message demo_crypto k_er (st d_x2) (repeat x00 40)) = Err MissingneError /\
  res (send_message demo_crypto k_er (st d_x2) (repeat x00 90)) = Err MissingneError /\
  res (send_message demo_crypto k_er (st d_x2) (repeat x00 96)) = Ok tt.
Proof. repeat split; vm_compute; reflexivity. Qed.
