(** * ReplyProofs: the exact result of every handshake call, for every buffer. *)
From Coq Require Import Lia ZifyBool ZifyNat ZifyN.
From Verif Require Import Base SpecWire BaseFacts Noise SpecNoise SpecSession SpecReply NoiseFacts HandshakeProofs NxProofs.
Open Scope N_scope.

Section Reply.
Variable C : crypto.
Hypothesis OK : crypto_ok C.
Notation Z := EMPTY_KEY.

(** Decryption of an arbitrary received part, with its error. *)
Lemma dec_exact : forall ss sy k b, rel ss sy -> sy_k sy = Some k -> sy_n sy = 0 ->
  let d := decrypt_and_hash C ss b in
  (len b < 16 \/ 2048 < len b -> res d = Panic) /\
  (16 <= len b <= 2048 -> k = Z -> res d = Err EmptyKeyError) /\
  (16 <= len b <= 2048 -> k <> Z ->
   match DecryptAndHash C sy b with
   | None => res d = Err DecryptionError
   | Some (sy', pt) => len pt + 16 = len b /\ exists ss', rel ss' sy' /\ d = (ss', pt ++ skipn (length b - 16) b, Ok tt)
   end).
Proof.
  intros ss sy k b R Hk Hn d.
  pose proof (rel_dec C OK ss sy k b R Hk Hn) as RD.
  destruct R as [H1 H2 H3 H4 H5]. rewrite Hk in H5. destruct H5 as [H5 H6].
  split; [|split].
  - intro HL. unfold d, decrypt_and_hash, res. destruct (2048 <? len b) eqn:E; [reflexivity|].
    rewrite split_mac_short by lia. reflexivity.
  - intros HL HZ. unfold d, decrypt_and_hash, res. destruct (2048 <? len b) eqn:E; [lia|].
    destruct (split_16 b ltac:(lia)) as [ct [mac [-> Hm]]]. rewrite split_mac_app by exact Hm.
    unfold cs_decrypt_with_ad. rewrite H3, Hn, nonce_get_ok by reflexivity.
    unfold cs_has_key. rewrite H5, HZ. reflexivity.
  - intros HL NZ. destruct (RD ltac:(lia)) as [D _]. clear RD.
    destruct (DecryptAndHash C sy b) as [[sy' pt]|] eqn:ED.
    + destruct D as (_ & D1 & _ & _ & D2). split; [exact D1|]. apply D2. exact NZ.
    + revert D ED. unfold d, decrypt_and_hash, res. destruct (2048 <? len b) eqn:E; [lia|].
      destruct (split_16 b ltac:(lia)) as [ct [mac [-> Hm]]]. rewrite split_mac_app by exact Hm.
      unfold cs_decrypt_with_ad. rewrite H3, Hn, nonce_get_ok by reflexivity.
      rewrite (proj2 (cs_has_key_iff (ss_cs ss))) by (rewrite H5; exact NZ).
      destruct (c_open _ _ _ _ _ _) as [okb pt]. destruct okb; [|reflexivity].
      intro D. exfalso. eapply D. reflexivity.
Qed.

(** ** The first message *)
Theorem opening_exact : forall i pro s e rnd S0 b, started C i pro s rnd e S0 ->
  opening_result b (res (send_message C rnd S0 b)).
Proof.
  intros * HS. destruct (started_state C _ _ _ _ _ _ HS) as [e0 [-> HE]].
  destruct (N.lt_ge_cases (len b) 16) as [L|L]; [|destruct (N.lt_ge_cases 65535 (len b)) as [L'|L']].
  1,2: unfold send_message;
    (assert (E : (len b <? 16) || (MAX_MESSAGE <? len b) = true) by (unfold MAX_MESSAGE; lia)); rewrite E;
    apply or_length; lia.
  destruct (N.lt_ge_cases (len b) 32) as [L2|L2].
  - unfold send_message. rewrite session_len_ok by lia. cbn [se_mc N.eqb se_hs]. unfold write_message_a.
    destruct (len b <? 32) eqn:E; [|lia]. apply or_no_room. lia.
  - rewrite (send_a C rnd _ s e0 e) by (try assumption; lia). apply or_ok. lia.
Qed.

Theorem first_exact : forall i pro s e rnd S0 m, started C i pro s rnd e S0 ->
  first_result m (res (recv_message C S0 m)).
Proof.
  intros * HS. destruct (started_state C _ _ _ _ _ _ HS) as [e0 [-> HE]].
  destruct (N.lt_ge_cases (len m) 16) as [L|L]; [|destruct (N.lt_ge_cases 65535 (len m)) as [L'|L']].
  1,2: unfold recv_message;
    (assert (E : (len m <? 16) || (MAX_MESSAGE <? len m) = true) by (unfold MAX_MESSAGE; lia)); rewrite E;
    apply fr_length; lia.
  unfold recv_message. rewrite session_len_ok by lia. cbn [se_mc N.eqb se_hs]. unfold read_message_a.
  destruct (len m <? 48) eqn:E48; [apply fr_no_e; lia|].
  assert (HF : len (firstn 32 m) = 32) by (unfold len in *; rewrite firstn_length; lia).
  unfold DHLEN, from_slice_hashlen. rewrite (firstn_exact _ 32 (firstn 32 m)) by exact HF.
  destruct (public_key_from_bytes_spec (firstn 32 m) HF) as [[LO PK]|[NLO PK]]; rewrite PK.
  - apply fr_low_e; [lia|exact LO].
  - apply fr_ok; [lia|exact NLO].
Qed.

(** ** The second message, read *)
Lemma read_b_exact : forall ss s e rs re psk h c1 c2 t p1 m,
  rel ss (p_sym p1) -> p_e p1 = e -> p_initiator p1 = true ->
  reply_result C p1 m (res (recv_message C (mkSession (mkHS ss s e rs re psk) h c1 c2 1 true t) m)).
Proof.
  intros * R Pe Pi.
  destruct (N.lt_ge_cases (len m) 16) as [L|L]; [|destruct (N.lt_ge_cases 65535 (len m)) as [L'|L']].
  1,2: unfold recv_message;
    (assert (E : (len m <? 16) || (MAX_MESSAGE <? len m) = true) by (unfold MAX_MESSAGE; lia)); rewrite E;
    apply rr_length; lia.
  unfold recv_message. rewrite session_len_ok by lia. cbn [se_mc N.eqb Pos.eqb se_hs]. unfold read_message_b.
  destruct (len m <? 48) eqn:E48; [apply rr_no_e; lia|].
  destruct (split_at _ 32 m ltac:(lia)) as [pe [rest [-> Hpe]]].
  assert (LM : len (pe ++ rest) = 32 + len rest) by (rewrite len_app; lia).
  assert (F1 : firstn 32 (pe ++ rest) = pe) by (apply firstn_app_exact; rewrite Hpe; reflexivity).
  assert (F2 : skipn 32 (pe ++ rest) = rest) by (apply skipn_app_exact; rewrite Hpe; reflexivity).
  unfold DHLEN, from_slice_hashlen. rewrite F1, F2. rewrite !(firstn_exact _ 32 pe) by (rewrite Hpe; reflexivity).
  destruct (public_key_from_bytes_spec pe Hpe) as [[LO PK]|[NLO PK]]; rewrite PK.
  { apply rr_low_e; [lia|rewrite F1; exact LO]. }
  cbn [hs_ss hs_set_re hs_e]. rewrite !(firstn_exact _ 32 pe) by (rewrite Hpe; reflexivity).
  unfold keypair_dh.
  destruct (len rest <? 48) eqn:E80; [apply rr_no_s; [lia|rewrite F1; exact NLO]|].
  destruct (split_at _ 48 rest ltac:(lia)) as [ct1 [ct3 [-> Hct1]]].
  rewrite (firstn_app_exact _ 48 ct1), (skipn_app_exact _ 48 ct1) by (rewrite Hct1; reflexivity).
  assert (LM' : len (pe ++ ct1 ++ ct3) = 80 + len ct3) by (rewrite !len_app; lia). clear LM. rename LM' into LM.
  set (dhe := c_dh C (kp_private e) pe).
  pose proof (rel_mix_hash C OK ss (p_sym p1) pe R) as R1.
  destruct (rel_mix_key C OK _ _ dhe R1) as [R2 [k1 [K1a [K1b [K1c [K1n K1d]]]]]].
  set (sy1 := MixKey C (MixHash C (p_sym p1) pe) dhe) in *.
  set (s1 := mix_key C (mix_hash C ss pe) dhe) in *.
  assert (HK : has_key sy1 = true) by (unfold has_key; rewrite K1a; reflexivity).
  assert (L32 : len (pe ++ ct1 ++ ct3) <? 32 = false) by lia.
  (* the specification's reader *)
  set (q1 := mkParty (p_initiator p1) sy1 (p_s p1) (p_e p1) (p_rs p1) (Some pe)).
  assert (T2 : forall ts, read_tokens C p1 (TE :: TEE :: ts) (pe ++ ct1 ++ ct3) = read_tokens C q1 ts (ct1 ++ ct3)).
  { intro ts. cbn [read_tokens]. rewrite L32, F1, F2. cbn [dh_token mix_dh with_sym p_sym p_e p_s p_re p_rs p_initiator].
    unfold q1, sy1, dhe. rewrite ?Pe. reflexivity. }
  assert (T3 : forall ts, read_tokens C q1 (TS :: ts) (ct1 ++ ct3) =
     match DecryptAndHash C sy1 ct1 with
     | None => None
     | Some (sy2, rs1) => read_tokens C (mkParty (p_initiator p1) sy2 (p_s p1) (p_e p1) (Some rs1) (Some pe)) ts ct3
     end).
  { intro ts. cbn [read_tokens]. unfold q1 at 1 2. cbn [p_sym]. rewrite HK. rewrite len_app, Hct1.
    assert (48 + len ct3 <? N.of_nat 48 = false) as -> by lia.
    rewrite (firstn_app_exact _ 48 ct1), (skipn_app_exact _ 48 ct1) by (rewrite Hct1; reflexivity). reflexivity. }
  assert (T20 : read_tokens C p1 [TE; TEE] (pe ++ ct1 ++ ct3) = Some (q1, ct1 ++ ct3)) by exact (T2 []).
  destruct (dec_exact s1 sy1 k1 ct1 R2 K1a K1n) as (_ & DZ & DN).
  destruct (list_eq_dec Byte.byte_eq_dec k1 Z) as [EZ|NZ].
  { specialize (DZ ltac:(lia) EZ). destruct (decrypt_and_hash C s1 ct1) as [[sx bx] rx]. unfold res in DZ. cbn [snd] in DZ. subst rx.
    eapply rr_zero_ee; [lia|rewrite F1; exact NLO|exact T20|]. cbn [q1 p_sym]. rewrite K1a, EZ. reflexivity. }
  assert (NE : sy_k (p_sym q1) <> Some zeros32) by (cbn [q1 p_sym]; rewrite K1a; intro X; injection X as X; exact (NZ X)).
  specialize (DN ltac:(lia) NZ). clear DZ.
  destruct (DecryptAndHash C sy1 ct1) as [[sy2 rs1]|] eqn:ED1.
  2:{ destruct (decrypt_and_hash C s1 ct1) as [[sx bx] rx]. unfold res in DN. cbn [snd] in DN. subst rx.
      eapply rr_bad_s; [lia|rewrite F1; exact NLO|exact T20|exact NE|]. rewrite T2. exact (T3 []). }
  destruct DN as [D1l [ss2 [R3 D1]]]. rewrite D1.
  assert (Hrs : len rs1 = 32) by lia.
  set (q2 := mkParty (p_initiator p1) sy2 (p_s p1) (p_e p1) (Some rs1) (Some pe)).
  rewrite (firstn_app_exact _ 32 rs1) by (rewrite Hrs; reflexivity).
  apply (rr_static C p1 _ q1 (ct1 ++ ct3) q2 ct3 rs1); [lia|rewrite F1; exact NLO|exact T20|exact NE|rewrite T2; exact (T3 [])|reflexivity|].
  destruct (public_key_from_bytes_spec rs1 Hrs) as [[LO2 PK2]|[NLO2 PK2]]; rewrite PK2.
  { apply sr_low_s. exact LO2. }
  cbn [hs_e hs_set_rs hs_set_re].
  set (dhs := c_dh C (kp_private e) rs1).
  destruct (rel_mix_key C OK _ _ dhs R3) as [R4 [k3 [K3a [K3b [K3c [K3n K3d]]]]]].
  set (s3 := mix_key C ss2 dhs) in *. set (sy3 := MixKey C sy2 dhs) in *.
  set (q3 := mkParty (p_initiator p1) sy3 (p_s p1) (p_e p1) (Some rs1) (Some pe)).
  assert (T4 : read_tokens C p1 NX2 (pe ++ ct1 ++ ct3) = Some (q3, ct3)).
  { unfold NX2. rewrite T2, T3. cbn [read_tokens dh_token mix_dh with_sym p_sym p_e p_s p_re p_rs p_initiator].
    unfold q3, sy3, dhs. rewrite ?Pi, ?Pe. cbn [p_rs p_initiator p_e p_sym]. rewrite ?Pi, ?Pe. reflexivity. }
  destruct (dec_exact s3 sy3 k3 ct3 R4 K3a K3n) as (DP & DZ & DN).
  destruct (N.lt_ge_cases (len ct3) 16) as [L3|L3]; [|destruct (N.lt_ge_cases 2048 (len ct3)) as [L3'|L3']].
  1,2: specialize (DP ltac:(lia)); destruct (decrypt_and_hash C s3 ct3) as [[sx bx] rx]; unfold res in DP; cbn [snd] in DP; subst rx;
    apply sr_panic; [exact NLO2|lia].
  destruct (list_eq_dec Byte.byte_eq_dec k3 Z) as [EZ3|NZ3].
  { specialize (DZ ltac:(lia) EZ3). destruct (decrypt_and_hash C s3 ct3) as [[sx bx] rx]. unfold res in DZ. cbn [snd] in DZ. subst rx.
    eapply sr_zero_es; [exact NLO2|lia|exact T4|]. cbn [q3 p_sym]. rewrite K3a, EZ3. reflexivity. }
  assert (NE3 : sy_k (p_sym q3) <> Some zeros32) by (cbn [q3 p_sym]; rewrite K3a; intro X; injection X as X; exact (NZ3 X)).
  specialize (DN ltac:(lia) NZ3).
  assert (RM : ReadMessage C p1 NX2 (pe ++ ct1 ++ ct3) =
     match DecryptAndHash C sy3 ct3 with None => None | Some (sy4, payload) => Some (with_sym q3 sy4, payload) end).
  { unfold ReadMessage. rewrite T4. reflexivity. }
  destruct (DecryptAndHash C sy3 ct3) as [[sy4 payload]|].
  - destruct DN as [_ [ss4 [_ D3]]]. rewrite D3. destruct (split C ss4) as [d1 d2].
    eapply sr_ok; [exact NLO2|lia|exact T4|exact NE3|exact RM].
  - destruct (decrypt_and_hash C s3 ct3) as [[sx bx] rx]. unfold res in DN. cbn [snd] in DN. subst rx.
    eapply sr_bad_payload; [exact NLO2|lia|exact T4|exact NE3|exact RM].
Qed.

Theorem reply_exact : forall pro si ei rnd I0 b1 m,
  started C true pro si rnd ei I0 -> 32 <= len b1 <= 65535 ->
  let x1 := send_message C rnd I0 b1 in
  exists p1, WriteMessage C (Initialize C true pro si ei) NX1 (skipn 32 b1) = Some (p1, out x1) /\
    reply_result C p1 m (res (recv_message C (st x1) m)).
Proof.
  intros * HS Hb1 x1.
  destruct (nx_write_1 C OK pro si ei rnd true I0 b1 HS Hb1)
    as (p1 & E1 & R1 & ss & h & c1 & c2 & ES & R & _ & P1 & P2 & P3 & P4 & P5 & P6).
  exists p1. split; [exact E1|]. unfold x1. rewrite ES. apply read_b_exact; assumption.
Qed.

(** The table decides: at most one result per message. *)
Theorem reply_unique : forall p m r r', reply_result C p m r -> reply_result C p m r' -> r = r'.
Proof.
  intros p m r r' H H'. destruct H; destruct H'; try reflexivity; try lia; try contradiction;
    repeat match goal with A : ?x = Some (?a, ?b), B : ?x = Some (?c, ?d) |- _ => rewrite A in B; injection B as -> -> end;
    repeat match goal with A : ?x = Some ?a, B : ?x = Some ?b |- _ => rewrite A in B; injection B as -> end;
    try contradiction; try congruence.
  match goal with A : static_result _ _ _ _ _, B : static_result _ _ _ _ _ |- _ => destruct A; inversion B; subst end;
    try reflexivity; try lia; try contradiction;
    repeat match goal with A : ?x = Some (?a, ?b), B : ?x = Some (?c, ?d) |- _ => rewrite A in B; injection B as -> -> end;
    try contradiction; try congruence.
Qed.

(** When a reply makes the initiator panic. *)
Theorem panic_exact : forall pro si ei rnd I0 b1 m,
  started C true pro si rnd ei I0 -> 32 <= len b1 <= 65535 ->
  let x1 := send_message C rnd I0 b1 in
  exists p1, WriteMessage C (Initialize C true pro si ei) NX1 (skipn 32 b1) = Some (p1, out x1) /\
    (res (recv_message C (st x1) m) = Panic <->
     (80 <= len m < 96 \/ 2128 < len m <= 65535) /\ ~ low_order (firstn 32 m) /\
     exists pe rest ps rest' k, read_tokens C p1 [TE; TEE] m = Some (pe, rest) /\ sy_k (p_sym pe) <> Some zeros32 /\
       read_tokens C p1 [TE; TEE; TS] m = Some (ps, rest') /\ p_rs ps = Some k /\ ~ low_order k).
Proof.
  intros * HS Hb1 x1. destruct (reply_exact pro si ei rnd I0 b1 m HS Hb1) as (p1 & E1 & T).
  exists p1. split; [exact E1|]. fold x1 in T. split.
  - intro HP. rewrite HP in T. inversion T; subst. 
    match goal with A : static_result _ _ _ _ _ |- _ => inversion A; subst end.
    split; [lia|]. split; [assumption|]. eauto 12.
  - intros (HL & NLO & pe & rest & ps & rest' & k & T2 & NZ & T3 & HK & NLk).
    eapply reply_unique; [exact T|].
    eapply rr_static; [lia|exact NLO|exact T2|exact NZ|exact T3|exact HK|]. apply sr_panic; [exact NLk|lia].
Qed.

(** ** The second message, written *)
Lemma enc_exact : forall ss sy k p m, rel ss sy -> sy_k sy = Some k -> sy_n sy = 0 -> len m = 16 ->
  let d := encrypt_and_hash C ss (p ++ m) in
  (k = Z -> res d = Err EmptyKeyError) /\
  (k <> Z -> d = (ssBox C ss p, box C ss p, Ok tt)).
Proof.
  intros ss sy k p m R Hk Hn Hm d. destruct R as [H1 H2 H3 H4 H5]. rewrite Hk in H5. destruct H5 as [H5 H6].
  destruct d as [[s' b'] r] eqn:E. unfold d in E. apply enc_cases in E; [|exact Hm|rewrite H3; exact Hn].
  unfold box, ssBox. destruct E as [[-> Ez]|[-> [Nz [-> ->]]]].
  - split; [reflexivity|]. intro X. exfalso. apply X. rewrite <- H5. exact Ez.
  - split; [intro X; exfalso; apply Nz; rewrite H5; exact X|reflexivity].
Qed.

Lemma write_b_exact : forall rnd ss s e0 e rs re psk h c1 c2 t p1 b,
  keypair_ok s ->
  (forall ss rs re psk, ensure_ephemeral C rnd (mkHS ss s e0 rs re psk) = mkHS ss s e rs re psk) ->
  rel ss (p_sym p1) -> p_e p1 = e -> p_s p1 = s -> p_re p1 = Some re -> p_initiator p1 = false ->
  answer_result C p1 b (res (send_message C rnd (mkSession (mkHS ss s e0 rs re psk) h c1 c2 1 false t) b)).
Proof.
  intros * [Ks Ks2] HE R Pe Ps Pre Pi.
  destruct (N.lt_ge_cases (len b) 16) as [L|L]; [|destruct (N.lt_ge_cases 65535 (len b)) as [L'|L']].
  1,2: unfold send_message;
    (assert (E : (len b <? 16) || (MAX_MESSAGE <? len b) = true) by (unfold MAX_MESSAGE; lia)); rewrite E;
    apply ar_length; lia.
  unfold send_message. rewrite session_len_ok by lia. cbn [se_mc N.eqb Pos.eqb se_hs]. unfold write_message_b.
  destruct (len b <? 32) eqn:E32; [apply ar_no_room_s; lia|].
  rewrite HE. cbn [hs_e hs_ss hs_re hs_s hs_rs hs_psk]. unfold DHLEN.
  destruct (len (skipn 32 b) <? 48) eqn:E80; [rewrite len_skipn in E80; apply ar_no_room_s; lia|].
  rewrite len_skipn in E80.
  destruct (split_at _ 32 b ltac:(lia)) as [x [b' [-> Hx]]].
  rewrite len_app, Hx in *. rewrite (skipn_app_exact _ 32 x) by (rewrite Hx; reflexivity).
  destruct (split_at _ 48 b' ltac:(lia)) as [y [rest [-> Hy]]]. rewrite len_app, Hy in *.
  rewrite (firstn_app_exact _ 48 y), (skipn_app_exact _ 48 y) by (rewrite Hy; reflexivity).
  unfold keypair_dh. set (dhe := c_dh C (kp_private e) re).
  pose proof (rel_mix_hash C OK ss (p_sym p1) (kp_public e) R) as R1.
  destruct (rel_mix_key C OK _ _ dhe R1) as [R2 [k1 [K1a [K1b [K1c [K1n K1d]]]]]].
  set (s1 := mix_key C (mix_hash C ss (kp_public e)) dhe) in *.
  set (sy1 := MixKey C (MixHash C (p_sym p1) (kp_public e)) dhe) in *.
  set (q1 := mkParty (p_initiator p1) sy1 (p_s p1) (p_e p1) (p_rs p1) (p_re p1)).
  assert (T2 : write_tokens C p1 [TE; TEE] = Some (q1, kp_public e)).
  { cbn [write_tokens]. repeat progress (cbn [dh_token mix_dh with_sym p_sym p_e p_s p_re p_rs p_initiator]; rewrite ?Pre).
    cbn [app]. rewrite !app_nil_r. unfold q1, sy1, dhe, with_sym. cbn [p_sym p_e p_s p_re p_rs p_initiator]. rewrite ?Pe, ?Pre. reflexivity. }
  assert (Hy2 : len (skipn 32 y) = 16) by (rewrite len_skipn; lia).
  destruct (enc_exact s1 sy1 k1 (kp_public s) (skipn 32 y) R2 K1a K1n Hy2) as [DZ DN].
  assert (LB : len (x ++ y ++ rest) = 80 + len rest) by (rewrite !len_app; lia).
  destruct (list_eq_dec Byte.byte_eq_dec k1 Z) as [EZ|NZ].
  { specialize (DZ EZ). destruct (encrypt_and_hash C s1 _) as [[sx bx] rx]. unfold res in DZ. cbn [snd] in DZ. subst rx.
    eapply ar_zero_ee; [lia|exact T2|]. cbn [q1 p_sym]. rewrite K1a, EZ. reflexivity. }
  assert (NE : sy_k (p_sym q1) <> Some zeros32) by (cbn [q1 p_sym]; rewrite K1a; intro X; injection X as X; exact (NZ X)).
  rewrite (DN NZ). clear DZ DN.
  destruct (rel_enc C OK s1 sy1 k1 (kp_public s) R2 K1a K1n) as [B1 [R3 K3d]].
  destruct (EncryptAndHash C sy1 (kp_public s)) as [sy2 ct1] eqn:EE1. cbn [fst snd] in B1, R3, K3d.
  set (dhs := c_dh C (kp_private s) re).
  destruct (rel_mix_key C OK _ _ dhs R3) as [R4 [k3 [K3a [K3b [K3c [K3n K3e]]]]]].
  set (s3 := mix_key C (ssBox C s1 (kp_public s)) dhs) in *.
  set (sy3 := MixKey C sy2 dhs) in *.
  destruct (N.lt_ge_cases (len rest) 16) as [L3|L3].
  { assert (E : encrypt_and_hash C s3 rest = (s3, rest, Err MissingneError)).
    { unfold encrypt_and_hash. destruct (len rest <? 16) eqn:X; [reflexivity|lia]. }
    rewrite E. eapply ar_no_room_payload; [lia|exact T2|exact NE]. }
  set (q3 := mkParty (p_initiator p1) sy3 (p_s p1) (p_e p1) (p_rs p1) (p_re p1)).
  assert (T4 : write_tokens C p1 NX2 = Some (q3, kp_public e ++ ct1)).
  { unfold NX2. cbn [write_tokens].
    repeat progress (cbn [dh_token mix_dh with_sym p_sym p_e p_s p_re p_rs p_initiator]; rewrite ?Pe, ?Ps, ?Pre, ?Pi).
    fold dhe. fold sy1. rewrite EE1.
    repeat progress (cbn [dh_token mix_dh with_sym p_sym p_e p_s p_re p_rs p_initiator]; rewrite ?Pe, ?Ps, ?Pre, ?Pi).
    cbn [app]. rewrite !app_nil_r. unfold q3, sy3, dhs, with_sym. cbn [p_sym p_e p_s p_re p_rs p_initiator]. rewrite ?Pe, ?Ps, ?Pre, ?Pi. reflexivity. }
  destruct (split_16 rest ltac:(lia)) as [p [m [-> Hm]]].
  destruct (enc_exact s3 sy3 k3 p m R4 K3a K3n Hm) as [DZ DN].
  destruct (list_eq_dec Byte.byte_eq_dec k3 Z) as [EZ3|NZ3].
  { specialize (DZ EZ3). destruct (encrypt_and_hash C s3 _) as [[sx bx] rx]. unfold res in DZ. cbn [snd] in DZ. subst rx.
    eapply ar_zero_es; [lia|exact T2|exact NE|exact T4|]. cbn [q3 p_sym]. rewrite K3a, EZ3. reflexivity. }
  rewrite (DN NZ3). destruct (split C (ssBox C s3 p)) as [d1 d2].
  eapply ar_ok; [lia|exact T2|exact NE|exact T4|].
  cbn [q3 p_sym]. rewrite K3a. intro X. injection X as X. exact (NZ3 X).
Qed.

Theorem answer_exact : forall pro sr er rnd R0 m1 b2,
  started C false pro sr rnd er R0 -> keypair_ok sr ->
  48 <= len m1 <= 65535 -> ~ low_order (firstn 32 m1) ->
  let x2 := recv_message C R0 m1 in
  exists p1, ReadMessage C (Initialize C false pro sr er) NX1 m1 = Some (p1, skipn 32 m1) /\
    answer_result C p1 b2 (res (send_message C rnd (st x2) b2)).
Proof.
  intros * HS Ks Hm1 Hlo x2.
  destruct (split_at _ 32 m1 ltac:(lia)) as [pe [rest [-> Hpe]]].
  rewrite firstn_app_exact in Hlo by (rewrite Hpe; reflexivity).
  destruct (nx_read_1 C OK pro sr er rnd false R0 pe rest HS Hpe Hlo Hm1)
    as (p1 & E1 & R1 & O1 & ss & e0 & h & c1 & c2 & ES & HE & R & _ & P1 & P2 & P3 & P4 & P5 & P6).
  exists p1. rewrite skipn_app_exact by (rewrite Hpe; reflexivity).
  split; [exact E1|]. unfold x2. rewrite ES. eapply write_b_exact; eassumption.
Qed.
Theorem answer_unique : forall p b r r', answer_result C p b r -> answer_result C p b r' -> r = r'.
Proof.
  intros p m r r' H H'. destruct H; destruct H'; try reflexivity; try lia; try contradiction;
    repeat match goal with A : ?x = Some (?a, ?b), B : ?x = Some (?c, ?d) |- _ => rewrite A in B; injection B as -> -> end;
    try contradiction; try congruence.
Qed.
Theorem first_unique : forall m r r', first_result m r -> first_result m r' -> r = r'.
Proof. intros m r r' H H'. destruct H; destruct H'; try reflexivity; try lia; try contradiction. Qed.
Theorem opening_unique : forall m r r', opening_result m r -> opening_result m r' -> r = r'.
Proof. intros m r r' H H'. destruct H; destruct H'; try reflexivity; try lia; try contradiction. Qed.
End Reply.

(** The encryptor: [init_handshake] first, then any reply. *)
From Verif Require Import Network NetworkProofs.
Theorem enc_panic_exact : forall C, crypto_ok C -> forall rsi rnd1 rnd2 m,
  let ei := mkKeypair rnd1 (c_pub C rnd1) in
  let si := mkKeypair rsi (c_pub C rsi) in
  exists I1 m1 p1, init_handshake C rnd1 (new_outbound C rsi) = (I1, Ok m1) /\
    WriteMessage C (Initialize C true [] si ei) NX1 (repeat x00 992) = Some (p1, m1) /\
    (snd (recv_handshake C rnd2 I1 m) = Panic <->
     (80 <= len m < 96 \/ 2128 < len m <= 65535) /\ ~ low_order (firstn 32 m) /\
     exists pe rest ps rest' k, read_tokens C p1 [TE; TEE] m = Some (pe, rest) /\ sy_k (p_sym pe) <> Some zeros32 /\
       read_tokens C p1 [TE; TEE; TS] m = Some (ps, rest') /\ p_rs ps = Some k /\ ~ low_order k).
Proof.
  intros C OK rsi rnd1 rnd2 m ei si.
  assert (HS : started C true [] si rnd1 ei (new_outbound C rsi)) by (left; split; reflexivity).
  destruct (panic_exact C OK [] si ei rnd1 _ (repeat x00 1024) m HS ltac:(rewrite len_repeat; lia)) as (p1 & E1 & X).
  pose proof (opening_exact C true [] si ei rnd1 _ (repeat x00 1024) HS) as HO.
  change (skipn 32 (repeat x00 1024)) with (repeat x00 992) in E1.
  unfold init_handshake. destruct (send_message C rnd1 (new_outbound C rsi) (repeat x00 1024)) as [[s1 b1] r1].
  unfold st, out, res in *. cbn [fst snd] in *.
  assert (r1 = Ok tt) as ->.
  { inversion HO as [H|H|H]; [rewrite len_repeat in H; lia|rewrite len_repeat in H; lia|reflexivity]. }
  exists s1, b1, p1. split; [reflexivity|]. split; [exact E1|]. rewrite <- X. apply recv_handshake_panic.
Qed.
