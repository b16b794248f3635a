(** * StoryProofs: every history of calls on a session, from its creation (C109). *)
From Coq Require Import Lia ZifyBool ZifyNat ZifyN.
From Verif Require Import Base SpecWire BaseFacts Noise SpecNoise SpecSession SpecTransport SpecStory NoiseFacts HandshakeProofs NxProofs
  ReplyProofs BindingProofs RetryProofs RecvProofs SessionProofs NoiseClaims SessionClaims TransportProofs Codec Network Fuzz.
Open Scope N_scope.

Section Story.
Variable C : crypto.
Hypothesis OK : crypto_ok C.
Notation Z := EMPTY_KEY.

(** Decryption and encryption of one part, with everything they leave. *)
Lemma dec_full : forall ss sy k b, rel ss sy -> sy_k sy = Some k -> sy_n sy = 0 ->
  (len b < 16 \/ 2048 < len b -> decrypt_and_hash C ss b = (ss, b, Panic)) /\
  (16 <= len b <= 2048 -> k = Z -> decrypt_and_hash C ss b = (ss, b, Err EmptyKeyError)) /\
  (16 <= len b <= 2048 -> k <> Z ->
   match DecryptAndHash C sy b with
   | None => exists any, len any = len b - 16 /\ decrypt_and_hash C ss b = (ss, any ++ skipn (length b - 16) b, Err DecryptionError)
   | Some (sy', pt) => len pt + 16 = len b /\ exists ss', rel ss' sy' /\
       decrypt_and_hash C ss b = (ss', pt ++ skipn (length b - 16) b, Ok tt)
   end).
Proof.
  intros ss sy k b R Hk Hn.
  destruct (dec_exact C OK ss sy k b R Hk Hn) as (_ & _ & DN).
  destruct R as [H1 H2 H3 H4 H5]. rewrite Hk in H5. destruct H5 as [H5 H6].
  split; [|split].
  - intro HL. unfold decrypt_and_hash. destruct (2048 <? len b) eqn:E; [reflexivity|].
    rewrite split_mac_short by lia. reflexivity.
  - intros HL HZ. unfold decrypt_and_hash. destruct (2048 <? len b) eqn:E; [lia|].
    destruct (split_16 b ltac:(lia)) as [ct [mac [-> Hm]]]. rewrite split_mac_app by exact Hm.
    unfold cs_decrypt_with_ad. rewrite H3, Hn, nonce_get_ok by reflexivity.
    unfold cs_has_key. rewrite H5, HZ. destruct ss as [[ck cn] ? ?]. reflexivity.
  - intros HL NZ. specialize (DN HL NZ).
    destruct (DecryptAndHash C sy b) as [[sy' pt]|] eqn:ED; [exact DN|].
    revert DN. unfold decrypt_and_hash, res. destruct (2048 <? len b) eqn:E; [lia|].
    destruct (split_16 b ltac:(lia)) as [ct [mac [-> Hm]]]. rewrite split_mac_app by exact Hm.
    unfold cs_decrypt_with_ad. rewrite H3, Hn, nonce_get_ok by reflexivity.
    rewrite (proj2 (cs_has_key_iff (ss_cs ss))) by (rewrite H5; exact NZ).
    pose proof (open_len C OK (from_slice_hashlen (cs_k (ss_cs ss))) (prep_nonce 0) (ss_h ss) ct mac) as OL.
    destruct (c_open _ _ _ _ _ _) as [okb pt]. cbn [snd] in OL. destruct okb; [discriminate|]. intros _.
    exists pt. split; [rewrite len_app; lia|].
    assert (LL : (length (ct ++ mac) - 16)%nat = length ct) by (rewrite app_length; unfold len in Hm; lia).
    rewrite LL, (skipn_app_exact _ (length ct)) by reflexivity. destruct ss; reflexivity.
Qed.
Lemma enc_full : forall ss sy k p m, rel ss sy -> sy_k sy = Some k -> sy_n sy = 0 -> len m = 16 ->
  (k = Z -> encrypt_and_hash C ss (p ++ m) = (ss, p ++ m, Err EmptyKeyError)) /\
  (k <> Z -> encrypt_and_hash C ss (p ++ m) = (ssBox C ss p, box C ss p, Ok tt)).
Proof.
  intros ss sy k p m R Hk Hn Hm. split; [|apply (enc_exact C ss sy k p m R Hk Hn Hm)].
  intro HZ. destruct R as [H1 H2 H3 H4 H5]. rewrite Hk in H5. destruct H5 as [H5 H6].
  unfold encrypt_and_hash. destruct (len (p ++ m) <? 16) eqn:E; [rewrite len_app in E; lia|].
  rewrite split_mac_app by exact Hm. unfold cs_encrypt_with_ad. rewrite H3, Hn, nonce_get_ok by reflexivity.
  unfold cs_has_key. rewrite H5, HZ. destruct ss as [[ck cn] ? ?]. reflexivity.
Qed.

(** The session [s] is at stage [g]. *)
Definition at_stage (i : bool) (s : session) (g : stage) : Prop :=
  match g with
  | Handshake n p =>
      exists ss rs re psk h c1 c2,
        s = mkSession (mkHS ss (p_s p) (p_e p) rs re psk) h c1 c2 (if n then 1 else 0) i false /\
        rel ss (p_sym p) /\ p_rs p = Some rs /\ p_re p = Some re /\ keypair_ok (p_s p) /\ (n = false -> sy_k (p_sym p) = None)
  | Done h rs c => is_transport s = true /\ se_i s = i /\ se_h s = h /\ hs_rs (se_hs s) = rs /\ channel_of s = c
  end.

Lemma bad_len : forall b : bytes, len b < 16 \/ 65535 < len b -> (len b <? 16) || (MAX_MESSAGE <? len b) = true.
Proof. intros b H. unfold MAX_MESSAGE. lia. Qed.

Lemma ensure_drawn : forall rnd p ss rs re psk,
  ensure_ephemeral C rnd (mkHS ss (p_s p) (p_e p) rs re psk) =
  mkHS ss (p_s (drawn C rnd p)) (p_e (drawn C rnd p)) rs re psk /\
  p_sym (drawn C rnd p) = p_sym p /\ p_s (drawn C rnd p) = p_s p /\ p_re (drawn C rnd p) = p_re p /\ p_rs (drawn C rnd p) = p_rs p.
Proof.
  intros. unfold ensure_ephemeral, drawn, keypair_is_empty, is_zero_key. cbn [hs_e].
  change EMPTY_KEY with zeros32. destruct (bytes_eqb _ _); repeat split; reflexivity.
Qed.

Lemma send_first : forall i p rnd s b, at_stage i s (Handshake false p) ->
  exists g', asked C i (Handshake false p) (Send rnd b) g' (out (send_message C rnd s b)) (res (send_message C rnd s b)) /\
    at_stage i (st (send_message C rnd s b)) g'.
Proof.
  intros i p rnd s b A. pose proof A as A0. destruct A as (ss & rs & re & psk & h & c1 & c2 & -> & R & Prs & Pre & Ks & NK).
  destruct (N.lt_ge_cases (len b) 16) as [L|L]; [|destruct (N.lt_ge_cases 65535 (len b)) as [L'|L']].
  1,2: exists (Handshake false p); unfold send_message; rewrite bad_len by lia; unfold st, out, res; cbn [fst snd]; (split; [apply as_send_size; lia|exact A0]).
  unfold send_message. rewrite session_len_ok by lia. cbn [se_mc N.eqb se_hs]. unfold write_message_a.
  destruct (len b <? 32) eqn:E32. { exists (Handshake false p); unfold st, out, res; cbn [fst snd]; split; [apply as_open_room; lia|exact A0]. }
  destruct (ensure_drawn rnd p ss rs re psk) as (-> & D1 & D2 & D3 & D4). set (q := drawn C rnd p) in *.
  cbn [hs_e hs_ss hs_set_ss]. unfold st, out, res, DHLEN. cbn [fst snd].
  set (sy1 := MixHash C (p_sym q) (kp_public (p_e q))).
  assert (K1 : sy_k sy1 = None) by (unfold sy1; cbn; rewrite D1; exact (NK eq_refl)).
  exists (Handshake true (with_sym (with_sym q sy1) (MixHash C sy1 (skipn 32 b)))). split.
  - eapply as_open; [lia|]. fold q. unfold WriteMessage, NX1. cbn [write_tokens with_sym p_sym]. fold sy1.
    rewrite app_nil_r. unfold EncryptAndHash. rewrite K1. reflexivity.
  - cbn [at_stage with_sym p_sym p_s p_e p_rs p_re]. eexists _, rs, re, _, _, _, _. split; [reflexivity|].
    split; [|rewrite D2, D3, D4; split; [exact Prs|split; [exact Pre|split; [exact Ks|discriminate]]]].
    apply rel_mix_hash; [exact OK|]. apply rel_mix_hash; [exact OK|]. rewrite D1. exact R.
Qed.

Lemma recv_first : forall i p s m, at_stage i s (Handshake false p) ->
  exists g', asked C i (Handshake false p) (Recv m) g' (out (recv_message C s m)) (res (recv_message C s m)) /\
    at_stage i (st (recv_message C s m)) g'.
Proof.
  intros i p s m A. pose proof A as A0. destruct A as (ss & rs & re & psk & h & c1 & c2 & -> & R & Prs & Pre & Ks & NK).
  destruct (N.lt_ge_cases (len m) 16) as [L|L]; [|destruct (N.lt_ge_cases 65535 (len m)) as [L'|L']].
  1,2: exists (Handshake false p); unfold recv_message; rewrite bad_len by lia; unfold st, out, res; cbn [fst snd]; (split; [apply as_recv_size; lia|exact A0]).
  unfold recv_message. rewrite session_len_ok by lia. cbn [se_mc N.eqb se_hs]. unfold read_message_a.
  destruct (len m <? 48) eqn:E48; [exists (Handshake false p); unfold st, out, res; cbn [fst snd]; split; [apply as_no_e; lia|exact A0]|].
  assert (L1 : len (firstn 32 m) = 32) by (rewrite len_firstn'; lia).
  unfold DHLEN, from_slice_hashlen. rewrite (firstn_exact _ 32 (firstn 32 m)) by (rewrite L1; reflexivity).
  destruct (public_key_from_bytes_spec _ L1) as [[LO PK]|[NLO PK]]; rewrite PK.
  { exists (Handshake false p). unfold st, out, res; cbn [fst snd]; split; [apply as_low_e; [lia|exact LO]|exact A0]. }
  cbn [hs_set_re hs_ss hs_re hs_set_ss hs_s hs_e hs_rs hs_psk]. rewrite (firstn_exact _ 32 (firstn 32 m)) by (rewrite L1; reflexivity).
  unfold st, out, res. cbn [fst snd].
  set (sy1 := MixHash C (p_sym p) (firstn 32 m)).
  assert (K1 : sy_k sy1 = None) by (unfold sy1; cbn; exact (NK eq_refl)).
  set (p1 := mkParty (p_initiator p) sy1 (p_s p) (p_e p) (p_rs p) (Some (firstn 32 m))).
  exists (Handshake true (with_sym p1 (MixHash C sy1 (skipn 32 m)))). split.
  - eapply as_first; [lia|exact NLO|]. unfold ReadMessage, NX1. cbn [read_tokens].
    assert (len m <? 32 = false) as -> by lia. fold sy1. fold p1.
    unfold DecryptAndHash. change (p_sym p1) with sy1. rewrite K1. reflexivity.
  - cbn [at_stage with_sym p1 p_sym p_s p_e p_rs p_re]. eexists _, rs, _, _, _, _, _. split; [reflexivity|].
    split; [|split; [exact Prs|split; [reflexivity|split; [exact Ks|discriminate]]]].
    apply rel_mix_hash; [exact OK|]. apply rel_mix_hash; [exact OK|]. exact R.
Qed.

Lemma established_eq : forall p rs, p_rs p = Some rs ->
  established C p = Done (sy_h (p_sym p)) rs (mkCh (fst (Split C (p_sym p)), 0) (snd (Split C (p_sym p)), 0)).
Proof. intros p rs E. unfold established. rewrite E. destruct (Split C (p_sym p)). reflexivity. Qed.

Lemma entered : forall i hs0 h0 c1 c2 n t ss sy hs' rs, rel ss sy -> len (sy_h sy) = 32 -> hs_rs hs' = rs ->
  let d := split C ss in
  at_stage i (se_incr (se_enter_transport (se_set_hs (mkSession hs0 h0 c1 c2 n i t) hs') (from_slice_hashlen (ss_h ss)) (fst d) (snd d)))
    (Done (sy_h sy) rs (mkCh (fst (Split C sy), 0) (snd (Split C sy), 0))).
Proof.
  intros * R L Hrs d. destruct (rel_split C OK ss sy R) as [D1 D2]. unfold d. rewrite D1, D2.
  cbn [at_stage]. unfold is_transport, channel_of, se_incr, se_enter_transport, se_set_hs.
  cbn [se_transport se_i se_h se_hs se_cs1 se_cs2 cs_k cs_n]. split; [reflexivity|]. split; [reflexivity|].
  split; [|split; [exact Hrs|reflexivity]]. rewrite (r_h ss sy R). unfold from_slice_hashlen.
  apply firstn_exact. rewrite L. reflexivity.
Qed.

Lemma send_second : forall i p rnd s b, at_stage i s (Handshake true p) ->
  exists g', asked C i (Handshake true p) (Send rnd b) g' (out (send_message C rnd s b)) (res (send_message C rnd s b)) /\
    at_stage i (st (send_message C rnd s b)) g'.
Proof.
  intros i p rnd s0 b A. pose proof A as A0. destruct A as (ss & rs & re & psk & h & c1 & c2 & -> & R & Prs & Pre & Ks & _).
  destruct (N.lt_ge_cases (len b) 16) as [L|L]; [|destruct (N.lt_ge_cases 65535 (len b)) as [L'|L']].
  1,2: exists (Handshake true p); unfold send_message; rewrite bad_len by lia; unfold st, out, res; cbn [fst snd]; (split; [apply as_send_size; lia|exact A0]).
  unfold send_message. rewrite session_len_ok by lia. cbn [se_mc N.eqb Pos.eqb se_hs]. unfold write_message_b.
  destruct (len b <? 32) eqn:E32. { exists (Handshake true p); unfold st, out, res; cbn [fst snd]; split; [apply as_open_room; lia|exact A0]. }
  destruct (ensure_drawn rnd p ss rs re psk) as (-> & D1 & D2 & D3 & D4). 
  set (p1 := acting false (drawn C rnd p)).
  assert (Q1 : p_sym p1 = p_sym p) by exact D1. assert (Q2 : p_s p1 = p_s p) by exact D2.
  assert (Q3 : p_re p1 = Some re) by (rewrite <- Pre; exact D3). assert (Q4 : p_rs p1 = Some rs) by (rewrite <- Prs; exact D4).
  assert (Pi : p_initiator p1 = false) by reflexivity.
  change (p_e (drawn C rnd p)) with (p_e p1). rewrite D2. rewrite <- Q1 in R. rewrite <- Q2 in Ks |- *. clear D1 D2 D3 D4.
  set (s := p_s p1) in *. set (e := p_e p1) in *.
  cbn [hs_e hs_ss hs_re hs_s hs_rs hs_psk]. unfold DHLEN. unfold keypair_dh.
  set (dhe := c_dh C (kp_private e) re).
  pose proof (rel_mix_hash C OK ss (p_sym p1) (kp_public e) R) as R1.
  destruct (rel_mix_key C OK _ _ dhe R1) as [R2 [k1 [K1a [K1b [K1c [K1n K1d]]]]]].
  set (s1 := mix_key C (mix_hash C ss (kp_public e)) dhe) in *.
  set (sy1 := MixKey C (MixHash C (p_sym p1) (kp_public e)) dhe) in *.
  set (q1 := mkParty (p_initiator p1) sy1 (p_s p1) (p_e p1) (p_rs p1) (p_re p1)).
  assert (T2 : write_tokens C p1 [TE; TEE] = Some (q1, kp_public e)).
  { cbn [write_tokens]. repeat progress (cbn [dh_token mix_dh with_sym p_sym p_e p_s p_re p_rs p_initiator]; rewrite ?Q3).
    cbn [app]. rewrite !app_nil_r. unfold q1, sy1, dhe, with_sym. cbn [p_sym p_e p_s p_re p_rs p_initiator]. rewrite ?Q3. reflexivity. }
  assert (W1 : at_stage i (se_set_hs (mkSession (mkHS ss (p_s p) (p_e p) rs re psk) h c1 c2 1 i false) (mkHS s1 s e rs re psk)) (Handshake true q1)).
  { cbn [at_stage q1 p_sym p_s p_e p_rs p_re]. eexists s1, rs, re, psk, h, c1, c2. split; [reflexivity|].
    split; [exact R2|]. split; [exact Q4|]. split; [exact Q3|]. split; [exact Ks|discriminate]. }
  cbn [hs_set_ss hs_ss hs_s hs_e hs_rs hs_re hs_psk].
  destruct (len (skipn 32 b) <? 48) eqn:E80.
  { rewrite len_skipn in E80. exists (Handshake true q1). unfold st, out, res. cbn [fst snd]. split; [|exact W1].
    eapply as_room_s; [lia|exact T2]. }
  rewrite len_skipn in E80.
  destruct (split_at _ 32 b ltac:(lia)) as [x [b' [-> Hx]]].
  rewrite len_app, Hx in *. rewrite (skipn_app_exact _ 32 x) by (rewrite Hx; reflexivity).
  destruct (split_at _ 48 b' ltac:(lia)) as [y [rest [-> Hy]]]. rewrite len_app, Hy in *.
  rewrite (firstn_app_exact _ 48 y), (skipn_app_exact _ 48 y) by (rewrite Hy; reflexivity).
  assert (Hy2 : len (skipn 32 y) = 16) by (rewrite len_skipn; lia).
  assert (LB : len (x ++ y ++ rest) = 80 + len rest) by (rewrite !len_app; lia).
  assert (S64 : skipn 64 (x ++ y ++ rest) = skipn 32 y ++ rest).
  { change 64%nat with (32 + 32)%nat. rewrite <- skipn_skipn. rewrite (skipn_app_exact _ 32 x) by (rewrite Hx; reflexivity).
    rewrite skipn_app. assert (LY : (32 - length y)%nat = 0%nat) by (unfold len in Hy; lia). rewrite LY. reflexivity. }
  assert (S80 : skipn 80 (x ++ y ++ rest) = rest).
  { rewrite app_assoc. apply skipn_app_exact. rewrite len_app, Hx, Hy. reflexivity. }
  destruct (enc_full s1 sy1 k1 (kp_public s) (skipn 32 y) R2 K1a K1n Hy2) as [DZ DN].
  destruct (list_eq_dec Byte.byte_eq_dec k1 Z) as [EZ|NZ].
  { rewrite (DZ EZ). exists (Handshake true q1). unfold st, out, res. cbn [fst snd]. split; [|exact W1].
    rewrite <- app_assoc, <- S64. rewrite Q2. eapply as_wzero_ee; [lia|exact T2|]. cbn [q1 p_sym]. rewrite K1a, EZ. reflexivity. }
  assert (NE : sy_k (p_sym q1) <> Some zeros32) by (cbn [q1 p_sym]; rewrite K1a; intro X; injection X as X; exact (NZ X)).
  rewrite (DN NZ). clear DZ DN.
  destruct (rel_enc C OK s1 sy1 k1 (kp_public s) R2 K1a K1n) as [B1 [R3 K3d]].
  destruct (EncryptAndHash C sy1 (kp_public s)) as [sy2 ct1] eqn:EE1. cbn [fst snd] in B1, R3, K3d. rewrite B1.
  set (dhs := c_dh C (kp_private s) re).
  destruct (rel_mix_key C OK _ _ dhs R3) as [R4 [k3 [K3a [K3b [K3c [K3n K3e]]]]]].
  set (s3 := mix_key C (ssBox C s1 (kp_public s)) dhs) in *.
  set (sy3 := MixKey C sy2 dhs) in *.
  set (q3 := mkParty (p_initiator p1) sy3 (p_s p1) (p_e p1) (p_rs p1) (p_re p1)).
  assert (T4 : write_tokens C p1 NX2 = Some (q3, kp_public e ++ ct1)).
  { unfold NX2. cbn [write_tokens].
    repeat progress (cbn [dh_token mix_dh with_sym p_sym p_e p_s p_re p_rs p_initiator]; rewrite ?Q3, ?Pi).
    fold s e. fold dhe. fold sy1. rewrite EE1.
    repeat progress (cbn [dh_token mix_dh with_sym p_sym p_e p_s p_re p_rs p_initiator]; rewrite ?Q3, ?Pi).
    cbn [app]. rewrite !app_nil_r. unfold q3, sy3, dhs, with_sym. cbn [p_sym p_e p_s p_re p_rs p_initiator]. rewrite ?Q3, ?Pi. reflexivity. }
  assert (W3 : at_stage i (se_set_hs (mkSession (mkHS ss (p_s p) (p_e p) rs re psk) h c1 c2 1 i false) (mkHS s3 s e rs re psk)) (Handshake true q3)).
  { cbn [at_stage q3 p_sym p_s p_e p_rs p_re]. eexists s3, rs, re, psk, h, c1, c2. split; [reflexivity|].
    split; [exact R4|]. split; [exact Q4|]. split; [exact Q3|]. split; [exact Ks|discriminate]. }
  destruct (N.lt_ge_cases (len rest) 16) as [L3|L3].
  { assert (E : encrypt_and_hash C s3 rest = (s3, rest, Err MissingneError)).
    { unfold encrypt_and_hash. destruct (len rest <? 16) eqn:X; [reflexivity|lia]. }
    rewrite E. exists (Handshake true q3). unfold st, out, res. cbn [fst snd]. split; [|exact W3].
    replace (kp_public e ++ ct1 ++ rest) with ((kp_public e ++ ct1) ++ skipn 80 (x ++ y ++ rest)) by (rewrite S80, <- app_assoc; reflexivity).
    eapply as_room_payload; [lia|exact T2|exact NE|exact T4]. }
  destruct (split_16 rest ltac:(lia)) as [pt [m [-> Hm]]].
  destruct (enc_full s3 sy3 k3 pt m R4 K3a K3n Hm) as [DZ DN].
  destruct (list_eq_dec Byte.byte_eq_dec k3 Z) as [EZ3|NZ3].
  { rewrite (DZ EZ3). exists (Handshake true q3). unfold st, out, res. cbn [fst snd]. split; [|exact W3].
    replace (kp_public e ++ ct1 ++ pt ++ m) with ((kp_public e ++ ct1) ++ skipn 80 (x ++ y ++ pt ++ m)) by (rewrite S80, <- app_assoc; reflexivity).
    eapply as_wzero_es; [lia|exact T2|exact NE|exact T4|]. cbn [q3 p_sym]. rewrite K3a, EZ3. reflexivity. }
  rewrite (DN NZ3).
  assert (NE3 : sy_k (p_sym q3) <> Some zeros32) by (cbn [q3 p_sym]; rewrite K3a; intro X; injection X as X; exact (NZ3 X)).
  destruct (rel_enc C OK s3 sy3 k3 pt R4 K3a K3n) as [B3 [R5 _]].
  destruct (EncryptAndHash C sy3 pt) as [sy4 ct3] eqn:EE3. cbn [fst snd] in B3, R5. rewrite B3.
  assert (PL : payload2 (x ++ y ++ pt ++ m) = pt).
  { unfold payload2. rewrite S80. apply firstn_app_exact. rewrite !app_length. unfold len in *. lia. }
  assert (L4 : len (sy_h sy4) = 32).
  { unfold EncryptAndHash in EE3. rewrite K3a in EE3. injection EE3 as <- _. cbn [MixHash sy_h]. apply (hash_len C OK). }
  exists (established C (with_sym q3 sy4)). unfold st, out, res.
  pose proof (entered i (mkHS ss (p_s p) (p_e p) rs re psk) h c1 c2 1 false (ssBox C s3 pt) sy4 (mkHS (ss_clear (ssBox C s3 pt)) s e rs re psk) rs R5 L4 eq_refl) as EN.
  destruct (split C (ssBox C s3 pt)) as [d1 d2]. cbn [fst snd] in EN |- *.
  split; [|rewrite (established_eq (with_sym q3 sy4) rs Q4); exact EN].
  eapply as_answer; [lia|exact T2|exact NE|exact T4|exact NE3|]. rewrite PL. unfold WriteMessage. fold p1. rewrite T4.
  cbn [q3 p_sym]. rewrite EE3. rewrite <- app_assoc. reflexivity.
Qed.

Lemma recv_second : forall i p s m, at_stage i s (Handshake true p) ->
  exists g', asked C i (Handshake true p) (Recv m) g' (out (recv_message C s m)) (res (recv_message C s m)) /\
    at_stage i (st (recv_message C s m)) g'.
Proof.
  intros i p s0 m A. pose proof A as A0. destruct A as (ss & rs & re & psk & h & c1 & c2 & -> & R & Prs & Pre & Ks & _).
  destruct (N.lt_ge_cases (len m) 16) as [L|L]; [|destruct (N.lt_ge_cases 65535 (len m)) as [L'|L']].
  1,2: exists (Handshake true p); unfold recv_message; rewrite bad_len by lia; unfold st, out, res; cbn [fst snd]; (split; [apply as_recv_size; lia|exact A0]).
  unfold recv_message. rewrite session_len_ok by lia. cbn [se_mc N.eqb Pos.eqb se_hs]. unfold read_message_b.
  destruct (len m <? 48) eqn:E48. { exists (Handshake true p); unfold st, out, res; cbn [fst snd]; split; [apply as_no_e; lia|exact A0]. }
  set (s := p_s p) in *. set (e := p_e p) in *.
  destruct (split_at _ 32 m ltac:(lia)) as [pe [rest [-> Hpe]]].
  assert (LM : len (pe ++ rest) = 32 + len rest) by (rewrite len_app; lia).
  assert (F1 : firstn 32 (pe ++ rest) = pe) by (apply firstn_app_exact; rewrite Hpe; reflexivity).
  assert (F2 : skipn 32 (pe ++ rest) = rest) by (apply skipn_app_exact; rewrite Hpe; reflexivity).
  unfold DHLEN, from_slice_hashlen. rewrite F1, F2. rewrite !(firstn_exact _ 32 pe) by (rewrite Hpe; reflexivity).
  destruct (public_key_from_bytes_spec pe Hpe) as [[LO PK]|[NLO PK]]; rewrite PK.
  { exists (Handshake true p). unfold st, out, res. cbn [fst snd]. split; [apply as_low_e; [lia|rewrite F1; exact LO]|exact A0]. }
  rewrite <- F1 in NLO.
  cbn [hs_ss hs_set_re hs_e]. rewrite !(firstn_exact _ 32 pe) by (rewrite Hpe; reflexivity).
  unfold keypair_dh. set (dhe := c_dh C (kp_private e) pe).
  pose proof (rel_mix_hash C OK ss (p_sym p) pe R) as R1.
  destruct (rel_mix_key C OK _ _ dhe R1) as [R2 [k1 [K1a [K1b [K1c [K1n K1d]]]]]].
  set (sy1 := MixKey C (MixHash C (p_sym p) pe) dhe) in *.
  set (s1 := mix_key C (mix_hash C ss pe) dhe) in *.
  set (q1 := mkParty true sy1 s e (p_rs p) (Some pe)).
  assert (T2 : forall ts, read_tokens C (acting true p) (TE :: TEE :: ts) (pe ++ rest) = read_tokens C q1 ts rest).
  { intro ts. cbn [read_tokens]. assert (len (pe ++ rest) <? 32 = false) as -> by lia. rewrite F1, F2.
    cbn [dh_token mix_dh with_sym acting p_sym p_e p_s p_re p_rs p_initiator]. unfold q1, sy1, dhe. reflexivity. }
  assert (T20 : read_tokens C (acting true p) [TE; TEE] (pe ++ rest) = Some (q1, rest)) by exact (T2 []).
  cbn [hs_set_ss hs_ss hs_s hs_e hs_rs hs_re hs_psk].
  set (sess := mkSession (mkHS ss s e rs re psk) h c1 c2 1 i false) in *.
  assert (W1 : at_stage i (se_set_hs sess (mkHS s1 s e rs pe psk)) (Handshake true q1)).
  { cbn [at_stage q1 p_sym p_s p_e p_rs p_re]. eexists s1, rs, pe, psk, h, c1, c2. split; [reflexivity|].
    split; [exact R2|]. split; [exact Prs|]. split; [reflexivity|]. split; [exact Ks|discriminate]. }
  destruct (len rest <? 48) eqn:E80.
  { exists (Handshake true q1). unfold st, out, res. cbn [fst snd]. split; [|exact W1].
    eapply as_no_s; [lia|exact NLO|exact T20]. }
  destruct (split_at _ 48 rest ltac:(lia)) as [ct1 [ct3 [-> Hct1]]].
  rewrite (firstn_app_exact _ 48 ct1), (skipn_app_exact _ 48 ct1) by (rewrite Hct1; reflexivity).
  assert (LM' : len (pe ++ ct1 ++ ct3) = 80 + len ct3) by (rewrite !len_app; lia). clear LM. rename LM' into LM.
  assert (LC : (length ct1 - 16)%nat = 32%nat) by (unfold len in Hct1; lia).
  assert (S64 : skipn 64 (pe ++ ct1 ++ ct3) = skipn 32 ct1 ++ ct3).
  { change 64%nat with (32 + 32)%nat. rewrite <- skipn_skipn. rewrite F2.
    rewrite skipn_app. assert (LY : (32 - length ct1)%nat = 0%nat) by (unfold len in Hct1; lia). rewrite LY. reflexivity. }
  assert (EB0 : forall z, pe ++ z = firstn 32 (pe ++ ct1 ++ ct3) ++ z) by (intro z; rewrite F1; reflexivity).
  assert (HK : has_key sy1 = true) by (unfold has_key; rewrite K1a; reflexivity).
  assert (T3 : forall ts, read_tokens C q1 (TS :: ts) (ct1 ++ ct3) =
     match DecryptAndHash C sy1 ct1 with
     | None => None
     | Some (sy2, rs1) => read_tokens C (mkParty true sy2 s e (Some rs1) (Some pe)) ts ct3
     end).
  { intro ts. cbn [read_tokens]. unfold q1 at 1 2. cbn [p_sym]. rewrite HK. rewrite len_app, Hct1.
    assert (48 + len ct3 <? N.of_nat 48 = false) as -> by lia.
    rewrite (firstn_app_exact _ 48 ct1), (skipn_app_exact _ 48 ct1) by (rewrite Hct1; reflexivity). reflexivity. }
  destruct (dec_full s1 sy1 k1 ct1 R2 K1a K1n) as (_ & DZ & DN).
  destruct (list_eq_dec Byte.byte_eq_dec k1 Z) as [EZ|NZ].
  { rewrite (DZ ltac:(lia) EZ). exists (Handshake true q1). unfold st, out, res. cbn [fst snd]. split; [|exact W1].
    eapply as_rzero_ee; [lia|exact NLO|exact T20|]. cbn [q1 p_sym]. rewrite K1a, EZ. reflexivity. }
  assert (NE : sy_k (p_sym q1) <> Some zeros32) by (cbn [q1 p_sym]; rewrite K1a; intro X; injection X as X; exact (NZ X)).
  specialize (DN ltac:(lia) NZ). clear DZ. rewrite LC in DN.
  destruct (DecryptAndHash C sy1 ct1) as [[sy2 rs1]|] eqn:ED1.
  2:{ destruct DN as (any & LA & ->). exists (Handshake true q1). unfold st, out, res. cbn [fst snd]. split; [|exact W1].
      rewrite <- app_assoc, <- S64, (EB0 (any ++ skipn 64 (pe ++ ct1 ++ ct3))).
      eapply as_bad_s; [lia|exact NLO|exact T20|exact NE|rewrite T2; exact (T3 [])|lia]. }
  destruct DN as [D1l [ss2 [R3 ->]]].
  assert (Hrs : len rs1 = 32) by lia.
  set (q2 := mkParty true sy2 s e (Some rs1) (Some pe)).
  assert (T23 : read_tokens C (acting true p) [TE; TEE; TS] (pe ++ ct1 ++ ct3) = Some (q2, ct3)) by (rewrite T2; exact (T3 [])).
  rewrite (firstn_app_exact _ 32 rs1) by (rewrite Hrs; reflexivity).
  assert (EB : forall z, pe ++ (rs1 ++ skipn 32 ct1) ++ z = firstn 32 (pe ++ ct1 ++ ct3) ++ rs1 ++ skipn 32 ct1 ++ z)
    by (intro z; rewrite F1, <- !app_assoc; reflexivity).
  destruct (public_key_from_bytes_spec rs1 Hrs) as [[LO2 PK2]|[NLO2 PK2]]; rewrite PK2.
  { exists (Handshake true (with_rs q2 (p_rs p))). unfold st, out, res. cbn [fst snd]. split.
    - rewrite EB, <- S64.
      apply (as_low_s C i p _ q1 (ct1 ++ ct3) q2 ct3 rs1); [lia|exact NLO|exact T20|exact NE|exact T23|reflexivity|exact LO2].
    - cbn [at_stage q2 with_rs p_sym p_s p_e p_rs p_re]. eexists ss2, rs, pe, psk, h, c1, c2. split; [reflexivity|].
      split; [exact R3|]. split; [exact Prs|]. split; [reflexivity|]. split; [exact Ks|discriminate]. }
  cbn [hs_e hs_set_rs hs_set_re hs_set_ss hs_ss hs_s hs_rs hs_re hs_psk].
  set (dhs := c_dh C (kp_private e) rs1).
  destruct (rel_mix_key C OK _ _ dhs R3) as [R4 [k3 [K3a [K3b [K3c [K3n K3d]]]]]].
  set (s3 := mix_key C ss2 dhs) in *. set (sy3 := MixKey C sy2 dhs) in *.
  set (q3 := mkParty true sy3 s e (Some rs1) (Some pe)).
  assert (T4 : read_tokens C (acting true p) NX2 (pe ++ ct1 ++ ct3) = Some (q3, ct3)).
  { unfold NX2. rewrite T2, T3. cbn [read_tokens dh_token mix_dh with_sym p_sym p_e p_s p_re p_rs p_initiator]. reflexivity. }
  assert (W3 : at_stage i (se_set_hs sess (mkHS s3 s e rs1 pe psk)) (Handshake true q3)).
  { cbn [at_stage q3 p_sym p_s p_e p_rs p_re]. eexists s3, rs1, pe, psk, h, c1, c2. split; [reflexivity|].
    split; [exact R4|]. split; [reflexivity|]. split; [reflexivity|]. split; [exact Ks|discriminate]. }
  assert (PR : forall g b r, payload_read C (acting true p) (pe ++ ct1 ++ ct3) rs1 q3 g b r ->
     asked C i (Handshake true p) (Recv (pe ++ ct1 ++ ct3)) g b r).
  { intros g b r X. apply (as_static C i p _ q1 (ct1 ++ ct3) q2 ct3 rs1 q3 ct3); try assumption; [lia|reflexivity]. }
  destruct (dec_full s3 sy3 k3 ct3 R4 K3a K3n) as (DP & DZ & DN).
  destruct (N.lt_ge_cases (len ct3) 16) as [L3|L3]; [|destruct (N.lt_ge_cases 2048 (len ct3)) as [L3'|L3']].
  1,2: rewrite (DP ltac:(lia)); exists (Handshake true q3); unfold st, out, res; cbn [fst snd]; (split; [|exact W3]);
    apply PR; rewrite EB, <- S64; apply pr_panic; lia.
  destruct (list_eq_dec Byte.byte_eq_dec k3 Z) as [EZ3|NZ3].
  { rewrite (DZ ltac:(lia) EZ3). exists (Handshake true q3). unfold st, out, res. cbn [fst snd]. split; [|exact W3].
    apply PR. rewrite EB, <- S64. apply pr_zero_es; [lia|]. cbn [q3 p_sym]. rewrite K3a, EZ3. reflexivity. }
  assert (NE3 : sy_k (p_sym q3) <> Some zeros32) by (cbn [q3 p_sym]; rewrite K3a; intro X; injection X as X; exact (NZ3 X)).
  specialize (DN ltac:(lia) NZ3). clear DP DZ.
  assert (RM : ReadMessage C (acting true p) NX2 (pe ++ ct1 ++ ct3) =
     match DecryptAndHash C sy3 ct3 with None => None | Some (sy4, payload) => Some (with_sym q3 sy4, payload) end).
  { unfold ReadMessage. rewrite T4. reflexivity. }
  assert (F16 : firstn 16 (skipn 64 (pe ++ ct1 ++ ct3)) = skipn 32 ct1).
  { rewrite S64. apply firstn_app_exact. rewrite len_skipn, Hct1. reflexivity. }
  assert (ST : skipn (length (pe ++ ct1 ++ ct3) - 16) (pe ++ ct1 ++ ct3) = skipn (length ct3 - 16) ct3).
  { rewrite app_assoc. rewrite skipn_app. rewrite (skipn_all2 (pe ++ ct1)).
    - cbn [app]. f_equal. rewrite !app_length. unfold len in *. lia.
    - rewrite !app_length. unfold len in *. lia. }
  destruct (DecryptAndHash C sy3 ct3) as [[sy4 payload]|] eqn:ED3.
  - destruct DN as [D3l [ss4 [R5 ->]]].
    assert (L4 : len (sy_h sy4) = 32).
    { unfold DecryptAndHash in ED3. rewrite K3a in ED3. destruct (DECRYPT C _ _ _ _); [|discriminate]. injection ED3 as <- _.
      cbn [MixHash sy_h]. apply (hash_len C OK). }
    exists (established C (with_sym q3 sy4)). unfold st, out, res.
    pose proof (entered i (mkHS ss s e rs re psk) h c1 c2 1 false ss4 sy4 (mkHS (ss_clear ss4) s e rs1 pe psk) rs1 R5 L4 eq_refl) as EN. unfold from_slice_hashlen in EN.
    destruct (split C ss4) as [d1 d2]. cbn [fst snd] in EN |- *. split.
    + apply PR. rewrite EB, <- F16, <- ST. apply pr_ok; [lia|exact NE3|exact RM].
    + rewrite (established_eq (with_sym q3 sy4) rs1 eq_refl). exact EN.
  - destruct DN as (any & LA & ->). exists (Handshake true q3). unfold st, out, res. cbn [fst snd]. split; [|exact W3].
    apply PR. rewrite EB, <- F16, <- ST. apply pr_bad; [lia|exact NE3|exact RM|lia].
Qed.

Lemma step_asked : forall i s g c, wf s -> at_stage i s g ->
  exists g', asked C i g c g' (out (step C s c)) (res (step C s c)) /\ at_stage i (st (step C s c)) g'.
Proof.
  intros i s g c W A. destruct g as [n p|h rs ch].
  - assert (EC : In c [ClearLocal; ClearRemote; RekeyLocal; RekeyRemote] -> at_stage i (st (step C s c)) (Handshake n p)).
    { intro I. destruct A as (ss & rs & re & psk & h & c1 & c2 & -> & B). cbn [at_stage].
      destruct I as [<-|[<-|[<-|[<-|[]]]]]; eexists ss, rs, re, psk, h, _, _; (split; [reflexivity|exact B]). }
    destruct c as [rnd b|b| | | | |e]; cbn [step].
    + destruct n; [apply send_second|apply send_first]; exact A.
    + destruct n; [apply recv_second|apply recv_first]; exact A.
    + exists (Handshake n p). split; [apply as_early; cbn; tauto|apply EC; cbn; tauto].
    + exists (Handshake n p). split; [apply as_early; cbn; tauto|apply EC; cbn; tauto].
    + exists (Handshake n p). split; [apply as_early; cbn; tauto|apply EC; cbn; tauto].
    + exists (Handshake n p). split; [apply as_early; cbn; tauto|apply EC; cbn; tauto].
    + exists (Handshake n (with_pair p e)). split; [apply as_ephemeral|].
      destruct A as (ss & rs & re & psk & h & c1 & c2 & -> & R & Prs & Pre & Ks & NK). cbn [at_stage].
      eexists ss, rs, re, psk, h, c1, c2. split; [reflexivity|]. exact (conj R (conj Prs (conj Pre (conj Ks NK)))).
  - destruct A as (T & I & H & RS & CH). exists (Done h rs (channel_of (st (step C s c)))).
    destruct (step_stays C OK s c W T) as [W' T']. pose proof (step_role C s c) as I'.
    pose proof (step_served C OK s c W T) as SV. rewrite CH, I in SV. split; [apply as_done; exact SV|].
    cbn [at_stage]. split; [exact T'|]. split; [rewrite I'; exact I|].
    pose proof (proj1 (proj1 W)) as M. specialize (M T).
    assert (K : se_h (st (step C s c)) = se_h s /\ hs_rs (se_hs (st (step C s c))) = hs_rs (se_hs s)).
    { destruct c as [rnd b|b| | | | |e]; cbn [step]; try (split; reflexivity).
      - destruct (send_cases C rnd s b M) as [[Q X]|[[Q [E X]]|[[Q [E [K X]]]|[Q [E [K X]]]]]]; rewrite X; unfold st; cbn [fst]; try (split; reflexivity).
        destruct s as [hs h0 c1 c2 mc i0 t]. destruct i0; split; reflexivity.
      - destruct (recv_cases C s b M) as [[Q X]|[[Q [E X]]|[[Q [E [K X]]]|[Q [E [K (ct & mac & pt & EB & LM & [[D X]|[D X]])]]]]]];
          rewrite X; unfold st; cbn [fst]; try (split; reflexivity).
        destruct s as [hs h0 c1 c2 mc i0 t]. destruct i0; split; reflexivity. }
    destruct K as [-> ->]. split; [exact H|]. split; [exact RS|reflexivity].
Qed.

Lemma shows_at : forall i s g, wf s -> at_stage i s g -> shows s g.
Proof.
  intros i s [n p|h rs c] W A; cbn [shows at_stage] in *.
  - destruct A as (ss & rs & re & psk & h & c1 & c2 & -> & _). destruct n; repeat split; reflexivity.
  - destruct A as (T & _ & H & RS & _). unfold get_handshake_hash, get_remote_static_public_key, get_message_count.
    unfold is_transport in T. rewrite T, H, RS. split; [exact T|]. split; [apply (proj1 W); exact T|]. split; reflexivity.
Qed.

Lemma story_at : forall i cs s g, wf s -> at_stage i s g ->
  exists g', story C i g cs (results C s cs) g' /\ shows (run_calls C s cs) g'.
Proof.
  induction cs as [|c cs IH]; intros s g W A.
  - exists g. split; [constructor|exact (shows_at i s g W A)].
  - destruct (step_asked i s g c W A) as (g1 & S1 & A1).
    destruct (IH _ g1 (wf_step C OK s c W) A1) as (g2 & S2 & X).
    exists g2. cbn [results]. rewrite run_calls_cons. split; [econstructor; eassumption|exact X].
Qed.

Theorem story_exact : forall i pro kp cs, keypair_ok kp ->
  exists g, story C i (Handshake false (newcomer C i pro kp)) cs (results C (init_session C i pro kp) cs) g /\
    shows (run_calls C (init_session C i pro kp) cs) g.
Proof.
  intros i pro kp cs K. apply story_at; [apply (wf_init C)|]. cbn [at_stage newcomer p_s p_e p_sym p_rs p_re].
  exists (ss0 C pro), zeros32, zeros32, EMPTY_KEY, EMPTY_KEY, cs_new, cs_new. split; [destruct i; reflexivity|].
  split; [apply (rel_init C OK)|]. do 2 (split; [reflexivity|]). split; [exact K|reflexivity].
Qed.

Theorem asked_unique : forall i g c g1 b1 r1 g2 b2 r2, asked C i g c g1 b1 r1 -> asked C i g c g2 b2 r2 ->
  g1 = g2 /\ r1 = r2 /\ (r1 <> Err DecryptionError -> b1 = b2).
Proof.
  intros i g c g1 b1 r1 g2 b2 r2 H1 H2.
  destruct H1; inversion H2; subst;
    repeat match goal with
    | A : ?x = Some (?a, ?b), B : ?x = Some (?a', ?b') |- _ => rewrite A in B; injection B as; subst
    | A : ?x = Some (?a, ?b), B : ?x = None |- _ => rewrite A in B; discriminate B
    | A : p_rs ?x = Some ?a, B : p_rs ?x = Some ?b |- _ => rewrite A in B; injection B as; subst
    end;
    try (exfalso; lia); try contradiction;
    try (split; [reflexivity|]; split; [reflexivity|]; intros; congruence);
    try (exfalso; match goal with A : In _ _ |- _ => cbn in A; repeat (destruct A as [A|A]; [discriminate A|]); destruct A end).
  - match goal with A : payload_read _ _ _ _ _ _ _ _, B : payload_read _ _ _ _ _ _ _ _ |- _ => destruct A; inversion B; subst end;
    repeat match goal with
    | A : ?x = Some (?a, ?b), B : ?x = Some (?a', ?b') |- _ => rewrite A in B; injection B as; subst
    | A : ?x = Some (?a, ?b), B : ?x = None |- _ => rewrite A in B; discriminate B
    end;
    try (exfalso; lia); try contradiction;
    try (split; [reflexivity|]; split; [reflexivity|]; intros; congruence).
  - match goal with A : served _ _ _ _ _ _ _, B : served _ _ _ _ _ _ _ |- _ => destruct (served_unique C _ _ _ _ _ _ _ _ _ A B) as (<- & <- & Q) end.
    split; [reflexivity|]. split; [reflexivity|exact Q].
Qed.
Theorem story_unique : forall i g cs rs1 g1 rs2 g2, story C i g cs rs1 g1 -> story C i g cs rs2 g2 ->
  g1 = g2 /\ map snd rs1 = map snd rs2 /\
  forall j b1 b2 r, nth_error rs1 j = Some (b1, r) -> nth_error rs2 j = Some (b2, r) -> r <> Err DecryptionError -> b1 = b2.
Proof.
  intros i g cs rs1 g1 rs2 g2 H. revert rs2 g2. induction H as [g|g call ga b r calls rs gb S H IH]; intros rs2 g2 H2.
  - inversion H2; subst. split; [reflexivity|]. split; [reflexivity|]. intros [|j] b1 b2 r Q; discriminate Q.
  - inversion H2 as [|g0 call0 ga' b' r' calls0 rs' gb' S' H']; subst. destruct (asked_unique _ _ _ _ _ _ _ _ _ S S') as (<- & <- & B).
    destruct (IH _ _ H') as (<- & M & N). split; [reflexivity|]. split; [cbn; rewrite M; reflexivity|].
    intros [|j] b1 b2 r0 Q Q' NE; [|exact (N j b1 b2 r0 Q Q' NE)].
    cbn in Q, Q'. injection Q as <- <-. injection Q' as <-. apply B. exact NE.
Qed.

(** ** Encryptors *)
Lemma send_asked_no_panic : forall i g rnd b g' o, ~ asked C i g (Send rnd b) g' o Panic.
Proof.
  intros i g rnd b g' o H. inversion H; subst.
  match goal with A : served _ _ _ _ _ _ _ |- _ => inversion A end.
Qed.
Lemma fed_at : forall i inputs s g, wf s -> at_stage i s g -> feeding C i g inputs (fed C s inputs).
Proof.
  induction inputs as [|[rnd d] inputs IH]; intros s g W A; [constructor|]. cbn [fed]. unfold recv_handshake.
  destruct (step_asked i s g (Recv d) W A) as (g1 & S1 & A1). pose proof (wf_step C OK s (Recv d) W) as W1.
  cbn [step] in S1, A1, W1. destruct (recv_message C s d) as [[s1 b1] r1]. unfold out, res, st in S1, A1, W1. cbn [fst snd] in S1, A1, W1.
  destruct r1 as [[]|e|].
  - destruct (step_asked i s1 g1 (Send rnd b1) W1 A1) as (g2 & S2 & A2). pose proof (wf_step C OK s1 (Send rnd b1) W1) as W2.
    cbn [step] in S2, A2, W2. destruct (send_message C rnd s1 b1) as [[s2 b2] r2]. unfold out, res, st in S2, A2, W2. cbn [fst snd] in S2, A2, W2.
    destruct r2 as [[]|e|].
    + eapply fe_answered; [exact S1|exact S2|]. apply IH; assumption.
    + eapply fe_unanswered; [exact S1|exact S2|]. apply IH; assumption.
    + destruct (send_asked_no_panic _ _ _ _ _ _ S2).
  - eapply fe_refused; [exact S1|]. apply IH; assumption.
  - eapply fe_panic; exact S1.
Qed.
Theorem fed_exact : forall i pro kp inputs, keypair_ok kp ->
  feeding C i (Handshake false (newcomer C i pro kp)) inputs (fed C (init_session C i pro kp) inputs).
Proof.
  intros i pro kp inputs K. apply fed_at; [apply (wf_init C)|]. cbn [at_stage newcomer p_s p_e p_sym p_rs p_re].
  exists (ss0 C pro), zeros32, zeros32, EMPTY_KEY, EMPTY_KEY, cs_new, cs_new. split; [destruct i; reflexivity|].
  split; [apply (rel_init C OK)|]. do 2 (split; [reflexivity|]). split; [exact K|reflexivity].
Qed.
Theorem feeding_unique : forall i g inputs rs rs', feeding C i g inputs rs -> feeding C i g inputs rs' -> rs = rs'.
Proof.
  intros i g inputs rs rs' H. revert rs'. induction H; intros rs' H'; inversion H'; subst; try reflexivity;
    repeat match goal with
    | A : asked C i ?g ?c ?g1 ?b1 ?r1, B : asked C i ?g ?c ?g2 ?b2 ?r2 |- _ =>
        let E1 := fresh in let E2 := fresh in let E3 := fresh in
        destruct (asked_unique _ _ _ _ _ _ _ _ _ A B) as (E1 & E2 & E3); clear B;
        try discriminate E2; try (injection E2 as E2; subst e); try (specialize (E3 ltac:(discriminate))); subst
    end; try (f_equal; auto; fail); try (f_equal; [congruence|auto]).
Qed.
End Story.

Theorem encryptors_fed : forall C, crypto_ok C -> forall sk rs inputs,
  match sk with Some k => keypair_ok k | None => len rs = 32 end ->
  let own := match sk with Some k => k | None => mkKeypair rs (c_pub C rs) end in
  feeding C false (Handshake false (newcomer C false [] own)) inputs (fed C (new_inbound C sk rs) inputs) /\
  (len rs = 32 ->
   feeding C true (Handshake false (newcomer C true [] (mkKeypair rs (c_pub C rs)))) inputs (fed C (new_outbound C rs) inputs)).
Proof.
  intros C OK sk rs inputs K own. assert (KD : len rs = 32 -> keypair_ok (mkKeypair rs (c_pub C rs))).
  { intro L. split; [exact L|]. apply (pub_len C OK). }
  split; [|intro L; apply (fed_exact C OK true []); exact (KD L)].
  unfold new_inbound. assert (E : own = match sk with Some k => k | None => keypair_default C rs end) by (destruct sk; reflexivity).
  rewrite <- E. apply (fed_exact C OK false []). unfold own. destruct sk; [exact K|exact (KD K)].
Qed.
