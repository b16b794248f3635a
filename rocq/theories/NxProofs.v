(** * NxProofs: the handshake code against the independent Noise specification. *)
From Coq Require Import Lia ZifyBool ZifyNat ZifyN.
From Verif Require Import Base SpecWire BaseFacts Noise SpecNoise SpecSession NoiseFacts HandshakeProofs.
Open Scope N_scope.

Section Nx.
Variable C : crypto.
Hypothesis OK : crypto_ok C.
Notation Z := EMPTY_KEY.

Record rel (ss : symmetric_state) (sy : sym) : Prop := {
  r_ck : ss_ck ss = sy_ck sy;
  r_h : ss_h ss = sy_h sy;
  r_n : cs_n (ss_cs ss) = sy_n sy;
  r_ckl : len (sy_ck sy) = 32;
  r_k : match sy_k sy with None => cs_k (ss_cs ss) = Z | Some k => cs_k (ss_cs ss) = k /\ len k = 32 end }.

Lemma rel_init : forall pro, rel (ss0 C pro)
  (MixHash C (InitializeSymmetric C protocol_name) pro).
Proof.
  intro pro. unfold ss0. 
  assert (E : initialize_symmetric C protocol_name = mkSS cs_new (c_hash C protocol_name) (c_hash C protocol_name)).
  { unfold initialize_symmetric. change (len protocol_name <? 32) with false.
    change (len protocol_name =? 32) with false. cbv beta iota zeta. rewrite hash_eq by exact OK.
    unfold from_slice_hashlen. rewrite firstn_exact by apply (hash_len C OK). reflexivity. }
  rewrite E. constructor; cbn [MixHash mix_hash InitializeSymmetric sy_ck sy_h sy_n sy_k ss_ck ss_h ss_cs];
    try reflexivity.
  - rewrite hash_ctx by exact OK. reflexivity.
  - apply (hash_len C OK).
Qed.

Lemma rel_mix_hash : forall ss sy d, rel ss sy -> rel (mix_hash C ss d) (MixHash C sy d).
Proof.
  intros ss sy d [H1 H2 H3 H4 H5]. destruct (mix_hash_fields C OK ss d) as [E1 [E2 E3]].
  constructor; rewrite ?E1, ?E2, ?E3; unfold MixHash; cbn [sy_ck sy_h sy_n sy_k]; try assumption.
  rewrite H2. reflexivity.
Qed.

Lemma rel_mix_key : forall ss sy d, rel ss sy ->
  rel (mix_key C ss d) (MixKey C sy d) /\
  exists k, sy_k (MixKey C sy d) = Some k /\ cs_k (ss_cs (mix_key C ss d)) = k /\ len k = 32 /\
            sy_n (MixKey C sy d) = 0 /\
            sy_keys (MixKey C sy d) = sy_keys sy ++ [k].
Proof.
  intros ss sy d [H1 H2 H3 H4 H5]. unfold mix_key, MixKey.
  rewrite hkdf2_spec by (try exact OK; rewrite H1, H4; discriminate).
  rewrite H1. unfold HKDF. cbn [fst]. 
  rewrite (firstn_exact _ 32) by apply (HMAC_len C OK).
  split.
  - constructor; cbn [sy_ck sy_h sy_n sy_k ss_ck ss_h ss_cs cs_from_key cs_n cs_k]; try reflexivity; try assumption.
    + apply (HMAC_len C OK).
    + split; [reflexivity|]. apply (HMAC_len C OK).
  - eexists. split; [reflexivity|]. split; [reflexivity|]. split; [apply (HMAC_len C OK)|].
    split; reflexivity.
Qed.

Lemma rel_split : forall ss sy, rel ss sy ->
  fst (split C ss) = mkCS (fst (Split C sy)) 0 /\ snd (split C ss) = mkCS (snd (Split C sy)) 0.
Proof.
  intros ss sy [H1 H2 H3 H4 H5]. unfold split, Split.
  rewrite hkdf2_spec by (try exact OK; rewrite H1, H4; discriminate).
  rewrite H1. unfold HKDF. cbn [fst snd]. unfold from_slice_hashlen.
  rewrite !(firstn_exact _ 32) by (rewrite ?(firstn_exact _ 32); apply (HMAC_len C OK)).
  split; reflexivity.
Qed.

Lemma sealed_spec : forall k n ad p, len k = 32 -> sealed C k n ad p = ENCRYPT C k n ad p.
Proof.
  intros. unfold sealed, ENCRYPT. rewrite firstn_exact by (rewrite H; reflexivity).
  rewrite prep_nonce_spec. destruct (c_seal _ _ _ _ _). reflexivity.
Qed.

Lemma rel_enc : forall ss sy k p, rel ss sy -> sy_k sy = Some k -> sy_n sy = 0 ->
  box C ss p = snd (EncryptAndHash C sy p) /\ rel (ssBox C ss p) (fst (EncryptAndHash C sy p)) /\
  sy_keys (fst (EncryptAndHash C sy p)) = sy_keys sy.
Proof.
  intros ss sy k p R Hk Hn. destruct R as [H1 H2 H3 H4 H5]. rewrite Hk in H5. destruct H5 as [H5 H6].
  unfold EncryptAndHash. rewrite Hk. cbv zeta. cbn [fst snd].
  assert (B : box C ss p = ENCRYPT C k (sy_n sy) (sy_h sy) p).
  { unfold box. rewrite H5, H2, sealed_spec by exact H6. rewrite Hn. reflexivity. }
  split; [exact B|]. split; [|reflexivity].
  unfold ssBox. rewrite B. apply rel_mix_hash. constructor; cbn; try assumption.
  - rewrite Hn. reflexivity.
  - rewrite Hk. split; assumption.
Qed.

(** Decryption of an arbitrary received part. *)
Lemma rel_dec : forall ss sy k b, rel ss sy -> sy_k sy = Some k -> sy_n sy = 0 -> len b <= 2048 ->
  match DecryptAndHash C sy b with
  | Some (sy', pt) =>
      sy_keys sy' = sy_keys sy /\ len pt + 16 = len b /\ sy_k sy' = Some k /\ sy_n sy' = 1 /\
      (k <> Z -> exists ss', rel ss' sy' /\
        decrypt_and_hash C ss b = (ss', pt ++ skipn (length b - 16) b, Ok tt))
  | None => forall ss' b' , decrypt_and_hash C ss b <> (ss', b', Ok tt)
  end /\
  (k = Z -> forall ss' b', decrypt_and_hash C ss b <> (ss', b', Ok tt)).
Proof.
  intros ss sy k b R Hk Hn Hb. destruct R as [H1 H2 H3 H4 H5]. rewrite Hk in H5. destruct H5 as [H5 H6].
  unfold DecryptAndHash. rewrite Hk. unfold DECRYPT, decrypt_and_hash.
  destruct (2048 <? len b) eqn:E1; [lia|].
  destruct (len b <? 16) eqn:E2.
  { rewrite split_mac_short by lia. split; intros; discriminate. }
  destruct (split_16 b ltac:(lia)) as [ct [mac [-> Hm]]].
  rewrite split_mac_app by exact Hm.
  assert (HL : (length (ct ++ mac) - 16)%nat = length ct) by (rewrite app_length; unfold len in Hm; lia).
  rewrite HL. rewrite (firstn_app_exact _ (length ct)), (skipn_app_exact _ (length ct)) by reflexivity.
  unfold cs_decrypt_with_ad. rewrite H3, Hn, nonce_get_ok by reflexivity.
  unfold from_slice_hashlen. rewrite H5, H2, firstn_exact by (rewrite H6; reflexivity). rewrite prep_nonce_spec.
  pose proof (open_len C OK k (nonce96 0) (sy_h sy) ct mac) as OL.
  destruct (c_open C k (nonce96 0) (sy_h sy) ct mac) as [okb pt] eqn:EO. cbn [snd] in OL.
  split.
  - destruct okb.
    + cbn [sy_keys MixHash next_nonce sy_k sy_n]. split; [reflexivity|].
      split; [rewrite len_app; lia|]. split; [exact Hk|]. split; [rewrite Hn; reflexivity|]. intro NZ.
      assert (cs_has_key (ss_cs ss) = true) as -> by (apply cs_has_key_iff; rewrite H5; exact NZ).
      eexists. split; [|reflexivity]. apply rel_mix_hash. constructor; cbn; try assumption.
      * rewrite Hn. reflexivity.
      * rewrite Hk. split; [reflexivity|assumption].
    + intros. destruct (cs_has_key (ss_cs ss)); discriminate.
  - intros -> ss' b'. assert (cs_has_key (ss_cs ss) = false) as ->.
    { unfold cs_has_key. rewrite H5. reflexivity. }
    discriminate.
Qed.

(** ** First message *)
Lemma nx_write_1 : forall pro s e rnd i S0 b, started C i pro s rnd e S0 -> 32 <= len b <= 65535 ->
  exists p1, WriteMessage C (Initialize C i pro s e) NX1 (skipn 32 b) = Some (p1, out (send_message C rnd S0 b)) /\
    res (send_message C rnd S0 b) = Ok tt /\
    exists ss h c1 c2, st (send_message C rnd S0 b) = mkSession (mkHS ss s e Z Z Z) h c1 c2 1 i false /\
      rel ss (p_sym p1) /\ sy_k (p_sym p1) = None /\ p_e p1 = e /\ p_s p1 = s /\ p_rs p1 = None /\ p_re p1 = None /\ p_initiator p1 = i /\
      sy_keys (p_sym p1) = [].
Proof.
  intros * HS Hb. destruct (started_state C _ _ _ _ _ _ HS) as [e0 [-> HE]].
  rewrite (send_a C rnd _ s e0 e) by assumption. unfold res, st, out. cbn [fst snd].
  unfold WriteMessage, NX1. cbn [write_tokens Initialize p_sym p_e kp_public].
  unfold EncryptAndHash. cbn [with_sym p_sym MixHash InitializeSymmetric sy_k].
  eexists. split; [rewrite app_nil_r; reflexivity|]. split; [reflexivity|].
  eexists _, _, _, _. split; [reflexivity|].
  split; [|cbn; repeat split; reflexivity].
  cbn [with_sym p_sym]. unfold ssA.
  apply (rel_mix_hash _ (MixHash C (MixHash C (InitializeSymmetric C _) _) _)).
  apply (rel_mix_hash _ (MixHash C (InitializeSymmetric C _) _)). apply rel_init.
Qed.

Lemma nx_read_1 : forall pro s e rnd i S0 pe rest, started C i pro s rnd e S0 ->
  len pe = 32 -> ~ low_order pe -> 48 <= len (pe ++ rest) <= 65535 ->
  exists p1, ReadMessage C (Initialize C i pro s e) NX1 (pe ++ rest) = Some (p1, rest) /\
    res (recv_message C S0 (pe ++ rest)) = Ok tt /\ out (recv_message C S0 (pe ++ rest)) = pe ++ rest /\
    exists ss e0 h c1 c2, st (recv_message C S0 (pe ++ rest)) = mkSession (mkHS ss s e0 Z pe Z) h c1 c2 1 i false /\
      (forall ss rs re psk, ensure_ephemeral C rnd (mkHS ss s e0 rs re psk) = mkHS ss s e rs re psk) /\
      rel ss (p_sym p1) /\ sy_k (p_sym p1) = None /\ p_e p1 = e /\ p_s p1 = s /\ p_rs p1 = None /\ p_re p1 = Some pe /\ p_initiator p1 = i /\
      sy_keys (p_sym p1) = [].
Proof.
  intros * HS Hpe Hlo Hb. destruct (started_state C _ _ _ _ _ _ HS) as [e0 [-> HE]].
  rewrite (recv_a C) by assumption. unfold res, st, out. cbn [fst snd].
  unfold ReadMessage, NX1. cbn [read_tokens]. destruct (len (pe ++ rest) <? 32) eqn:E; [lia|].
  rewrite firstn_app_exact, skipn_app_exact by (rewrite Hpe; reflexivity).
  unfold DecryptAndHash. cbn [p_sym Initialize MixHash InitializeSymmetric sy_k].
  eexists. split; [reflexivity|]. split; [reflexivity|]. split; [reflexivity|].
  eexists _, e0, _, _, _. split; [reflexivity|]. split; [exact HE|].
  split; [|cbn; repeat split; reflexivity].
  cbn [with_sym p_sym]. unfold ssA.
  apply (rel_mix_hash _ (MixHash C (MixHash C (InitializeSymmetric C _) _) _)).
  apply (rel_mix_hash _ (MixHash C (InitializeSymmetric C _) _)). apply rel_init.
Qed.

(** ** Second message, written *)
Lemma nx_write_2 : forall rnd ss s e0 e rs re psk h c1 c2 t p1 b,
  keypair_ok s -> keypair_ok e -> len re = 32 -> 96 <= len b <= 65535 ->
  (forall ss rs re psk, ensure_ephemeral C rnd (mkHS ss s e0 rs re psk) = mkHS ss s e rs re psk) ->
  rel ss (p_sym p1) -> p_e p1 = e -> p_s p1 = s -> p_re p1 = Some re -> p_initiator p1 = false ->
  let x := send_message C rnd (mkSession (mkHS ss s e0 rs re psk) h c1 c2 1 false t) b in
  exists p2 msg, WriteMessage C p1 NX2 (firstn (length b - 96) (skipn 80 b)) = Some (p2, msg) /\
    (~ In Z (skipn (length (sy_keys (p_sym p1))) (sy_keys (p_sym p2))) ->
     res x = Ok tt /\ out x = msg /\ se_transport (st x) = true /\ se_mc (st x) = 2 /\
     se_h (st x) = sy_h (p_sym p2) /\
     se_cs1 (st x) = mkCS (fst (Split C (p_sym p2))) 0 /\ se_cs2 (st x) = mkCS (snd (Split C (p_sym p2))) 0) /\
    (In Z (skipn (length (sy_keys (p_sym p1))) (sy_keys (p_sym p2))) -> res x = Err EmptyKeyError).
Proof.
  intros * Ks Ke Hre Hb HE R Pe Ps Pre Pi x.
  destruct (split_b2 b ltac:(lia)) as [bx [y1 [y2 [p [m [Eb [Hx [Hy1 [Hy2 Hm]]]]]]]]].
  assert (HP : firstn (length b - 96) (skipn 80 b) = p).
  { rewrite Eb at 2. rewrite app_assoc. rewrite skipn_app_exact by (rewrite !len_app, Hx, Hy1, Hy2; reflexivity).
    apply firstn_app_exact. rewrite Eb, !app_length. unfold len in *. lia. }
  rewrite HP.
  pose proof (send_b C OK rnd ss s e0 e rs re psk h c1 c2 false t bx y1 y2 p m Ks Hx Hy1 Hy2 Hm
                ltac:(rewrite <- Eb; lia) HE) as SB.
  cbv zeta in SB. rewrite <- Eb in SB. fold x in SB. clearbody x.
  unfold WriteMessage, NX2. cbn [write_tokens].
  repeat progress (cbn [dh_token mix_dh with_sym p_sym p_e p_s p_re p_rs p_initiator]; rewrite ?Pe, ?Ps, ?Pre, ?Pi).
  pose proof (rel_mix_hash ss (p_sym p1) (kp_public e) R) as R1.
  destruct (rel_mix_key _ _ (c_dh C (kp_private e) re) R1) as [R2 [k1 [K1a [K1b [K1c [K1n K1d]]]]]].
  fold (ssB1 C ss (kp_public e) (c_dh C (kp_private e) re)) in *.
  set (s1 := ssB1 C ss (kp_public e) (c_dh C (kp_private e) re)) in *.
  set (sy1 := MixKey C (MixHash C (p_sym p1) (kp_public e)) (c_dh C (kp_private e) re)) in *.
  destruct (rel_enc s1 sy1 k1 (kp_public s) R2 K1a K1n) as [B1 [R3 K3d]].
  destruct (EncryptAndHash C sy1 (kp_public s)) as [sy2 ct1] eqn:EE1. cbn [fst snd] in B1, R3, K3d.
  repeat progress (cbn [dh_token mix_dh with_sym p_sym p_e p_s p_re p_rs p_initiator]; rewrite ?Pe, ?Ps, ?Pre, ?Pi).
  set (s2 := ssBox C s1 (kp_public s)) in *.
  destruct (rel_mix_key s2 sy2 (c_dh C (kp_private s) re) R3) as [R4 [k3 [K3a [K3b [K3c [K3n K3e]]]]]].
  set (s3 := mix_key C s2 (c_dh C (kp_private s) re)) in *.
  set (sy3 := MixKey C sy2 (c_dh C (kp_private s) re)) in *.
  destruct (rel_enc s3 sy3 k3 p R4 K3a K3n) as [B3 [R5 K5d]].
  destruct (EncryptAndHash C sy3 p) as [sy4 ct3] eqn:EE3. cbn [fst snd] in B3, R5, K5d.
  eexists _, _. split; [reflexivity|]. cbn [with_sym p_sym].
  rewrite K5d, K3e, K3d, K1d. cbn [MixHash sy_keys]. rewrite <- app_assoc.
  rewrite skipn_app, skipn_all, Nat.sub_diag. cbn [skipn app In].
  split.
  2:{ intro IZ. destruct SB as [[SB _]|[N1 [N3 _]]]; [exact SB|]. exfalso. rewrite <- K1b, <- K3b in IZ.
      destruct IZ as [IZ|[IZ|[]]]; contradiction. }
  intro NZ. destruct SB as [[_ [Bad|Bad]]|[_ [_ X]]].
  { exfalso. apply NZ. left. rewrite <- K1b. exact Bad. }
  { exfalso. apply NZ. right. left. rewrite <- K3b. exact Bad. }
  rewrite X. unfold res, out, st. cbn [fst snd]. 
  destruct (rel_split _ _ R5) as [S1 S2].
  split; [reflexivity|]. split; [rewrite B1, B3; cbn [app]; rewrite <- ?app_assoc, ?app_nil_r; cbn [app]; rewrite <- ?app_assoc; reflexivity|].
  split; [reflexivity|]. split; [reflexivity|]. split; [apply (r_h _ _ R5)|]. split; [exact S1|exact S2].
Qed.

(** ** Second message, read *)
Lemma nx_read_2 : forall ss s e rs re psk h c1 c2 t p1 b,
  rel ss (p_sym p1) -> p_e p1 = e -> p_initiator p1 = true ->
  16 <= len b <= 2128 ->
  let x := recv_message C (mkSession (mkHS ss s e rs re psk) h c1 c2 1 true t) b in
  match ReadMessage C p1 NX2 b with
  | None => res x <> Ok tt
  | Some (p2, payload) =>
      96 + len payload = len b /\
      (res x = Ok tt <->
       ~ low_order (firstn 32 b) /\ (forall k, p_rs p2 = Some k -> ~ low_order k) /\
       ~ In Z (skipn (length (sy_keys (p_sym p1))) (sy_keys (p_sym p2)))) /\
      (res x = Ok tt ->
       se_transport (st x) = true /\ se_mc (st x) = 2 /\ se_h (st x) = sy_h (p_sym p2) /\
       p_rs p2 = Some (hs_rs (se_hs (st x))) /\
       se_cs1 (st x) = mkCS (fst (Split C (p_sym p2))) 0 /\
       se_cs2 (st x) = mkCS (snd (Split C (p_sym p2))) 0 /\
       firstn (length b - 96) (skipn 80 (out x)) = payload)
  end.
Proof.
  intros * R Pe Pi Hb x.
  assert (X : x = recv_message C (mkSession (mkHS ss s e rs re psk) h c1 c2 1 true t) b) by reflexivity.
  clearbody x. unfold recv_message in X. rewrite session_len_ok in X by lia.
  cbn [se_mc N.eqb Pos.eqb se_hs] in X. unfold read_message_b in X.
  unfold ReadMessage, NX2. cbn [read_tokens].
  destruct (len b <? 48) eqn:E48.
  { (* too short for the code *)
    subst x. unfold res. cbn [snd].
    destruct (len b <? 32) eqn:E32; [discriminate|].
    cbn [dh_token mix_dh p_re p_e p_initiator p_sym with_sym].
    destruct (has_key _); (destruct (len (skipn 32 b) <? _) eqn:E; [discriminate|]); rewrite len_skipn in E; lia. }
  destruct (len b <? 32) eqn:E32; [lia|].
  destruct (split_at _ 32 b ltac:(lia)) as [pe [rest [-> Hpe]]].
  unfold DHLEN, from_slice_hashlen in X.
  rewrite (firstn_app_exact _ 32 pe), (skipn_app_exact _ 32 pe) in * by (rewrite Hpe; reflexivity).
  rewrite (firstn_exact _ 32 pe) in X by (rewrite Hpe; reflexivity).
  cbn [dh_token mix_dh p_re p_e p_s p_rs p_initiator p_sym with_sym]. rewrite Pe.
  set (dhe := c_dh C (kp_private e) pe) in *.
  pose proof (rel_mix_hash ss (p_sym p1) pe R) as R1.
  destruct (rel_mix_key _ _ dhe R1) as [R2 [k1 [K1a [K1b [K1c [K1n K1d]]]]]].
  set (sy1 := MixKey C (MixHash C (p_sym p1) pe) dhe) in *.
  assert (HK : has_key sy1 = true) by (unfold has_key; rewrite K1a; reflexivity).
  rewrite HK.
  rewrite len_app, Hpe in *.
  (* first part *)
  destruct (len rest <? N.of_nat 48) eqn:E4.
  { subst x. destruct (public_key_from_bytes pe) as [q|q|] eqn:EPK; unfold res; cbn [snd]; try discriminate.
    apply public_key_ok_same in EPK. 
    destruct (len rest <? 48) eqn:E4'; [discriminate|lia]. }
  destruct (split_at _ 48 rest ltac:(lia)) as [ct1 [ct3 [-> Hct1]]].
  rewrite (firstn_app_exact _ 48 ct1), (skipn_app_exact _ 48 ct1) in * by (rewrite Hct1; reflexivity).
  set (s1 := mix_key C (mix_hash C ss pe) dhe) in *.
  destruct (rel_dec s1 sy1 k1 ct1 R2 K1a K1n ltac:(lia)) as [D1 D1z].
  assert (NotOk1 : forall r b' s', decrypt_and_hash C s1 ct1 = (s', b', r) -> r <> Ok tt ->
            ~ low_order pe -> res x <> Ok tt).
  { intros r b' s' HD Hr NLO. rewrite (public_key_ok pe Hpe NLO) in X.
    destruct (len (ct1 ++ ct3) <? 48) eqn:E5; [subst x; discriminate|].
    cbn [hs_ss hs_set_re hs_e] in X. rewrite (firstn_exact _ 32 pe) in X by (rewrite Hpe; reflexivity).
    unfold keypair_dh in X. fold dhe in X. fold s1 in X. rewrite HD in X.
    destruct r as [[]| |]; [contradiction| |]; subst x; discriminate. }
  assert (NotOk0 : low_order pe -> res x <> Ok tt).
  { intro LO. destruct (public_key_from_bytes_spec pe Hpe) as [[_ PK]|[NLO _]]; [|contradiction].
    rewrite PK in X. subst x. discriminate. }
  assert (LOdec : low_order pe \/ ~ low_order pe).
  { destruct (public_key_from_bytes_spec pe Hpe) as [[H _]|[H _]]; auto. }
  destruct (DecryptAndHash C sy1 ct1) as [[sy2 rs1]|] eqn:ED1.
  2:{ destruct LOdec as [LO|NLO]; [apply NotOk0; exact LO|].
      destruct (decrypt_and_hash C s1 ct1) as [[s' b'] r] eqn:HD.
      apply (NotOk1 r b' s' eq_refl); [|exact NLO]. intro Hr. subst r. exact (D1 s' b' eq_refl). }
  destruct D1 as [D1k [D1l [D1c [D1n D1s]]]].
  assert (Hrs : len rs1 = 32) by lia.
  cbn [dh_token mix_dh p_rs p_initiator with_sym p_sym p_e]. rewrite Pi. cbn [read_tokens].
  cbn [dh_token mix_dh p_rs p_initiator with_sym p_sym p_e].
  set (dhs := c_dh C (kp_private e) rs1) in *.
  set (sy3 := MixKey C sy2 dhs) in *.
  assert (Gen : exists k3, sy_k sy3 = Some k3 /\ sy_n sy3 = 0 /\ sy_keys sy3 = sy_keys sy2 ++ [k3]).
  { unfold sy3, MixKey. destruct (HKDF C (sy_ck sy2) dhs) as [[q1 q2] q3]. eexists. repeat split; reflexivity. }
  destruct Gen as [k3 [K3a [K3n K3d]]].
  (* whatever happens before, the code can only succeed if all these hold *)
  assert (Need : res x = Ok tt -> ~ low_order pe /\ k1 <> Z /\ ~ low_order rs1 /\
            exists ss3 ss4 b4, rel ss3 sy3 /\ cs_k (ss_cs ss3) = k3 /\
              decrypt_and_hash C ss3 ct3 = (ss4, b4, Ok tt) /\
              x = (se_incr (se_enter_transport
                     (se_set_hs (mkSession (mkHS ss s e rs re psk) h c1 c2 1 true t)
                        (hs_set_ss (hs_set_rs (hs_set_re (mkHS ss s e rs re psk) pe) rs1) (ss_clear ss4)))
                     (from_slice_hashlen (ss_h ss4)) (fst (split C ss4)) (snd (split C ss4))),
                   pe ++ (rs1 ++ skipn (length ct1 - 16) ct1) ++ b4, Ok tt)).
  { intro Hx. destruct LOdec as [LO|NLO]; [exfalso; exact (NotOk0 LO Hx)|].
    split; [exact NLO|].
    assert (NZ : k1 <> Z).
    { intro Ez. destruct (decrypt_and_hash C s1 ct1) as [[s' b'] r] eqn:HD.
      apply (NotOk1 r b' s' eq_refl); [|exact NLO|exact Hx]. intro Hr. subst r. exact (D1z Ez s' b' eq_refl). }
    split; [exact NZ|]. destruct (D1s NZ) as [ss2 [R3 HD]].
    rewrite (public_key_ok pe Hpe NLO) in X.
    destruct (len (ct1 ++ ct3) <? 48) eqn:E5; [subst x; discriminate|].
    cbn [hs_ss hs_set_re hs_e] in X. rewrite (firstn_exact _ 32 pe) in X by (rewrite Hpe; reflexivity).
    unfold keypair_dh in X. fold dhe in X. fold s1 in X. rewrite HD in X.
    rewrite (firstn_app_exact _ 32 rs1) in X by (rewrite Hrs; reflexivity).
    destruct (public_key_from_bytes_spec rs1 Hrs) as [[LO2 PK]|[NLO2 PK]]; rewrite PK in X.
    { subst x. discriminate. }
    split; [exact NLO2|]. cbn [hs_e hs_set_rs hs_set_re] in X. fold dhs in X.
    destruct (rel_mix_key _ _ dhs R3) as [R4 [k3' [K3a' [K3b' _]]]]. fold sy3 in R4, K3a'.
    rewrite K3a in K3a'. injection K3a' as <-.
    exists (mix_key C ss2 dhs).
    destruct (decrypt_and_hash C (mix_key C ss2 dhs) ct3) as [[ss4 b4] r4] eqn:HD4.
    destruct r4 as [[]|er|].
    2,3: subst x; discriminate.
    exists ss4, b4. split; [exact R4|]. split; [exact K3b'|]. split; [reflexivity|].
    destruct (split C ss4) as [d1 d2]. exact X. }
  assert (Rebuild : forall ss2 ss4 b4, k1 <> Z -> ~ low_order pe -> ~ low_order rs1 ->
            rel ss2 sy2 -> decrypt_and_hash C s1 ct1 = (ss2, rs1 ++ skipn (length ct1 - 16) ct1, Ok tt) ->
            decrypt_and_hash C (mix_key C ss2 dhs) ct3 = (ss4, b4, Ok tt) -> res x = Ok tt).
  { intros ss2 ss4 b4 NZ NLO NLO2 R3 HD HD4.
    rewrite (public_key_ok pe Hpe NLO) in X.
    destruct (len (ct1 ++ ct3) <? 48) eqn:E5; [rewrite len_app in E5; lia|].
    cbn [hs_ss hs_set_re hs_e] in X. rewrite (firstn_exact _ 32 pe) in X by (rewrite Hpe; reflexivity).
    unfold keypair_dh in X. fold dhe in X. fold s1 in X. rewrite HD in X.
    rewrite (firstn_app_exact _ 32 rs1) in X by (rewrite Hrs; reflexivity).
    rewrite (public_key_ok rs1 Hrs NLO2) in X. cbn [hs_e hs_set_rs hs_set_re] in X. fold dhs in X. rewrite HD4 in X.
    destruct (split C ss4) as [d1 d2]. subst x. reflexivity. }
  destruct (DecryptAndHash C sy3 ct3) as [[sy4 pl]|] eqn:ED3.
  2:{ intro Hx. destruct (Need Hx) as [_ [_ [_ [ss3 [ss4 [b4 [R4 [_ [HD4 _]]]]]]]]].
      destruct (rel_dec ss3 sy3 k3 ct3 R4 K3a K3n ltac:(rewrite len_app in Hb; lia)) as [D3 _].
      rewrite ED3 in D3. exact (D3 ss4 b4 HD4). }
  cbn [with_sym p_sym p_rs].
  assert (Common : forall ss3, rel ss3 sy3 -> sy_keys sy4 = sy_keys sy3 /\ len pl + 16 = len ct3 /\
     (k3 <> Z -> exists ss', rel ss' sy4 /\ decrypt_and_hash C ss3 ct3 = (ss', pl ++ skipn (length ct3 - 16) ct3, Ok tt)) /\
     (k3 = Z -> forall ss' b', decrypt_and_hash C ss3 ct3 <> (ss', b', Ok tt))).
  { intros ss3 R4. destruct (rel_dec ss3 sy3 k3 ct3 R4 K3a K3n ltac:(rewrite len_app in Hb; lia)) as [D3 D3z].
    rewrite ED3 in D3. destruct D3 as [A1 [A2 [_ [_ A3]]]]. auto. }
  (* facts about the specification alone, through an arbitrary related state *)
  set (ssx := mkSS (mkCS k3 0) (sy_ck sy3) (sy_h sy3)).
  assert (Rx : rel ssx sy3).
  { assert (L3 : len (sy_ck sy3) = 32 /\ len k3 = 32).
    { unfold sy3, MixKey, HKDF in *. cbn [sy_k sy_ck] in *. injection K3a as <-. split; apply (HMAC_len C OK). }
    constructor; unfold ssx; cbn [ss_ck ss_h ss_cs cs_n cs_k]; rewrite ?K3a, ?K3n; try reflexivity; tauto. }
  destruct (Common ssx Rx) as [C1 [C2 _]].
  split; [rewrite len_app, Hct1; lia|].
  rewrite C1, K3d, D1k, K1d. cbn [MixHash sy_keys]. rewrite <- app_assoc.
  rewrite skipn_app, skipn_all, Nat.sub_diag, skipn_O. cbn [app In].
  split.
  - split.
    + intro Hx. destruct (Need Hx) as [NLO [NZ [NLO2 [ss3 [ss4 [b4 [R4 [_ [HD4 _]]]]]]]]].
      split; [exact NLO|]. split; [intros k Hk; injection Hk as <-; exact NLO2|].
      intros [Ez|[Ez|[]]]; [congruence|].
      destruct (Common ss3 R4) as [_ [_ [_ Cz]]]. exact (Cz Ez ss4 b4 HD4).
    + intros [NLO [NLO2 NIn]]. specialize (NLO2 rs1 eq_refl).
      assert (NZ1 : k1 <> Z) by (intro; apply NIn; auto).
      assert (NZ3 : k3 <> Z) by (intro; apply NIn; auto).
      destruct (D1s NZ1) as [ss2 [R3 HD]].
      destruct (rel_mix_key _ _ dhs R3) as [R4 _]. fold sy3 in R4.
      destruct (Common _ R4) as [_ [_ [Cs _]]]. destruct (Cs NZ3) as [ss4 [_ HD4]].
      exact (Rebuild ss2 ss4 _ NZ1 NLO NLO2 R3 HD HD4).
  - intro Hx. destruct (Need Hx) as [NLO [NZ [NLO2 [ss3 [ss4 [b4 [R4 [K3b [HD4 ->]]]]]]]]].
    destruct (Common ss3 R4) as [_ [_ [Cs Cz]]].
    assert (NZ3 : k3 <> Z) by (intro Ez; exact (Cz Ez ss4 b4 HD4)).
    destruct (Cs NZ3) as [ss' [R5 HD4']]. rewrite HD4 in HD4'. injection HD4' as -> ->.
    destruct (rel_split _ _ R5) as [S1 S2].
    unfold st, out. cbn [fst snd se_transport se_mc se_h se_cs1 se_cs2 se_hs hs_rs se_incr se_enter_transport se_set_hs
      hs_clear hs_set_ss hs_set_rs hs_set_re].
    split; [reflexivity|]. split; [reflexivity|].
    assert (Lh : len (sy_h sy4) = 32).
    { unfold DecryptAndHash in ED3. rewrite K3a in ED3. destruct (DECRYPT C k3 (sy_n sy3) (sy_h sy3) ct3); [|discriminate].
      injection ED3 as <- <-. apply (hash_len C OK). }
    split. { unfold from_slice_hashlen. rewrite (r_h _ _ R5). apply firstn_exact. rewrite Lh. reflexivity. }
    split; [reflexivity|]. split; [exact S1|]. split; [exact S2|].
    assert (LL : length ct1 = 48%nat) by (unfold len in Hct1; lia).
    rewrite (app_assoc pe (rs1 ++ skipn (length ct1 - 16) ct1)).
    rewrite skipn_app_exact.
    2:{ rewrite !len_app, Hpe, Hrs, len_skipn, Hct1, LL. reflexivity. }
    apply firstn_app_exact. rewrite !app_length. unfold len in *. lia.
Qed.
End Nx.
