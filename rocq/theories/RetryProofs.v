(** * RetryProofs: repeated attempts at the second handshake message (C59, C72, C94). *)
From Coq Require Import Lia ZifyBool ZifyNat ZifyN.
From Verif Require Import Base SpecWire BaseFacts Noise SpecNoise SpecSession SpecReply SpecBinding SpecRetry NoiseFacts HandshakeProofs
  NxProofs ReplyProofs BindingProofs.
Open Scope N_scope.

Section Retry.
Variable C : crypto.
Hypothesis OK : crypto_ok C.
Notation Z := EMPTY_KEY.

Lemma dec_state : forall ss b e, res (decrypt_and_hash C ss b) = Err e -> st (decrypt_and_hash C ss b) = ss.
Proof.
  intros ss b e. unfold decrypt_and_hash, res, st. destruct (2048 <? len b); [discriminate|].
  destruct (split_mac b) as [[ct mac]|]; [|discriminate]. unfold cs_decrypt_with_ad.
  destruct (nonce_get (cs_n (ss_cs ss))) as [n|e0|]; [|intros _; destruct ss; reflexivity|discriminate].
  destruct (cs_has_key (ss_cs ss)); [|intros _; destruct ss; reflexivity].
  destruct (c_open C _ _ _ ct mac) as [[] pt]; [discriminate|]. intros _. destruct ss; reflexivity.
Qed.
Lemma enc_state : forall ss b e, res (encrypt_and_hash C ss b) = Err e -> st (encrypt_and_hash C ss b) = ss.
Proof.
  intros ss b e. unfold encrypt_and_hash, res, st. destruct (len b <? 16); [intros _; reflexivity|].
  destruct (split_mac b) as [[ct mac]|]; [|discriminate]. unfold cs_encrypt_with_ad.
  destruct (nonce_get (cs_n (ss_cs ss))) as [n|e0|]; [|intros _; destruct ss; reflexivity|discriminate].
  destruct (cs_has_key (ss_cs ss)); [|intros _; destruct ss; reflexivity].
  destruct (c_seal C _ _ _ ct) as [a b0]. discriminate.
Qed.

(** The session between the two messages, on the reading side. *)
Definition waiting (p : party) (s : session) : Prop :=
  exists ss sk rs re psk h c1 c2 t, s = mkSession (mkHS ss sk (p_e p) rs re psk) h c1 c2 1 true t /\
    rel ss (p_sym p) /\ p_initiator p = true.

Lemma read_b_state : forall p1 s m e, waiting p1 s -> res (recv_message C s m) = Err e ->
  exists p', kept_read C p1 m p' /\ waiting p' (st (recv_message C s m)).
Proof.
  intros p1 S m err (ss & s & rs & re & psk & h & c1 & c2 & t & -> & R & Pi) HE.
  set (e := p_e p1) in *.
  assert (W0 : waiting p1 (mkSession (mkHS ss s e rs re psk) h c1 c2 1 true t)) by (unfold waiting; eauto 20).
  destruct (N.lt_ge_cases (len m) 16) as [L|L]; [|destruct (N.lt_ge_cases 65535 (len m)) as [L'|L']].
  1,2: exists p1; split; [apply kr_nothing; lia|]; unfold recv_message;
    (assert (E : (len m <? 16) || (MAX_MESSAGE <? len m) = true) by (unfold MAX_MESSAGE; lia)); rewrite E; exact W0.
  revert HE. unfold recv_message. rewrite session_len_ok by lia. cbn [se_mc N.eqb Pos.eqb se_hs]. unfold read_message_b.
  destruct (len m <? 48) eqn:E48; [intros _; exists p1; split; [apply kr_nothing; lia|exact W0]|].
  destruct (split_at _ 32 m ltac:(lia)) as [pe [rest [-> Hpe]]].
  assert (LM : len (pe ++ rest) = 32 + len rest) by (rewrite len_app; lia).
  assert (F1 : firstn 32 (pe ++ rest) = pe) by (apply firstn_app_exact; rewrite Hpe; reflexivity).
  assert (F2 : skipn 32 (pe ++ rest) = rest) by (apply skipn_app_exact; rewrite Hpe; reflexivity).
  unfold DHLEN, from_slice_hashlen. rewrite F1, F2. rewrite !(firstn_exact _ 32 pe) by (rewrite Hpe; reflexivity).
  destruct (public_key_from_bytes_spec pe Hpe) as [[LO PK]|[NLO PK]]; rewrite PK.
  { intros _. exists p1. split; [apply kr_nothing; right; right; rewrite F1; exact LO|exact W0]. }
  cbn [hs_ss hs_set_re hs_e]. rewrite !(firstn_exact _ 32 pe) by (rewrite Hpe; reflexivity).
  unfold keypair_dh. set (dhe := c_dh C (kp_private e) pe).
  pose proof (rel_mix_hash C OK ss (p_sym p1) pe R) as R1.
  destruct (rel_mix_key C OK _ _ dhe R1) as [R2 [k1 [K1a [K1b [K1c [K1n K1d]]]]]].
  set (sy1 := MixKey C (MixHash C (p_sym p1) pe) dhe) in *.
  set (s1 := mix_key C (mix_hash C ss pe) dhe) in *.
  set (q1 := mkParty (p_initiator p1) sy1 (p_s p1) (p_e p1) (p_rs p1) (Some pe)).
  assert (T2 : forall ts, read_tokens C p1 (TE :: TEE :: ts) (pe ++ rest) = read_tokens C q1 ts rest).
  { intro ts. cbn [read_tokens]. assert (len (pe ++ rest) <? 32 = false) as -> by lia. rewrite F1, F2.
    cbn [dh_token mix_dh with_sym p_sym p_e p_s p_re p_rs p_initiator]. unfold q1, sy1, dhe. reflexivity. }
  assert (T20 : read_tokens C p1 [TE; TEE] (pe ++ rest) = Some (q1, rest)) by exact (T2 []).
  assert (W1 : forall rs', waiting q1 (mkSession (mkHS s1 s e rs' pe psk) h c1 c2 1 true t)).
  { intro rs'. unfold waiting, q1. cbn [p_e p_sym p_initiator]. eexists _, _, _, _, _, _, _, _, _. split; [reflexivity|]. split; [exact R2|exact Pi]. }
  destruct (len rest <? 48) eqn:E80.
  { intros _. exists q1. split; [|apply W1].
    apply (kr_ee C p1 _ q1 rest); [lia|rewrite F1; exact NLO|exact T20|lia]. }
  destruct (split_at _ 48 rest ltac:(lia)) as [ct1 [ct3 [-> Hct1]]].
  rewrite (firstn_app_exact _ 48 ct1), (skipn_app_exact _ 48 ct1) by (rewrite Hct1; reflexivity).
  assert (LM' : len (pe ++ ct1 ++ ct3) = 80 + len ct3) by (rewrite !len_app; lia). clear LM. rename LM' into LM.
  assert (HK : has_key sy1 = true) by (unfold has_key; rewrite K1a; reflexivity).
  assert (T3 : forall ts, read_tokens C q1 (TS :: ts) (ct1 ++ ct3) =
     match DecryptAndHash C sy1 ct1 with
     | None => None
     | Some (sy2, rs1) => read_tokens C (mkParty (p_initiator p1) sy2 (p_s p1) (p_e p1) (Some rs1) (Some pe)) ts ct3
     end).
  { intro ts. cbn [read_tokens]. unfold q1 at 1 2. cbn [p_sym]. rewrite HK. rewrite len_app, Hct1.
    assert (48 + len ct3 <? N.of_nat 48 = false) as -> by lia.
    rewrite (firstn_app_exact _ 48 ct1), (skipn_app_exact _ 48 ct1) by (rewrite Hct1; reflexivity). reflexivity. }
  destruct (dec_exact C OK s1 sy1 k1 ct1 R2 K1a K1n) as (_ & DZ & DN).
  pose proof (dec_state s1 ct1) as DS.
  destruct (list_eq_dec Byte.byte_eq_dec k1 Z) as [EZ|NZ].
  { specialize (DZ ltac:(lia) EZ). specialize (DS _ DZ). destruct (decrypt_and_hash C s1 ct1) as [[sx bx] rx].
    unfold res in DZ. unfold st in DS. cbn [fst snd] in DZ, DS. subst rx sx. intros _. exists q1. split; [|apply W1].
    apply (kr_ee C p1 _ q1 (ct1 ++ ct3)); [lia|rewrite F1; exact NLO|exact T20|].
    right. left. cbn [q1 p_sym]. rewrite K1a, EZ. reflexivity. }
  assert (NE : sy_k (p_sym q1) <> Some zeros32) by (cbn [q1 p_sym]; rewrite K1a; intro X; injection X as X; exact (NZ X)).
  specialize (DN ltac:(lia) NZ). clear DZ.
  destruct (DecryptAndHash C sy1 ct1) as [[sy2 rs1]|] eqn:ED1.
  2:{ specialize (DS _ DN). destruct (decrypt_and_hash C s1 ct1) as [[sx bx] rx].
      unfold res in DN. unfold st in DS. cbn [fst snd] in DN, DS. subst rx sx. intros _. exists q1. split; [|apply W1].
      apply (kr_ee C p1 _ q1 (ct1 ++ ct3)); [lia|rewrite F1; exact NLO|exact T20|]. right. right. rewrite T2. exact (T3 []). }
  destruct DN as [D1l [ss2 [R3 D1]]]. rewrite D1. clear DS.
  assert (Hrs : len rs1 = 32) by lia.
  set (q2 := mkParty (p_initiator p1) sy2 (p_s p1) (p_e p1) (Some rs1) (Some pe)).
  assert (T23 : read_tokens C p1 [TE; TEE; TS] (pe ++ ct1 ++ ct3) = Some (q2, ct3)) by (rewrite T2; exact (T3 [])).
  rewrite (firstn_app_exact _ 32 rs1) by (rewrite Hrs; reflexivity).
  destruct (public_key_from_bytes_spec rs1 Hrs) as [[LO2 PK2]|[NLO2 PK2]]; rewrite PK2.
  { intros _. exists q2. split.
    - apply (kr_s C p1 _ q1 (ct1 ++ ct3) q2 ct3 rs1); [lia|rewrite F1; exact NLO|exact T20|exact NE|exact T23|reflexivity|exact LO2].
    - unfold waiting, q2. cbn [p_e p_sym p_initiator]. eexists _, _, _, _, _, _, _, _, _. split; [reflexivity|]. split; [exact R3|exact Pi]. }
  cbn [hs_e hs_set_rs hs_set_re].
  set (dhs := c_dh C (kp_private e) rs1).
  destruct (rel_mix_key C OK _ _ dhs R3) as [R4 [k3 [K3a [K3b [K3c [K3n K3d]]]]]].
  set (s3 := mix_key C ss2 dhs) in *. set (sy3 := MixKey C sy2 dhs) in *.
  set (q3 := mkParty (p_initiator p1) sy3 (p_s p1) (p_e p1) (Some rs1) (Some pe)).
  assert (T4 : read_tokens C p1 NX2 (pe ++ ct1 ++ ct3) = Some (q3, ct3)).
  { unfold NX2. rewrite T2, T3. cbn [read_tokens dh_token mix_dh with_sym p_sym p_e p_s p_re p_rs p_initiator].
    unfold q3, sy3, dhs. rewrite ?Pi. cbn [mix_dh p_rs p_initiator p_e p_sym]. rewrite ?Pi. reflexivity. }
  pose proof (dec_state s3 ct3) as DS.
  destruct (decrypt_and_hash C s3 ct3) as [[sx bx] rx]. unfold res, st in DS. cbn [fst snd] in DS.
  destruct rx as [u|e'|].
  - destruct (split C sx) as [d1 d2]. discriminate.
  - rewrite (DS e' eq_refl). intros _. exists q3. split.
    + apply (kr_es C p1 _ q1 (ct1 ++ ct3) q2 ct3 rs1 q3 ct3); [lia|rewrite F1; exact NLO|exact T20|exact NE|exact T23|reflexivity|exact NLO2|exact T4].
    + unfold waiting, q3. cbn [p_e p_sym p_initiator]. eexists _, _, _, _, _, _, _, _, _. split; [reflexivity|]. split; [exact R4|exact Pi].
  - discriminate.
Qed.

Lemma waiting_result : forall p s m, waiting p s -> reply_result C p m (res (recv_message C s m)).
Proof. intros p s m (ss & sk & rs & re & psk & h & c1 & c2 & t & -> & R & Pi). apply read_b_exact; trivial. Qed.
Lemma waiting_refused : forall ms p s s', waiting p s -> refused C s ms s' -> exists p', kept (kept_read C) p ms p' /\ waiting p' s'.
Proof.
  induction ms as [|m ms IH]; intros p s s' W H; inversion H; subst.
  - exists p. split; [constructor|exact W].
  - destruct (read_b_state p s m e W ltac:(assumption)) as [p' [K W']].
    destruct (IH _ _ _ W' ltac:(eassumption)) as [p'' [K' W'']]. exists p''. split; [econstructor; eassumption|exact W''].
Qed.
Lemma sent_waiting : forall pro si ei rnd I0 b1, started C true pro si rnd ei I0 -> 32 <= len b1 <= 65535 ->
  exists p1, WriteMessage C (Initialize C true pro si ei) NX1 (skipn 32 b1) = Some (p1, out (send_message C rnd I0 b1)) /\
    waiting p1 (st (send_message C rnd I0 b1)).
Proof.
  intros * HS Hb1.
  destruct (nx_write_1 C OK pro si ei rnd true I0 b1 HS Hb1) as (p1 & E1 & R1 & ss & h & c1 & c2 & ES & R & _ & P1 & P2 & P3 & P4 & P5 & P6).
  exists p1. split; [exact E1|]. rewrite ES. unfold waiting. rewrite P1. eexists _, _, _, _, _, _, _, _, _. split; [reflexivity|]. split; assumption.
Qed.

Theorem recv_retries : forall pro si ei rnd I0 b1 ms s, started C true pro si rnd ei I0 -> 32 <= len b1 <= 65535 ->
  let x1 := send_message C rnd I0 b1 in
  refused C (st x1) ms s ->
  exists p1 p', WriteMessage C (Initialize C true pro si ei) NX1 (skipn 32 b1) = Some (p1, out x1) /\
    kept (kept_read C) p1 ms p' /\ forall m, reply_result C p' m (res (recv_message C s m)).
Proof.
  intros * HS Hb1 x1 HR. destruct (sent_waiting pro si ei rnd I0 b1 HS Hb1) as [p1 [E1 W]].
  destruct (waiting_refused ms p1 _ s W HR) as [p' [K W']]. exists p1, p'. split; [exact E1|]. split; [exact K|].
  intro m. apply waiting_result. exact W'.
Qed.

Theorem kept_read_unique : forall p m p' p'', kept_read C p m p' -> kept_read C p m p'' -> p' = p''.
Proof.
  intros p m p' p'' H H'. destruct H; destruct H'; try reflexivity; try lia;
    repeat match goal with A : _ \/ _ |- _ => destruct A end; try lia; try contradiction;
    repeat match goal with A : ?x = Some (?a, ?b), B : ?x = Some (?c, ?d) |- _ => rewrite A in B; injection B as -> -> end;
    repeat match goal with A : ?x = Some ?a, B : ?x = Some ?b |- _ => rewrite A in B; injection B as -> end;
    try contradiction; try congruence.
Qed.
Theorem kept_write_unique : forall p m p' p'', kept_write C p m p' -> kept_write C p m p'' -> p' = p''.
Proof.
  intros p m p' p'' H H'. destruct H; destruct H'; try reflexivity; try lia;
    repeat match goal with A : _ \/ _ |- _ => destruct A end; try lia; try contradiction;
    repeat match goal with A : ?x = Some (?a, ?b), B : ?x = Some (?c, ?d) |- _ => rewrite A in B; injection B as -> -> end;
    try contradiction; try congruence.
Qed.
Lemma kept_unique : forall step : party -> bytes -> party -> Prop,
  (forall p m p' p'', step p m p' -> step p m p'' -> p' = p'') ->
  forall p ms p' p'', kept step p ms p' -> kept step p ms p'' -> p' = p''.
Proof.
  intros step U p ms p' p'' H. revert p''. induction H as [|p m p1 ms p2 H1 H IH]; intros p'' H'; inversion H'; subst; [reflexivity|].
  apply IH. match goal with A : step p m ?q |- _ => rewrite (U _ _ _ _ H1 A) end. assumption.
Qed.

(** ** The writing side *)
Definition answering (p : party) (e0 : keypair) (s : session) : Prop :=
  exists ss rs re psk h c1 c2 t, s = mkSession (mkHS ss (p_s p) e0 rs re psk) h c1 c2 1 false t /\
    rel ss (p_sym p) /\ p_re p = Some re /\ p_initiator p = false.
Definition draws (rnd : bytes) (sk e0 e : keypair) : Prop :=
  forall ss rs re psk, ensure_ephemeral C rnd (mkHS ss sk e0 rs re psk) = mkHS ss sk e rs re psk.

Lemma write_b_state : forall p1 e0 rnd s b err, answering p1 e0 s -> keypair_ok (p_s p1) -> draws rnd (p_s p1) e0 (p_e p1) ->
  res (send_message C rnd s b) = Err err ->
  exists p', kept_write C p1 b p' /\ p_s p' = p_s p1 /\ p_e p' = p_e p1 /\
    (answering p' e0 (st (send_message C rnd s b)) \/ answering p' (p_e p1) (st (send_message C rnd s b))).
Proof.
  intros p1 e0 rnd S b err (ss & rs & re & psk & h & c1 & c2 & t & -> & R & Pre & Pi) [Ks Ks2] HE HErr.
  set (s := p_s p1) in *. set (e := p_e p1) in *.
  assert (W0 : answering p1 e0 (mkSession (mkHS ss s e0 rs re psk) h c1 c2 1 false t)) by (unfold answering; eauto 20).
  destruct (N.lt_ge_cases (len b) 16) as [L|L]; [|destruct (N.lt_ge_cases 65535 (len b)) as [L'|L']].
  1,2: exists p1; split; [apply kw_nothing; lia|]; split; [reflexivity|]; split; [reflexivity|]; left; unfold send_message;
    (assert (E : (len b <? 16) || (MAX_MESSAGE <? len b) = true) by (unfold MAX_MESSAGE; lia)); rewrite E; exact W0.
  revert HErr. unfold send_message. rewrite session_len_ok by lia. cbn [se_mc N.eqb Pos.eqb se_hs]. unfold write_message_b.
  destruct (len b <? 32) eqn:E32.
  { intros _. exists p1. split; [apply kw_nothing; lia|]. split; [reflexivity|]. split; [reflexivity|]. left. exact W0. }
  rewrite HE. cbn [hs_e hs_ss hs_re hs_s hs_rs hs_psk]. unfold DHLEN.
  unfold keypair_dh. set (dhe := c_dh C (kp_private e) re).
  pose proof (rel_mix_hash C OK ss (p_sym p1) (kp_public e) R) as R1.
  destruct (rel_mix_key C OK _ _ dhe R1) as [R2 [k1 [K1a [K1b [K1c [K1n K1d]]]]]].
  set (s1 := mix_key C (mix_hash C ss (kp_public e)) dhe) in *.
  set (sy1 := MixKey C (MixHash C (p_sym p1) (kp_public e)) dhe) in *.
  set (q1 := mkParty (p_initiator p1) sy1 (p_s p1) (p_e p1) (p_rs p1) (p_re p1)).
  assert (T2 : write_tokens C p1 [TE; TEE] = Some (q1, kp_public e)).
  { cbn [write_tokens]. repeat progress (cbn [dh_token mix_dh with_sym p_sym p_e p_s p_re p_rs p_initiator]; rewrite ?Pre).
    cbn [app]. rewrite !app_nil_r. unfold q1, sy1, dhe, with_sym. cbn [p_sym p_e p_s p_re p_rs p_initiator]. rewrite ?Pre. reflexivity. }
  assert (W1 : answering q1 e (mkSession (mkHS s1 s e rs re psk) h c1 c2 1 false t)).
  { unfold answering, q1. cbn [p_e p_s p_sym p_re p_initiator]. eexists _, _, _, _, _, _, _, _. split; [reflexivity|]. split; [exact R2|]. split; assumption. }
  destruct (len (skipn 32 b) <? 48) eqn:E80; rewrite len_skipn in E80.
  { intros _. exists q1. split; [eapply kw_ee; [lia|exact T2|lia]|]. split; [reflexivity|]. split; [reflexivity|]. right. exact W1. }
  destruct (split_at _ 32 b ltac:(lia)) as [x [b' [-> Hx]]].
  rewrite len_app, Hx in *. rewrite (skipn_app_exact _ 32 x) by (rewrite Hx; reflexivity).
  destruct (split_at _ 48 b' ltac:(lia)) as [y [rest [-> Hy]]]. rewrite len_app, Hy in *.
  rewrite (firstn_app_exact _ 48 y), (skipn_app_exact _ 48 y) by (rewrite Hy; reflexivity).
  assert (Hy2 : len (skipn 32 y) = 16) by (rewrite len_skipn; lia).
  destruct (enc_exact C s1 sy1 k1 (kp_public s) (skipn 32 y) R2 K1a K1n Hy2) as [DZ DN].
  assert (LB : len (x ++ y ++ rest) = 80 + len rest) by (rewrite !len_app; lia).
  destruct (list_eq_dec Byte.byte_eq_dec k1 Z) as [EZ|NZ].
  { specialize (DZ EZ). pose proof (enc_state s1 _ _ DZ) as DS. destruct (encrypt_and_hash C s1 _) as [[sx bx] rx].
    unfold res in DZ. unfold st in DS. cbn [fst snd] in DZ, DS. subst rx sx.
    intros _. exists q1. split; [eapply kw_ee; [lia|exact T2|right; cbn [q1 p_sym]; rewrite K1a, EZ; reflexivity]|].
    split; [reflexivity|]. split; [reflexivity|]. right. exact W1. }
  assert (NE : sy_k (p_sym q1) <> Some zeros32) by (cbn [q1 p_sym]; rewrite K1a; intro X; injection X as X; exact (NZ X)).
  rewrite (DN NZ). clear DZ DN.
  destruct (rel_enc C OK s1 sy1 k1 (kp_public s) R2 K1a K1n) as [B1 [R3 K3d]].
  destruct (EncryptAndHash C sy1 (kp_public s)) as [sy2 ct1] eqn:EE1. cbn [fst snd] in B1, R3, K3d.
  set (dhs := c_dh C (kp_private s) re).
  destruct (rel_mix_key C OK _ _ dhs R3) as [R4 [k3 [K3a [K3b [K3c [K3n K3e]]]]]].
  set (s3 := mix_key C (ssBox C s1 (kp_public s)) dhs) in *.
  set (sy3 := MixKey C sy2 dhs) in *.
  set (q3 := mkParty (p_initiator p1) sy3 (p_s p1) (p_e p1) (p_rs p1) (p_re p1)).
  assert (T4 : write_tokens C p1 NX2 = Some (q3, kp_public e ++ ct1)).
  { unfold NX2. cbn [write_tokens].
    repeat progress (cbn [dh_token mix_dh with_sym p_sym p_e p_s p_re p_rs p_initiator]; rewrite ?Pre, ?Pi).
    fold e. fold s. fold dhe. fold sy1. rewrite EE1.
    repeat progress (cbn [dh_token mix_dh with_sym p_sym p_e p_s p_re p_rs p_initiator]; rewrite ?Pre, ?Pi).
    cbn [app]. rewrite !app_nil_r. unfold q3, sy3, dhs, with_sym. cbn [p_sym p_e p_s p_re p_rs p_initiator]. rewrite ?Pre, ?Pi. reflexivity. }
  pose proof (enc_state s3 rest) as DS.
  destruct (encrypt_and_hash C s3 rest) as [[sx bx] rx]. unfold res, st in DS. cbn [fst snd] in DS.
  destruct rx as [u|e'|].
  - destruct (split C sx) as [d1 d2]. discriminate.
  - rewrite (DS e' eq_refl). intros _. exists q3. split.
    + eapply kw_es; [lia|exact T2|exact NE|exact T4].
    + split; [reflexivity|]. split; [reflexivity|]. right.
      unfold answering, q3. cbn [p_e p_s p_sym p_re p_initiator]. eexists _, _, _, _, _, _, _, _. split; [reflexivity|]. split; [exact R4|]. split; assumption.
  - discriminate.
Qed.

Lemma draws_again : forall rnd sk e, kp_private e <> Z -> draws rnd sk e e.
Proof.
  intros rnd sk e NZ ss rs re psk. unfold ensure_ephemeral, keypair_is_empty. cbn [hs_e].
  destruct (is_zero_key (kp_private e)) eqn:E; [|reflexivity]. exfalso. apply NZ. apply is_zero_key_iff. exact E.
Qed.
Lemma answering_result : forall p e0 rnd s b, answering p e0 s -> keypair_ok (p_s p) -> draws rnd (p_s p) e0 (p_e p) ->
  answer_result C p b (res (send_message C rnd s b)).
Proof. intros p e0 rnd s b (ss & rs & re & psk & h & c1 & c2 & t & -> & R & Pre & Pi) Ks HE. eapply write_b_exact; try eassumption; reflexivity. Qed.

Lemma draws_twice : forall rnd sk e0 e, draws rnd sk e0 e -> draws rnd sk e e.
Proof.
  intros rnd sk e0 e H ss rs re psk. specialize (H ss rs re psk). unfold ensure_ephemeral in *. cbn [hs_e] in *.
  destruct (keypair_is_empty e0) eqn:E0.
  - unfold hs_set_e in H. cbn in H. injection H as He. destruct (keypair_is_empty e); [|reflexivity].
    unfold hs_set_e. cbn. rewrite He. reflexivity.
  - injection H as ->. rewrite E0. reflexivity.
Qed.
Lemma answering_unsent : forall rnd bs p e0 s s', answering p e0 s -> keypair_ok (p_s p) -> draws rnd (p_s p) e0 (p_e p) ->
  unsent C rnd s bs s' -> exists p' e1, kept (kept_write C) p bs p' /\ p_s p' = p_s p /\ p_e p' = p_e p /\ answering p' e1 s' /\ draws rnd (p_s p) e1 (p_e p).
Proof.
  intros rnd bs. induction bs as [|b bs IH]; intros p e0 s s' W Ks D H; inversion H; subst.
  - exists p, e0. repeat split; try assumption. constructor.
  - destruct (write_b_state p e0 rnd s b e W Ks D ltac:(assumption)) as [p' [K [Es [Ee W']]]].
    assert (X : exists e1, answering p' e1 (st (send_message C rnd s b)) /\ draws rnd (p_s p') e1 (p_e p')).
    { rewrite Es, Ee. destruct W' as [W'|W']; eexists; (split; [exact W'|]); [exact D|exact (draws_twice _ _ _ _ D)]. }
    destruct X as [e1 [W1 D1]].
    destruct (IH p' e1 _ s' W1 ltac:(rewrite Es; exact Ks) D1 ltac:(eassumption)) as [p'' [e2 [K' [Es' [Ee' [W'' D'']]]]]].
    exists p'', e2. split; [econstructor; eassumption|]. rewrite Es', Ee', Es, Ee. repeat split; try assumption. rewrite <- Es, <- Ee. exact D''.
Qed.
Lemma read_answering : forall pro sr er rnd R0 m1, started C false pro sr rnd er R0 -> 48 <= len m1 <= 65535 -> ~ low_order (firstn 32 m1) ->
  exists p1 e0, ReadMessage C (Initialize C false pro sr er) NX1 m1 = Some (p1, skipn 32 m1) /\
    answering p1 e0 (st (recv_message C R0 m1)) /\ draws rnd (p_s p1) e0 (p_e p1) /\ p_s p1 = sr /\ p_e p1 = er.
Proof.
  intros * HS Hm1 Hlo.
  destruct (split_at _ 32 m1 ltac:(lia)) as [pe [rest [-> Hpe]]].
  rewrite firstn_app_exact in Hlo by (rewrite Hpe; reflexivity).
  destruct (nx_read_1 C OK pro sr er rnd false R0 pe rest HS Hpe Hlo Hm1)
    as (p1 & E1 & R1 & O1 & ss & e0 & h & c1 & c2 & ES & HE & R & _ & P1 & P2 & P3 & P4 & P5 & P6).
  exists p1, e0. rewrite skipn_app_exact by (rewrite Hpe; reflexivity).
  split; [exact E1|]. rewrite P1, P2. split; [|split; [exact HE|split; reflexivity]].
  rewrite ES. unfold answering. rewrite P2. eexists _, _, _, _, _, _, _, _. split; [reflexivity|]. split; [exact R|]. split; assumption.
Qed.

Theorem send_retries : forall pro sr er rnd R0 m1 bs s, started C false pro sr rnd er R0 -> keypair_ok sr ->
  48 <= len m1 <= 65535 -> ~ low_order (firstn 32 m1) ->
  unsent C rnd (st (recv_message C R0 m1)) bs s ->
  exists p1 p', ReadMessage C (Initialize C false pro sr er) NX1 m1 = Some (p1, skipn 32 m1) /\
    kept (kept_write C) p1 bs p' /\ forall b, answer_result C p' b (res (send_message C rnd s b)).
Proof.
  intros * HS Ks Hm1 Hlo HU. destruct (read_answering pro sr er rnd R0 m1 HS Hm1 Hlo) as (p1 & e0 & E1 & W & D & Es & Ee).
  destruct (answering_unsent rnd bs p1 e0 _ s W ltac:(rewrite Es; exact Ks) D HU) as (p' & e1 & K & Es' & Ee' & W' & D').
  exists p1, p'. split; [exact E1|]. split; [exact K|]. intro b. apply (answering_result p' e1); [exact W'|rewrite Es', Es; exact Ks|].
  rewrite Es', Ee'. exact D'.
Qed.

(** ** What is left behind makes the transcript longer *)
Lemma read_ee : forall p m pe rest, read_tokens C p [TE; TEE] m = Some (pe, rest) ->
  sy_h (p_sym pe) = chain C (sy_h (p_sym p)) [firstn 32 m] /\ p_initiator pe = p_initiator p /\ p_e pe = p_e p /\ rest = skipn 32 m /\ p_s pe = p_s p /\
  32 <= len m.
Proof.
  intros * H. cbn [read_tokens] in H. destruct (len m <? 32) eqn:L; [discriminate|].
  cbn [dh_token mix_dh with_sym p_re p_e p_sym] in H. injection H as <- <-. cbn [with_sym p_sym p_initiator p_e p_s]. rewrite mixkey_h. repeat split. lia.
Qed.
Lemma read_ees : forall p m ps rest, read_tokens C p [TE; TEE; TS] m = Some (ps, rest) ->
  sy_h (p_sym ps) = chain C (sy_h (p_sym p)) [firstn 32 m; firstn 48 (skipn 32 m)] /\ p_initiator ps = p_initiator p /\ p_e ps = p_e p /\
  80 <= len m.
Proof.
  intros * H. cbn [read_tokens] in H. destruct (len m <? 32) eqn:L; [discriminate|].
  cbn [dh_token mix_dh with_sym p_re p_e p_sym] in H.
  set (sy1 := MixKey C _ _) in H.
  assert (H1 : sy_h sy1 = c_hash C (sy_h (p_sym p) ++ firstn 32 m)) by (unfold sy1; rewrite mixkey_h; reflexivity).
  assert (HK : exists k, sy_k sy1 = Some k).
  { unfold sy1, MixKey. destruct (HKDF C _ _) as [[x y] z]. eexists. reflexivity. }
  destruct HK as [k HK]. unfold has_key in H. rewrite HK in H. destruct (len (skipn 32 m) <? N.of_nat 48) eqn:L2; [discriminate|].
  unfold DecryptAndHash in H. rewrite HK in H. destruct (DECRYPT C k _ _ _); [|discriminate].
  injection H as <- _. cbn [p_sym p_initiator p_e MixHash next_nonce sy_h chain fold_left]. rewrite H1. repeat split.
  rewrite len_skipn in L2. lia.
Qed.
Lemma read_all : forall p m pz rest, read_tokens C p NX2 m = Some (pz, rest) ->
  sy_h (p_sym pz) = chain C (sy_h (p_sym p)) [firstn 32 m; firstn 48 (skipn 32 m)] /\ p_initiator pz = p_initiator p /\ p_e pz = p_e p /\
  80 <= len m.
Proof.
  intros * H.
  assert (exists ps r, read_tokens C p [TE; TEE; TS] m = Some (ps, r) /\ dh_token C ps TES = Some pz) as [ps [r [E1 E2]]].
  { unfold NX2 in H. cbn [read_tokens] in H |- *. destruct (len m <? 32); [discriminate|].
    cbn [dh_token mix_dh with_sym p_re p_e p_sym] in H |- *.
    match type of H with context [MixKey C ?a ?b] => set (sy1 := MixKey C a b) in * end.
    destruct (len (skipn 32 m) <? _); [discriminate|]. destruct (DecryptAndHash C sy1 _) as [[sy2 rs]|]; [|discriminate].
    match type of H with match ?x with _ => _ end = _ => destruct x as [p'|] eqn:ED; [|discriminate] end.
    injection H as <- _. eexists _, _. split; [reflexivity|exact ED]. }
  destruct (read_ees _ _ _ _ E1) as (H1 & H2 & H3 & H4).
  cbn [dh_token] in E2.
  assert (EM : forall kp pk, mix_dh C ps kp pk = Some pz -> sy_h (p_sym pz) = sy_h (p_sym ps) /\ p_initiator pz = p_initiator ps /\ p_e pz = p_e ps).
  { intros kp pk E. destruct pk; [|discriminate]. cbn [mix_dh] in E. injection E as <-. cbn [with_sym p_sym p_initiator p_e]. rewrite mixkey_h. auto. }
  destruct (p_initiator ps); destruct (EM _ _ E2) as [-> [-> ->]]; auto.
Qed.

(** The pieces a list of attempts has added; none is one byte long. *)
Definition longer (p : party) (left : list bytes) (p' : party) : Prop :=
  sy_h (p_sym p') = chain C (sy_h (p_sym p)) left /\ p_initiator p' = p_initiator p /\ p_e p' = p_e p /\ Forall (fun d => 16 <= len d) left.
Lemma len_first : forall k (m : bytes), k <= len m -> len (firstn (N.to_nat k) m) = k.
Proof. intros k m H. unfold len in *. rewrite firstn_length. lia. Qed.
Lemma kept_read_longer : forall p m p', kept_read C p m p' -> exists left, longer p left p' /\ (read_key m -> left <> []).
Proof.
  intros p m p' H. unfold longer. destruct H.
  - exists []. repeat split; [constructor|]. intros [X1 X2]. exfalso. destruct H as [H|[H|H]]; [lia|lia|exact (X2 H)].
  - destruct (read_ee _ _ _ _ H1) as (A & B & D & _ & _ & L). exists [firstn 32 m]. repeat split; try assumption; [|discriminate].
    constructor; [|constructor]. change 32%nat with (N.to_nat 32). rewrite len_first by lia. lia.
  - destruct (read_ees _ _ _ _ H3) as (A & B & D & L). exists [firstn 32 m; firstn 48 (skipn 32 m)]. repeat split; try assumption; [|discriminate].
    constructor; [|constructor; [|constructor]].
    + change 32%nat with (N.to_nat 32). rewrite len_first by lia. lia.
    + change 48%nat with (N.to_nat 48). rewrite len_first by (rewrite len_skipn; lia). lia.
  - destruct (read_all _ _ _ _ H6) as (A & B & D & L). exists [firstn 32 m; firstn 48 (skipn 32 m)]. repeat split; try assumption; [|discriminate].
    constructor; [|constructor; [|constructor]].
    + change 32%nat with (N.to_nat 32). rewrite len_first by lia. lia.
    + change 48%nat with (N.to_nat 48). rewrite len_first by (rewrite len_skipn; lia). lia.
Qed.
Lemma kept_longer : forall (step : party -> bytes -> party -> Prop) (mark : bytes -> Prop),
  (forall p m p', step p m p' -> exists left, longer p left p' /\ (mark m -> left <> [])) ->
  forall p ms p', kept step p ms p' -> exists left, longer p left p' /\ (Exists mark ms -> left <> []).
Proof.
  intros step mark HS p ms p' H. induction H as [p|p m p1 ms p2 H1 H IH].
  - exists []. split; [repeat split; constructor|]. intro X. inversion X.
  - destruct (HS _ _ _ H1) as [l1 [(A1 & B1 & C1 & D1) N1]]. destruct IH as [l2 [(A2 & B2 & C2 & D2) N2]].
    exists (l1 ++ l2). split.
    + split; [unfold chain in *; rewrite fold_left_app, <- A1; exact A2|]. split; [congruence|]. split; [congruence|].
      apply Forall_app. split; assumption.
    + intro X. inversion X; subst.
      * destruct l1; [exfalso; apply N1; [assumption|reflexivity]|discriminate].
      * intro E. apply app_eq_nil in E. apply N2; [assumption|apply E].
Qed.

(** ** Chains of different length *)
Lemma chain_snoc : forall h ds d, chain C h (ds ++ [d]) = c_hash C (chain C h ds ++ d).
Proof. intros. unfold chain. rewrite fold_left_app. reflexivity. Qed.
Lemma chain_len : forall ds h, len h = 32 -> len (chain C h ds) = 32.
Proof. induction ds as [|d ds IH]; intros h H; [exact H|]. cbn [chain fold_left]. apply IH. apply (hash_len C OK). Qed.
Lemma hashed_snoc : forall ds h d, hashed C h (ds ++ [d]) = hashed C h ds ++ [chain C h ds ++ d].
Proof. induction ds as [|x ds IH]; intros h d; [reflexivity|]. cbn [app hashed]. rewrite IH. reflexivity. Qed.
Lemma collision_more : forall a b a' b', collision C a b -> incl a a' -> incl b b' -> collision C a' b'.
Proof. intros * (x & y & X & Y & R) Ha Hb. exists x, y. split; [apply Ha; exact X|]. split; [apply Hb; exact Y|]. exact R. Qed.
Lemma name_len : len name = 33. Proof. reflexivity. Qed.
Lemma shifted : forall short long, (length short < length long)%nat -> Forall (fun d => len d <> 1) (tl long) ->
  chain C (h_name C) long = chain C (h_name C) short ->
  h_name C = firstn 32 name \/ collision C (all_hashed C long) (all_hashed C short).
Proof.
  induction short as [|s short IH] using rev_ind; intros long HL HF HE.
  - destruct long as [|l0 long] using rev_ind; [cbn in HL; lia|]. clear IHlong. rewrite chain_snoc in HE. cbn [chain fold_left] in HE.
    destruct (bytes_dec (chain C (h_name C) long ++ l0) name) as [E|N].
    + left. apply (f_equal (firstn 32)) in E as E1. 
      assert (HC : len (chain C (h_name C) long) = 32) by (apply chain_len; apply (hash_len C OK)).
      rewrite (firstn_app_exact _ 32 (chain C (h_name C) long)) in E1 by (rewrite HC; reflexivity).
      apply (f_equal (@List.length _)) in E. rewrite app_length in E. change (length name) with 33%nat in E.
      destruct long as [|x long]; [exact E1|]. exfalso. cbn [app tl] in HF. apply Forall_app in HF. destruct HF as [_ HF]. inversion HF as [|a1 b1 H1 H2]. apply H1.
      unfold len in *. lia.
    + right. exists (chain C (h_name C) long ++ l0), name. split; [|split; [left; reflexivity|split; [exact N|exact HE]]].
      right. rewrite hashed_snoc. apply in_or_app. right. left. reflexivity.
  - destruct long as [|l0 long] using rev_ind; [cbn in HL; lia|]. clear IHlong.
    rewrite !app_length in HL. cbn [length] in HL. rewrite !chain_snoc in HE.
    destruct (bytes_dec (chain C (h_name C) long ++ l0) (chain C (h_name C) short ++ s)) as [E|N].
    + assert (HC : len (chain C (h_name C) long) = 32) by (apply chain_len; apply (hash_len C OK)).
      assert (HC' : len (chain C (h_name C) short) = 32) by (apply chain_len; apply (hash_len C OK)).
      apply (f_equal (firstn 32)) in E. rewrite (firstn_app_exact _ 32 (chain C (h_name C) long)), (firstn_app_exact _ 32 (chain C (h_name C) short)) in E by (rewrite ?HC, ?HC'; reflexivity).
      assert (HF' : Forall (fun d => len d <> 1) (tl long)).
      { destruct long as [|x long]; [constructor|]. cbn [app tl] in *. apply Forall_app in HF. apply HF. }
      destruct (IH long ltac:(lia) HF' E) as [X|X]; [left; exact X|right].
      eapply collision_more; [exact X| |]; unfold all_hashed; rewrite hashed_snoc; intros z [Z1|Z1]; try (left; exact Z1); right; apply in_or_app; left; exact Z1.
    + right. exists (chain C (h_name C) long ++ l0), (chain C (h_name C) short ++ s). unfold all_hashed. rewrite !hashed_snoc.
      split; [right; apply in_or_app; right; left; reflexivity|]. split; [right; apply in_or_app; right; left; reflexivity|]. split; assumption.
Qed.

(** ** A reply after refused ones *)
Lemma read2_gen : forall p pl p2 m2, ReadMessage C p NX2 m2 = Some (p2, pl) -> p_initiator p = true ->
  exists pe rest k, read_tokens C p [TE; TEE] m2 = Some (pe, rest) /\ sy_k (p_sym pe) = Some k /\
    DECRYPT C k 0 (sy_h (p_sym pe)) (firstn 48 (skipn 32 m2)) <> None.
Proof.
  intros * H Hi. unfold ReadMessage, NX2 in H. cbn [read_tokens] in H |- *. destruct (len m2 <? 32); [discriminate|].
  cbn [dh_token mix_dh with_sym p_re p_e p_sym p_s p_initiator] in H |- *.
  match type of H with context [MixKey C ?a ?b] => set (sy1 := MixKey C a b) in * end.
  assert (HK : exists k, sy_k sy1 = Some k /\ sy_n sy1 = 0).
  { unfold sy1, MixKey. destruct (HKDF C _ _) as [[x y] z]. eexists. split; reflexivity. }
  destruct HK as [k [HK HN]]. unfold has_key in H. rewrite HK in H. destruct (len (skipn 32 m2) <? N.of_nat 48); [discriminate|].
  unfold DecryptAndHash in H at 1. rewrite HK, HN in H. 
  eexists _, _, k. split; [reflexivity|]. cbn [p_sym]. split; [exact HK|].
  cbn [with_sym p_sym]. intro X. rewrite X in H. discriminate H.
Qed.
Lemma waiting_ok : forall p s m, waiting p s -> res (recv_message C s m) = Ok tt -> exists p2 pl, ReadMessage C p NX2 m = Some (p2, pl).
Proof.
  intros p s m W H. pose proof (waiting_result p s m W) as X. rewrite H in X. inversion X; subst.
  match goal with A : static_result _ _ _ _ _ |- _ => inversion A; subst end. eauto.
Qed.
Lemma long_not_one : forall ds, Forall (fun d : bytes => 2 <= len d) ds -> Forall (fun d => len d <> 1) ds.
Proof. intros ds H. eapply Forall_impl; [|exact H]. cbv beta. intros. lia. Qed.
Lemma shift_apply : forall (pro e1 pl e2 : bytes) left, left <> [] -> Forall (fun d => 16 <= len d) left ->
  len e1 = 32 -> 16 <= len pl -> len e2 = 32 -> h_name C <> firstn 32 name ->
  chain C (h_name C) (([pro; e1; pl] ++ left) ++ [e2]) <> chain C (h_name C) ([pro; e1; pl] ++ [e2]) \/
  collision C (all_hashed C (([pro; e1; pl] ++ left) ++ [e2])) (all_hashed C ([pro; e1; pl] ++ [e2])).
Proof.
  intros * NE HF H1 H2 H3 HN.
  destruct (bytes_dec (chain C (h_name C) (([pro; e1; pl] ++ left) ++ [e2])) (chain C (h_name C) ([pro; e1; pl] ++ [e2]))) as [E|N]; [right|left; exact N].
  destruct (shifted ([pro; e1; pl] ++ [e2]) (([pro; e1; pl] ++ left) ++ [e2])) as [X|X]; [| |exact E|contradiction|exact X].
  - rewrite !app_length. cbn [length]. destruct left; [contradiction|]. cbn [length]. lia.
  - apply long_not_one. cbn [app tl]. constructor; [lia|]. constructor; [lia|]. apply Forall_app. split; [|constructor; [lia|constructor]].
    eapply Forall_impl; [|exact HF]. cbv beta. intros. lia.
Qed.

Theorem never_again : forall pro si sr ei er rnd1 rnd2 I0 R0 b1 b2 ms s,
  started C true pro si rnd1 ei I0 -> keypair_ok ei ->
  started C false pro sr rnd2 er R0 -> keypair_ok sr -> keypair_ok er -> h_name C <> firstn 32 name ->
  let x1 := send_message C rnd1 I0 b1 in
  let x2 := recv_message C R0 (out x1) in
  let x3 := send_message C rnd2 (st x2) b2 in
  res x1 = Ok tt -> res x2 = Ok tt -> res x3 = Ok tt ->
  refused C (st x1) ms s -> Exists read_key ms -> res (recv_message C s (out x3)) = Ok tt ->
  exists p1 p' pe rest k' left,
    WriteMessage C (Initialize C true pro si ei) NX1 (skipn 32 b1) = Some (p1, out x1) /\ kept (kept_read C) p1 ms p' /\
    read_tokens C p' [TE; TEE] (out x3) = Some (pe, rest) /\ sy_k (p_sym pe) = Some k' /\ left <> [] /\
    let ds := first_pieces pro (out x1) ++ [firstn 32 (out x3)] in
    let ds' := (first_pieces pro (out x1) ++ left) ++ [firstn 32 (out x3)] in
    DECRYPT C k' 0 (chain C (h_name C) ds')
      (ENCRYPT C (ee_key C (kp_private er) (firstn 32 (out x1))) 0 (chain C (h_name C) ds) (kp_public sr)) <> None /\
    (chain C (h_name C) ds' <> chain C (h_name C) ds \/ collision C (all_hashed C ds') (all_hashed C ds)).
Proof.
  intros * HI Kei HR Ksr Ker HN x1 x2 x3 H1 H2 H3 HF HX H4.
  assert (Hb1 : 32 <= len b1 <= 65535).
  { pose proof (opening_exact C true pro si ei rnd1 I0 b1 HI) as X. fold x1 in X. rewrite H1 in X. inversion X. assumption. }
  assert (Hm1 : 48 <= len (out x1) <= 65535).
  { pose proof (first_exact C false pro sr er rnd2 R0 (out x1) HR) as X. fold x2 in X. rewrite H2 in X. inversion X. assumption. }
  destruct (sent_waiting pro si ei rnd1 I0 b1 HI Hb1) as [p1 [E1 W]]. fold x1 in E1, W.
  destruct (waiting_refused ms p1 _ s W HF) as [p' [K W']].
  destruct (kept_longer (kept_read C) read_key kept_read_longer p1 ms p' K) as [left [(L1 & L2 & L3 & L4) L5]].
  destruct (write1 C _ _ _ _ _ _ _ (proj2 Kei) E1) as (V1 & V2 & V3 & V4 & V5 & V6).
  destruct (waiting_ok p' s (out x3) W' H4) as [p2 [pl ER]].
  destruct (read2_gen p' pl p2 (out x3) ER ltac:(congruence)) as (pe & rest & k' & T & TK & TD).
  destruct (responder_run C OK pro sr er rnd2 R0 (out x1) b2 HR Ksr Ker H2 H3) as [_ [Be Bx]].
  fold x2 in Bx, Be. fold x3 in Bx, Be.
  destruct (read_ee _ _ _ _ T) as (Q1 & _).
  exists p1, p', pe, rest, k', left. split; [exact E1|]. split; [exact K|]. split; [exact T|]. split; [exact TK|].
  split; [exact (L5 HX)|]. cbv zeta.
  assert (CH : chain C (h_name C) ((first_pieces pro (out x1) ++ left) ++ [firstn 32 (out x3)]) = sy_h (p_sym pe)).
  { rewrite Q1, L1, V1. unfold chain. rewrite !fold_left_app. reflexivity. }
  split.
  - rewrite CH, <- Bx. exact TD.
  - unfold first_pieces. apply shift_apply; [exact (L5 HX)|exact L4| | | |exact HN].
    + rewrite V6. apply Kei.
    + rewrite len_skipn. lia.
    + rewrite Be. apply Ker.
Qed.

(** ** A reply written after failed attempts *)
Lemma write_ee : forall p pe o, write_tokens C p [TE; TEE] = Some (pe, o) ->
  sy_h (p_sym pe) = chain C (sy_h (p_sym p)) [kp_public (p_e p)] /\ p_initiator pe = p_initiator p /\ p_e pe = p_e p /\ p_s pe = p_s p /\
  (exists k, sy_k (p_sym pe) = Some k /\ sy_n (p_sym pe) = 0).
Proof.
  intros * H. cbn [write_tokens dh_token] in H. cbn [with_sym p_re p_e] in H. destruct (p_re p) as [re|]; [|discriminate].
  cbn [mix_dh with_sym p_sym] in H. injection H as <- _. cbn [p_sym p_initiator p_e p_s with_sym]. rewrite mixkey_h. repeat split.
  unfold MixKey. destruct (HKDF C _ _) as [[x y] z]. eexists. split; reflexivity.
Qed.
Lemma write_nx2 : forall p pz o, write_tokens C p NX2 = Some (pz, o) ->
  exists pe o' k, write_tokens C p [TE; TEE] = Some (pe, o') /\ sy_k (p_sym pe) = Some k /\
    let box := ENCRYPT C k 0 (sy_h (p_sym pe)) (kp_public (p_s p)) in
    o = kp_public (p_e p) ++ box /\
    sy_h (p_sym pz) = chain C (sy_h (p_sym p)) [kp_public (p_e p); box] /\ p_initiator pz = p_initiator p /\ p_e pz = p_e p.
Proof.
  intros * H. unfold NX2 in H. cbn [write_tokens dh_token] in H |- *. cbn [with_sym p_re p_e] in H |- *. destruct (p_re p) as [re|] eqn:Pre; [|discriminate].
  cbn [mix_dh with_sym p_sym p_s] in H |- *.
  match type of H with context [MixKey C ?a ?b] => set (sy1 := MixKey C a b) in * end.
  assert (HK : exists k, sy_k sy1 = Some k /\ sy_n sy1 = 0).
  { unfold sy1, MixKey. destruct (HKDF C _ _) as [[x y] z]. eexists. split; reflexivity. }
  destruct HK as [k [HK HN]].
  assert (H1 : sy_h sy1 = c_hash C (sy_h (p_sym p) ++ kp_public (p_e p))) by (unfold sy1; rewrite mixkey_h; reflexivity).
  unfold EncryptAndHash in H. rewrite HK, HN in H. cbn [with_sym p_initiator p_re p_rs p_e p_s p_sym] in H.
  set (box := ENCRYPT C k 0 (sy_h sy1) (kp_public (p_s p))) in *.
  eexists _, _, k. split; [reflexivity|]. cbn [with_sym p_sym p_s]. split; [exact HK|]. fold box.
  destruct (p_initiator p) eqn:Hi.
  - destruct (p_rs p); [|discriminate]. cbn [mix_dh with_sym p_sym] in H. injection H as <- <-. cbn [with_sym p_sym p_initiator p_e]. rewrite mixkey_h.
    cbn [MixHash next_nonce sy_h chain fold_left app]. rewrite H1, ?app_nil_r. auto.
  - rewrite ?Pre in H. cbn [mix_dh with_sym p_sym] in H. injection H as <- <-. cbn [with_sym p_sym p_initiator p_e]. rewrite mixkey_h.
    cbn [MixHash next_nonce sy_h chain fold_left app]. rewrite H1, ?app_nil_r. auto.
Qed.
Lemma kept_write_longer : forall p b p', len (kp_public (p_e p)) = 32 -> kept_write C p b p' ->
  exists left, longer p left p' /\ (wrote_key b -> left <> []).
Proof.
  intros p b p' He H. unfold longer. destruct H.
  - exists []. repeat split; [constructor|]. unfold wrote_key. intro X. lia.
  - destruct (write_ee _ _ _ H0) as (A & B & D & _). exists [kp_public (p_e p)]. repeat split; try assumption; [|discriminate].
    constructor; [lia|constructor].
  - destruct (write_nx2 _ _ _ H2) as (pe' & o1 & k & _ & _ & _ & A & B & D). eexists. split; [split; [exact A|]|discriminate].
    split; [exact B|]. split; [exact D|]. constructor; [lia|]. constructor; [rewrite (enc_len C OK); lia|constructor].
Qed.
Lemma kept_write_all : forall ms p p', len (kp_public (p_e p)) = 32 -> kept (kept_write C) p ms p' ->
  exists left, longer p left p' /\ (Exists wrote_key ms -> left <> []).
Proof.
  intros ms p p' He H.
  destruct (kept_longer (fun a m b => p_e a = p_e p /\ kept_write C a m b) wrote_key) with (p := p) (ms := ms) (p' := p') as [left L].
  - intros a m b [Ea Ka]. apply kept_write_longer; [rewrite Ea; exact He|exact Ka].
  - set (e := p_e p) in *. assert (Ee : p_e p = e) by reflexivity. clearbody e. revert Ee. induction H as [q|q m q1 ms q2 H1 H IH]; intro Ee; [constructor|].
    econstructor; [split; [exact Ee|exact H1]|]. apply IH.
    destruct (kept_write_longer q m q1 ltac:(rewrite Ee; exact He) H1) as [l [(_ & _ & X & _) _]]. congruence.
  - exists left. exact L.
Qed.

Theorem never_sent : forall pro si sr ei er rnd1 rnd2 I0 R0 b1 bs s b2,
  started C true pro si rnd1 ei I0 -> keypair_ok ei ->
  started C false pro sr rnd2 er R0 -> keypair_ok sr -> keypair_ok er -> h_name C <> firstn 32 name ->
  let x1 := send_message C rnd1 I0 b1 in
  let x2 := recv_message C R0 (out x1) in
  let x3 := send_message C rnd2 s b2 in
  res x1 = Ok tt -> res x2 = Ok tt ->
  unsent C rnd2 (st x2) bs s -> Exists wrote_key bs -> res x3 = Ok tt -> res (recv_message C (st x1) (out x3)) = Ok tt ->
  exists p1 p' pe o k' left,
    ReadMessage C (Initialize C false pro sr er) NX1 (out x1) = Some (p1, skipn 32 (out x1)) /\ kept (kept_write C) p1 bs p' /\
    write_tokens C p' [TE; TEE] = Some (pe, o) /\ sy_k (p_sym pe) = Some k' /\ left <> [] /\
    let ds := first_pieces pro (out x1) ++ [kp_public er] in
    let ds' := (first_pieces pro (out x1) ++ left) ++ [kp_public er] in
    DECRYPT C (ee_key C (kp_private ei) (kp_public er)) 0 (chain C (h_name C) ds)
      (ENCRYPT C k' 0 (chain C (h_name C) ds') (kp_public sr)) <> None /\
    (chain C (h_name C) ds' <> chain C (h_name C) ds \/ collision C (all_hashed C ds') (all_hashed C ds)).
Proof.
  intros * HI Kei HR Ksr Ker HN x1 x2 x3 H1 H2 HU HX H3 H4.
  assert (Hb1 : 32 <= len b1 <= 65535).
  { pose proof (opening_exact C true pro si ei rnd1 I0 b1 HI) as X. fold x1 in X. rewrite H1 in X. inversion X. assumption. }
  assert (Hm1 : 48 <= len (out x1) <= 65535 /\ ~ low_order (firstn 32 (out x1))).
  { pose proof (first_exact C false pro sr er rnd2 R0 (out x1) HR) as X. fold x2 in X. rewrite H2 in X. inversion X. split; assumption. }
  destruct Hm1 as [Hm1 Hlo].
  destruct (read_answering pro sr er rnd2 R0 (out x1) HR Hm1 Hlo) as (p1 & e0 & E1 & W & D & Es & Ee). fold x2 in W.
  destruct (answering_unsent rnd2 bs p1 e0 _ s W ltac:(rewrite Es; exact Ksr) D HU) as (p' & e1 & K & Es' & Ee' & W' & D').
  destruct (read1 C _ _ _ _ _ _ _ E1) as (V1 & V2 & V3 & V4 & V5 & V6).
  destruct (kept_write_all bs p1 p' ltac:(rewrite Ee; apply Ker) K) as [left [(L1 & L2 & L3 & L4) L5]].
  (* the reply written *)
  pose proof (answering_result p' e1 rnd2 s b2 W' ltac:(rewrite Es', Es; exact Ksr) ltac:(rewrite Es', Ee'; exact D')) as A.
  fold x3 in A. rewrite H3 in A. inversion A as [| | | | |pe0 o0 pz o1 Hb2 T2 NZ2 T4 NZ4].
  destruct (write_nx2 _ _ _ T4) as (pe & o' & k' & T2' & HK & Ho & _). rewrite T2 in T2'. injection T2' as <- <-.
  destruct (write_ee _ _ _ T2) as (Q1 & _).
  assert (OUT : exists tail, out x3 = (kp_public (p_e p1) ++ ENCRYPT C k' 0 (sy_h (p_sym pe0)) (kp_public (p_s p1))) ++ tail).
  { destruct W' as (ss & rs & re & psk & h & c1 & c2 & t & Hs & R & Pre & Pi).
    pose proof (nx_write_2 C OK rnd2 ss (p_s p') e1 (p_e p') rs re psk h c1 c2 t p' b2) as Y.
    assert (Lre : len re = 32).
    { assert (PP : p_re p' = p_re p1).
      { clear - K. induction K as [|q m q1 ms q2 HS HK IH]; [reflexivity|]. rewrite IH. clear - HS. destruct HS; [reflexivity| |].
        - cbn [write_tokens dh_token] in H0. cbn [with_sym p_re p_e] in H0. destruct (p_re q) as [z|] eqn:Pq; [|discriminate].
          cbn [mix_dh with_sym p_sym] in H0. injection H0 as <- _. exact Pq.
        - unfold NX2 in H2. cbn [write_tokens dh_token] in H2. cbn [with_sym p_re p_e] in H2. destruct (p_re q) as [z|] eqn:Pq; [|discriminate].
          cbn [mix_dh with_sym p_sym p_s] in H2. destruct (EncryptAndHash C _ _) as [sq cq].
          cbn [with_sym p_initiator p_re p_rs p_e p_s p_sym] in H2. rewrite Pq in H2.
          destruct (p_initiator q); [destruct (p_rs q); [|discriminate]|]; cbn [mix_dh with_sym p_sym] in H2; injection H2 as <- _; exact Pq. }
      rewrite PP, V6 in Pre. apply some_inj in Pre. rewrite <- Pre. unfold len in *. rewrite firstn_length. lia. }
    specialize (Y ltac:(rewrite Es', Es; exact Ksr) ltac:(rewrite Ee', Ee; exact Ker) Lre Hb2 ltac:(rewrite Es', Ee'; exact D') R eq_refl eq_refl Pre Pi).
    cbv zeta in Y. rewrite <- Hs in Y. fold x3 in Y.
    destruct Y as (p2 & msg & EW & YN & YZ).
    destruct (in_dec (list_eq_dec Byte.byte_eq_dec) Z (skipn (length (sy_keys (p_sym p'))) (sy_keys (p_sym p2)))) as [IZ|NIZ].
    { rewrite (YZ IZ) in H3. discriminate. }
    destruct (YN NIZ) as (_ & YO & _). rewrite YO. unfold WriteMessage in EW. rewrite T4 in EW. destruct (EncryptAndHash C _ _) as [sq cq].
    injection EW as _ <-. rewrite Ho, Es', Ee'. eexists. reflexivity. }
  destruct OUT as [tail OUT].
  assert (Hk : len (kp_public er) = 32) by apply Ker.
  assert (Hks : len (kp_public sr) = 32) by apply Ksr.
  rewrite Ee, Es in OUT.
  assert (F1 : firstn 32 (out x3) = kp_public er).
  { rewrite OUT, <- app_assoc. apply firstn_app_exact. rewrite Hk. reflexivity. }
  assert (F2 : firstn 48 (skipn 32 (out x3)) = ENCRYPT C k' 0 (sy_h (p_sym pe0)) (kp_public sr)).
  { rewrite OUT, <- app_assoc. rewrite (skipn_app_exact _ 32 (kp_public er)) by (rewrite Hk; reflexivity).
    apply firstn_app_exact. rewrite (enc_len C OK). rewrite Hks. reflexivity. }
  destruct (initiator_run C OK pro si ei rnd1 I0 b1 (out x3) HI Kei H1) as [G1 X]. destruct (X H4) as [_ DD].
  fold x1 in DD, G1. rewrite F1, F2 in DD.
  exists p1, p', pe0, o0, k', left. split; [exact E1|]. split; [exact K|]. split; [exact T2|]. split; [exact HK|].
  split; [exact (L5 HX)|]. cbv zeta.
  assert (CH : chain C (h_name C) ((first_pieces pro (out x1) ++ left) ++ [kp_public er]) = sy_h (p_sym pe0)).
  { rewrite Q1, L1, V1, Ee', Ee. unfold chain. rewrite !fold_left_app. reflexivity. }
  split.
  - rewrite CH. exact DD.
  - unfold first_pieces. apply shift_apply; [exact (L5 HX)|exact L4| | |exact Hk|exact HN].
    + rewrite G1. apply Kei.
    + rewrite len_skipn. lia.
Qed.
End Retry.

Theorem kept_one : forall C p ms p' p'',
  (kept (kept_read C) p ms p' -> kept (kept_read C) p ms p'' -> p' = p'') /\
  (kept (kept_write C) p ms p' -> kept (kept_write C) p ms p'' -> p' = p'').
Proof.
  intros. split; [apply (kept_unique (kept_read C) (kept_read_unique C))|apply (kept_unique (kept_write C) (kept_write_unique C))].
Qed.

(** ** Samples *)
From Verif Require Import Crypto CryptoFacts NoiseSamples.
(** An AEAD without any strength, which still satisfies the laws. *)
Definition no_tag : bytes := repeat x00 16.
Definition weak_crypto : crypto :=
  mkCrypto blake2s (fun _ _ _ pt => (pt, no_tag)) (fun _ _ _ ct mac => ((len mac =? 16) && forallb (Byte.eqb x00) mac, ct)) demo_dh demo_pub.
Lemma weak_ok : crypto_ok weak_crypto.
Proof.
  destruct demo_ok as [H1 _ _ _ _ _ H7 H8]. constructor; cbn [c_hash c_seal c_open c_dh c_pub weak_crypto fst snd]; try assumption; try reflexivity.
  intros k n ad ct mac pt H. injection H as H ->. apply andb_prop in H. destruct H as [HL HF]. f_equal.
  assert (HL' : length mac = 16%nat) by (unfold len in HL; lia). unfold no_tag. rewrite <- HL'. clear HL HL'.
  induction mac as [|b mac IH]; [reflexivity|]. cbn [forallb] in HF. apply andb_prop in HF. destruct HF as [Hb HF].
  apply Byte.byte_dec_bl in Hb. subst b. cbn [length repeat]. rewrite IH by exact HF. reflexivity.
Qed.
Definition w_I0 := init_session weak_crypto true d_prologue d_si.
Definition w_R0 := init_session weak_crypto false d_prologue d_sr.
Definition w_x1 := send_message weak_crypto k_ei w_I0 d_b1.
Definition w_x2 := recv_message weak_crypto w_R0 (out w_x1).
Definition w_x3 := send_message weak_crypto k_er (st w_x2) d_b2.
Definition w_bad : bytes := repeat x05 60.
Definition w_short : bytes := repeat x00 40.
Definition w_s1 := st (recv_message weak_crypto (st w_x1) w_bad).
Definition w_s2 := st (send_message weak_crypto k_er (st w_x2) w_short).

Lemma w_refused : refused weak_crypto (st w_x1) [w_bad] w_s1.
Proof. apply (refused_cons _ _ _ MissingrsError); [vm_compute; reflexivity|apply refused_nil]. Qed.
Lemma w_unsent : unsent weak_crypto k_er (st w_x2) [w_short] w_s2.
Proof. apply (unsent_cons _ _ _ _ MissingneError); [vm_compute; reflexivity|apply unsent_nil]. Qed.
Lemma w_bad_key : Exists read_key [w_bad].
Proof. constructor. split; [vm_compute; split; discriminate|apply not_low; vm_compute; reflexivity]. Qed.
Lemma w_short_key : Exists wrote_key [w_short].
Proof. constructor. vm_compute. split; discriminate. Qed.
Lemma blake_name : blake2s name <> firstn 32 name.
Proof. vm_compute. discriminate. Qed.
Lemma w_results : res w_x1 = Ok tt /\ res w_x2 = Ok tt /\ res w_x3 = Ok tt /\
  res (recv_message weak_crypto w_s1 (out w_x3)) = Ok tt /\
  res (recv_message weak_crypto (st w_x1) (out (send_message weak_crypto k_er w_s2 d_b2))) = Ok tt.
Proof. vm_compute. repeat split. Qed.
(** With the AEAD of nx-noise the same history ends differently. *)
Definition d_s1 := st (recv_message demo_crypto (st d_x1) w_bad).
Lemma d_refused : refused demo_crypto (st d_x1) [w_bad] d_s1 /\ res (recv_message demo_crypto d_s1 (out d_x3)) = Err DecryptionError.
Proof. split; [apply (refused_cons _ _ _ MissingrsError); [vm_compute; reflexivity|apply refused_nil]|vm_compute; reflexivity]. Qed.
Definition d_s2 := st (send_message demo_crypto k_er (st d_x2) w_short).
Lemma d_unsent : unsent demo_crypto k_er (st d_x2) [w_short] d_s2 /\
  res (send_message demo_crypto k_er d_s2 d_b2) = Ok tt /\
  res (recv_message demo_crypto (st d_x1) (out (send_message demo_crypto k_er d_s2 d_b2))) = Err DecryptionError.
Proof.
  split; [apply (unsent_cons _ _ _ _ MissingneError); [vm_compute; reflexivity|apply unsent_nil]|]. vm_compute. split; reflexivity.
Qed.
