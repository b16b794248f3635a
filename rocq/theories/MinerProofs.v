(** * MinerProofs: the programs of examples/noise_handshake.rs on arbitrary input. *)
From Coq Require Import ZArith Lia ZifyBool ZifyNat ZifyN.
From Verif Require MsgProofs.
From Verif Require Import Base Codec Types Certs SpecWire SpecTypes SpecCerts BaseFacts CodecFacts Base58Facts CertProofs Noise SpecNoise SpecSession NoiseFacts
  FrameProofs HandshakeProofs NoiseSamples NetworkProofs NxProofs SessionProofs NetProofs RecvProofs NoiseClaims SessionClaims Network SpecNetwork Apps AppProofs SpecReply ReplyProofs BindingProofs SpecMiner.
Open Scope N_scope.

(** ** Buffers *)
Lemma read_overlaid : forall old bs, overlaid old bs (read_into old bs).
Proof.
  intros old bs. unfold overlaid, read_into. split.
  - rewrite len_app. unfold len. rewrite firstn_length, skipn_length. lia.
  - intros i Hi. destruct (i <? length bs)%nat eqn:E.
    + apply Nat.ltb_lt in E. rewrite nth_error_app1 by (rewrite firstn_length; lia).
      revert bs i Hi E. induction old as [|o old IH]; intros bs i Hi E; [inversion Hi|].
      destruct bs as [|x bs]; [inversion E|]. cbn [length firstn]. destruct i as [|i]; [reflexivity|].
      cbn [nth_error]. apply IH; cbn [length] in *; lia.
    + apply Nat.ltb_ge in E. rewrite nth_error_app2 by (rewrite firstn_length; lia).
      rewrite firstn_length. replace (Nat.min (length old) (length bs)) with (length bs) by lia.
      clear Hi. revert bs i E. induction old as [|o old IH]; intros bs i E.
      * rewrite skipn_nil. destruct (i - length bs)%nat, i; reflexivity.
      * destruct bs as [|x bs]; [cbn [length skipn]; rewrite Nat.sub_0_r; reflexivity|].
        destruct i as [|i]; [inversion E|]. cbn [length skipn nth_error Nat.sub]. apply IH. cbn [length] in E. lia.
Qed.
Lemma overlaid_unique : forall old bs b b', overlaid old bs b -> overlaid old bs b' -> b = b'.
Proof.
  intros old bs b b' [L H] [L' H'].
  assert (X : forall i, nth_error b i = nth_error b' i).
  { intro i. destruct (Nat.lt_ge_cases i (length old)) as [Hi|Hi].
    - rewrite (H i Hi), (H' i Hi). reflexivity.
    - rewrite !(proj2 (nth_error_None _ i)) by (unfold len in *; lia). reflexivity. }
  clear H H'. assert (LL : length b = length b') by (unfold len in *; lia). clear L L'.
  revert b' LL X. induction b as [|x b IH]; intros [|y b'] LL X; try discriminate LL; [reflexivity|].
  pose proof (X 0%nat) as X0. injection X0 as ->. f_equal. apply IH; [injection LL; auto|].
  intro i. exact (X (S i)).
Qed.
Lemma overlaid_read : forall old bs b, overlaid old bs b -> b = read_into old bs.
Proof. intros. eapply overlaid_unique; [eassumption|apply read_overlaid]. Qed.
Lemma read_into_len : forall old bs, len (read_into old bs) = len old.
Proof. intros. apply (read_overlaid old bs). Qed.

Lemma layout_prefix : forall m m' r r', snm_ok m -> snm_ok m' -> snm_layout m ++ r = snm_layout m' ++ r' -> m = m'.
Proof.
  intros [v f t s] [v' f' t' s'] r r' (A & B & D & L) (A' & B' & D' & L') H.
  cbn [sn_version sn_valid_from sn_not_valid_after sn_signature] in *.
  apply app_eq_len in H.
  - destruct H as [H _]. unfold snm_layout in H. cbn [sn_version sn_valid_from sn_not_valid_after sn_signature] in H.
    change (cert_layout v f t s = cert_layout v' f' t' s') in H.
    apply layout_binds in H; try assumption. destruct H as (-> & -> & -> & ->). reflexivity.
  - unfold snm_layout. cbn [sn_version sn_valid_from sn_not_valid_after sn_signature]. rewrite !len_app.
    assert (W : forall x, len (wire x) = len x) by (intro x; unfold len, wire; rewrite map_length; reflexivity).
    rewrite !W, L, L'. reflexivity.
Qed.

Section Miner.
Variable C : crypto.
Hypothesis OK : crypto_ok C.
Variable E : ed_ops.
Notation Z := EMPTY_KEY.

(** ** The verdict *)
Lemma opinion_exact : forall pf text key now b, 74 <= len b -> rust_slice b ->
  let r : Result (option bool) := obind (unwrap (deserialize (de_snm E) pf b)) (fun msg =>
           obind (unwrap (cf_new E text key msg)) (fun cf =>
             match cf_verify E now cf with
             | Ok _ => Ok (Some true) | Err _ => Ok (Some false) | Panic => Panic
             end)) in
  exists o : Result bool, opinion E text key now b o /\ r = match o with Ok v => Ok (Some v) | _ => Panic end.
Proof.
  intros pf text key now b L HS r. unfold deserialize in r.
  destruct (snm_onto b L) as (m & enc & tail & Hm & -> & HW).
  destruct (snm_outcome E m pf [] enc tail Hm HW HS) as [A B].
  assert (WB : wire (enc ++ tail) = snm_layout m ++ wire tail) by (rewrite wire_app, HW; reflexivity).
  assert (CD : (ed_sig_checked E = true -> canonical_sig (sn_signature m)) \/ (ed_sig_checked E = true /\ ~ canonical_sig (sn_signature m))).
  { destruct (ed_sig_checked E); [|left; discriminate].
    pose proof (canonical_bits (sn_signature m) (proj2 (proj2 (proj2 Hm)))) as CB.
    destruct (N.land (Byte.to_N (nth 63 (sn_signature m) x00)) 0xE0 =? 0).
    - left. intros _. apply CB. reflexivity.
    - right. split; [reflexivity|]. intro CS. apply CB in CS. discriminate CS. }
  destruct CD as [CD|[SC NC]].
  2:{ exists Panic. split; [eapply op_bad_signature; eassumption|]. unfold r. change (mkParser (enc ++ tail) 0) with (cursor [] (enc ++ tail)). rewrite (B SC NC). reflexivity. }
  unfold r. change (mkParser (enc ++ tail) 0) with (cursor [] (enc ++ tail)). rewrite (A CD). cbn [snd unwrap obind].
  destruct (cf_new_exact E text key m) as [N1 N2].
  destruct (base58_from_spec text) as [BA BB]. destruct BB as [ [k Bk] | BB ].
  2:{ exists Panic. assert (NK : forall k, ~ base58 text k).
      { intros k Hk. apply BA in Hk. rewrite BB in Hk. discriminate Hk. }
      split; [apply op_bad_authority; intros k Hk; destruct (NK k Hk)|]. rewrite (N1 NK). reflexivity. }
  rewrite (N2 k Bk). destruct (len k =? 32) eqn:LK.
  2:{ exists Panic. split; [|reflexivity]. apply op_bad_authority. intros k' Hk' [LK' _].
      rewrite (base58_unique _ _ _ Hk' Bk) in LK'. lia. }
  destruct (ed_valid E k) eqn:VK.
  2:{ exists Panic. split; [|reflexivity]. apply op_bad_authority. intros k' Hk' [_ VK'].
      rewrite (base58_unique _ _ _ Hk' Bk) in VK'. congruence. }
  cbn [unwrap obind]. apply N.eqb_eq in LK.
  destruct (verify_exact E now (mkCf k key m)) as (signed & WS & V). cbn [cf_message cf_authority cf_static] in WS, V. rewrite V.
  destruct (now <? 0)%Z eqn:Z0.
  { exists (Ok false). split; [|reflexivity]. eapply op_late; try eassumption. left. lia. }
  destruct (sn_not_valid_after m <=? Z.to_N (now / 10 ^ 9) mod 2 ^ 32) eqn:Z1.
  { exists (Ok false). split; [|reflexivity]. eapply op_late; try eassumption. right. apply N.leb_le. exact Z1. }
  exists (Ok (ed_verify E k signed (sn_signature m))). split.
  { eapply op_signed; try eassumption; [lia|]. apply N.leb_gt. exact Z1. }
  destruct (ed_verify E k signed (sn_signature m)); reflexivity.
Qed.
Lemma opinion_unique : forall text key now b r r', opinion E text key now b r -> opinion E text key now b r' -> r = r'.
Proof.
  assert (W : forall text key now b r r', opinion E text key now b r -> opinion E text key now b r' ->
    (r = Panic /\ r' = Panic) \/ r = r' \/ (exists v, r = Panic /\ r' = Ok v) \/ (exists v, r = Ok v /\ r' = Panic)).
  2:{ intros text key now b r r' H H'. destruct (W _ _ _ _ _ _ H H') as [[-> ->]|[Q|[[v [-> ->]]|[v [-> ->]]]]]; [reflexivity|exact Q| |]; exfalso.
      - inversion H' as [| |k m rest K L V M Wr SC|k m rest sg K L V M Wr SC]; subst;
        (inversion H as [m' rest' M' W' S' NC|NK| |]; subst;
         [rewrite Wr in W'; apply layout_prefix in W'; try assumption; subst m'; exact (NC (SC S'))|exact (NK k K (conj L V))]).
      - inversion H as [| |k m rest K L V M Wr SC|k m rest sg K L V M Wr SC]; subst;
        (inversion H' as [m' rest' M' W' S' NC|NK| |]; subst;
         [rewrite Wr in W'; apply layout_prefix in W'; try assumption; subst m'; exact (NC (SC S'))|exact (NK k K (conj L V))]). }
  intros text key now b r r' H H'. destruct r as [v|e|]; destruct r' as [v'|e'|];
    try (exfalso; inversion H; fail); try (exfalso; inversion H'; fail).
  - right; left.
    inversion H as [| |k m rest K L V M Wr SC T|k m rest sg K L V M Wr SC T1 T2 SG]; subst;
    inversion H' as [| |k' m' rest' K' L' V' M' Wr' SC' T'|k' m' rest' sg' K' L' V' M' Wr' SC' T1' T2' SG']; subst; try reflexivity.
    + rewrite Wr in Wr'. apply layout_prefix in Wr'; try assumption. subst m'. exfalso. destruct T; lia.
    + rewrite Wr in Wr'. apply layout_prefix in Wr'; try assumption. subst m'. exfalso. destruct T'; lia.
    + rewrite Wr in Wr'. apply layout_prefix in Wr'; try assumption. subst m'.
      rewrite (base58_unique _ _ _ K' K). rewrite <- SG in SG'. apply wire_inj in SG'. rewrite SG'. reflexivity.
  - right; right; right. exists v. split; reflexivity.
  - right; right; left. exists v'. split; reflexivity.
  - left. split; reflexivity.
Qed.

(** ** Transport messages *)
Definition in_transport (k key : bytes) (n : N) (s : session) : Prop :=
  2 <= se_mc s /\ se_transport s = true /\ se_i s = true /\ se_cs2 s = mkCS k n /\ len k = 32 /\ n <= 2 ^ 64 - 1 /\
  hs_rs (se_hs s) = key.

Lemma recv_transport_exact : forall k key n s b, in_transport k key n s -> len b = 1024 ->
  ((n = 2 ^ 64 - 1 \/ k = zeros32 \/ DECRYPT C k n [] b = None) /\ res (recv_message C s b) <> Ok tt) \/
  (n < 2 ^ 64 - 1 /\ k <> zeros32 /\ exists pt s', DECRYPT C k n [] b = Some pt /\ len pt = 1008 /\
     recv_message C s b = (s', pt ++ skipn (length b - 16) b, Ok tt) /\ in_transport k key (n + 1) s').
Proof.
  intros k key n s b (M & T & I & CS & LK & LN & RS) LB.
  assert (RC : rcv_cs s = mkCS k n) by (unfold rcv_cs; rewrite I; exact CS).
  destruct (recv_cases C s b M) as [[Q _]|[[_ [Q X]]|[[_ [_ [Q X]]]|[_ [N1 [N2 (ct & mac & pt & EB & LM & D)]]]]]].
  - lia.
  - left. rewrite RC in Q. cbn [cs_n] in Q. split; [left; unfold MAX_NONCE in Q; lia|]. rewrite X. discriminate.
  - left. rewrite RC in Q. cbn [cs_k] in Q. split; [right; left; exact Q|]. rewrite X. discriminate.
  - rewrite RC in *. cbn [cs_k cs_n] in *. rewrite firstn_exact in D by (rewrite LK; reflexivity). rewrite prep_nonce_spec in D.
    assert (LBn : (length b - 16)%nat = length ct) by (rewrite EB, app_length; unfold len in *; lia).
    assert (DE : DECRYPT C k n [] b = let '(ok, q) := c_open C k (nonce96 n) [] ct mac in if ok then Some q else None).
    { unfold DECRYPT. destruct (len b <? 16) eqn:E16; [lia|]. rewrite LBn, EB.
      rewrite (firstn_app_exact _ (length ct)), (skipn_app_exact _ (length ct)) by reflexivity. reflexivity. }
    destruct D as [[Op X]|[Op X]]; rewrite Op in DE.
    + left. split; [right; right; exact DE|]. rewrite X. discriminate.
    + right. split; [unfold MAX_NONCE in N1; lia|]. split; [exact N2|]. exists pt.
      eexists. split; [exact DE|]. split.
      { pose proof (open_len C OK k (nonce96 n) [] ct mac) as OL. rewrite Op in OL. cbn [snd] in OL. rewrite EB, len_app in LB. lia. }
      split; [rewrite X; rewrite LBn, EB at 1; rewrite (skipn_app_exact _ (length ct)) by reflexivity; reflexivity|].
      unfold set_rcv. rewrite I. unfold in_transport. cbn. repeat split; try assumption; [lia|unfold MAX_NONCE in N1; lia].
Qed.

Lemma transport_exact : forall pf text k key conns n s old, in_transport k key n s -> len old = 1024 ->
  transport C E text k key n old conns (fst (nh_miner_listen C E pf text s old conns)) (snd (nh_miner_listen C E pf text s old conns)).
Proof.
  intros pf text k key conns. induction conns as [|[bs now] conns IH]; intros n s old IT LO; [constructor|].
  cbn [nh_miner_listen]. pose proof (read_overlaid old bs) as OV. set (b := read_into old bs) in *.
  assert (LB : len b = 1024) by (unfold b; rewrite read_into_len; exact LO).
  assert (TS : is_transport s = true) by apply IT.
  destruct (recv_transport_exact k key n s b IT LB) as [[X NR]|(N1 & NZ & pt & s' & DE & LP & X & IT')].
  - unfold nh_miner_recv. destruct (recv_message C s b) as [[s1 b1] [[]|e|]]; [contradiction NR; reflexivity| |]; cbn [fst snd];
      (eapply tr_refused; [exact OV|exact X]).
  - unfold nh_miner_recv. rewrite X, TS.
    set (b1 := pt ++ skipn (length b - 16) b) in *.
    assert (LB1 : len b1 = 1024).
    { unfold b1. rewrite len_app, len_skipn. unfold len in *. lia. }
    assert (GK : get_remote_static_public_key s' = Some key).
    { destruct IT' as (_ & T' & _ & _ & _ & _ & RS). unfold get_remote_static_public_key. rewrite T', RS. reflexivity. }
    rewrite GK.
    destruct (opinion_exact pf text key now b1 ltac:(lia) (slice_1024 b1 ltac:(lia))) as (o & OP & R). cbv zeta in R. rewrite R.
    destruct o as [v|e|].
    + specialize (IH (n + 1) s' b1 IT' LB1). destruct (nh_miner_listen C E pf text s' b1 conns) as [vs dead]. cbn [fst snd] in IH |- *.
      eapply tr_verdict; [exact OV|exact N1|exact NZ|exact DE|exact OP|exact IH].
    + inversion OP.
    + cbn [fst snd]. eapply tr_panic; [exact OV|exact N1|exact NZ|exact DE|exact OP].
Qed.

Lemma transport_unique : forall text k key conns n old vs dead vs' dead',
  transport C E text k key n old conns vs dead -> transport C E text k key n old conns vs' dead' -> vs = vs' /\ dead = dead'.
Proof.
  intros text k key conns. induction conns as [|[bs now] conns IH]; intros n old vs dead vs' dead' H H'.
  - inversion H; inversion H'; subst. split; reflexivity.
  - inversion H; inversion H'; subst; try (split; reflexivity);
      repeat match goal with A : overlaid ?o ?x ?b, B : overlaid ?o ?x ?b' |- _ => pose proof (overlaid_unique _ _ _ _ A B); clear B; subst b' end.
    + exfalso. intuition (first [congruence|lia]).
    + exfalso. match goal with A : DECRYPT C k n [] ?b = Some ?p, B : DECRYPT C k n [] ?b = Some ?q |- _ => rewrite A in B; injection B as -> end.
      match goal with A : opinion E text key now ?b Panic, B : opinion E text key now ?b (Ok _) |- _ => pose proof (opinion_unique _ _ _ _ _ _ A B); discriminate end.
    + exfalso. intuition (first [congruence|lia]).
    + exfalso. match goal with A : DECRYPT C k n [] ?b = Some ?p, B : DECRYPT C k n [] ?b = Some ?q |- _ => rewrite A in B; injection B as -> end.
      match goal with A : opinion E text key now ?b Panic, B : opinion E text key now ?b (Ok _) |- _ => pose proof (opinion_unique _ _ _ _ _ _ A B); discriminate end.
    + match goal with A : DECRYPT C k n [] ?b = Some ?p, B : DECRYPT C k n [] ?b = Some ?q |- _ => rewrite A in B; injection B as -> end.
      match goal with A : opinion E text key now ?b (Ok _), B : opinion E text key now ?b (Ok _) |- _ => pose proof (opinion_unique _ _ _ _ _ _ A B) as Q; injection Q as -> end.
      match goal with A : transport C E text k key (n + 1) _ conns _ _, B : transport C E text k key (n + 1) _ conns _ _ |- _ => destruct (IH _ _ _ _ _ _ A B) as [-> ->] end.
      split; reflexivity.
Qed.

(** ** The handshake *)
Lemma dah_shape : forall ss b ss' b', decrypt_and_hash C ss b = (ss', b', Ok tt) ->
  16 <= len b /\ len b' = len b /\ skipn (length b - 16) b' = skipn (length b - 16) b.
Proof.
  intros ss b ss' b' H. pose proof (dah_len C OK ss b) as DL. rewrite H in DL. cbn [fst snd] in DL.
  unfold decrypt_and_hash in H. destruct (2048 <? len b); [discriminate|].
  destruct (split_mac b) as [[ct mac]|] eqn:SM; [|discriminate].
  apply split_mac_some in SM. destruct SM as [-> LM].
  destruct (cs_decrypt_with_ad C (ss_cs ss) (ss_h ss) ct mac) as [[c' pt] [u| |]]; try discriminate.
  injection H as _ <-. rewrite !len_app in *. split; [lia|]. split; [exact DL|].
  rewrite app_length. replace (length ct + length mac - 16)%nat with (length ct) by (unfold len in LM; lia).
  rewrite (skipn_app_exact _ (length ct) pt) by (unfold len in *; lia).
  rewrite (skipn_app_exact _ (length ct) ct) by reflexivity. reflexivity.
Qed.
Lemma left_exact : forall s b, se_mc s = 1 -> 96 <= len b -> res (recv_message C s b) = Ok tt ->
  let x := recv_message C s b in
  len (hs_rs (se_hs (st x))) = 32 /\
  out x = firstn 32 b ++ hs_rs (se_hs (st x)) ++ firstn 16 (skipn 64 b) ++ payload2 (out x) ++ skipn (length b - 16) b.
Proof.
  intros s b MC LB R x. fold x in R. assert (X : x = recv_message C s b) by reflexivity. clearbody x.
  unfold recv_message in X. rewrite MC in X. cbn [N.eqb Pos.eqb] in X.
  destruct (_ || _); [subst x; discriminate R|].
  unfold read_message_b in X. destruct (len b <? 48); [subst x; discriminate R|]. unfold DHLEN in X.
  destruct (split_at _ 32 b ltac:(lia)) as [pe [rest [-> Hpe]]].
  rewrite (firstn_app_exact _ 32 pe) in * by (rewrite Hpe; reflexivity).
  assert (SK : skipn 32 (pe ++ rest) = rest) by (apply skipn_app_exact; rewrite Hpe; reflexivity). rewrite SK in X.
  destruct (public_key_from_bytes _) as [re| |]; try (subst x; discriminate R).
  destruct (len rest <? 48) eqn:E48; [subst x; discriminate R|].
  destruct (split_at _ 48 rest ltac:(lia)) as [c1 [c2 [-> H1]]].
  rewrite (firstn_app_exact _ 48 c1) in X by (rewrite H1; reflexivity).
  rewrite (skipn_app_exact _ 48 c1) in X by (rewrite H1; reflexivity).
  destruct (decrypt_and_hash C _ c1) as [[s1 d1] [[]| |]] eqn:D1; try (subst x; discriminate R).
  destruct (public_key_from_bytes (from_slice_hashlen d1)) as [rs| |] eqn:PK; try (subst x; discriminate R).
  apply public_key_ok_same in PK.
  destruct (decrypt_and_hash C _ c2) as [[s2 d2] [[]| |]] eqn:D2; try (subst x; discriminate R).
  destruct (split C s2) as [k1 k2].
  apply dah_shape in D1, D2. destruct D1 as (_ & LD1 & T1). destruct D2 as (A2 & LD2 & T2).
  rewrite !len_app in LB.
  destruct (split_at _ 32 d1 ltac:(lia)) as [q [m1 [-> Hq]]].
  destruct (split_at _ (len c2 - 16) d2 ltac:(lia)) as [p [m2 [-> Hp]]].
  assert (RS : rs = q).
  { rewrite PK. unfold from_slice_hashlen. rewrite (firstn_app_exact _ 32 q) by (rewrite Hq; reflexivity). reflexivity. }
  assert (Lc1 : (length c1 - 16)%nat = 32%nat) by (unfold len in H1; lia). rewrite Lc1 in T1.
  rewrite (skipn_app_exact _ 32 q) in T1 by (rewrite Hq; reflexivity).
  rewrite (skipn_app_exact _ (length c2 - 16) p) in T2 by (unfold len in *; lia).
  subst x. unfold st, out. cbn [fst snd].
  match goal with |- context [hs_rs ?t] => change (hs_rs t) with rs end. rewrite RS. split; [exact Hq|].
  f_equal. rewrite <- app_assoc. f_equal. f_equal; [|f_equal].
  - rewrite T1.
    assert (S64 : skipn 64 (pe ++ c1 ++ c2) = skipn 32 c1 ++ c2).
    { rewrite !skipn_app. rewrite (skipn_all2 pe) by (unfold len in Hpe; lia).
      replace (length pe) with 32%nat by (unfold len in Hpe; lia). cbn [app Nat.sub].
      replace (length c1) with 48%nat by (unfold len in H1; lia). reflexivity. }
    rewrite S64. symmetry. apply firstn_app_exact. rewrite len_skipn, H1. reflexivity.
  - unfold payload2.
    assert (L1 : len m1 = 16) by (rewrite len_app in LD1; lia).
    match goal with |- context [skipn 80 ?t] => assert (Y : t = (pe ++ q ++ m1) ++ p ++ m2) by (rewrite <- !app_assoc; reflexivity); rewrite Y; clear Y end. rewrite (skipn_app_exact _ 80) by (rewrite !len_app, Hpe, Hq, L1; reflexivity).
    rewrite firstn_app_exact; [reflexivity|]. rewrite len_app in LD2. rewrite !app_length. unfold len in *. lia.
  - rewrite T2. rewrite app_assoc, skipn_app.
    rewrite (skipn_all2 (pe ++ c1)) by (rewrite !app_length; unfold len in *; lia). cbn [app].
    f_equal. rewrite !app_length. unfold len in *. lia.
Qed.

Lemma nh_send_ok : forall rnd s b, let x := send_message C rnd s b in
  res x = Ok tt -> nh_send C rnd s b = (st x, Ok (out x)).
Proof.
  intros rnd s b x. unfold x, nh_send. destruct (send_message C rnd s b) as [[s1 b1] r1]. unfold res, st, out. cbn [fst snd].
  intros ->. reflexivity.
Qed.
Lemma nh_send_panic : forall rnd s b, res (send_message C rnd s b) <> Ok tt -> snd (nh_send C rnd s b) = Panic.
Proof.
  intros rnd s b. unfold nh_send. destruct (send_message C rnd s b) as [[s1 b1] [[]| |]]; unfold res; cbn [snd]; intro H;
    [contradiction H; reflexivity|reflexivity|reflexivity].
Qed.

Lemma acceptable_unique : forall p b p2 key left p2' key' left',
  acceptable C p b p2 key left -> acceptable C p b p2' key' left' -> p2 = p2' /\ key = key' /\ left = left'.
Proof.
  intros * (payload & A & B & _ & _ & _ & ->) (payload' & A' & B' & _ & _ & _ & ->).
  rewrite A in A'. injection A' as <- <-. rewrite B in B'. injection B' as <-. repeat split.
Qed.

Lemma zeros_repeat : repeat x00 1024 = repeat (b8 0) 1024. Proof. reflexivity. Qed.
Lemma len_zeros : len (repeat x00 1024) = 1024. Proof. reflexivity. Qed.

Theorem miner_exact : forall pf text rsi rnd conns, len rnd = 32 ->
  let si := mkKeypair rsi (c_pub C rsi) in
  let ei := mkKeypair rnd (c_pub C rnd) in
  exists p1 m1 vs dead,
    WriteMessage C (Initialize C true [] si ei) NX1 (repeat (b8 0) 992) = Some (p1, m1) /\
    nh_miner_run C E pf text rsi rnd conns = Ok (m1, (vs, dead)) /\ miner_does C E text p1 conns vs dead.
Proof.
  intros pf text rsi rnd conns LR si ei.
  assert (ST : started C true [] si rnd ei (new_outbound C rsi)) by (left; split; reflexivity).
  assert (KE : keypair_ok ei) by (split; [exact LR|apply (pub_len C OK)]).
  assert (L1 : 32 <= len (repeat x00 1024) <= 65535) by (rewrite len_zeros; lia).
  set (x1 := send_message C rnd (new_outbound C rsi) (repeat x00 1024)).
  destruct (nx_write_1 C OK [] si ei rnd true _ _ ST L1) as (p1 & E1 & R1 & ss & h & c1 & c2 & ES & _).
  fold x1 in E1, R1, ES.
  change (skipn 32 (repeat x00 1024)) with (repeat (b8 0) 992) in E1.
  exists p1, (out x1). unfold nh_miner_run. rewrite (nh_send_ok rnd _ _ R1). fold x1. cbn [obind].
  destruct (nh_miner_listen C E pf text (st x1) (repeat x00 1024) conns) as [vs dead] eqn:ML.
  exists vs, dead. split; [exact E1|]. split; [reflexivity|].
  destruct conns as [|[bs now] conns].
  { cbn [nh_miner_listen] in ML. injection ML as <- <-. constructor. }
  cbn [nh_miner_listen] in ML. pose proof (read_overlaid (repeat x00 1024) bs) as OV.
  set (b := read_into (repeat x00 1024) bs) in *. rewrite zeros_repeat in OV.
  assert (LB : len b = 1024) by (unfold b; rewrite read_into_len; exact len_zeros).
  pose proof (nx_initiator C OK [] si ei rnd _ _ b ST KE L1 ltac:(lia)) as NI. cbv zeta in NI. fold x1 in NI.
  change (skipn 32 (repeat x00 1024)) with (repeat (b8 0) 992) in NI.
  destruct NI as (p1' & E1' & _ & NI). rewrite E1 in E1'. injection E1' as <-.
  assert (MC : se_mc (st x1) = 1) by (rewrite ES; reflexivity).
  assert (NT : is_transport (st x1) = false) by (rewrite ES; reflexivity).
  unfold nh_miner_recv in ML. rewrite NT in ML.
  set (x4 := recv_message C (st x1) b) in NI.
  assert (EX4 : recv_message C (st x1) b = (st x4, out x4, res x4)) by (unfold x4; destruct (recv_message C (st x1) b) as [[? ?] ?]; reflexivity).
  rewrite EX4 in ML.
  destruct (ok_dec (res x4)) as [RO|RN].
  - rewrite RO in ML. destruct (ReadMessage C p1 NX2 b) as [[p2 payload]|] eqn:RM; [|contradiction].
    destruct NI as [CO NI]. destruct (NI RO) as (_ & RS & _ & CS2 & PL). destruct (proj1 CO RO) as (NL & NS & NZ).
    destruct (left_exact (st x1) b MC ltac:(lia) RO) as [LK OX]. cbv zeta in LK, OX. fold x4 in LK, OX.
    pose proof (recv_mc C (st x1) b) as RMC. cbv zeta in RMC. fold x4 in RMC.
    assert (G4 : se_transport (st x4) = true /\ se_mc (st x4) = 2 /\ se_i (st x4) = true).
    { unfold x4. rewrite ES. unfold x4 in RO. rewrite ES in RO. revert RO. unfold recv_message.
      destruct (_ || _); [discriminate|]. cbn [se_mc N.eqb Pos.eqb se_hs].
      destruct (read_message_b C _ b) as [[hh bb] [[[q1 q2] q3]| |]]; try discriminate. intros _. repeat split. }
    destruct G4 as (T4 & M4 & I4).
    set (key := hs_rs (se_hs (st x4))) in *.
    assert (RK : p_rs p2 = Some key).
    { rewrite <- RS. unfold get_remote_static_public_key. rewrite T4. reflexivity. }
    rewrite PL in OX.
    assert (AC : acceptable C p1 b p2 key (out x4)).
    { exists payload. split; [exact RM|]. split; [exact RK|]. split; [exact NL|]. split; [apply NS; exact RK|]. split; [exact NZ|exact OX]. }
    assert (L4 : len (out x4) = 1024) by (unfold x4; rewrite recv_len by exact OK; exact LB).
    assert (IT : in_transport (snd (Split C (p_sym p2))) key 0 (st x4)).
    { unfold in_transport. rewrite M4. split; [lia|]. split; [exact T4|]. split; [exact I4|]. split; [exact CS2|].
      split; [|split; [lia|reflexivity]]. unfold Split, HKDF. cbn [snd]. apply (HMAC_len C OK). }
    pose proof (transport_exact pf text _ key conns 0 (st x4) (out x4) IT L4) as TE.
    destruct (nh_miner_listen C E pf text (st x4) (out x4) conns) as [vs' dead']. cbn [fst snd] in TE.
    injection ML as <- <-. eapply mi_accepted; [exact OV|exact AC|exact TE].
  - assert (ML' : ([], true) = (vs, dead)) by (destruct (res x4) as [[]| |]; [contradiction RN; reflexivity|exact ML|exact ML]).
    injection ML' as <- <-. eapply mi_refused; [exact OV|]. intros p2 key left (payload & RM & RK & NL & NK & NZ & _).
    rewrite RM in NI. destruct NI as [CO _]. apply RN. apply CO. split; [exact NL|]. split; [|exact NZ].
    intros k Hk. rewrite RK in Hk. injection Hk as <-. exact NK.
Qed.

Theorem miner_unique : forall text p conns vs dead vs' dead',
  miner_does C E text p conns vs dead -> miner_does C E text p conns vs' dead' -> vs = vs' /\ dead = dead'.
Proof.
  intros * H H'. inversion H; inversion H'; subst; try discriminate; try (split; reflexivity);
    match goal with A : (_, _) :: _ = (_, _) :: _ |- _ => injection A as -> -> -> end;
    match goal with A : overlaid ?o ?x ?b, B : overlaid ?o ?x ?b' |- _ => pose proof (overlaid_unique _ _ _ _ A B); subst b' end.
  - exfalso. match goal with A : forall _ _ _, ~ _, B : acceptable _ _ _ _ _ _ |- _ => exact (A _ _ _ B) end.
  - exfalso. match goal with A : forall _ _ _, ~ _, B : acceptable _ _ _ _ _ _ |- _ => exact (A _ _ _ B) end.
  - match goal with A : acceptable _ _ _ _ _ _, B : acceptable _ _ _ _ _ _ |- _ => destruct (acceptable_unique _ _ _ _ _ _ _ _ A B) as (-> & -> & ->) end.
    eapply transport_unique; eassumption.
Qed.

(** ** The pool *)
Theorem noise_pool_exact : forall rnd1 rnd2 rsr sr kp t1 t2 bs, ed_ok E -> keypair_ok sr -> len rnd1 = 32 ->
  let er := mkKeypair rnd1 (c_pub C rnd1) in
  pool_answers C E sr er kp t1 t2 bs (nh_pool_run C E rnd1 rnd2 rsr sr kp t1 t2 bs).
Proof.
  intros rnd1 rnd2 rsr sr kp t1 t2 bs EOK KS LR er. unfold nh_pool_run.
  pose proof (read_overlaid (repeat x00 1024) bs) as OV.
  set (b := read_into (repeat x00 1024) bs) in *. rewrite zeros_repeat in OV.
  assert (LB : len b = 1024) by (unfold b; rewrite read_into_len; exact len_zeros).
  set (R0 := new_inbound C (Some sr) rsr).
  assert (ST : started C false [] sr rnd1 er R0) by (left; split; reflexivity).
  assert (KE : keypair_ok er) by (split; [exact LR|apply (pub_len C OK)]).
  unfold nh_pool_recv.
  assert (LF : len (firstn 32 b) = 32) by (rewrite len_firstn', LB; reflexivity).
  pose proof (first_exact C false [] sr er rnd1 R0 b ST) as FE.
  destruct (public_key_from_bytes_spec (firstn 32 b) LF) as [[LO _]|[NL _]].
  { inversion FE as [?|?|? ?|? NL']; subst; try lia; [|contradiction].
    match goal with H : Err _ = res _ |- _ => rename H into FR end.
    destruct (recv_message C R0 b) as [[s1 b1] r1]. unfold res in FR. cbn [snd] in FR. subst r1. cbn [snd].
    eapply pa_low; eassumption. }
  clear FE. pose proof (nx_responder C OK [] sr er rnd1 R0 b b ST KS KE ltac:(lia) NL ltac:(lia)) as NR. cbv zeta in NR.
  destruct NR as (p1 & p2 & m2 & RM & R2 & O2 & WM & CO & NR).
  destruct (recv_message C R0 b) as [[s1 b1] r1] eqn:RV. unfold res, st, out in R2, O2, CO, NR. cbn [fst snd] in R2, O2, CO, NR.
  subst r1 b1.
  destruct (ok_dec (snd (send_message C rnd1 s1 b))) as [R3|R3].
  2:{ assert (P : snd (nh_send C rnd1 s1 b) = Panic) by (apply nh_send_panic; exact R3).
      destruct (nh_send C rnd1 s1 b) as [s2 r2]. cbn [snd] in P. subst r2. cbn [snd].
      eapply pa_zero; [exact OV|exact RM|exact WM|]. right.
      destruct (in_dec bytes_dec zeros32 (sy_keys (p_sym p2))) as [I|I]; [exact I|]. contradiction (R3 (proj2 CO I)). }
  pose proof (proj1 CO R3) as NZ. destruct (NR R3) as (O3 & _ & _ & CS2).
  rewrite (nh_send_ok rnd1 s1 b R3). unfold st, out at 1. rewrite O3.
  set (s2 := fst (fst (send_message C rnd1 s1 b))) in *.
  unfold system_unix_time_to_u32.
  destruct (t1 <? 0)%Z eqn:T1; [cbn [snd]; apply pa_clock; left; lia|].
  destruct (t2 + 5 * 10 ^ 9 <? 0)%Z eqn:T2; [cbn [snd]; apply pa_clock; left; lia|].
  unfold nh_send_certificate.
  set (f := Z.to_N (t1 / 1000000000) mod 2 ^ 32). set (t := Z.to_N ((t2 + 5 * 10 ^ 9) / 1000000000) mod 2 ^ 32).
  assert (Ef : f = secs32 t1) by reflexivity. assert (Et : t = secs32 (t2 + 5 * 10 ^ 9)) by reflexivity.
  assert (Lt : t < 2 ^ 32) by (apply N.mod_lt; discriminate).
  clearbody f t.
  destruct (cert_new_exact 0 f t (kp_public sr)) as [C1 C2].
  destruct (N.le_gt_cases t f) as [W|W].
  { rewrite (C2 W). cbn [snd]. apply pa_clock. right. rewrite <- Ef, <- Et. exact W. }
  rewrite (C1 W). unfold from_auth_key, authority_sign_cert. rewrite ser_cert_bytes. cbn [obind ce_version ce_valid_from ce_not_valid_after ce_public_key].
  set (signed := to_le 2 0 ++ to_le 4 f ++ to_le 4 t ++ kp_public sr).
  set (m := mkSnm 0 f t (ed_sign E kp signed)).
  assert (SO : snm_ok m).
  { unfold snm_ok, m. cbn [sn_version sn_valid_from sn_not_valid_after sn_signature]. repeat split; [lia|exact Lt|apply (ed_sig_len E EOK)]. }
  destruct (snm_serialized m SO) as (enc & WE & HL & HR). unfold serialize. rewrite HR. cbn [app].
  assert (B : (1024 <? len enc) = false) by lia. rewrite B.
  set (buf := enc ++ repeat x00 (1024 - length enc)).
  assert (LZ : len buf = 1024).
  { unfold buf. rewrite len_app. unfold len in *. rewrite repeat_length. lia. }
  assert (MS : 2 <= se_mc s2 /\ se_i s2 = false).
  { destruct (send_mc C rnd1 s1 b) as (SI & SM & _). unfold res, st in SI, SM. destruct (SM R3) as (SM' & _).
    pose proof (recv_mc C R0 b) as RC. cbv zeta in RC. rewrite RV in RC. unfold res, st in RC. cbn [fst snd] in RC.
    destruct RC as (RI & RC & _). destruct (RC eq_refl) as (RC' & _). fold s2 in SI, SM'. rewrite SM', RC', SI, RI.
    split; [cbn; lia|reflexivity]. }
  destruct MS as [MS IS].
  assert (SC : snd_cs s2 = mkCS (snd (Split C (p_sym p2))) 0) by (unfold snd_cs; rewrite IS; exact CS2).
  set (k := snd (Split C (p_sym p2))) in *.
  assert (LK : len k = 32) by (unfold k, Split, HKDF; cbn [snd]; apply (HMAC_len C OK)).
  destruct (send_cases C rnd2 s2 buf MS) as [[Q _]|[[_ [Q _]]|[[_ [_ [Q X]]]|[_ [_ [NK X]]]]]].
  - lia.
  - rewrite SC in Q. discriminate Q.
  - assert (P : snd (nh_send C rnd2 s2 buf) = Panic) by (apply nh_send_panic; unfold res; rewrite X; discriminate).
    destruct (nh_send C rnd2 s2 buf) as [s3 r3]. cbn [snd] in P. subst r3. cbn [snd].
    eapply pa_zero; [exact OV|exact RM|exact WM|]. left. rewrite SC in Q. exact Q.
  - rewrite SC in X, NK. cbn [cs_k cs_n] in X, NK.
    assert (R4 : res (send_message C rnd2 s2 buf) = Ok tt) by (rewrite X; reflexivity).
    rewrite (nh_send_ok rnd2 s2 buf R4). rewrite X. unfold out. cbn [fst snd].
    rewrite sealed_spec by exact LK.
    eapply pa_answer with (b := b) (signed := signed) (m := m); [exact OV|exact NL|exact RM|exact WM| |lia|lia| | | |].
    + intros [I|I]; [apply NK; rewrite <- zeros32_eq; exact I|exact (NZ I)].
    + rewrite <- Ef, <- Et. exact W.
    + rewrite <- Ef, <- Et. apply wire_cert.
    + rewrite <- Ef, <- Et. reflexivity.
    + unfold buf, plaintext_of.
      assert (LE : length enc = 74%nat) by (unfold len in HL; lia).
      rewrite app_length, repeat_length, LE. change (74 + (1024 - 74) - 16)%nat with (74 + 934)%nat.
      rewrite <- LE at 1. rewrite firstn_app_2, wire_app, WE. reflexivity.
Qed.

Theorem pool_unique : forall sr er kp t1 t2 bs r r',
  pool_answers C E sr er kp t1 t2 bs r -> pool_answers C E sr er kp t1 t2 bs r' -> r = r'.
Proof.
  assert (NP : forall sr er kp t1 t2 bs x, pool_answers C E sr er kp t1 t2 bs Panic -> pool_answers C E sr er kp t1 t2 bs (Ok x) -> False).
  { intros * H H'. inversion H' as [| | |b p1 rest p2 m2 signed m plain OV NL RM WM NZ T1 T2 W WS Em WP]; subst.
    inversion H as [b' OV' LO|b' p1' rest' p2' m2' OV' RM' WM' ZZ|CL|]; subst;
      [rewrite (overlaid_unique _ _ _ _ OV' OV) in *; contradiction| |destruct CL; lia].
    rewrite (overlaid_unique _ _ _ _ OV' OV) in *. rewrite RM in RM'. injection RM' as <- <-. rewrite WM in WM'. injection WM' as <- <-.
    contradiction. }
  intros * H H'. destruct r as [x|e|]; destruct r' as [x'|e'|]; try (exfalso; inversion H; fail); try (exfalso; inversion H'; fail).
  - inversion H as [| | |b p1 rest p2 m2 signed m plain OV NL RM WM NZ T1 T2 W WS Em WP]; subst.
    inversion H' as [| | |b' p1' rest' p2' m2' signed' m' plain' OV' NL' RM' WM' NZ' T1' T2' W' WS' Em' WP']; subst.
    rewrite (overlaid_unique _ _ _ _ OV' OV) in *. rewrite RM in RM'. injection RM' as <- <-. rewrite WM in WM'. injection WM' as <- <-.
    rewrite <- WS in WS'. apply wire_inj in WS'. subst signed'. rewrite <- WP in WP'. apply wire_inj in WP'. subst plain'. reflexivity.
  - destruct (NP _ _ _ _ _ _ _ H' H).
  - destruct (NP _ _ _ _ _ _ _ H H').
  - reflexivity.
Qed.

(** ** What a printed [true] stands for *)
Lemma transport_true : forall text k key conns n old vs dead, transport C E text k key n old conns vs dead -> In true vs ->
  exists bs now b n' pt a m rest signed, In (bs, now) conns /\ n <= n' < 2 ^ 64 - 1 /\ len b = len old /\ firstn (length bs) b = firstn (length b) bs /\
    DECRYPT C k n' [] b = Some pt /\ base58 text a /\ snm_ok m /\ wire (pt ++ skipn (length b - 16) b) = snm_layout m ++ rest /\
    wire signed = cert_layout (sn_version m) (sn_valid_from m) (sn_not_valid_after m) key /\
    ed_verify E a signed (sn_signature m) = true /\ (0 <= now)%Z /\ secs32 now < sn_not_valid_after m.
Proof.
  intros text k key conns n old vs dead H. induction H as [| | |n old bs now conns b pt v vs dead OV N1 NZ DE OP TR IH]; intro I; try contradiction.
  destruct I as [->|I].
  - exists bs, now, b, n, pt. inversion OP as [| |a m rest A L V M W SC T|a m rest signed A L V M W SC T1 T2 SG VF]; subst.
    exists a, m, rest, signed. split; [left; reflexivity|]. split; [lia|]. split; [apply OV|].
    split; [|split; [exact DE|]; split; [exact A|]; split; [exact M|]; split; [exact W|]; split; [exact SG|]; split; [reflexivity|]; split; [exact T1|exact T2]].
    rewrite (overlaid_read _ _ _ OV) at 1. unfold read_into. 
    assert (LB : length b = length old) by (destruct OV as [Q _]; unfold len in Q; lia). rewrite LB.
    rewrite firstn_app, firstn_firstn. rewrite firstn_length.
    destruct (Nat.le_gt_cases (length bs) (length old)) as [Q|Q].
    + replace (length bs - Nat.min (length old) (length bs))%nat with 0%nat by lia. cbn [firstn]. rewrite app_nil_r.
      rewrite !firstn_all2 by lia. reflexivity.
    + rewrite (skipn_all2 old) by lia. rewrite firstn_nil, app_nil_r. f_equal. lia.
  - destruct (IH I) as (bs' & now' & b' & n' & pt' & a & m & rest & signed & I' & N' & L' & X).
    exists bs', now', b', n', pt', a, m, rest, signed. split; [right; exact I'|]. split; [lia|]. split; [|exact X].
    rewrite L'. pose proof DE as DE'. unfold DECRYPT in DE'. destruct (len b <? 16) eqn:E16; [discriminate|].
    pose proof (open_len C OK k (nonce96 n) [] (firstn (length b - 16) b) (skipn (length b - 16) b)) as OL.
    destruct (c_open C k (nonce96 n) [] _ _) as [ok q]. destruct ok; [|discriminate]. injection DE' as ->. cbn [snd] in OL.
    rewrite len_app, OL, len_firstn', len_skipn. destruct OV as [LO _]. unfold len in *. lia.
Qed.

Theorem true_means : forall pf text rsi rnd conns m1 vs dead, len rnd = 32 ->
  nh_miner_run C E pf text rsi rnd conns = Ok (m1, (vs, dead)) -> In true vs ->
  exists p1 bs0 now0 conns' b0 p2 key left,
    WriteMessage C (Initialize C true [] (mkKeypair rsi (c_pub C rsi)) (mkKeypair rnd (c_pub C rnd))) NX1 (repeat (b8 0) 992) = Some (p1, m1) /\
    conns = (bs0, now0) :: conns' /\ overlaid (repeat (b8 0) 1024) bs0 b0 /\ acceptable C p1 b0 p2 key left /\
    exists bs now b n pt a m rest signed, In (bs, now) conns' /\ len b = 1024 /\ firstn (length bs) b = firstn (length b) bs /\
      DECRYPT C (snd (Split C (p_sym p2))) n [] b = Some pt /\
      base58 text a /\ snm_ok m /\ wire (pt ++ skipn (length b - 16) b) = snm_layout m ++ rest /\
      wire signed = cert_layout (sn_version m) (sn_valid_from m) (sn_not_valid_after m) key /\
      ed_verify E a signed (sn_signature m) = true /\ (0 <= now)%Z /\ secs32 now < sn_not_valid_after m.
Proof.
  intros pf text rsi rnd conns m1 vs dead LR RUN I.
  destruct (miner_exact pf text rsi rnd conns LR) as (p1 & m1' & vs' & dead' & WM & RUN' & MD).
  rewrite RUN in RUN'. injection RUN' as <- <- <-. exists p1.
  inversion MD as [|bs0 now0 conns' b0 OV NA|bs0 now0 conns' b0 p2 key left vs'' dead'' OV AC TR]; subst; try contradiction.
  exists bs0, now0, conns', b0, p2, key, left. split; [exact WM|]. split; [reflexivity|]. split; [exact OV|]. split; [exact AC|].
  destruct (transport_true _ _ _ _ _ _ _ _ TR I) as (bs & now & b & n' & pt & a & m & rest & signed & X1 & _ & X2 & X3).
  exists bs, now, b, n', pt, a, m, rest, signed. split; [exact X1|]. split; [|exact X3].
  rewrite X2. destruct AC as (payload & RM & RK & NL & NK & NZ & ->).
  assert (LB : len b0 = 1024) by (destruct OV as [Q _]; rewrite Q; reflexivity).
  (* lengths of what the handshake leaves *)
  assert (LP : 96 + len payload = len b0 /\ len key = 32).
  { assert (ST : started C true [] (mkKeypair rsi (c_pub C rsi)) rnd (mkKeypair rnd (c_pub C rnd)) (new_outbound C rsi)) by (left; split; reflexivity).
    assert (L1 : 32 <= len (repeat x00 1024) <= 65535) by (rewrite len_zeros; lia).
    destruct (nx_write_1 C OK [] _ _ rnd true _ _ ST L1) as (q1 & E1 & _ & ss & h & c1 & c2 & _ & R & _ & P1 & P2 & P3 & P4 & P5 & P6).
    change (skipn 32 (repeat x00 1024)) with (repeat (b8 0) 992) in E1. rewrite WM in E1. injection E1 as <- _.
    pose proof (nx_read_2 C OK ss (mkKeypair rsi (c_pub C rsi)) (mkKeypair rnd (c_pub C rnd)) Z Z Z h c1 c2 false p1 b0 R P1 P5 ltac:(lia)) as X. cbv zeta in X.
    rewrite RM in X. destruct X as (X & CO & NI). split; [exact X|].
    rewrite P6 in CO. cbn [length] in CO. rewrite skipn_O in CO.
    assert (RO : res (recv_message C (mkSession (mkHS ss (mkKeypair rsi (c_pub C rsi)) (mkKeypair rnd (c_pub C rnd)) Z Z Z) h c1 c2 1 true false) b0) = Ok tt).
    { apply CO. split; [exact NL|]. split; [|exact NZ]. intros k Hk. rewrite RK in Hk. injection Hk as <-. exact NK. }
    destruct (NI RO) as (_ & _ & _ & RS & _). rewrite RK in RS. injection RS as ->.
    assert (LB96 : 96 <= len b0) by (rewrite LB; discriminate).
    exact (proj1 (left_exact (mkSession _ _ _ _ 1 _ _) b0 eq_refl LB96 RO)). }
  destruct LP as [LP LK]. rewrite !len_app, !len_firstn', !len_skipn, LK, LB. unfold len in *. lia.
Qed.

(** ** A connection that sends nothing *)
Lemma zeros_low : low_order (firstn 32 (read_into (repeat x00 1024) [])).
Proof. left. vm_compute. reflexivity. Qed.
Theorem miner_stopped : forall pf text rsi rnd now conns, len rnd = 32 ->
  exists m1, nh_miner_run C E pf text rsi rnd (([], now) :: conns) = Ok (m1, ([], true)).
Proof.
  intros pf text rsi rnd now conns LR. destruct (miner_exact pf text rsi rnd (([], now) :: conns) LR) as (p1 & m1 & vs & dead & _ & -> & MD).
  exists m1. inversion MD as [|bs0 now0 conns' b0 OV NA|bs0 now0 conns' b0 p2 key left vs'' dead'' OV AC TR]; subst; [reflexivity|exfalso].
  destruct AC as (payload & _ & _ & NL & _). apply NL. rewrite (overlaid_read _ _ _ OV). rewrite <- zeros_repeat. exact zeros_low.
Qed.
Theorem pool_stopped : forall rnd1 rnd2 rsr sr kp t1 t2, ed_ok E -> keypair_ok sr -> len rnd1 = 32 ->
  nh_pool_run C E rnd1 rnd2 rsr sr kp t1 t2 [] = Panic.
Proof.
  intros rnd1 rnd2 rsr sr kp t1 t2 EOK KS LR. eapply pool_unique; [apply noise_pool_exact; assumption|].
  eapply pa_low; [apply read_overlaid|]. rewrite <- zeros_repeat. exact zeros_low.
Qed.

(** ** When the pool does answer *)
Lemma clock_fine : forall t1 t2, (0 <= t1 <= t2)%Z -> (t2 + 5 * 10 ^ 9 < 2 ^ 32 * 10 ^ 9)%Z -> secs32 t1 < secs32 (t2 + 5 * 10 ^ 9).
Proof.
  intros t1 t2 T1 T2. unfold secs32.
  pose proof (Z.div_le_mono t1 t2 (10 ^ 9) ltac:(lia) ltac:(lia)) as M.
  pose proof (Z.div_pos t1 (10 ^ 9) ltac:(lia) ltac:(lia)) as P.
  rewrite Z.div_add by lia.
  assert (U : (t2 / 10 ^ 9 + 5 < 2 ^ 32)%Z).
  { rewrite <- Z.div_add by lia. apply Z.div_lt_upper_bound; lia. }
  rewrite !N.mod_small by lia. lia.
Qed.
Theorem pool_survives : forall rnd1 rnd2 rsr sr kp t1 t2 bs b p1 rest p2 m2, ed_ok E -> keypair_ok sr -> len rnd1 = 32 ->
  overlaid (repeat (b8 0) 1024) bs b -> ~ low_order (firstn 32 b) ->
  ReadMessage C (Initialize C false [] sr (mkKeypair rnd1 (c_pub C rnd1))) NX1 b = Some (p1, rest) ->
  WriteMessage C p1 NX2 (payload2 b) = Some (p2, m2) -> ~ In zeros32 (snd (Split C (p_sym p2)) :: sy_keys (p_sym p2)) ->
  (0 <= t1 <= t2)%Z -> (t2 + 5 * 10 ^ 9 < 2 ^ 32 * 10 ^ 9)%Z ->
  exists m3, nh_pool_run C E rnd1 rnd2 rsr sr kp t1 t2 bs = Ok (m2, m3).
Proof.
  intros rnd1 rnd2 rsr sr kp t1 t2 bs b p1 rest p2 m2 EOK KS LR OV NL RM WM NZ T1 T2.
  pose proof (noise_pool_exact rnd1 rnd2 rsr sr kp t1 t2 bs EOK KS LR) as P. cbv zeta in P.
  destruct (nh_pool_run C E rnd1 rnd2 rsr sr kp t1 t2 bs) as [[m2' m3]|e|] eqn:R; [|inversion P|exfalso].
  - inversion P as [| | |b' p1' rest' p2' m2'' signed m plain OV' NL' RM' WM' NZ' T1' T2' W' WS' Em' WP']; subst.
    rewrite (overlaid_unique _ _ _ _ OV' OV) in *. rewrite RM in RM'. injection RM' as <- <-. rewrite WM in WM'. injection WM' as <- <-.
    eexists. reflexivity.
  - pose proof (clock_fine t1 t2 T1 T2) as CF.
    inversion P as [b' OV' LO|b' p1' rest' p2' m2' OV' RM' WM' ZZ|CL|]; subst;
      [rewrite (overlaid_unique _ _ _ _ OV' OV) in *; contradiction| |destruct CL; lia].
    rewrite (overlaid_unique _ _ _ _ OV' OV) in *. rewrite RM in RM'. injection RM' as <- <-. rewrite WM in WM'. injection WM' as <- <-.
    contradiction.
Qed.

(** ** The two programs with each other *)
Lemma skipn_zeros : forall (x : byte) n k, skipn k (repeat x n) = repeat x (n - k).
Proof. induction n as [|n IH]; intros [|k]; cbn; try reflexivity. apply IH. Qed.
Lemma read_into_zeros : forall bs, read_into (repeat x00 1024) bs = read_1024 bs.
Proof.
  intro bs. unfold read_into, read_1024. rewrite repeat_length. f_equal. apply skipn_zeros.
Qed.
Lemma read_into_full : forall old bs, len old = len bs -> read_into old bs = bs.
Proof.
  intros old bs L. unfold read_into. assert (L' : length old = length bs) by (unfold len in L; lia).
  rewrite L', firstn_all, skipn_all2, app_nil_r by lia. reflexivity.
Qed.
Theorem programs_agree : ed_ok E -> forall sr rsi rsr rnd1 rnd2 rnd3 kp text t1 t2,
  let si := mkKeypair rsi (c_pub C rsi) in
  let ei := mkKeypair rnd1 (c_pub C rnd1) in
  let er := mkKeypair rnd2 (c_pub C rnd2) in
  usable_keys C si sr ei er ->
  let m1 := kp_public ei ++ repeat x00 992 in
  ~ In zeros32 (nx_keys C [] sr er m1 (payload2 m1)) ->
  ~ In zeros32 (nx_transport_keys C [] sr er m1 (payload2 m1)) ->
  ed_pair E kp -> base58 text (ek_public kp) ->
  (0 <= t1)%Z -> (0 <= t2)%Z -> secs32 t1 < secs32 (t2 + 5 * 10 ^ 9) ->
  exists m2 m3, nh_pool_run C E rnd2 rnd3 rsr sr kp t1 t2 m1 = Ok (m2, m3) /\
    forall pf now now', nh_miner_run C E pf text rsi rnd1 [(m2, now); (m3, now')] =
      Ok (m1, ([(0 <=? now')%Z && (secs32 now' <? secs32 (t2 + 5 * 10 ^ 9))], false)).
Proof.
  intros EOK sr rsi rsr rnd1 rnd2 rnd3 kp text t1 t2 si ei er HO m1 NK NT EP B58 T1 T2 W.
  destruct (noise_flow C OK E EOK sr rsi rsr rnd1 rnd2 rnd3 kp text t1 t2 HO NK NT EP B58 T1 T2 W) as (I1 & R & m2 & m3 & I2 & S1 & PR & MR).
  fold ei er m1 in S1, PR.
  assert (PL : nh_pool_run C E rnd2 rnd3 rsr sr kp t1 t2 m1 = Ok (m2, m3)) by (unfold nh_pool_run; rewrite read_into_zeros, PR; reflexivity).
  exists m2, m3. split; [exact PL|]. intros pf now now'.
  assert (L3 : len m3 = 1024).
  { destruct HO as [_ KS _ KE _ _ _ _ _ _ _].
    pose proof (noise_pool_exact rnd2 rnd3 rsr sr kp t1 t2 m1 EOK KS (proj1 KE)) as P. cbv zeta in P. rewrite PL in P.
    inversion P as [| | |b p1 rest p2 m2' signed m plain OV NL RM WM NZ T1' T2' W' WS Em WP]; subst.
    rewrite (enc_len C OK). apply (f_equal len) in WP. rewrite len_wire in WP. rewrite WP.
    unfold snm_layout. rewrite !len_app, !MsgProofs.len_spec_le, len_wire. cbn [sn_signature]. rewrite (ed_sig_len E EOK kp signed). unfold len. rewrite repeat_length. reflexivity. }
  unfold nh_miner_run. rewrite S1. cbn [obind nh_miner_listen].
  destruct (MR pf now) as [MA _]. destruct (MR pf now') as [_ [I3 MB]].
  rewrite read_into_zeros. pose proof (recv_len C OK I1 (read_1024 m2)) as LA.
  destruct (recv_message C I1 (read_1024 m2)) as [[sa ba] ra] eqn:RA. unfold out in LA. cbn [fst snd] in LA.
  rewrite MA. rewrite read_into_full by (rewrite LA, L3, <- read_into_zeros, read_into_len; reflexivity).
  assert (R3 : read_1024 m3 = m3) by (rewrite <- read_into_zeros; apply read_into_full; rewrite len_zeros, L3; reflexivity).
  rewrite R3 in MB. destruct (recv_message C I2 m3) as [[sb bb] rb]. rewrite MB. reflexivity.
Qed.
End Miner.

(** ** Samples *)
Lemma ex_programs : exists m2 m3, nh_pool_run demo_crypto (demo_ed true) k_er [] [] d_sr d_kp (1600000000 * 10 ^ 9)%Z (1600000000 * 10 ^ 9)%Z de_m1 = Ok (m2, m3) /\
  nh_miner_run demo_crypto (demo_ed true) Debug d_text k_si k_ei [(m2, (1600000000 * 10 ^ 9)%Z); (m3, (1600000001 * 10 ^ 9)%Z)] = Ok (de_m1, ([true], false)).
Proof.
  destruct (programs_agree demo_crypto demo_ok (demo_ed true) (demo_ed_ok true) d_sr k_si [] k_ei k_er [] d_kp d_text
              (1600000000 * 10 ^ 9)%Z (1600000000 * 10 ^ 9)%Z de_usable de_keys de_tkeys (CertProofs.demo_pair true)) as (m2 & m3 & P & M).
  - apply (proj1 (base58_from_spec d_text)). vm_compute. reflexivity.
  - lia.
  - lia.
  - vm_compute. reflexivity.
  - exists m2, m3. split; [exact P|]. rewrite M. reflexivity.
Qed.
Lemma ex_pool : ed_ok (demo_ed true) /\ keypair_ok d_sr /\ len k_er = 32 /\ exists m2 m3,
  nh_pool_run demo_crypto (demo_ed true) k_er [] [] d_sr d_kp (1600000000 * 10 ^ 9)%Z (1600000000 * 10 ^ 9)%Z de_m1 = Ok (m2, m3).
Proof.
  split; [apply demo_ed_ok|]. split; [split; reflexivity|]. split; [reflexivity|].
  destruct ex_programs as (m2 & m3 & P & _). exists m2, m3. exact P.
Qed.
Theorem stray_refuted : exists C E pf text rsi rnd conns m1 vs,
  crypto_ok C /\ ed_ok E /\ nh_miner_run C E pf text rsi rnd conns = Ok (m1, (vs, true)).
Proof.
  destruct (miner_stopped demo_crypto demo_ok (demo_ed true) Debug d_text k_si k_ei 0%Z [] eq_refl) as [m1 M].
  exists demo_crypto, (demo_ed true), Debug, d_text, k_si, k_ei, [([], 0%Z)], m1, [].
  split; [exact demo_ok|]. split; [apply demo_ed_ok|exact M].
Qed.
Lemma ex_survives : exists b p1 rest p2 m2, overlaid (repeat (b8 0) 1024) de_m1 b /\ ~ low_order (firstn 32 b) /\
  ReadMessage demo_crypto (Initialize demo_crypto false [] d_sr (mkKeypair k_er (c_pub demo_crypto k_er))) NX1 b = Some (p1, rest) /\
  WriteMessage demo_crypto p1 NX2 (payload2 b) = Some (p2, m2) /\
  ~ In zeros32 (snd (Split demo_crypto (p_sym p2)) :: sy_keys (p_sym p2)) /\
  (1600000000 * 10 ^ 9 + 5 * 10 ^ 9 < 2 ^ 32 * 10 ^ 9)%Z.
Proof.
  destruct ex_pool as (EO & KS & LR & x & y & RUN).
  pose proof (noise_pool_exact demo_crypto demo_ok (demo_ed true) k_er [] [] d_sr d_kp (1600000000 * 10 ^ 9)%Z (1600000000 * 10 ^ 9)%Z de_m1 EO KS LR) as P.
  cbv zeta in P. rewrite RUN in P.
  inversion P as [| | |b p1 rest p2 m2 signed m plain OV NL RM WM NZ T1 T2 W WS Em WP].
  do 5 eexists. split; [exact OV|]. split; [exact NL|]. split; [exact RM|]. split; [exact WM|]. split; [exact NZ|lia].
Qed.
