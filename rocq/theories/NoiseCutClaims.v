(** * NoiseCutClaims: the lemmas of [NoiseCutProofs] in terms of the Noise specification. *)
From Coq Require Import Arith Lia ZArith ZifyBool ZifyNat ZifyN.
From Verif Require MsgProofs.
From Verif Require Import Base Codec Types Certs SpecWire SpecTypes SpecCerts BaseFacts CodecFacts Base58Facts CertProofs Noise SpecNoise SpecSession NoiseFacts
  FrameProofs HandshakeProofs NoiseSamples NetworkProofs NxProofs SessionProofs NetProofs RecvProofs NoiseClaims SessionClaims Network SpecNetwork Apps AppProofs SpecReply ReplyProofs BindingProofs SpecMiner MinerProofs ActiveProofs Mains SpecMains MainProofs NoiseMainProofs Cuts CutRunProofs NoiseCuts SpecNoiseCuts NoiseCutProofs.
Local Open Scope N_scope.
Local Open Scope list_scope.

Section Whole.
Variables (C : crypto) (E : ed_ops).
Hypotheses (OK : crypto_ok C) (EOK : ed_ok E).
Variables (sr : keypair) (rsi rsr rnd1 rnd2 rnd3 : bytes) (kp : ed_keypair) (text : bytes).
Hypotheses (KS : keypair_ok sr) (L1 : len rnd1 = 32) (L2 : len rnd2 = 32).
Variables (pf : profile) (clock clock' : nat -> system_time).
Hypothesis K : clock_ok clock clock'.
Let si := mkKeypair rsi (c_pub C rsi).
Let ei := mkKeypair rnd1 (c_pub C rnd1).
Let er := mkKeypair rnd2 (c_pub C rnd2).
Let zs : bytes := repeat x00 1024.
Let main (es : list happening) := nc_main C E pf rsi rnd1 rnd2 rnd3 rsr sr kp text clock clock' es.

Lemma first_message : exists sm p1 m1, nh_send C rnd1 (new_outbound C rsi) zs = (sm, Ok m1) /\
  WriteMessage C (Initialize C true [] si ei) NX1 (repeat (b8 0) 992) = Some (p1, m1) /\ m1 = c_pub C rnd1 ++ repeat (b8 0) 992 /\ m1 <> [] /\
  forall conns vs dead, nh_miner_listen C E pf text sm zs conns = (vs, dead) -> miner_does C E text p1 conns vs dead.
Proof.
  destruct (miner_exact C OK E pf text rsi rnd1 [] L1) as (p1 & m1 & vs0 & dead0 & W & R & _). fold si ei in W.
  unfold nh_miner_run in R. fold zs in R. destruct (nh_send C rnd1 (new_outbound C rsi) zs) as [sm r] eqn:S.
  destruct r as [x| |]; [|discriminate R|discriminate R]. cbn [obind] in R. assert (x = m1) as -> by congruence.
  exists sm, p1, m1. split; [reflexivity|]. split; [exact W|].
  assert (F : m1 = c_pub C rnd1 ++ repeat (b8 0) 992).
  { pose proof W as W'. generalize dependent (repeat (b8 0) 992). clear. intros pl _ W'. unfold WriteMessage, NX1 in W'. cbn [write_tokens Initialize p_sym p_e kp_public ei] in W'.
    unfold EncryptAndHash in W'. cbn [with_sym p_sym MixHash sy_k InitializeSymmetric] in W'. cbv iota in W'. rewrite app_nil_r in W'. injection W' as _ <-. reflexivity. }
  split; [exact F|]. split.
  - intro Q. rewrite Q in F. apply (f_equal (@length byte)) in F. rewrite app_length, repeat_length in F. change (length (@nil byte)) with 0%nat in F. lia.
  - intros conns vs dead LI. destruct (miner_exact C OK E pf text rsi rnd1 conns L1) as (p1' & m1' & vs' & dead' & W' & R' & MD). fold si ei in W'.
    rewrite W in W'. injection W' as <- <-. unfold nh_miner_run in R'. fold zs in R'. rewrite S in R'. cbn [obind] in R'. rewrite LI in R'.
    injection R' as <- <-. exact MD.
Qed.

Lemma certificate_made : forall i, exists buf, nh_certificate E sr kp (clock i) (clock' i) = Some buf /\ len buf = 1024.
Proof.
  intro i. destruct (K i) as [Ki Bi]. pose proof (proj2 (in_time_eq clock clock' K i i)) as W. unfold nh_certificate, system_unix_time_to_u32.
  destruct (clock i <? 0)%Z eqn:T1; [lia|]. destruct (clock' i + 5 * 10 ^ 9 <? 0)%Z eqn:T2; [lia|].
  set (f := Z.to_N (clock i / 1000000000) mod 2 ^ 32). set (t := Z.to_N ((clock' i + 5 * 10 ^ 9) / 1000000000) mod 2 ^ 32).
  assert (Ef : f = secs32 (clock i)) by reflexivity. assert (Et : t = secs32 (clock' i + 5 * 10 ^ 9)) by reflexivity.
  assert (Lt : t < 2 ^ 32) by (apply N.mod_lt; discriminate). rewrite <- Ef, <- Et in W. clearbody f t.
  destruct (cert_new_exact 0 f t (kp_public sr)) as [C1 _]. rewrite (C1 W).
  unfold from_auth_key, authority_sign_cert. rewrite ser_cert_bytes. cbn [obind ce_version ce_valid_from ce_not_valid_after ce_public_key].
  set (signed := to_le 2 0 ++ to_le 4 f ++ to_le 4 t ++ kp_public sr). set (m := mkSnm 0 f t (ed_sign E kp signed)).
  assert (SO : snm_ok m).
  { unfold snm_ok, m. cbn [sn_version sn_valid_from sn_not_valid_after sn_signature]. repeat split; [lia|exact Lt|apply (ed_sig_len E EOK)]. }
  destruct (snm_serialized m SO) as (enc & WE & HL & HR). unfold serialize. rewrite HR. cbn [app].
  assert (B : (1024 <? len enc) = false) by lia. rewrite B. eexists. split; [reflexivity|].
  rewrite len_app. unfold len in *. rewrite repeat_length. lia.
Qed.

Lemma first_ephemeral : forall s e b p1 rest, ReadMessage C (Initialize C false [] s e) NX1 b = Some (p1, rest) -> keypair_ok e -> len (kp_public (p_e p1)) = 32.
Proof.
  intros s e b p1 rest RM KE. unfold ReadMessage, NX1 in RM. cbn [read_tokens] in RM. destruct (len b <? 32); [discriminate|].
  unfold DecryptAndHash in RM. cbn [with_sym p_sym MixHash sy_k Initialize InitializeSymmetric] in RM. cbv iota in RM. injection RM as <- _.
  exact (proj2 KE).
Qed.
Lemma written2_some : forall p1 pl p2 m2, WriteMessage C p1 NX2 pl = Some (p2, m2) -> len (kp_public (p_e p1)) = 32 -> m2 <> [].
Proof.
  intros p1 pl p2 m2 WM LE Q. subst m2. unfold WriteMessage, NX2 in WM.
  assert (G : forall ts q out, write_tokens C p1 (TE :: ts) = Some (q, out) -> out <> []).
  { intros ts q out W. cbn [write_tokens] in W. destruct (write_tokens C _ ts) as [[q' out']|]; [|discriminate W]. injection W as _ <-.
    intro Q. apply (f_equal len) in Q. rewrite len_app, LE in Q. unfold len in Q. cbn [length] in Q. lia. }
  match type of WM with context [write_tokens C p1 (TE :: ?ts)] => destruct (write_tokens C p1 (TE :: ts)) as [[q out]|] eqn:W; [|discriminate WM] end.
  destruct (EncryptAndHash C (p_sym q) pl) as [s ct]. injection WM as _ WM. apply app_eq_nil in WM. exact (G _ _ _ W (proj1 WM)).
Qed.

(** What the pool does with the first [k] bytes. *)
Lemma reply_spec : forall bs s1 b1 u, recv_message C (new_inbound C (Some sr) rsr) (read_into zs bs) = (s1, b1, Ok u) ->
  exists b p1 rest p2 m2, overlaid (repeat (b8 0) 1024) bs b /\ ~ low_order (firstn 32 b) /\ ReadMessage C (Initialize C false [] sr er) NX1 b = Some (p1, rest) /\
    WriteMessage C p1 NX2 (payload2 b) = Some (p2, m2) /\
    ((In zeros32 (sy_keys (p_sym p2)) /\ forall s2 m, nh_send C rnd2 s1 b1 <> (s2, Ok m)) \/
     (~ In zeros32 (sy_keys (p_sym p2)) /\ exists s2, nh_send C rnd2 s1 b1 = (s2, Ok m2) /\ m2 <> [] /\
        (forall buf, len buf = 1024 -> forall s3 m3, nh_send C rnd3 s2 buf = (s3, Ok m3) -> m3 <> []) /\
        forall buf, len buf = 1024 -> ((forall s3 m3, nh_send C rnd3 s2 buf <> (s3, Ok m3)) <-> snd (Split C (p_sym p2)) = zeros32))).
Proof.
  intros bs s1 b1 u RV0. pose proof (read_overlaid zs bs) as OV.
  set (b := read_into zs bs) in *. unfold zs in OV. rewrite zeros_repeat in OV.
  assert (LB : len b = 1024) by (unfold b; rewrite read_into_len; exact len_zeros).
  set (R0 := new_inbound C (Some sr) rsr) in *.
  assert (ST : started C false [] sr rnd2 er R0) by (left; split; reflexivity).
  assert (KE : keypair_ok er) by (split; [exact L2|apply (pub_len C OK)]).
  assert (LF : len (firstn 32 b) = 32) by (rewrite len_firstn', LB; reflexivity).
  pose proof (first_exact C false [] sr er rnd2 R0 b ST) as FE.
  destruct (public_key_from_bytes_spec (firstn 32 b) LF) as [[LO _]|[NL _]].
  { exfalso. inversion FE as [?|?|? ?|? NL']; subst; try lia; [|contradiction].
    match goal with H : Err _ = res _ |- _ => rename H into FR end. rewrite RV0 in FR. discriminate FR. }
  clear FE. pose proof (nx_responder C OK [] sr er rnd2 R0 b b ST KS KE ltac:(lia) NL ltac:(lia)) as NR. cbv zeta in NR.
  destruct NR as (p1 & p2 & m2 & RM & R2 & O2 & WM & CO & NR).
  destruct (recv_message C R0 b) as [[s1' b1'] r1] eqn:RV. unfold res, st, out in R2, O2, CO, NR. cbn [fst snd] in R2, O2, CO, NR.
  injection RV0 as -> -> ->. subst b1.
  exists b, p1. eexists. exists p2, m2. split; [exact OV|]. split; [exact NL|]. split; [exact RM|]. split; [exact WM|].
  destruct (ok_dec (snd (send_message C rnd2 s1 b))) as [R3|R3].
  2:{ left. split.
      - destruct (in_dec bytes_dec zeros32 (sy_keys (p_sym p2))) as [I|I]; [exact I|]. contradiction (R3 (proj2 CO I)).
      - intros s2 m Q. assert (P : snd (nh_send C rnd2 s1 b) = Panic) by (apply nh_send_panic; exact R3). rewrite Q in P. discriminate P. }
  right. pose proof (proj1 CO R3) as NZ. split; [exact NZ|]. destruct (NR R3) as (O3 & _ & _ & CS2).
  rewrite (nh_send_ok C rnd2 s1 b R3). unfold st, out at 1. rewrite O3.
  set (s2 := fst (fst (send_message C rnd2 s1 b))) in *. exists s2. split; [reflexivity|]. split; [exact (written2_some _ _ _ _ WM (first_ephemeral _ _ _ _ _ RM KE))|].
  assert (MS : 2 <= se_mc s2 /\ se_i s2 = false).
  { destruct (send_mc C rnd2 s1 b) as (SI & SM & _). unfold res, st in SI, SM. destruct (SM R3) as (SM' & _).
    pose proof (recv_mc C R0 b) as RC. cbv zeta in RC. rewrite RV in RC. unfold res, st in RC. cbn [fst snd] in RC.
    destruct RC as (RI & RC & _). destruct (RC R2) as (RC' & _). fold s2 in SI, SM'. rewrite SM', RC', SI, RI.
    split; [cbn; lia|reflexivity]. }
  destruct MS as [MS IS].
  assert (SC : snd_cs s2 = mkCS (snd (Split C (p_sym p2))) 0) by (unfold snd_cs; rewrite IS; exact CS2).
  split.
  { intros buf LZ s3 m3 F. destruct (send_cases C rnd3 s2 buf MS) as [[Q X]|[[_ [Q X]]|[[_ [_ [Q X]]]|[_ [_ [NK X]]]]]];
      unfold nh_send in F; rewrite X in F; try discriminate F. apply (f_equal snd) in F. cbn [snd] in F. injection F as <-.
    intro Q. apply (f_equal len) in Q. rewrite (sealed_len C OK) in Q. change (len (@nil byte)) with 0 in Q. lia. }
  intros buf LZ. split.
  2:{ intros ZK s3 m3 F. destruct (send_cases C rnd3 s2 buf MS) as [[_ X]|[[_ [_ X]]|[[_ [_ [_ X]]]|[_ [_ [NK X]]]]]];
        unfold nh_send in F; rewrite X in F; try discriminate F. rewrite SC in NK. apply NK. exact ZK. }
  intro F. destruct (send_cases C rnd3 s2 buf MS) as [[Q _]|[[_ [Q _]]|[[_ [_ [Q X]]]|[_ [_ [NK X]]]]]].
  - lia.
  - rewrite SC in Q. discriminate Q.
  - rewrite SC in Q. exact Q.
  - exfalso. assert (R4 : res (send_message C rnd3 s2 buf) = Ok tt) by (rewrite X; reflexivity).
    apply (F _ _ (nh_send_ok C rnd3 s2 buf R4)).
Qed.

(** The pieces of the pool's program put together. *)
Lemma pool_whole : forall t1 t2 bs s1 b1 u s2 m2 buf s3 m3, recv_message C (new_inbound C (Some sr) rsr) (read_into zs bs) = (s1, b1, Ok u) ->
  nh_send C rnd2 s1 b1 = (s2, Ok m2) -> nh_certificate E sr kp t1 t2 = Some buf -> nh_send C rnd3 s2 buf = (s3, Ok m3) ->
  nh_pool_run C E rnd2 rnd3 rsr sr kp t1 t2 bs = Ok (m2, m3).
Proof.
  intros t1 t2 bs s1 b1 u s2 m2 buf s3 m3 H1 H2 H3 H4. unfold nh_pool_run, nh_pool_recv. fold zs. rewrite H1, H2. unfold nh_certificate in H3.
  destruct (system_unix_time_to_u32 t1) as [vf| |]; [|discriminate H3|discriminate H3].
  destruct (system_unix_time_to_u32 (t2 + 5 * 10 ^ 9)%Z) as [nva| |]; [|discriminate H3|discriminate H3].
  unfold nh_send_certificate. destruct (cert_new 0 vf nva (kp_public sr)) as [cert| |]; [|discriminate H3|discriminate H3].
  destruct (obind (from_auth_key E kp cert) (fun m => serialize (ser_snm m))) as [enc| |]; [|discriminate H3|discriminate H3].
  destruct (1024 <? len enc); [discriminate H3|]. assert (T : forall (x y : bytes), Some x = Some y -> y = x) by (intros x y H; injection H as ->; reflexivity).
  rewrite (T _ _ H3) in H4. rewrite H4. reflexivity.
Qed.
Lemma certified_len : forall i buf, certified E sr kp clock clock' i buf -> len buf = 1024.
Proof. intros i buf H. destruct (certificate_made i) as (buf' & A & L). unfold certified in H. rewrite A in H. injection H as <-. exact L. Qed.
Lemma replied_spec : forall m1 k s2 m2, replied C rnd2 rsr sr m1 k s2 m2 ->
  (1 <= k)%nat /\ exists s1 b1 u, recv_message C (new_inbound C (Some sr) rsr) (read_into zs (firstn k m1)) = (s1, b1, Ok u) /\ nh_send C rnd2 s1 b1 = (s2, Ok m2).
Proof. intros m1 k s2 m2 (s1 & b1 & (L & u & A) & B). split; [exact L|]. exists s1, b1, u. split; assumption. Qed.
Lemma full2 : forall m1 k s2 m2, replied C rnd2 rsr sr m1 k s2 m2 -> m2 <> [].
Proof.
  intros m1 k s2 m2 H. apply replied_spec in H. destruct H as (_ & s1 & b1 & u & A & B).
  destruct (reply_spec _ _ _ _ A) as (b & p1 & rest & p2 & m2' & _ & _ & _ & _ & [[_ N]|(_ & s2' & S & N & _)]); [contradiction (N _ _ B)|].
  rewrite B in S. injection S as _ ->. exact N.
Qed.
Lemma full3 : forall m1 k s2 m2 i buf s3 m3, replied C rnd2 rsr sr m1 k s2 m2 -> certified E sr kp clock clock' i buf ->
  nh_send C rnd3 s2 buf = (s3, Ok m3) -> m3 <> [].
Proof.
  intros m1 k s2 m2 i buf s3 m3 H Z0 S3. apply replied_spec in H. destruct H as (_ & s1 & b1 & u & A & B). apply certified_len in Z0.
  destruct (reply_spec _ _ _ _ A) as (b & p1 & rest & p2 & m2' & _ & _ & _ & _ & [[_ N]|(_ & s2' & S & _ & N & _)]); [contradiction (N _ _ B)|].
  rewrite B in S. injection S as -> ->. exact (N buf Z0 _ _ S3).
Qed.
Lemma sends_spec : forall m1 i k l, sends C E rnd2 rnd3 rsr sr kp clock clock' m1 i k l ->
  pool_sends C E sr er kp (clock i) (clock' i) (firstn k m1) l.
Proof.
  intros m1 i k l H. destruct H as [s2 m2 buf s3 m3 R CE S3|s2 m2 buf R CE S3|s1 b1 (L & u & R) S2].
  - apply replied_spec in R. destruct R as (_ & s1 & b1 & u & A & B). apply ps_all. 
    pose proof (noise_pool_exact C OK E rnd2 rnd3 rsr sr kp (clock i) (clock' i) (firstn k m1) EOK KS L2) as P. cbv zeta in P.
    rewrite (pool_whole _ _ _ _ _ _ _ _ _ _ _ A B CE S3) in P. exact P.
  - apply replied_spec in R. destruct R as (_ & s1 & b1 & u & A & B). apply certified_len in CE.
    destruct (reply_spec _ _ _ _ A) as (b & p1 & rest & p2 & m2' & OV & NL & RM & WM & [[_ N]|(NZ & s2' & S & _ & _ & N)]); [contradiction (N _ _ B)|].
    rewrite B in S. injection S as <- <-. exact (ps_half C E sr er kp _ _ _ b p1 rest p2 m2 OV NL RM WM NZ (proj1 (N buf CE) S3)).
  - fold zs in R. destruct (reply_spec _ _ _ _ R) as (b & p1 & rest & p2 & m2' & OV & NL & RM & WM & [[Z0 _]|(NZ & s2' & S & _)]); [|contradiction (S2 _ _ S)].
    exact (ps_none C E sr er kp _ _ _ b p1 rest p2 m2' OV NL RM WM Z0).
Qed.
Lemma made : forall i, exists buf, certified E sr kp clock clock' i buf.
Proof. intro i. destruct (certificate_made i) as (buf & A & _). exists buf. exact A. Qed.

(** C145, any sequence at all. *)
Theorem noise_pieces : forall es, exists p1 m1, WriteMessage C (Initialize C true [] si ei) NX1 (repeat (b8 0) 992) = Some (p1, m1) /\
  let w := main es in
  (printed (cw_miner w) = [] /\ nc_over w = false) \/
  (cw_miner w = NM_dead [] /\ cw_to_pool w = None) \/
  exists i k l conns, (1 <= k)%nat /\ pool_sends C E sr er kp (clock i) (clock' i) (firstn k m1) l /\ delivered clock i l conns /\
    miner_does C E text p1 conns (printed (cw_miner w)) (nc_over w).
Proof.
  intro es. destruct first_message as (sm & p1 & m1 & S & W & F & N & MD). exists p1, m1. split; [exact W|].
  destruct (any_run C E pf rsi rnd1 rnd2 rnd3 rsr sr kp text clock clock' sm m1 S N made es) as [H|[H|(i & k & l & conns & L & SE & DE & LI)]].
  - left. exact H.
  - right. left. exact H.
  - right. right. exists i, k, l, conns. split; [exact L|]. split; [apply sends_spec; exact SE|]. split; [exact DE|]. apply MD. exact LI.
Qed.
Theorem noise_pieces_every : forall ns js ks p1 m1 m2 m3, WriteMessage C (Initialize C true [] si ei) NX1 (repeat (b8 0) 992) = Some (p1, m1) ->
  (1 <= list_sum ns)%nat -> (1 <= list_sum js)%nat -> (1 <= list_sum ks)%nat ->
  pool_answers C E sr er kp (clock (made_at ns)) (clock' (made_at ns)) (firstn (list_sum ns) m1) (Ok (m2, m3)) ->
  let w := main (to_answers ns ++ to_verdict js ks) in
  miner_does C E text p1 [(firstn (list_sum js) m2, clock (heard_at ns js)); (firstn (list_sum ks) m3, clock (read_at ns js ks))] (printed (cw_miner w)) (nc_over w).
Proof.
  intros ns js ks p1 m1 m2 m3 W A B D PA. destruct first_message as (sm & p1' & m1' & S & W' & F & N & MD). rewrite W in W'. injection W' as <- <-.
  pose proof (noise_pool_exact C OK E rnd2 rnd3 rsr sr kp (clock (made_at ns)) (clock' (made_at ns)) (firstn (list_sum ns) m1) EOK KS L2) as P. cbv zeta in P. fold er in P.
  pose proof (pool_unique _ _ _ _ _ _ _ _ _ _ P PA) as Q. destruct (pool_parts _ _ _ _ _ _ _ _ _ _ _ _ Q) as (s1 & b1 & u & s2 & buf & s3 & H1 & H2 & H3 & H4).
  assert (R : replied C rnd2 rsr sr m1 (list_sum ns) s2 m2) by (exists s1, b1; split; [split; [exact A|exists u; exact H1]|exact H2]).
  apply MD. apply (verdict_run C E pf rsi rnd1 rnd2 rnd3 rsr sr kp text clock clock' sm m1 S N made ns js ks s2 m2 buf s3 m3 A B D); try assumption.
  - exact (full2 _ _ _ _ R).
  - exact (full3 _ _ _ _ _ _ _ _ R H3 H4).
Qed.
(** The pool accepts every first message whose key is not of low order. *)
Lemma pool_takes : forall bs b, overlaid (repeat (b8 0) 1024) bs b -> ~ low_order (firstn 32 b) ->
  exists s1 b1 u, recv_message C (new_inbound C (Some sr) rsr) (read_into zs bs) = (s1, b1, Ok u).
Proof.
  intros bs b OV NL. assert (Q : b = read_into zs bs) by (rewrite <- zeros_repeat in OV; exact (overlaid_read _ _ _ OV)).
  assert (LB : len b = 1024) by (rewrite Q, read_into_len; exact len_zeros).
  assert (ST : started C false [] sr rnd2 er (new_inbound C (Some sr) rsr)) by (left; split; reflexivity).
  assert (KE : keypair_ok er) by (split; [exact L2|apply (pub_len C OK)]).
  pose proof (nx_responder C OK [] sr er rnd2 (new_inbound C (Some sr) rsr) b b ST KS KE ltac:(lia) NL ltac:(lia)) as NR. cbv zeta in NR.
  destruct NR as (p1 & p2 & m2 & _ & R2 & _). rewrite <- Q. destruct (recv_message C (new_inbound C (Some sr) rsr) b) as [[s1 b1] r1].
  unfold res in R2. cbn [snd] in R2. rewrite R2. exists s1, b1, tt. reflexivity.
Qed.
Lemma pool_refuses : forall bs b, overlaid (repeat (b8 0) 1024) bs b -> low_order (firstn 32 b) ->
  forall s1 b1 u, recv_message C (new_inbound C (Some sr) rsr) (read_into zs bs) <> (s1, b1, Ok u).
Proof.
  intros bs b OV LO s1 b1 u RV. assert (Q : b = read_into zs bs) by (rewrite <- zeros_repeat in OV; exact (overlaid_read _ _ _ OV)).
  destruct (reply_spec _ _ _ _ RV) as (b' & _ & _ & _ & _ & OV' & NL & _). rewrite (overlaid_unique _ _ _ _ OV' OV) in NL. contradiction.
Qed.
(** C145, when the pool has less to send. *)
Theorem noise_pieces_less : forall ns js ks p1 m1 b q rest p2 m2, WriteMessage C (Initialize C true [] si ei) NX1 (repeat (b8 0) 992) = Some (p1, m1) ->
  (1 <= list_sum ns)%nat -> (1 <= list_sum js)%nat -> (1 <= list_sum ks)%nat ->
  overlaid (repeat (b8 0) 1024) (firstn (list_sum ns) m1) b -> ~ low_order (firstn 32 b) ->
  ReadMessage C (Initialize C false [] sr er) NX1 b = Some (q, rest) -> WriteMessage C q NX2 (payload2 b) = Some (p2, m2) ->
  let w := main (to_answers ns ++ to_verdict js ks) in
  (In zeros32 (sy_keys (p_sym p2)) -> miner_does C E text p1 [([], clock (heard_at ns js))] (printed (cw_miner w)) (nc_over w)) /\
  (~ In zeros32 (sy_keys (p_sym p2)) -> snd (Split C (p_sym p2)) = zeros32 ->
   miner_does C E text p1 [(firstn (list_sum js) m2, clock (heard_at ns js)); ([], clock (read_at ns js ks))] (printed (cw_miner w)) (nc_over w)).
Proof.
  intros ns js ks p1 m1 b q rest p2 m2 W A B D OV NL RM WM. cbv zeta.
  destruct first_message as (sm & p1' & m1' & S & W' & F & N & MD). rewrite W in W'. injection W' as <- <-.
  destruct (pool_takes _ _ OV NL) as (s1 & b1 & u & RV).
  destruct (reply_spec _ _ _ _ RV) as (b' & q' & rest' & p2' & m2' & OV' & _ & RM' & WM' & X).
  rewrite (overlaid_unique _ _ _ _ OV' OV) in *. rewrite RM in RM'. injection RM' as <- <-. rewrite WM in WM'. injection WM' as <- <-.
  assert (BG : began C rsr sr m1 (list_sum ns) s1 b1) by (split; [exact A|exists u; exact RV]).
  split.
  - intro Z0. destruct X as [[_ X]|[X _]]; [|contradiction]. apply MD.
    apply (none_run C E pf rsi rnd1 rnd2 rnd3 rsr sr kp text clock clock' sm m1 S N made (full2 m1) (full3 m1) ns js ks s1 b1 B BG X).
    intro t. destruct (nh_miner_listen C E pf text sm zs [([], t)]) as [vs dead] eqn:LI0. pose proof (MD _ _ _ LI0) as LI. clear MD. assert (DD : dead = true); [|rewrite DD in LI0; unfold zs in LI0; rewrite LI0; reflexivity].
    inversion LI as [|? ? ? ? OV0 NA|? ? ? b0 p0 key lf ? ? OV0 AC TR]; subst; [reflexivity|]. exfalso.
    destruct AC as (payload & _ & _ & NL0 & _). apply NL0. rewrite (overlaid_read _ _ _ OV0). rewrite <- zeros_repeat. exact zeros_low.
  - intros NZ SZ. destruct X as [[X _]|(_ & s2 & S2 & _ & _ & X)]; [contradiction|]. destruct (made (made_at ns)) as [buf CE].
    apply MD. assert (R : replied C rnd2 rsr sr m1 (list_sum ns) s2 m2) by (exists s1, b1; split; [exact BG|exact S2]).
    apply (half_run C E pf rsi rnd1 rnd2 rnd3 rsr sr kp text clock clock' sm m1 S N made (full2 m1) (full3 m1) ns js ks s2 m2 buf B D R CE).
    apply (X buf (certified_len _ _ CE)). exact SZ.
Qed.
Theorem noise_pieces_low : forall ns p1 m1 b, WriteMessage C (Initialize C true [] si ei) NX1 (repeat (b8 0) 992) = Some (p1, m1) ->
  (1 <= list_sum ns)%nat -> overlaid (repeat (b8 0) 1024) (firstn (list_sum ns) m1) b -> low_order (firstn 32 b) ->
  forall r, let w := main (to_answers ns ++ r) in cw_pool w = NP_dead /\ printed (cw_miner w) = [] /\ nc_over w = false.
Proof.
  intros ns p1 m1 b W A OV LO r. destruct first_message as (sm & p1' & m1' & S & W' & F & N & MD). rewrite W in W'. injection W' as <- <-.
  apply (turned_down C E pf rsi rnd1 rnd2 rnd3 rsr sr kp text clock clock' sm m1 S N made (full2 m1) (full3 m1) ns r A). exact (pool_refuses _ _ OV LO).
Qed.
Lemma low_first : forall ns, (1 <= list_sum ns)%nat -> low_order (firstn 32 (read_into (repeat (b8 0) 1024) (firstn (list_sum ns) (c_pub C rnd1 ++ repeat (b8 0) 992)))) ->
  cw_pool (main (to_answers ns)) = NP_dead.
Proof.
  intros ns A LO. destruct first_message as (sm & p1 & m1 & S & W & F & N & MD). rewrite <- (app_nil_r (to_answers ns)).
  rewrite <- F in LO. exact (proj1 (noise_pieces_low ns p1 m1 _ W A (read_overlaid _ _) LO [])).
Qed.
(** C145: the pool connects before the miner listens. *)
Theorem noise_pieces_early : forall ns r, (1 <= list_sum ns)%nat ->
  let w := main (([PoolDoes; MinerDoes; MinerDoes; PoolDoes] ++ map PoolGets ns ++ [PoolDoes; PoolDoes]) ++ r) in
  cw_pool w = NP_dead /\ printed (cw_miner w) = [] /\ nc_over w = false.
Proof.
  intros ns r A. destruct first_message as (sm & p1 & m1 & S & W & F & N & MD).
  exact (early_run C E pf rsi rnd1 rnd2 rnd3 rsr sr kp text clock clock' sm m1 S N made ns r A).
Qed.
Lemma arrives_or_not : forall es, (forall n, In (PoolGets n) es -> n = 0%nat) \/ exists n, (1 <= n)%nat /\ In (PoolGets n) es.
Proof.
  intro es. induction es as [|e es [IH|(n & A & IH)]]; [left; intros n []| |right; exists n; split; [exact A|right; exact IH]].
  destruct e as [| |[|n]|k n]; try (left; intros j [F|I]; [congruence|exact (IH _ I)]).
  right. exists (S n). split; [lia|left; reflexivity].
Qed.
(** C145: the pool panics only after a byte arrived. *)
Theorem noise_pieces_waits : forall es, cw_pool (main es) = NP_dead -> exists n, (1 <= n)%nat /\ In (PoolGets n) es.
Proof.
  intros es D. destruct (arrives_or_not es) as [G|X]; [|exact X]. exfalso.
  destruct first_message as (sm & p1' & m1' & S & W' & F & N & MD).
  destruct (waits C E pf rsi rnd1 rnd2 rnd3 rsr sr kp text clock clock' sm m1' S N es G) as [P _].
  unfold main in D. rewrite D in P. destruct P as [P|[P|P]]; discriminate P.
Qed.
Theorem noise_pieces_refused : forall es, let w := main es in
  (cw_miner w = NM_dead [] /\ cw_to_pool w = None) <-> exists es1 es2, es = es1 ++ MinerDoes :: es2 /\ ~ In PoolDoes es1.
Proof.
  intro es. destruct first_message as (sm & p1 & m1 & S & W & F & N & MD).
  exact (refused_iff C E pf rsi rnd1 rnd2 rnd3 rsr sr kp text clock clock' sm m1 S N es).
Qed.
Lemma two_heard : forall p b1 t1 b2 t2 vs, miner_does C E text p [(b1, t1); (b2, t2)] vs false -> exists v, vs = [v].
Proof.
  intros p b1 t1 b2 t2 vs H. inversion H; subst. match goal with T : transport _ _ _ _ _ _ _ _ _ _ |- _ => inversion T; subst; clear T end.
  match goal with T : transport _ _ _ _ _ _ _ [] _ _ |- _ => inversion T; subst; clear T end. eexists. reflexivity.
Qed.
Theorem noise_pieces_end : forall f, fair_happenings f -> exists n, let w := main (first_happenings f n) in
  nc_over w = true \/ cw_pool w = NP_dead \/ exists v, printed (cw_miner w) = [v].
Proof.
  intros f F0. destruct first_message as (sm & p1 & m1 & S & W & F & N & MD).
  destruct (comes_to_end' C E pf rsi rnd1 rnd2 rnd3 rsr sr kp text clock clock' sm m1 S N made (full2 m1) (full3 m1) f F0) as [n H].
  exists n. cbv zeta. destruct H as [H|[H|(s & b & vs & H)]]; [left; exact H|right; left; exact H|]. right. right.
  destruct (heard_two C E pf rsi rnd1 rnd2 rnd3 rsr sr kp text clock clock' sm m1 S N made (full2 m1) (full3 m1) _ _ _ _ H) as (i & k & l & conns & _ & _ & _ & L & LI).
  destruct conns as [|[c1 x1] [|[c2 x2] [|? ?]]]; try discriminate L. apply MD in LI. apply two_heard in LI. unfold main. rewrite H. exact LI.
Qed.
End Whole.

(** Only the key matters in the first message: the rest is zero, as the buffer is. *)
Lemma key_overlaid : forall e k b, len e = 32 -> (32 <= k)%nat ->
  (overlaid (repeat (b8 0) 1024) (firstn k (e ++ repeat (b8 0) 992)) b <-> overlaid (repeat (b8 0) 1024) (e ++ repeat (b8 0) 992) b).
Proof.
  intros e k b Le L. unfold overlaid.
  assert (G : forall i, (i < length (repeat (b8 0) 1024))%nat ->
    (if Nat.ltb i (length (firstn k (e ++ repeat (b8 0) 992))) then nth_error (firstn k (e ++ repeat (b8 0) 992)) i else nth_error (repeat (b8 0) 1024) i) =
    (if Nat.ltb i (length (e ++ repeat (b8 0) 992)) then nth_error (e ++ repeat (b8 0) 992) i else nth_error (repeat (b8 0) 1024) i)).
  { assert (Z0 : forall n i, (i < n)%nat -> nth_error (repeat (b8 0) n) i = Some (b8 0)).
    { induction n as [|n IH]; intros i H; [lia|]. destruct i as [|i]; [reflexivity|]. cbn [repeat nth_error]. apply IH. lia. }
    assert (F : forall (l : bytes) j i, (i < j)%nat -> nth_error (firstn j l) i = nth_error l i).
    { induction l as [|x l IH]; intros j i H; [rewrite firstn_nil; reflexivity|]. destruct j as [|j]; [lia|]. destruct i as [|i]; [reflexivity|]. cbn [firstn nth_error]. apply IH. lia. }
    intros i H. rewrite repeat_length in H.
    assert (LL : length (e ++ repeat (b8 0) 992) = 1024%nat) by (rewrite app_length, repeat_length; unfold len in Le; lia).
    rewrite firstn_length, LL. destruct (Nat.ltb_spec i (Nat.min k 1024)) as [A|A]; destruct (Nat.ltb_spec i 1024) as [B|B]; try lia.
    - apply F. lia.
    - rewrite Z0 by exact H. rewrite nth_error_app2 by (unfold len in Le; lia). rewrite Z0 by (unfold len in Le; lia). reflexivity. }
  split; intros [A B]; (split; [exact A|]); intros i H; rewrite (B i H); [apply G|symmetry; apply G]; exact H.
Qed.
Theorem key_enough : forall C E sr er kp t1 t2 e k r, len e = 32 -> (32 <= k)%nat ->
  (pool_answers C E sr er kp t1 t2 (firstn k (e ++ repeat (b8 0) 992)) r <-> pool_answers C E sr er kp t1 t2 (e ++ repeat (b8 0) 992) r).
Proof.
  intros C E sr er kp t1 t2 e k r Le L. pose proof (fun b => key_overlaid e k b Le L) as G. remember (e ++ repeat (b8 0) 992) as whole. clear Heqwhole.
  split; intro H; destruct H.
  - eapply pa_low; [apply G|]; eassumption.
  - eapply pa_zero; [apply G| | |]; eassumption.
  - apply pa_clock; assumption.
  - eapply pa_answer; [apply G|..]; eassumption.
  - eapply pa_low; [apply G|]; eassumption.
  - eapply pa_zero; [apply G| | |]; eassumption.
  - apply pa_clock; assumption.
  - eapply pa_answer; [apply G|..]; eassumption.
Qed.

Lemma first_read : forall C s e b p1 rest, ReadMessage C (Initialize C false [] s e) NX1 b = Some (p1, rest) ->
  p_e p1 = e /\ p_s p1 = s /\ p_initiator p1 = false /\ exists re, p_re p1 = Some re.
Proof.
  intros C s e b p1 rest RM. unfold ReadMessage, NX1 in RM. cbn [read_tokens] in RM. destruct (len b <? 32); [discriminate|].
  unfold DecryptAndHash in RM. cbn [with_sym p_sym MixHash sy_k Initialize InitializeSymmetric] in RM. cbv iota in RM. injection RM as <- _.
  split; [reflexivity|]. split; [reflexivity|]. split; [reflexivity|]. eexists. reflexivity.
Qed.
Lemma second_front : forall C p1 pl p2 m2, WriteMessage C p1 NX2 pl = Some (p2, m2) -> exists r, m2 = kp_public (p_e p1) ++ r.
Proof.
  intros C p1 pl p2 m2 WM. unfold WriteMessage, NX2 in WM.
  assert (G : forall ts q out, write_tokens C p1 (TE :: ts) = Some (q, out) -> exists r, out = kp_public (p_e p1) ++ r).
  { intros ts q out W. cbn [write_tokens] in W. destruct (write_tokens C _ ts) as [[q' out']|]; [|discriminate W]. injection W as _ <-. exists out'. reflexivity. }
  match type of WM with context [write_tokens C p1 (TE :: ?ts)] => destruct (write_tokens C p1 (TE :: ts)) as [[q out]|] eqn:W; [|discriminate WM] end.
  destruct (G _ _ _ W) as [r ->].
  destruct (EncryptAndHash C (p_sym q) pl) as [s ct]. injection WM as _ <-. exists (r ++ ct). symmetry. apply app_assoc.
Qed.
(** Both answers are whole buffers, and the first one begins with the key. *)
Lemma answers_len : forall C E, crypto_ok C -> ed_ok E -> forall sr er kp t1 t2 bs m2 m3, keypair_ok sr -> keypair_ok er ->
  pool_answers C E sr er kp t1 t2 bs (Ok (m2, m3)) -> len m2 = 1024 /\ len m3 = 1024 /\ firstn 32 m2 = kp_public er.
Proof.
  intros C E OK EOK sr er kp t1 t2 bs m2 m3 KS KE P.
  inversion P as [| | |b p1 rest p2 m2' signed m plain OV NL RM WM NZ T1' T2' W' WS Em WP]; subst.
  destruct (first_read _ _ _ _ _ _ RM) as (Q1 & Q2 & Q3 & re & Q4). split; [|split].
  - rewrite (written2_len C OK _ _ _ _ _ WM Q4 ltac:(rewrite Q1; apply KE) ltac:(rewrite Q2; apply KS) Q3).
    assert (LB : len b = 1024) by (rewrite (overlaid_read _ _ _ OV), read_into_len; unfold len; rewrite repeat_length; reflexivity).
    unfold payload2, len in *. rewrite firstn_length, skipn_length. lia.
  - rewrite (enc_len C OK). apply (f_equal len) in WP. rewrite len_wire in WP. rewrite WP.
    unfold snm_layout. rewrite !len_app, !MsgProofs.len_spec_le, len_wire. cbn [sn_signature]. rewrite (ed_sig_len E EOK kp signed). unfold len. rewrite repeat_length. reflexivity.
  - destruct (second_front _ _ _ _ _ WM) as [r ->]. rewrite Q1. rewrite firstn_app. destruct KE as [_ KE]. unfold len in KE.
    assert (Ln : length (kp_public er) = 32%nat) by lia. rewrite firstn_all2 by lia. rewrite Ln, Nat.sub_diag. apply app_nil_r.
Qed.
Lemma ready_answers : forall C E, crypto_ok C -> ed_ok E -> forall sr rsi rsr rnd1 rnd2 rnd3 kp text,
  programs_ready C E sr rsi rnd1 rnd2 kp text -> forall clock clock', clock_ok clock clock' -> forall i p1 m1,
  WriteMessage C (Initialize C true [] (mkKeypair rsi (c_pub C rsi)) (mkKeypair rnd1 (c_pub C rnd1))) NX1 (repeat (b8 0) 992) = Some (p1, m1) ->
  m1 = c_pub C rnd1 ++ repeat (b8 0) 992 /\
  exists m2 m3, nh_pool_run C E rnd2 rnd3 rsr sr kp (clock i) (clock' i) m1 = Ok (m2, m3) /\
  pool_answers C E sr (mkKeypair rnd2 (c_pub C rnd2)) kp (clock i) (clock' i) m1 (Ok (m2, m3)) /\
  forall now j, miner_does C E text p1 [(m2, now); (m3, clock j)] [in_time (clock' i) (clock j)] false.
Proof.
  intros C E OK EOK sr rsi rsr rnd1 rnd2 rnd3 kp text (U & NK & NT & EP & B58) clock clock' K i p1 m1 W. destruct (K i) as [Ki _].
  destruct (programs_agree C OK E EOK sr rsi rsr rnd1 rnd2 rnd3 kp text (clock i) (clock' i) U NK NT EP B58 ltac:(lia) ltac:(lia) (proj2 (in_time_eq clock clock' K i i)))
    as (m2 & m3 & P & M).
  destruct (first_message C E OK rsi rnd1 rnd2 text (proj1 (us_ei _ _ _ _ _ U)) (proj1 (us_er _ _ _ _ _ U)) Debug) as (sm & q & m & S & W' & F & _ & _). rewrite W in W'. injection W' as <- <-.
  split; [exact F|]. exists m2, m3.
  assert (P' : nh_pool_run C E rnd2 rnd3 rsr sr kp (clock i) (clock' i) m1 = Ok (m2, m3)) by (rewrite F; exact P).
  split; [exact P'|]. split.
  - rewrite <- P'. apply noise_pool_exact; [exact OK|exact EOK|exact (us_sr _ _ _ _ _ U)|exact (proj1 (us_er _ _ _ _ _ U))].
  - intros now j. destruct (miner_exact C OK E Debug text rsi rnd1 [(m2, now); (m3, clock j)] (proj1 (us_ei _ _ _ _ _ U))) as (q & m & vs & dead & W' & R & MD).
    rewrite W in W'. injection W' as <- <-. rewrite M in R. rewrite (proj1 (in_time_eq clock clock' K i j)) in R. injection R as _ <- <-. exact MD.
Qed.
Theorem noise_pieces_whole : forall C E, crypto_ok C -> ed_ok E -> forall sr rsi rsr rnd1 rnd2 rnd3 kp text,
  programs_ready C E sr rsi rnd1 rnd2 kp text -> forall pf clock clock', clock_ok clock clock' -> forall ns js ks,
  (32 <= list_sum ns)%nat -> (1024 <= list_sum js)%nat -> (1024 <= list_sum ks)%nat ->
  let w := nc_main C E pf rsi rnd1 rnd2 rnd3 rsr sr kp text clock clock' (to_answers ns ++ to_verdict js ks) in
  printed (cw_miner w) = [in_time (clock' (made_at ns)) (clock (read_at ns js ks))] /\ nc_over w = false.
Proof.
  intros C E OK EOK sr rsi rsr rnd1 rnd2 rnd3 kp text R pf clock clock' K ns js ks A B D. cbv zeta. pose proof R as R'. destruct R as (U & _).
  destruct (first_message C E OK rsi rnd1 rnd2 text (proj1 (us_ei _ _ _ _ _ U)) (proj1 (us_er _ _ _ _ _ U)) Debug) as (sm & p1 & m1 & S & W & F & _ & _).
  destruct (ready_answers C E OK EOK sr rsi rsr rnd1 rnd2 rnd3 kp text R' clock clock' K (made_at ns) p1 m1 W) as (_ & m2 & m3 & _ & PA & MD).
  destruct (answers_len C E OK EOK _ _ _ _ _ _ _ _ (us_sr _ _ _ _ _ U) (us_er _ _ _ _ _ U) PA) as (L2 & L3 & _).
  assert (PA' : pool_answers C E sr (mkKeypair rnd2 (c_pub C rnd2)) kp (clock (made_at ns)) (clock' (made_at ns)) (firstn (list_sum ns) m1) (Ok (m2, m3))).
  { rewrite F. apply key_enough; [apply (pub_len C OK)|exact A|]. rewrite <- F. exact PA. }
  pose proof (noise_pieces_every C E OK EOK sr rsi rsr rnd1 rnd2 rnd3 kp text (us_sr _ _ _ _ _ U) (proj1 (us_ei _ _ _ _ _ U)) (proj1 (us_er _ _ _ _ _ U)) pf clock clock' K
    ns js ks p1 m1 m2 m3 W ltac:(lia) ltac:(lia) ltac:(lia) PA') as X. cbv zeta in X.
  rewrite !firstn_all2 in X by (unfold len in *; lia).
  destruct (miner_unique _ _ _ _ _ _ _ _ _ X (MD (clock (heard_at ns js)) (read_at ns js ks))) as [-> ->]. split; reflexivity.
Qed.

(** All five kinds in turn, after a beginning. *)
Definition around (first : list happening) (n : nat) : happening :=
  match nth_error first n with
  | Some e => e
  | None => match Nat.modulo n 5 with 0 => PoolDoes | 1 => MinerDoes | 2 => PoolGets 1 | 3 => MinerGets 0 1 | _ => MinerGets 1 1 end%nat
  end.
Lemma around_fair : forall first, fair_happenings (around first).
Proof.
  intros first k n. set (d := match k with Pool_turn => 0 | Miner_turn => 1 | At_pool => 2 | At_miner_first => 3 | At_miner_second => 4 end%nat).
  exists (d + (n + length first) * 5)%nat. split; [lia|]. unfold around.
  replace (nth_error first (d + (n + length first) * 5)) with (@None happening) by (symmetry; apply nth_error_None; lia).
  rewrite Nat.mod_add by lia. destruct k; exact I.
Qed.
Lemma around_start : forall first n, (length first <= n)%nat -> exists r, first_happenings (around first) n = first ++ r.
Proof.
  intros first n L. replace n with (length first + (n - length first))%nat by lia. unfold first_happenings. rewrite seq_app, map_app.
  eexists. f_equal.
  assert (G : forall l pre, map (around (pre ++ l)) (seq (length pre) (length l)) = l).
  { induction l as [|x l IH]; intro pre; [reflexivity|]. cbn [length seq map]. f_equal.
    - unfold around. rewrite nth_error_app2, Nat.sub_diag by lia. reflexivity.
    - specialize (IH (pre ++ [x])). rewrite <- app_assoc, app_length in IH. cbn [app length] in IH. rewrite Nat.add_comm in IH. exact IH. }
  exact (G first []).
Qed.
(** A miner that has read only the pool's ephemeral key. *)
Lemma sample_key_alone : match WriteMessage demo_crypto (Initialize demo_crypto true [] d_si d_ei) NX1 (repeat (b8 0) 992) with
  | Some (p1, _) => ReadMessage demo_crypto p1 NX2 (read_into (repeat (b8 0) 1024) (kp_public d_er)) = None | None => False end.
Proof. vm_compute. reflexivity. Qed.
Lemma alone_refused : forall C E text p1 t key conns vs dead, ReadMessage C p1 NX2 (read_into (repeat (b8 0) 1024) key) = None ->
  miner_does C E text p1 ((key, t) :: conns) vs dead -> vs = [] /\ dead = true.
Proof.
  intros C E text p1 t key conns vs dead SK X.
  refine (match X in miner_does _ _ _ _ cs v d return match cs with (bs, _) :: _ => bs = key -> v = [] /\ d = true | [] => True end with
          | mi_end _ _ _ _ => I
          | mi_refused _ _ _ _ _ _ _ _ _ _ => fun _ => conj eq_refl eq_refl
          | mi_accepted _ _ _ _ bs _ _ b p2 ky lf v d OV AC TR => fun Q => _ end eq_refl).
  exfalso. destruct AC as (pl & RM & _). rewrite (overlaid_read _ _ _ OV), Q, SK in RM. discriminate RM.
Qed.
Lemma key_alone : forall C E, crypto_ok C -> ed_ok E -> forall sr rsi rsr rnd1 rnd2 rnd3 kp text,
  programs_ready C E sr rsi rnd1 rnd2 kp text -> forall pf clock clock', clock_ok clock clock' ->
  match WriteMessage C (Initialize C true [] (mkKeypair rsi (c_pub C rsi)) (mkKeypair rnd1 (c_pub C rnd1))) NX1 (repeat (b8 0) 992) with
  | Some (p1, _) => ReadMessage C p1 NX2 (read_into (repeat (b8 0) 1024) (c_pub C rnd2)) = None | None => False end ->
  forall ns js ks r, (32 <= list_sum ns)%nat -> list_sum js = 32%nat -> (1 <= list_sum ks)%nat ->
  cw_miner (nc_main C E pf rsi rnd1 rnd2 rnd3 rsr sr kp text clock clock' ((to_answers ns ++ to_verdict js ks) ++ r)) = NM_dead [].
Proof.
  intros C E OK EOK sr rsi rsr rnd1 rnd2 rnd3 kp text R pf clock clock' K SK ns js ks r A B D. pose proof R as R'. destruct R as (U & _).
  destruct (first_message C E OK rsi rnd1 rnd2 text (proj1 (us_ei _ _ _ _ _ U)) (proj1 (us_er _ _ _ _ _ U)) Debug) as (sm & p1 & m1 & S & W & F & _ & _).
  rewrite W in SK.
  destruct (ready_answers C E OK EOK sr rsi rsr rnd1 rnd2 rnd3 kp text R' clock clock' K (made_at ns) p1 m1 W) as (_ & m2 & m3 & _ & PA & _).
  destruct (answers_len C E OK EOK _ _ _ _ _ _ _ _ (us_sr _ _ _ _ _ U) (us_er _ _ _ _ _ U) PA) as (_ & _ & F2).
  assert (PA' : pool_answers C E sr (mkKeypair rnd2 (c_pub C rnd2)) kp (clock (made_at ns)) (clock' (made_at ns)) (firstn (list_sum ns) m1) (Ok (m2, m3))).
  { rewrite F. apply key_enough; [apply (pub_len C OK)|exact A|]. rewrite <- F. exact PA. }
  pose proof (noise_pieces_every C E OK EOK sr rsi rsr rnd1 rnd2 rnd3 kp text (us_sr _ _ _ _ _ U) (proj1 (us_ei _ _ _ _ _ U)) (proj1 (us_er _ _ _ _ _ U)) pf clock clock' K
    ns js ks p1 m1 m2 m3 W ltac:(lia) ltac:(lia) D PA') as X. cbv zeta in X. rewrite B, F2 in X. cbn [kp_public] in X.
  destruct (alone_refused _ _ _ _ _ _ _ _ _ SK X) as [VS DE]. unfold nc_main in *. rewrite fold_left_app.
  set (w := fold_left _ (to_answers ns ++ to_verdict js ks) nc_start) in *. clearbody w.
  rewrite over_stays by exact DE. unfold nc_over in DE. destruct (cw_miner w); try discriminate DE. cbn [printed] in VS. rewrite VS. reflexivity.
Qed.
Theorem noise_pieces_refuted : exists C E pf rsi rnd1 rnd2 rnd3 rsr sr kp text clock clock' f, crypto_ok C /\ ed_ok E /\
  programs_ready C E sr rsi rnd1 rnd2 kp text /\ clock_ok clock clock' /\ fair_happenings f /\
  (forall es1 es2 n, first_happenings f n = es1 ++ MinerDoes :: es2 -> In PoolDoes es1) /\
  exists k, forall n, (k <= n)%nat -> cw_miner (nc_main C E pf rsi rnd1 rnd2 rnd3 rsr sr kp text clock clock' (first_happenings f n)) = NM_dead [].
Proof.
  exists demo_crypto, (demo_ed true), Debug, k_si, k_ei, k_er, [], [], d_sr, d_kp, d_text, ticking, ticking.
  exists (around (to_answers [32%nat] ++ to_verdict [32%nat] [1%nat])).
  split; [exact demo_ok|]. split; [apply demo_ed_ok|]. split; [exact noise_sample|]. split; [exact ticking_ok|]. split; [apply around_fair|]. split.
  { intros es1 es2 n H. destruct n as [|n]; [destruct es1; discriminate H|]. unfold first_happenings in H. cbn [seq map] in H.
    destruct es1 as [|e es1]; [discriminate H|]. injection H as <- _. left. reflexivity. }
  eexists. intros n L. destruct (around_start (to_answers [32%nat] ++ to_verdict [32%nat] [1%nat]) n L) as [r ->].
  apply key_alone; [exact demo_ok|apply demo_ed_ok|exact noise_sample|exact ticking_ok|exact sample_key_alone| | |];
    [apply Nat.leb_le; reflexivity|reflexivity|apply Nat.leb_le; reflexivity].
Qed.
(** A hash that is zero everywhere satisfies the laws, and makes keys of zeros. *)
From Verif Require RetryProofs.
Definition zero_crypto : crypto := mkCrypto (fun _ => zeros32) (c_seal RetryProofs.weak_crypto) (c_open RetryProofs.weak_crypto) demo_dh demo_pub.
Lemma zero_ok : crypto_ok zero_crypto.
Proof. destruct RetryProofs.weak_ok as [H1 H2 H3 H4 H5 H6 H7 H8]. constructor; first [assumption|intro x; reflexivity]. Qed.
Lemma closed_refused : forall C E text p1 t vs dead, miner_does C E text p1 [([], t)] vs dead -> vs = [] /\ dead = true.
Proof.
  intros C E text p1 t vs dead X. inversion X as [|? ? ? ? OV0 NA|? ? ? b0 p0 key lf ? ? OV0 AC TR]; subst; [split; reflexivity|]. exfalso.
  destruct AC as (payload & _ & _ & NL0 & _). apply NL0. rewrite (overlaid_read _ _ _ OV0). rewrite <- zeros_repeat. exact zeros_low.
Qed.
Lemma over_dead : forall w, printed (cw_miner w) = [] -> nc_over w = true -> cw_miner w = NM_dead [].
Proof. intros [p m tp tm n] A B. unfold nc_over in B. cbn [cw_miner] in *. destruct m; try discriminate B. cbn [printed] in A. rewrite A. reflexivity. Qed.
Lemma less_none : forall C E, crypto_ok C -> ed_ok E -> forall sr rsi rsr rnd1 rnd2 rnd3 kp text,
  keypair_ok sr -> len rnd1 = 32 -> len rnd2 = 32 -> forall pf clock clock', clock_ok clock clock' -> forall ns js ks m1 q rest p2 m2,
  m1 = c_pub C rnd1 ++ repeat (b8 0) 992 -> (1 <= list_sum ns)%nat -> (1 <= list_sum js)%nat -> (1 <= list_sum ks)%nat ->
  overlaid (repeat (b8 0) 1024) (firstn (list_sum ns) m1) m1 -> ~ low_order (firstn 32 m1) ->
  ReadMessage C (Initialize C false [] sr (mkKeypair rnd2 (c_pub C rnd2))) NX1 m1 = Some (q, rest) ->
  WriteMessage C q NX2 (payload2 m1) = Some (p2, m2) -> In zeros32 (sy_keys (p_sym p2)) ->
  cw_miner (nc_main C E pf rsi rnd1 rnd2 rnd3 rsr sr kp text clock clock' (to_answers ns ++ to_verdict js ks)) = NM_dead [].
Proof.
  intros C E OK EOK sr rsi rsr rnd1 rnd2 rnd3 kp text KS L1 L2 pf clock clock' K ns js ks m1 q rest p2 m2 F A B D OV NL RM WM H.
  destruct (first_message C E OK rsi rnd1 rnd2 text L1 L2 pf) as (sm & p1 & m & _ & W & F' & _ & _). rewrite <- F in F'. rewrite F' in W.
  pose proof (noise_pieces_less C E OK EOK sr rsi rsr rnd1 rnd2 rnd3 kp text KS L1 L2 pf clock clock' K ns js ks p1 m1 m1 q rest p2 m2 W A B D OV NL RM WM) as X.
  cbv zeta in X. destruct X as [X _]. destruct (closed_refused _ _ _ _ _ _ _ (X H)) as [V O]. exact (over_dead _ V O).
Qed.
Definition zero_first : bytes := demo_pub k_ei ++ repeat (b8 0) 992.
Lemma zero_keys : match ReadMessage zero_crypto (Initialize zero_crypto false [] d_sr d_er) NX1 zero_first with
  | Some (q, _) => match WriteMessage zero_crypto q NX2 (payload2 zero_first) with Some (p2, _) => In zeros32 (sy_keys (p_sym p2)) | None => False end
  | None => False end.
Proof. vm_compute. left. reflexivity. Qed.
Lemma zero_overlaid : forall n, (1024 <= n)%nat -> overlaid (repeat (b8 0) 1024) (firstn n zero_first) zero_first.
Proof.
  intros n L. assert (LM : length zero_first = 1024%nat) by (vm_compute; reflexivity). rewrite firstn_all2 by (rewrite LM; exact L).
  split; [unfold len; rewrite LM, repeat_length; reflexivity|]. intros i I. rewrite repeat_length in I. rewrite LM. apply Nat.ltb_lt in I. rewrite I. reflexivity.
Qed.
Lemma zero_high : ~ low_order (firstn 32 zero_first).
Proof. intro H. vm_compute in H. repeat destruct H as [H|H]; try discriminate H; contradiction. Qed.
