(** * PassProofs: any calls on an encryptor (C129), two encryptors that answer each other (C130). *)
From Coq Require Import Lia ZifyBool ZifyNat ZifyN.
From Verif Require Import Base SpecWire BaseFacts Noise SpecNoise SpecSession SpecTransport SpecStory NoiseFacts NoiseSamples Network
  FrameProofs BindingProofs HandshakeProofs NxProofs SessionProofs NetProofs RecvProofs NoiseClaims FailureProofs SessionClaims TransportProofs SpecNetwork StoryProofs HistoryProofs NetworkProofs ActiveProofs Crypto CryptoFacts KeyProofs SpecPass.
Local Open Scope N_scope.
Local Open Scope list_scope.

Section Pass.
Variable C : crypto.
Hypothesis OK : crypto_ok C.

(** ** One encryptor *)
Lemma call_handled : forall i s g c, wf s -> at_stage i s g -> exists g',
  handled C i g c g' (snd (enc_call C s c)) /\ wf (fst (enc_call C s c)) /\ at_stage i (fst (enc_call C s c)) g'.
Proof.
  intros i s g [rnd|rnd d] W A; cbn [enc_call].
  - destruct (step_asked C OK i s g (Send rnd (repeat x00 1024)) W A) as (g1 & S1 & A1).
    pose proof (wf_step C OK s (Send rnd (repeat x00 1024)) W) as W1.
    unfold init_handshake. cbn [step] in S1, A1, W1.
    destruct (send_message C rnd s (repeat x00 1024)) as [[s1 b1] r1]. unfold out, res, st in S1, A1, W1. cbn [fst snd] in S1, A1, W1.
    exists g1. destruct r1 as [[]|e|]; cbn [fst snd].
    + split; [eapply ha_begin; exact S1|]. split; [exact W1|exact A1].
    + split; [eapply ha_begin_err; exact S1|]. split; [exact W1|exact A1].
    + destruct (send_asked_no_panic _ _ _ _ _ _ _ S1).
  - destruct (step_asked C OK i s g (Recv d) W A) as (g1 & S1 & A1). pose proof (wf_step C OK s (Recv d) W) as W1.
    unfold recv_handshake.
    cbn [step] in S1, A1, W1. destruct (recv_message C s d) as [[s1 b1] r1]. unfold out, res, st in S1, A1, W1. cbn [fst snd] in S1, A1, W1.
    destruct r1 as [[]|e|].
    + destruct (step_asked C OK i s1 g1 (Send rnd b1) W1 A1) as (g2 & S2 & A2). pose proof (wf_step C OK s1 (Send rnd b1) W1) as W2.
      cbn [step] in S2, A2, W2. destruct (send_message C rnd s1 b1) as [[s2 b2] r2]. unfold out, res, st in S2, A2, W2. cbn [fst snd] in S2, A2, W2.
      exists g2. destruct r2 as [[]|e|]; cbn [fst snd].
      * split; [eapply ha_answered; [exact S1|exact S2]|]. split; [exact W2|exact A2].
      * split; [eapply ha_unanswered; [exact S1|exact S2]|]. split; [exact W2|exact A2].
      * destruct (send_asked_no_panic _ _ _ _ _ _ _ S2).
    + exists g1. cbn [fst snd]. split; [eapply ha_refused; exact S1|]. split; [exact W1|exact A1].
    + exists g1. cbn [fst snd]. split; [eapply ha_panic; exact S1|]. split; [exact W1|exact A1].
Qed.
Lemma run_handling : forall i cs s g, wf s -> at_stage i s g -> exists g',
  handling C i g cs (fst (enc_run C s cs)) g' /\ wf (snd (enc_run C s cs)) /\ at_stage i (snd (enc_run C s cs)) g'.
Proof.
  induction cs as [|c cs IH]; intros s g W A; cbn [enc_run].
  - exists g. split; [constructor|]. split; [exact W|exact A].
  - destruct (call_handled i s g c W A) as (g1 & H1 & W1 & A1). destruct (enc_call C s c) as [s' r]. cbn [fst snd] in H1, W1, A1.
    destruct r as [b|e|]; [| |exists g1; cbn [fst snd]; split; [apply hd_panic; exact H1|split; [exact W1|exact A1]]];
      (destruct (IH s' g1 W1 A1) as (g2 & H2 & W2 & A2); destruct (enc_run C s' cs) as [rs e']; cbn [fst snd] in H2, W2, A2 |- *;
       exists g2; split; [eapply hd_cons; [exact H1|discriminate|exact H2]|split; [exact W2|exact A2]]).
Qed.
Lemma tells_at : forall i s g, wf s -> at_stage i s g -> tells s g.
Proof.
  intros i s g W A. pose proof (shows_at i s g W A) as X. destruct g; cbn [shows tells] in *;
    destruct X as (T & _ & _ & R); split; [exact T|exact R|exact T|exact R].
Qed.
Lemma handling_exact : forall i kp cs, keypair_ok kp -> exists g,
  handling C i (Handshake false (newcomer C i [] kp)) cs (fst (enc_run C (init_session C i [] kp) cs)) g /\
  tells (snd (enc_run C (init_session C i [] kp) cs)) g.
Proof.
  intros i kp cs K. destruct (run_handling i cs _ _ (wf_init C i [] kp) (stage_new C OK i [] kp K)) as (g & H & W & A).
  exists g. split; [exact H|]. apply (tells_at i); assumption.
Qed.

Lemma handled_unique : forall i g c g1 r1 g2 r2, handled C i g c g1 r1 -> handled C i g c g2 r2 -> g1 = g2 /\ r1 = r2.
Proof.
  intros i g c g1 r1 g2 r2 H H'. inversion H; subst; inversion H'; subst;
    repeat match goal with
    | A : asked C i ?g ?c ?g1 ?b1 ?r1, B : asked C i ?g ?c ?g2 ?b2 ?r2 |- _ =>
        let E1 := fresh in let E2 := fresh in let E3 := fresh in
        destruct (asked_unique _ _ _ _ _ _ _ _ _ _ A B) as (E1 & E2 & E3); clear B;
        try discriminate E2; try (injection E2; clear E2; intros); try (specialize (E3 ltac:(discriminate))); subst
    end; split; reflexivity.
Qed.
Lemma handling_unique : forall i g cs rs1 g1 rs2 g2, handling C i g cs rs1 g1 -> handling C i g cs rs2 g2 -> rs1 = rs2 /\ g1 = g2.
Proof.
  intros i g cs rs1 g1 rs2 g2 H. revert rs2 g2. induction H; intros rs2 g2 H'; inversion H'; subst.
  - split; reflexivity.
  - destruct (handled_unique _ _ _ _ _ _ _ H ltac:(eassumption)) as [-> _]. split; reflexivity.
  - destruct (handled_unique _ _ _ _ _ _ _ H ltac:(eassumption)) as [_ E]. congruence.
  - destruct (handled_unique _ _ _ _ _ _ _ H ltac:(eassumption)) as [_ E]. congruence.
  - destruct (handled_unique _ _ _ _ _ _ _ H ltac:(eassumption)) as [-> ->].
    destruct (IHhandling _ _ ltac:(eassumption)) as [-> ->]. split; reflexivity.
Qed.

Lemma done_handled : forall i h rs c call g r, handled C i (Done h rs c) call g r -> r <> Panic /\ exists c', g = Done h rs c'.
Proof.
  assert (D : forall i h rs c call g b r, asked C i (Done h rs c) call g b r -> (r <> Panic) /\ exists c', g = Done h rs c').
  { intros i h rs c call g b r H. inversion H; subst. split; [|eexists; reflexivity].
    match goal with A : served _ _ _ _ _ _ _ |- _ => inversion A; discriminate end. }
  intros i h rs c call g r H. inversion H; subst;
    repeat match goal with A : asked C i (Done _ _ _) _ ?g' _ _ |- _ => apply D in A; destruct A as [? [? ->]] end;
    (split; [first [discriminate|contradiction]|first [eexists; reflexivity|contradiction]]).
Qed.
Lemma done_handling : forall i cs g rs g', handling C i g cs rs g' -> forall h k c, g = Done h k c ->
  ~ In Panic rs /\ exists c', g' = Done h k c'.
Proof.
  intros i cs g rs g' H. induction H; intros h k c0 ->.
  - split; [intros []|eexists; reflexivity].
  - destruct (done_handled _ _ _ _ _ _ _ H) as [N _]. congruence.
  - destruct (done_handled _ _ _ _ _ _ _ H) as [_ [c' ->]]. destruct (IHhandling _ _ _ eq_refl) as [N E].
    split; [|exact E]. intros [F|F]; [congruence|contradiction].
Qed.
Lemma complete_stays : forall i kp cs cs', keypair_ok kp ->
  let s := snd (enc_run C (init_session C i [] kp) cs) in let x := enc_run C s cs' in
  is_handshake_complete s = true ->
  ~ In Panic (fst x) /\ is_handshake_complete (snd x) = true /\ get_remote_pubkey (snd x) = get_remote_pubkey s.
Proof.
  intros i kp cs cs' K s x T. destruct (run_handling i cs _ _ (wf_init C i [] kp) (stage_new C OK i [] kp K)) as (g & H & W & A).
  fold s in W, A. pose proof (tells_at i s g W A) as X. destruct g as [n p|h k c]; cbn [tells] in X; destruct X as [T' R]; [congruence|].
  destruct (run_handling i cs' s _ W A) as (g' & H' & W' & A'). fold x in H', W', A'.
  destruct (done_handling _ _ _ _ _ H' _ _ _ eq_refl) as [N [c' ->]]. destruct (tells_at _ _ _ W' A') as [T2 R2].
  split; [exact N|]. split; [exact T2|]. rewrite R2, R. reflexivity.
Qed.

(** ** Two encryptors *)
Definition put (i : bool) (r s : bytes * N) : SpecTransport.channel := if i then mkCh s r else mkCh r s.
Lemma put_r : forall i r s, receiving i (put i r s) = r. Proof. intros [] r s; reflexivity. Qed.
Lemma put_s : forall i r s, sending i (put i r s) = s. Proof. intros [] r s; reflexivity. Qed.
Lemma take : forall i y m rnd kr n ks n' pt, wf y -> is_transport y = true -> se_i y = i ->
  channel_of y = put i (kr, n) (ks, n') ->
  kr <> zeros32 -> ks <> zeros32 -> n < 2 ^ 64 - 1 -> m = ENCRYPT C kr n [] pt -> len pt = 1008 ->
  let x := enc_call C y (Take rnd m) in
  (n' < 2 ^ 64 - 1 /\ snd x = Ok (ENCRYPT C ks n' [] pt) /\
   wf (fst x) /\ is_transport (fst x) = true /\ se_i (fst x) = i /\ channel_of (fst x) = put i (kr, n + 1) (ks, n' + 1)) \/
  (n' = 2 ^ 64 - 1 /\ snd x = Err (NoiseError ExhaustedNonceError)).
Proof.
  intros i y m rnd kr n ks n' pt W T Ei EC Kr Ks N Em LP.
  pose proof (enc_len C OK kr n [] pt) as LM. rewrite <- Em, LP in LM.
  assert (EM : m = firstn 1008 m ++ skipn 1008 m) by (symmetry; apply firstn_skipn).
  assert (LT : len (skipn 1008 m) = 16) by (unfold len in *; rewrite skipn_length; lia).
  assert (N' : n' <= 2 ^ 64 - 1).
  { destruct W as (_ & _ & N1 & N2). unfold MAX_NONCE in *. unfold channel_of, put in EC. destruct i; injection EC; intros; subst; assumption. }
  assert (V : served C i (put i (kr, n) (ks, n')) (Recv m) (put i (kr, n + 1) (ks, n')) (pt ++ skipn 1008 m) (Ok tt)).
  { rewrite EM at 1. eapply sv_recv; [rewrite <- EM, LM; lia|exact LT|apply put_r|exact N|exact Kr| |apply put_r|rewrite !put_s; reflexivity].
    rewrite <- EM, Em. apply (open_sealed C OK). }
  cbn [enc_call]. unfold recv_handshake.
  pose proof (step_served C OK y (Recv m) W T) as V1. destruct (step_stays C OK y (Recv m) W T) as [W1 T1]. pose proof (step_role C y (Recv m)) as I1.
  cbn [step] in V1, W1, T1, I1. rewrite Ei, EC in V1. rewrite Ei in I1.
  destruct (recv_message C y m) as [[y1 b1] r1]. unfold out, res, st in V1, W1, T1, I1. cbn [fst snd] in V1, W1, T1, I1.
  destruct (served_unique _ _ _ _ _ _ _ _ _ _ V V1) as (EC1 & <- & EB). specialize (EB ltac:(discriminate)). subst b1.
  clear V V1.
  pose proof (step_served C OK y1 (Send rnd (pt ++ skipn 1008 m)) W1 T1) as V2.
  destruct (step_stays C OK y1 (Send rnd (pt ++ skipn 1008 m)) W1 T1) as [W2 T2]. pose proof (step_role C y1 (Send rnd (pt ++ skipn 1008 m))) as I2.
  cbn [step] in V2, W2, T2, I2. rewrite I1, <- EC1 in V2. rewrite I1 in I2.
  destruct (send_message C rnd y1 (pt ++ skipn 1008 m)) as [[y2 b2] r2]. unfold out, res, st in V2, W2, T2, I2. cbn [fst snd] in V2, W2, T2, I2.
  assert (LB : len (pt ++ skipn 1008 m) = 1024) by (rewrite len_app, LT, LP; reflexivity).
  destruct (N.eq_dec n' (2 ^ 64 - 1)) as [E|E].
  - right. split; [exact E|].
    assert (V : served C i (put i (kr, n + 1) (ks, n')) (Send rnd (pt ++ skipn 1008 m)) (put i (kr, n + 1) (ks, n')) (pt ++ skipn 1008 m) (Err ExhaustedNonceError)).
    { eapply sv_send_end; [rewrite LB; lia|rewrite put_s, E; reflexivity]. }
    destruct (served_unique _ _ _ _ _ _ _ _ _ _ V V2) as (_ & <- & _). reflexivity.
  - left. assert (L : n' < 2 ^ 64 - 1) by lia. split; [exact L|].
    assert (V : served C i (put i (kr, n + 1) (ks, n')) (Send rnd (pt ++ skipn 1008 m)) (put i (kr, n + 1) (ks, n' + 1)) (ENCRYPT C ks n' [] pt) (Ok tt)).
    { eapply sv_send; [rewrite LB; lia|exact LT|apply put_s|exact L|exact Ks|apply put_s|rewrite !put_r; reflexivity]. }
    destruct (served_unique _ _ _ _ _ _ _ _ _ _ V V2) as (EC2 & <- & EB). specialize (EB ltac:(discriminate)). subst b2. cbn [fst snd].
    split; [reflexivity|]. split; [exact W2|]. split; [exact T2|]. split; [exact I2|]. symmetry. exact EC2.
Qed.

Lemma len_cons' : forall A (a : A) l, len (a :: l) = 1 + len l.
Proof. intros. unfold len. cbn [length]. lia. Qed.
Section Two.
Variables k1 k2 pt : bytes.
Hypothesis K1 : k1 <> zeros32.
Hypothesis K2 : k2 <> zeros32.
Hypothesis LP : len pt = 1008.
Definition up (s : session) (i : bool) (c : SpecTransport.channel) : Prop := wf s /\ is_transport s = true /\ se_i s = i /\ channel_of s = c.
(** The results after message [j]. *)
Definition goes_on (j : N) (rnds : list bytes) (rs : list (Result bytes)) : Prop :=
  len rs = N.min (len rnds) (2 ^ 65 - j + 1) /\
  forall k r, nth_error rs k = Some r -> r = message C k1 k2 pt (j + 1 + N.of_nat k).
Lemma message_r : forall n, n < 2 ^ 64 - 1 -> message C k1 k2 pt (2 * n + 4) = Ok (ENCRYPT C k2 n [] pt).
Proof.
  intros n L. unfold message. replace (N.odd (2 * n + 4)) with false by (replace (2 * n + 4) with (2 * (n + 2)) by lia; rewrite N.odd_mul; reflexivity).
  replace ((2 * n + 4 - 3) / 2) with n by (apply (N.div_unique _ 2 _ 1); lia). destruct (n <? 2 ^ 64 - 1) eqn:E; [reflexivity|lia].
Qed.
Lemma message_i : forall n, n <= 2 ^ 64 - 1 -> message C k1 k2 pt (2 * n + 3) =
  if n =? 2 ^ 64 - 1 then Err (NoiseError ExhaustedNonceError) else Ok (ENCRYPT C k1 n [] pt).
Proof.
  intros n L. unfold message. replace (N.odd (2 * n + 3)) with true.
  2:{ replace (2 * n + 3) with (2 * (n + 1) + 1) by lia. rewrite N.odd_add_mul_2 || (rewrite N.odd_add, N.odd_mul); reflexivity. }
  replace ((2 * n + 3 - 3) / 2) with n by (apply (N.div_unique _ 2 _ 0); lia).
  destruct (n <? 2 ^ 64 - 1) eqn:E, (n =? 2 ^ 64 - 1) eqn:F; try reflexivity; lia.
Qed.
Lemma talk : forall rnds,
  (forall n I R, n < 2 ^ 64 - 1 -> up I true (mkCh (k1, n + 1) (k2, n)) -> up R false (mkCh (k1, n) (k2, n)) ->
     goes_on (2 * n + 3) rnds (passing C I R (ENCRYPT C k1 n [] pt) rnds)) /\
  (forall n I R, n < 2 ^ 64 - 1 -> up I true (mkCh (k1, n + 1) (k2, n)) -> up R false (mkCh (k1, n + 1) (k2, n + 1)) ->
     goes_on (2 * n + 4) rnds (passing C R I (ENCRYPT C k2 n [] pt) rnds)).
Proof.
  induction rnds as [|rnd rnds [IA IB]].
  - split; intros n I R L _ _; (split; [cbn [passing]; unfold len; cbn [length]; lia|intros [|k] r F; discriminate F]).
  - split; intros n I R L (W1 & T1 & R1 & E1) (W2 & T2 & R2 & E2); cbn [passing].
    + destruct (take false R (ENCRYPT C k1 n [] pt) rnd k1 n k2 n pt W2 T2 R2 E2 K1 K2 L eq_refl LP) as [(L' & X & W3 & T3 & R3 & E3)|[X _]]; [|lia].
      destruct (enc_call C R (Take rnd (ENCRYPT C k1 n [] pt))) as [R' r]. cbn [fst snd] in X, W3, T3, R3, E3. subst r.
      destruct (IB n I R' L (conj W1 (conj T1 (conj R1 E1))) (conj W3 (conj T3 (conj R3 E3)))) as [A B]. split.
      * rewrite !len_cons', A. lia.
      * intros [|k] r F.
        -- injection F as <-. replace (2 * n + 3 + 1 + N.of_nat 0) with (2 * n + 4) by lia. symmetry. apply message_r, L.
        -- apply B in F. rewrite F. f_equal. lia.
    + destruct (take true I (ENCRYPT C k2 n [] pt) rnd k2 n k1 (n + 1) pt W1 T1 R1 E1 K2 K1 L eq_refl LP) as [(L' & X & W3 & T3 & R3 & E3)|[L' X]];
        destruct (enc_call C I (Take rnd (ENCRYPT C k2 n [] pt))) as [I' r]; cbn [fst snd] in X; subst r.
      * cbn [fst snd] in W3, T3, R3, E3.
        destruct (IA (n + 1) I' R L' (conj W3 (conj T3 (conj R3 E3))) (conj W2 (conj T2 (conj R2 E2)))) as [A B]. split.
        -- rewrite !len_cons', A. lia.
        -- intros [|k] r F.
           ++ injection F as <-. replace (2 * n + 4 + 1 + N.of_nat 0) with (2 * (n + 1) + 3) by lia. rewrite message_i by lia.
              destruct (n + 1 =? 2 ^ 64 - 1) eqn:G; [lia|reflexivity].
           ++ apply B in F. rewrite F. f_equal. lia.
      * split.
        -- rewrite !len_cons'. unfold len at 1. cbn [length]. lia.
        -- intros [|k] r F; [|destruct k; discriminate F]. injection F as <-.
           replace (2 * n + 4 + 1 + N.of_nat 0) with (2 * (n + 1) + 3) by lia. rewrite message_i by lia. rewrite L'. reflexivity.
Qed.
End Two.

(** What the handshake of two encryptors leaves behind: the keys, and the buffer in which the initiator read the reply. *)
Lemma in_place_more : forall si sr ei er rnd1 rnd2 I0 R0,
  honest C [] si sr ei er rnd1 rnd2 I0 R0 ->
  let m1 := kp_public ei ++ repeat x00 992 in
  ~ In zeros32 (nx_keys C [] sr er m1 (payload2 m1)) ->
  let x1 := send_message C rnd1 I0 (repeat x00 1024) in
  let x2 := recv_message C R0 m1 in
  let x3 := send_message C rnd2 (st x2) m1 in
  let x4 := recv_message C (st x1) (out x3) in
  nx_transport_keys C [] sr er m1 (payload2 m1) = [cs_k (se_cs1 (st x4)); cs_k (se_cs2 (st x4))] /\
  exists m m', len m = 16 /\ len m' = 16 /\ out x4 = (kp_public er ++ kp_public sr ++ m ++ repeat x00 928) ++ m'.
Proof.
  intros * HO m1 NK x1 x2 x3 x4. pose proof HO as [Ksi Ksr Kei Ker HI HR L1 L2 L3 D1 D2].
  assert (LM : len m1 = 1024) by (unfold m1; rewrite len_app, (proj2 Kei); reflexivity).
  assert (O1 : out x1 = m1).
  { unfold x1. rewrite (started_len1 C [] si rnd1 ei I0 (repeat x00 1024) true); auto. rewrite len_repeat. lia. }
  assert (B0 : 48 <= len (repeat x00 1024) <= 65535) by (rewrite len_repeat; lia).
  pose proof (agreement C OK [] si sr ei er rnd1 rnd2 I0 R0 (repeat x00 1024) m1 HO B0 ltac:(lia)) as A.
  cbv zeta in A. fold x1 in A. rewrite O1 in A. fold x2 in A. fold x3 in A. fold x4 in A. specialize (A NK).
  destruct A as (A1 & A2 & A3 & A4 & _ & _ & _ & A5 & A6 & A7 & _ & _).
  assert (F1 : firstn 32 m1 = kp_public ei) by (unfold m1; apply firstn_app_exact; rewrite (proj2 Kei); reflexivity).
  pose proof (nx_responder C OK [] sr er rnd2 R0 m1 m1 HR Ksr Ker ltac:(lia) ltac:(rewrite F1; exact L1) ltac:(lia)) as B.
  cbv zeta in B. fold x2 in B. fold x3 in B.
  destruct B as (p1 & p2 & msg & R1 & _ & O2 & W2 & _ & B). specialize (B A3). destruct B as (O3 & _ & K1 & K2).
  split; [unfold nx_transport_keys; rewrite R1, W2, <- A6, <- A7, K1, K2; reflexivity|].
  pose proof (exchange C OK [] si sr ei er rnd1 rnd2 I0 R0 (repeat x00 1024) m1 Ksi Ksr Kei Ker HI HR L1 L2 L3 D1 D2 B0 ltac:(lia)) as X.
  cbv zeta in X. fold x1 in X. rewrite O1 in X. fold x2 in X. fold x3 in X. fold x4 in X. destruct X as (_ & _ & _ & _ & X).
  specialize (X ltac:(rewrite A3; discriminate)). destruct X as (_ & _ & s4 & q1 & q2 & hr & hi & Q1 & Q2 & _ & _ & _ & _ & _ & _ & X).
  exists q1, q2. split; [exact Q1|]. split; [exact Q2|]. rewrite X. rewrite <- !app_assoc. do 3 f_equal. f_equal.
  assert (LE : length (kp_public ei) = 32%nat) by (pose proof (proj2 Kei); unfold len in *; lia).
  unfold m1. rewrite skipn_app, LE, (skipn_all2 (kp_public ei)) by lia. rewrite app_length, LE, repeat_length. reflexivity.
Qed.

Lemma opened : forall i p rnd b g o, asked C i (Handshake false p) (Send rnd b) g o (Ok tt) -> exists p', g = Handshake true p'.
Proof.
  intros i p rnd b g o H. inversion H; subst; [match goal with A : In _ _ |- _ => cbn in A; intuition discriminate end|]. eexists; reflexivity.
Qed.
(** What a second message that is read leaves in bytes 64 to 79. *)
Lemma kept_tag : forall i g m g' b, asked C i g (Recv m) g' b (Ok tt) -> (exists p, g = Handshake true p) ->
  exists k rest, b = firstn 32 m ++ k ++ firstn 16 (skipn 64 m) ++ rest /\ len (firstn 32 m) = 32 /\ len k = 32 /\ len (firstn 16 (skipn 64 m)) = 16.
Proof.
  intros i g m g' b H [p ->]. inversion H; subst; [match goal with A : In _ _ |- _ => cbn in A; intuition discriminate end|].
  match goal with A : payload_read _ _ _ _ _ _ _ _ |- _ => inversion A; subst end.
  exists k. eexists. split; [reflexivity|].
  split; [unfold len in *; rewrite firstn_length; lia|]. split; [|unfold len in *; rewrite firstn_length, skipn_length; lia].
  match goal with A : read_tokens C (acting true p) [TE; TEE; TS] m = Some (q', _), B : p_rs q' = Some k |- _ =>
    destruct (tok_ees C _ _ _ _ A) as (rs & _ & LB & _ & _ & _ & R & D & _); rewrite B in R; injection R as <- end.
  set (box := firstn 48 (skipn 32 m)) in *. clearbody box. unfold DECRYPT in D.
  destruct (len box <? 16) eqn:S; [discriminate D|]. match type of D with context [c_open C ?k ?n ?a ?c ?t] => pose proof (open_len C OK k n a c t) as X; destruct (c_open C k n a c t) as [[] pt'] end; [|discriminate D].
  injection D as ->. cbn [snd] in X. rewrite X. unfold len in *. rewrite firstn_length. lia.
Qed.
Theorem answers : forall sk rsi rsr rnd1 rnd2 rnd3 rnds,
  let si := mkKeypair rsi (c_pub C rsi) in
  let sr := match sk with Some k => k | None => mkKeypair rsr (c_pub C rsr) end in
  let ei := mkKeypair rnd1 (c_pub C rnd1) in
  let er := mkKeypair rnd2 (c_pub C rnd2) in
  usable_keys C si sr ei er ->
  let m1 := kp_public ei ++ repeat x00 992 in
  ~ In zeros32 (nx_keys C [] sr er m1 (payload2 m1)) ->
  ~ In zeros32 (nx_transport_keys C [] sr er m1 (payload2 m1)) ->
  exists I1 m2 k1 k2,
    init_handshake C rnd1 (new_outbound C rsi) = (I1, Ok m1) /\
    nx_transport_keys C [] sr er m1 (payload2 m1) = [k1; k2] /\
    let pt := kp_public er ++ kp_public sr ++ firstn 16 (skipn 64 m2) ++ repeat x00 928 in
    let rs := passing C I1 (new_inbound C sk rsr) m1 (rnd2 :: rnd3 :: rnds) in
    nth_error rs 0 = Some (Ok m2) /\
    (forall k r, nth_error rs (S k) = Some r -> r = message C k1 k2 pt (3 + N.of_nat k)) /\
    len rs = N.min (2 + len rnds) (2 ^ 65).
Proof.
  intros sk rsi rsr rnd1 rnd2 rnd3 rnds si sr ei er UK m1 NK NT.
  assert (HO : honest C [] si sr ei er rnd1 rnd2 (new_outbound C rsi) (new_inbound C sk rsr)) by exact (new_usable C sk rsi rsr rnd1 rnd2 UK).
  pose proof (in_place C OK si sr ei er rnd1 rnd2 _ _ HO NK NT) as X. cbv zeta in X. fold m1 in X.
  pose proof (in_place_more si sr ei er rnd1 rnd2 _ _ HO NK) as Y. cbv zeta in Y. fold m1 in Y.
  set (x1 := send_message C rnd1 (new_outbound C rsi) (repeat x00 1024)) in *.
  set (x2 := recv_message C (new_inbound C sk rsr) m1) in *.
  set (x3 := send_message C rnd2 (st x2) m1) in *.
  set (x4 := recv_message C (st x1) (out x3)) in *.
  destruct X as (O1 & R1 & R2 & O2 & R3 & R4 & HC & RK & K1 & K2 & LM & L4).
  destruct Y as (EK & m & m' & LT & LT' & O4).
  destruct (extra_message C OK _ _ (out x4) rnd3 HC K1 L4) as [S5 _].
  destruct (completed_wf C OK _ _ HC) as ((WI & TI & RI) & (WR & TR & RR) & EC & N1 & N2).
  exists (st x1), (out x3), (cs_k (se_cs1 (st x4))), (cs_k (se_cs2 (st x4))).
  assert (TG : m = firstn 16 (skipn 64 (out x3))).
  { assert (KP : keypair_ok si) by exact (ho_si _ _ _ _ _ _ _ _ _ _ HO).
    pose proof (stage_new C OK true [] si KP) as A0. change (init_session C true [] si) with (new_outbound C rsi) in A0.
    pose proof (wf_init C true [] si) as W0. change (init_session C true [] si) with (new_outbound C rsi) in W0.
    destruct (step_asked C OK true _ _ (Send rnd1 (repeat x00 1024)) W0 A0) as (g1 & S1 & A1).
    pose proof (wf_step C OK _ (Send rnd1 (repeat x00 1024)) W0) as W1. cbn [step] in S1, A1, W1. fold x1 in S1, A1, W1.
    destruct (step_asked C OK true _ _ (Recv (out x3)) W1 A1) as (g2 & S2 & A2). cbn [step] in S2. fold x4 in S2. rewrite R4 in S2. rewrite R1 in S1.
    assert (G1 : exists p, g1 = Handshake true p) by exact (opened _ _ _ _ _ _ S1).
    destruct (kept_tag _ _ _ _ _ S2 G1) as (k & rest & E & La & Lk & Lt). rewrite O4 in E. rewrite <- !app_assoc in E.
    pose proof (ho_er _ _ _ _ _ _ _ _ _ _ HO) as [_ Le]. pose proof (ho_sr _ _ _ _ _ _ _ _ _ _ HO) as [_ Ls].
    apply app_eq_len in E; [|unfold len in *; lia]. destruct E as [_ E]. apply app_eq_len in E; [|unfold len in *; lia]. destruct E as [_ E].
    apply app_eq_len in E; [|unfold len in *; lia]. exact (proj1 E). }
  set (pt := kp_public er ++ kp_public sr ++ m ++ repeat x00 928) in *.
  assert (LP : len pt = 1008) by (rewrite O4, len_app in L4; lia).
  assert (EP : plaintext_of (out x4) = pt).
  { unfold plaintext_of. rewrite O4, app_length. apply firstn_app_exact. unfold len in *. lia. }
  split.
  { unfold init_handshake. fold x1. destruct x1 as [[s b] r]. unfold st, out, res in *. cbn [fst snd] in *. rewrite R1, O1. reflexivity. }
  split; [exact EK|]. cbv zeta. rewrite <- TG. fold pt.
  set (I' := se_incr (se_set_cs1 (st x4) (mkCS (cs_k (se_cs1 (st x4))) 1))) in *. rewrite EP in S5.
  assert (W' : up I' true (mkCh (cs_k (se_cs1 (st x4)), 0 + 1) (cs_k (se_cs2 (st x4)), 0))).
  { pose proof (wf_step C OK (st x4) (Send rnd3 (out x4)) WI) as W. pose proof (step_role C (st x4) (Send rnd3 (out x4))) as X.
    cbn [step] in W, X. rewrite S5 in W, X. cbn [st fst] in W, X. split; [exact W|]. split; [exact TI|]. split; [rewrite <- RI; exact X|].
    unfold I', channel_of. cbn [se_incr se_set_cs1 se_cs1 se_cs2 cs_k cs_n]. rewrite N2. reflexivity. }
  assert (WR' : up (st x3) false (mkCh (cs_k (se_cs1 (st x4)), 0) (cs_k (se_cs2 (st x4)), 0))).
  { split; [exact WR|]. split; [exact TR|]. split; [exact RR|]. rewrite <- EC. unfold channel_of. rewrite N1, N2. reflexivity. }
  destruct (proj1 (talk _ _ pt K1 K2 LP rnds) 0 I' (st x3) ltac:(lia) W' WR') as [A B].
  assert (H2 : enc_call C (new_inbound C sk rsr) (Take rnd2 m1) = (st x3, Ok (out x3))).
  { cbn [enc_call]. unfold recv_handshake. fold x2. destruct x2 as [[s b] r]. unfold st, out, res in O2, R2. cbn [fst snd] in O2, R2. rewrite R2.
    subst b. change (st (s, m1, r)) with s in x3. fold x3. destruct x3 as [[s3 b3] r3].
    unfold st, out, res in *. cbn [fst snd] in *. rewrite R3. reflexivity. }
  assert (H3 : enc_call C (st x1) (Take rnd3 (out x3)) = (I', Ok (ENCRYPT C (cs_k (se_cs1 (st x4))) 0 [] pt))).
  { cbn [enc_call]. unfold recv_handshake. fold x4. revert S5 R4. clearbody x4. clear. intros. destruct x4 as [[s b] r]. unfold st, out, res in *. cbn [fst snd] in *. rewrite R4.
    rewrite S5. reflexivity. }
  cbn [passing]. rewrite H2. cbn beta iota. rewrite H3. cbn beta iota.
  split; [reflexivity|]. split.
  - intros [|k] r F; cbn [nth_error] in F.
    + injection F as <-. reflexivity.
    + apply B in F. rewrite F. f_equal. lia.
  - rewrite !len_cons', A. lia.
Qed.
End Pass.

Theorem inbound_exact : forall C, crypto_ok C -> forall sk rs cs,
  match sk with Some k => keypair_ok k | None => len rs = 32 end ->
  let own := match sk with Some k => k | None => mkKeypair rs (c_pub C rs) end in
  exists g, handling C false (Handshake false (newcomer C false [] own)) cs (fst (enc_run C (new_inbound C sk rs) cs)) g /\
    tells (snd (enc_run C (new_inbound C sk rs) cs)) g.
Proof.
  intros C OK sk rs cs K own.
  assert (E : new_inbound C sk rs = init_session C false [] own) by (unfold new_inbound, own; destruct sk; reflexivity).
  rewrite E. apply (handling_exact C OK). unfold own. destruct sk; [exact K|]. split; [exact K|]. apply (pub_len C OK).
Qed.
Theorem outbound_exact : forall C, crypto_ok C -> forall rs cs, len rs = 32 ->
  exists g, handling C true (Handshake false (newcomer C true [] (mkKeypair rs (c_pub C rs)))) cs (fst (enc_run C (new_outbound C rs) cs)) g /\
    tells (snd (enc_run C (new_outbound C rs) cs)) g.
Proof.
  intros C OK rs cs K. apply (handling_exact C OK true (mkKeypair rs (c_pub C rs)) cs). split; [exact K|]. apply (pub_len C OK).
Qed.
Theorem stays_complete : forall C, crypto_ok C -> forall i sk rs cs cs', len rs = 32 ->
  match sk with Some k => keypair_ok k | None => True end ->
  let s := snd (enc_run C (if i : bool then new_outbound C rs else new_inbound C sk rs) cs) in let x := enc_run C s cs' in
  is_handshake_complete s = true ->
  ~ In Panic (fst x) /\ is_handshake_complete (snd x) = true /\ get_remote_pubkey (snd x) = get_remote_pubkey s.
Proof.
  intros C OK i sk rs cs cs' L K.
  assert (KD : keypair_ok (mkKeypair rs (c_pub C rs))) by (split; [exact L|apply (pub_len C OK)]).
  set (own := if i then mkKeypair rs (c_pub C rs) else match sk with Some k => k | None => mkKeypair rs (c_pub C rs) end).
  assert (E : (if i then new_outbound C rs else new_inbound C sk rs) = init_session C i [] own)
    by (unfold own, new_outbound, new_inbound; destruct i, sk; reflexivity).
  rewrite E. apply (complete_stays C OK). unfold own. destruct i, sk; assumption.
Qed.

Theorem real_answers : forall ksi ksr kei ker rnd3 rnds,
  len ksi = 32 -> len ksr = 32 -> len kei = 32 -> len ker = 32 ->
  let C := real_crypto in
  let m1 := c_pub C kei ++ repeat x00 992 in
  let keys := nx_transport_keys C [] (real_pair ksr) (real_pair ker) m1 (payload2 m1) in
  ~ In zeros32 (nx_keys C [] (real_pair ksr) (real_pair ker) m1 (payload2 m1)) -> ~ In zeros32 keys ->
  exists I1 m2 k1 k2,
    init_handshake C kei (new_outbound C ksi) = (I1, Ok m1) /\ keys = [k1; k2] /\
    let pt := c_pub C ker ++ c_pub C ksr ++ firstn 16 (skipn 64 m2) ++ repeat x00 928 in
    let rs := passing C I1 (new_inbound C None ksr) m1 (ker :: rnd3 :: rnds) in
    nth_error rs 0 = Some (Ok m2) /\
    (forall k r, nth_error rs (S k) = Some r -> r = message C k1 k2 pt (3 + N.of_nat k)) /\
    len rs = N.min (2 + len rnds) (2 ^ 65).
Proof.
  intros ksi ksr kei ker rnd3 rnds L1 L2 L3 L4 C m1 keys NK NT.
  exact (answers real_crypto real_crypto_ok None ksi ksr kei ker rnd3 rnds (real_usable ksi ksr kei ker L1 L2 L3 L4) NK NT).
Qed.
