(** * TransportProofs: histories of calls on an established session. *)
From Coq Require Import Lia ZifyBool ZifyNat ZifyN.
From Verif Require Import Base BaseFacts Noise SpecNoise SpecSession NoiseFacts FrameProofs HandshakeProofs NxProofs SessionProofs NetProofs
  RecvProofs NoiseClaims SessionClaims NoiseSamples SpecTransport.
Open Scope N_scope.

Section Transport.
Variable C : crypto.
Hypothesis OK : crypto_ok C.

Lemma channel_eq : forall i c c', sending i c = sending i c' -> receiving i c = receiving i c' -> c = c'.
Proof. intros i [r1 i1] [r2 i2]. unfold sending, receiving. cbn. destruct i; intros -> ->; reflexivity. Qed.
Lemma sending_of : forall s, sending (se_i s) (channel_of s) = (cs_k (snd_cs s), cs_n (snd_cs s)).
Proof. intros [hs h c1 c2 mc i t]. destruct i; reflexivity. Qed.
Lemma receiving_of : forall s, receiving (se_i s) (channel_of s) = (cs_k (rcv_cs s), cs_n (rcv_cs s)).
Proof. intros [hs h c1 c2 mc i t]. destruct i; reflexivity. Qed.

Lemma step_served : forall s c, wf s -> is_transport s = true ->
  served C (se_i s) (channel_of s) c (channel_of (st (step C s c))) (out (step C s c)) (res (step C s c)).
Proof.
  intros s c W T. pose proof W as (G & (K1 & K2) & N1 & N2). assert (M : 2 <= se_mc s) by (apply G; exact T).
  assert (KS : len (cs_k (snd_cs s)) = 32) by (unfold snd_cs; destruct (se_i s); assumption).
  assert (KR : len (cs_k (rcv_cs s)) = 32) by (unfold rcv_cs; destruct (se_i s); assumption).
  assert (NS : cs_n (snd_cs s) <= MAX_NONCE) by (unfold snd_cs; destruct (se_i s); assumption).
  assert (NR : cs_n (rcv_cs s) <= MAX_NONCE) by (unfold rcv_cs; destruct (se_i s); assumption).
  destruct c as [rnd b|b| | | | |e]; cbn [step].
  - destruct (send_cases C rnd s b M) as [[Q X]|[[Q [E X]]|[[Q [E [K X]]]|[Q [E [K X]]]]]]; rewrite X; unfold st, out, res; cbn [fst snd].
    + apply sv_send_size. lia.
    + eapply sv_send_end; [exact Q|]. rewrite sending_of, E. reflexivity.
    + eapply sv_send_empty; [exact Q|rewrite sending_of, K; reflexivity|unfold MAX_NONCE in *; lia].
    + rewrite sealed_spec by exact KS.
      assert (EB : b = plaintext_of b ++ skipn (length b - 16) b) by (unfold plaintext_of; symmetry; apply firstn_skipn).
      rewrite EB at 1. eapply sv_send.
      * rewrite <- EB. exact Q.
      * unfold len in *. rewrite skipn_length. lia.
      * apply sending_of.
      * unfold MAX_NONCE in *; lia.
      * exact K.
      * destruct s as [hs h c1 c2 mc i t]. destruct i; reflexivity.
      * destruct s as [hs h c1 c2 mc i t]. destruct i; reflexivity.
  - destruct (recv_cases C s b M) as [[Q X]|[[Q [E X]]|[[Q [E [K X]]]|[Q [E [K (ct & mac & pt & EB & LM & D)]]]]]].
    1-3: rewrite X; unfold st, out, res; cbn [fst snd].
    + apply sv_recv_size. lia.
    + eapply sv_recv_end; [exact Q|]. rewrite receiving_of, E. reflexivity.
    + eapply sv_recv_empty; [exact Q|rewrite receiving_of, K; reflexivity|unfold MAX_NONCE in *; lia].
    + rewrite firstn_exact in D by (rewrite KR; reflexivity). rewrite prep_nonce_spec in D.
      assert (DE : DECRYPT C (cs_k (rcv_cs s)) (cs_n (rcv_cs s)) [] (ct ++ mac) =
                   let '(ok, q) := c_open C (cs_k (rcv_cs s)) (nonce96 (cs_n (rcv_cs s))) [] ct mac in if ok then Some q else None).
      { unfold DECRYPT. destruct (len (ct ++ mac) <? 16) eqn:E16; [subst b; lia|].
        assert (LBn : (length (ct ++ mac) - 16)%nat = length ct) by (rewrite app_length; unfold len in *; lia). rewrite LBn.
        rewrite (firstn_app_exact _ (length ct)), (skipn_app_exact _ (length ct)) by reflexivity. reflexivity. }
      pose proof (open_len C OK (cs_k (rcv_cs s)) (nonce96 (cs_n (rcv_cs s))) [] ct mac) as OL.
      destruct D as [[Op X]|[Op X]]; rewrite X; unfold st, out, res; cbn [fst snd]; rewrite Op in DE, OL; cbn [snd] in OL; subst b.
      * eapply sv_recv_bad; [exact Q|exact LM|apply receiving_of|unfold MAX_NONCE in *; lia|exact K|exact DE|exact OL].
      * eapply sv_recv; [exact Q|exact LM|apply receiving_of|unfold MAX_NONCE in *; lia|exact K|exact DE| |].
        -- destruct s as [hs h c1 c2 mc' i t]. destruct i; reflexivity.
        -- destruct s as [hs h c1 c2 mc' i t]. destruct i; reflexivity.
  - apply sv_clear_local.
  - apply sv_clear_remote.
  - unfold st, out, res. cbn [fst snd].
    assert (X : channel_of (rekey_local_cipherstate C s) = mkCh (REKEY C (cs_k (se_cs1 s)), cs_n (se_cs1 s)) (to_i (channel_of s))).
    { unfold rekey_local_cipherstate. rewrite (rekey_spec C OK). destruct s; reflexivity. }
    rewrite X. apply sv_rekey_local. reflexivity.
  - unfold st, out, res. cbn [fst snd].
    assert (X : channel_of (rekey_remote_cipherstate C s) = mkCh (REKEY C (cs_k (se_cs1 s)), cs_n (se_cs1 s)) (to_i (channel_of s))).
    { unfold rekey_remote_cipherstate. rewrite (rekey_spec C OK). destruct s; reflexivity. }
    rewrite X. apply sv_rekey_remote. reflexivity.
  - apply sv_ephemeral.
Qed.

Lemma step_stays : forall s c, wf s -> is_transport s = true -> wf (st (step C s c)) /\ is_transport (st (step C s c)) = true.
Proof.
  intros s c W T. pose proof (wf_step C OK s c W) as W'. split; [exact W'|].
  exact (run_transport_stays C [c] s (proj1 W) T).
Qed.
Lemma step_role : forall s c, se_i (st (step C s c)) = se_i s.
Proof.
  intros s [rnd b|b| | | | |e]; cbn [step]; try reflexivity; [apply (send_mc C rnd s b)|apply (recv_mc C s b)].
Qed.

Theorem history_exact : forall s cs, reachable C s -> is_transport s = true ->
  history C (se_i s) (channel_of s) cs (results C s cs) (channel_of (run_calls C s cs)).
Proof.
  intros s cs R. apply (wf_reachable C OK) in R. revert s R. induction cs as [|c cs IH]; intros s W T; [constructor|].
  cbn [results]. rewrite run_calls_cons. destruct (step_stays s c W T) as [W' T'].
  econstructor; [apply step_served; assumption|]. specialize (IH _ W' T'). rewrite step_role in IH. exact IH.
Qed.

Lemma app_len_unique : forall (a b c d : bytes), a ++ b = c ++ d -> len b = len d -> a = c /\ b = d.
Proof.
  intros a b c d E L. assert (LA : length a = length c).
  { apply (f_equal (@length byte)) in E. rewrite !app_length in E. unfold len in L. lia. }
  revert c E LA. induction a as [|x a IH]; intros [|y c] E LA; try discriminate LA; [auto|].
  injection E as -> E. destruct (IH c E) as [-> ->]; [cbn in LA; lia|]. auto.
Qed.

Theorem served_unique : forall i c call c1 b1 r1 c2 b2 r2,
  served C i c call c1 b1 r1 -> served C i c call c2 b2 r2 ->
  c1 = c2 /\ r1 = r2 /\ (r1 <> Err DecryptionError -> b1 = b2).
Proof.
  intros i c call c1 b1 r1 c2 b2 r2 H1 H2.
  assert (SPLIT : forall a b a' b' : bytes, len b = 16 -> len b' = 16 -> a ++ b = a' ++ b' -> a = a' /\ b = b').
  { intros a b a' b' L L' E. apply app_len_unique; [exact E|lia]. }
  destruct H1; inversion H2; subst;
    repeat match goal with
    | H : ?a ++ ?b = ?a' ++ ?b', L : len ?b = 16, L' : len ?b' = 16 |- _ =>
        let E1 := fresh in let E2 := fresh in
        destruct (SPLIT _ _ _ _ L L' H) as [E1 E2]; clear H; first [subst a'|subst a|idtac]; first [subst b'|subst b|idtac]
    | A : sending ?i ?c = (_, _), B : sending ?i ?c = (_, _) |- _ => rewrite A in B; injection B as; subst
    | A : receiving ?i ?c = (_, _), B : receiving ?i ?c = (_, _) |- _ => rewrite A in B; injection B as; subst
    | A : to_r ?c = (_, _), B : to_r ?c = (_, _) |- _ => rewrite A in B; injection B as; subst
    end;
    try (exfalso; lia); try contradiction;
    try (split; [reflexivity|]; split; [reflexivity|]; intros; congruence).
  - split; [apply (channel_eq i); congruence|]. split; [reflexivity|intros; reflexivity].
  - exfalso. congruence.
  - exfalso. congruence.
  - split; [apply (channel_eq i); congruence|]. split; [reflexivity|intros; congruence].
Qed.
Theorem history_unique : forall i c cs rs1 c1 rs2 c2, history C i c cs rs1 c1 -> history C i c cs rs2 c2 ->
  c1 = c2 /\ map snd rs1 = map snd rs2 /\
  forall j b1 b2 r, nth_error rs1 j = Some (b1, r) -> nth_error rs2 j = Some (b2, r) -> r <> Err DecryptionError -> b1 = b2.
Proof.
  intros i c cs rs1 c1 rs2 c2 H. revert rs2 c2. induction H as [c|c call ca b r calls rs cb S H IH]; intros rs2 c2 H2.
  - inversion H2; subst. split; [reflexivity|]. split; [reflexivity|]. intros [|j] b1 b2 r Q; discriminate Q.
  - inversion H2 as [|c0 call0 ca' b' r' calls0 rs' cb' S' H']; subst. destruct (served_unique _ _ _ _ _ _ _ _ _ S S') as (<- & <- & B).
    destruct (IH _ _ H') as (<- & M & N). split; [reflexivity|]. split; [cbn; rewrite M; reflexivity|].
    intros [|j] b1 b2 r0 Q Q' NE; [|exact (N j b1 b2 r0 Q Q' NE)].
    cbn in Q, Q'. injection Q as <- <-. injection Q' as <-. apply B. exact NE.
Qed.

(** ** Counters and keys of the sends of a history *)
Lemma served_send : forall i c rnd b c' o, served C i c (Send rnd b) c' o (Ok tt) ->
  exists k n, sending i c = (k, n) /\ n < 2 ^ 64 - 1 /\ k <> zeros32 /\ o = ENCRYPT C k n [] (plaintext_of b) /\
    sending i c' = (k, n + 1) /\ receiving i c' = receiving i c.
Proof.
  intros * H. inversion H as [| | |rnd' pt room k n c0 L LR S LN NZ S' R| | | | | | | | | |]; subst.
  exists k, n. split; [exact S|]. split; [exact LN|]. split; [exact NZ|]. split; [|split; assumption].
  f_equal. unfold plaintext_of. rewrite app_length. assert (LR' : length room = 16%nat) by (unfold len in LR; lia).
  rewrite LR'. replace (length pt + 16 - 16)%nat with (length pt) by lia. symmetry. apply (firstn_app_exact _ (length pt)). reflexivity.
Qed.
Lemma served_fail : forall i c rnd b c' o r, served C i c (Send rnd b) c' o r -> r <> Ok tt -> c' = c.
Proof. intros * H NE. inversion H; subst; try reflexivity. contradiction NE; reflexivity. Qed.
Lemma served_recv : forall i c b c' o r, served C i c (Recv b) c' o r -> sending i c' = sending i c.
Proof. intros * H. inversion H; subst; try reflexivity; assumption. Qed.

Definition first_send (s : session) (c : call) : list (bytes * bytes) :=
  match c, res (step C s c) with
  | Send _ b, Ok _ => if is_transport s then [(b, out (step C s c))] else []
  | _, _ => []
  end.
Lemma sends_cons : forall s c cs, transport_sends C s (c :: cs) = first_send s c ++ transport_sends C (st (step C s c)) cs.
Proof. intros s [] cs; reflexivity. Qed.

(** One step, seen from the sending side. *)
Lemma step_sending : forall s c, wf s -> is_transport s = true -> exists k n,
  sending (se_i s) (channel_of s) = (k, n) /\
  ((exists rnd b, c = Send rnd b /\ first_send s c = [(b, ENCRYPT C k n [] (plaintext_of b))] /\ n < 2 ^ 64 - 1 /\ k <> zeros32 /\
      sending (se_i s) (channel_of (st (step C s c))) = (k, n + 1)) \/
   (first_send s c = [] /\
    sending (se_i s) (channel_of (st (step C s c))) =
      match c with
      | ClearLocal => if se_i s then (zeros32, 0) else (k, n)
      | ClearRemote => if se_i s then (k, n) else (zeros32, 0)
      | RekeyLocal | RekeyRemote => if se_i s then (REKEY C k, n) else (k, n)
      | _ => (k, n)
      end)).
Proof.
  intros s c W T. pose proof (step_served s c W T) as S. exists (fst (sending (se_i s) (channel_of s))), (snd (sending (se_i s) (channel_of s))).
  split; [destruct (sending _ _); reflexivity|].
  destruct c as [rnd b|b| | | | |e].
  - destruct (ok_dec (res (step C s (Send rnd b)))) as [R|R].
    + left. rewrite R in S. destruct (served_send _ _ _ _ _ _ S) as (k & n & E & LN & NZ & O & E' & _). rewrite E. cbn [fst snd].
      exists rnd, b. split; [reflexivity|]. split; [|auto]. unfold first_send. rewrite R, T, O. reflexivity.
    + right. split; [unfold first_send; destruct (res (step C s (Send rnd b))) as [[]| |]; [contradiction R; reflexivity|reflexivity|reflexivity]|].
      rewrite (served_fail _ _ _ _ _ _ _ S R). destruct (sending _ _); reflexivity.
  - right. split; [reflexivity|]. rewrite (served_recv _ _ _ _ _ _ S). destruct (sending _ _); reflexivity.
  - right. split; [reflexivity|]. destruct s as [hs h [k1 n1] [k2 n2] mc i t]. destruct i; reflexivity.
  - right. split; [reflexivity|]. destruct s as [hs h [k1 n1] [k2 n2] mc i t]. destruct i; reflexivity.
  - right. split; [reflexivity|]. cbn [step st fst]. unfold rekey_local_cipherstate. rewrite (rekey_spec C OK).
    destruct s as [hs h [k1 n1] [k2 n2] mc i t]. destruct i; reflexivity.
  - right. split; [reflexivity|]. cbn [step st fst]. unfold rekey_remote_cipherstate. rewrite (rekey_spec C OK).
    destruct s as [hs h [k1 n1] [k2 n2] mc i t]. destruct i; reflexivity.
  - right. split; [reflexivity|]. cbn [step st fst]. destruct s as [hs h [k1 n1] [k2 n2] mc i t]. destruct i; reflexivity.
Qed.

(** A responder whose sending key is zero sends nothing any more. *)
Lemma silent_responder : forall cs s n, wf s -> is_transport s = true -> se_i s = false ->
  sending false (channel_of s) = (zeros32, n) -> transport_sends C s cs = [].
Proof.
  induction cs as [|c cs IH]; intros s n W T I S; [reflexivity|]. rewrite sends_cons.
  destruct (step_stays s c W T) as [W' T']. pose proof (step_role s c) as I'. rewrite I in I'.
  destruct (step_sending s c W T) as (k & n' & E & D). rewrite I, S in E. injection E as <- <-. rewrite I in D.
  destruct D as [(rnd & b & _ & _ & _ & NZ & _)|[F E']]; [contradiction NZ; reflexivity|]. rewrite F. cbn [app].
  assert (X : exists m, sending false (channel_of (st (step C s c))) = (zeros32, m)) by (destruct c; eexists; exact E').
  destruct X as [m X]. exact (IH _ m W' T' I' X).
Qed.
Lemma responder_sends : forall cs s k n, wf s -> is_transport s = true -> se_i s = false ->
  sending false (channel_of s) = (k, n) -> forall j b o, nth_error (transport_sends C s cs) j = Some (b, o) ->
  k <> zeros32 /\ n + N.of_nat j < 2 ^ 64 - 1 /\ o = ENCRYPT C k (n + N.of_nat j) [] (plaintext_of b).
Proof.
  induction cs as [|c cs IH]; intros s k n W T I S j b o; [destruct j; discriminate|]. rewrite sends_cons.
  destruct (step_stays s c W T) as [W' T']. pose proof (step_role s c) as I'. rewrite I in I'.
  destruct (step_sending s c W T) as (k' & n' & E & D). rewrite I, S in E. injection E as <- <-. rewrite I in D.
  destruct D as [(rnd & b0 & -> & F & LN & NZ & E')|[F E']]; rewrite F.
  - cbn [app]. destruct j as [|j]; cbn [nth_error].
    + intro Q. injection Q as <- <-. rewrite N.add_0_r. auto.
    + intro Q. destruct (IH _ _ _ W' T' I' E' _ _ _ Q) as (A1 & A2 & A3). split; [exact A1|].
      replace (n + N.of_nat (Datatypes.S j)) with (n + 1 + N.of_nat j) by lia. auto.
  - cbn [app]. intro Q. destruct c; try exact (IH _ _ _ W' T' I' E' _ _ _ Q).
    rewrite (silent_responder cs _ 0 W' T' I' E') in Q. destruct j; discriminate Q.
Qed.
Theorem responder_history : forall pro kp cs, exists k, forall j b o,
  nth_error (transport_sends C (init_session C false pro kp) cs) j = Some (b, o) ->
  k <> zeros32 /\ N.of_nat j < 2 ^ 64 - 1 /\ o = ENCRYPT C k (N.of_nat j) [] (plaintext_of b).
Proof.
  intros pro kp cs.
  destruct (sends_early C OK cs _ (early_init C false pro kp)) as [[-> _]|[cs1 [cs2 [s' [-> [R [Fr ->]]]]]]].
  - exists []. intros [|j] b o Q; discriminate Q.
  - assert (W : wf s') by (rewrite <- R; apply (wf_run C OK), wf_init).
    assert (I : se_i s' = false).
    { rewrite <- R. clear. assert (X : se_i (init_session C false pro kp) = false) by reflexivity.
      revert X. generalize (init_session C false pro kp). induction cs1 as [|c cs1 IH]; intros s X; [exact X|].
      rewrite run_calls_cons. apply IH. rewrite step_role. exact X. }
    destruct Fr as (_ & T & _ & _ & N2). exists (cs_k (se_cs2 s')). intros j b o Q.
    assert (S : sending false (channel_of s') = (cs_k (se_cs2 s'), 0)) by (cbn; rewrite N2; reflexivity).
    exact (responder_sends cs2 s' _ 0 W T I S j b o Q).
Qed.

(** Without a [ClearLocal] the counters of the sends go up, for either role. *)
Theorem counters_up : forall cs s k n, wf s -> is_transport s = true ->
  sending (se_i s) (channel_of s) = (k, n) -> Forall no_clear_local cs ->
  forall j b o, nth_error (transport_sends C s cs) j = Some (b, o) ->
  n + N.of_nat j < 2 ^ 64 - 1 /\ exists k', k' <> zeros32 /\ o = ENCRYPT C k' (n + N.of_nat j) [] (plaintext_of b).
Proof.
  intros cs s k n W T S F. destruct (se_i s) eqn:I.
  2:{ intros j b o Q. destruct (responder_sends cs s k n W T I S j b o Q) as (A1 & A2 & A3). split; [exact A2|]. exists k. auto. }
  revert s k n W T I S F. induction cs as [|c cs IH]; intros s k n W T I S F j b o; [destruct j; discriminate|]. rewrite sends_cons.
  inversion F as [|? ? F1 F2]; subst.
  destruct (step_stays s c W T) as [W' T']. pose proof (step_role s c) as I'. rewrite I in I'.
  destruct (step_sending s c W T) as (k' & n' & E & D). rewrite I, S in E. injection E as <- <-. rewrite I in D.
  destruct D as [(rnd & b0 & -> & FS & LN & NZ & E')|[FS E']]; rewrite FS.
  - cbn [app]. destruct j as [|j]; cbn [nth_error].
    + intro Q. injection Q as <- <-. rewrite N.add_0_r. split; [exact LN|]. exists k. auto.
    + intro Q. replace (n + N.of_nat (Datatypes.S j)) with (n + 1 + N.of_nat j) by lia. exact (IH _ _ _ W' T' I' E' F2 _ _ _ Q).
  - cbn [app]. intro Q. destruct c; try exact (IH _ _ _ W' T' I' E' F2 _ _ _ Q); contradiction F1.
Qed.

Lemma iter_r : forall (f : bytes -> bytes) n x, Nat.iter (Datatypes.S n) f x = Nat.iter n f (f x).
Proof. intros f n x. induction n as [|n IH]; [reflexivity|]. cbn in *. rewrite IH. reflexivity. Qed.
(** Keys and counters of an initiator after a history without [ClearLocal]. *)
Lemma initiator_channel : forall cs s k n, wf s -> is_transport s = true -> se_i s = true ->
  sending true (channel_of s) = (k, n) -> Forall no_clear_local cs ->
  sending true (channel_of (run_calls C s cs)) =
    (rekeyed C (length (filter is_rekey cs)) k, n + len (transport_sends C s cs)).
Proof.
  induction cs as [|c cs IH]; intros s k n W T I S F; [cbn [run_calls filter length transport_sends rekeyed]; rewrite len_nil, N.add_0_r; exact S|].
  inversion F as [|? ? F1 F2]; subst. rewrite run_calls_cons, sends_cons.
  destruct (step_stays s c W T) as [W' T']. pose proof (step_role s c) as I'. rewrite I in I'.
  destruct (step_sending s c W T) as (k' & n' & E & D). rewrite I, S in E. injection E as <- <-. rewrite I in D.
  destruct D as [(rnd & b0 & -> & FS & LN & NZ & E')|[FS E']]; rewrite FS.
  - rewrite (IH _ _ _ W' T' I' E' F2). cbn [filter is_rekey]. rewrite len_app. f_equal. unfold len. cbn [length]. lia.
  - cbn [app]. destruct c; cbn [filter is_rekey length]; try exact (IH _ _ _ W' T' I' E' F2); try contradiction F1.
    + rewrite (IH _ _ _ W' T' I' E' F2). f_equal. unfold rekeyed. symmetry. apply iter_r.
    + rewrite (IH _ _ _ W' T' I' E' F2). f_equal. unfold rekeyed. symmetry. apply iter_r.
Qed.
Theorem after_clear : forall s cs rnd b, reachable C s -> is_transport s = true -> se_i s = true -> Forall no_clear_local cs ->
  let r := length (filter is_rekey cs) in
  let m := len (transport_sends C s (ClearLocal :: cs)) in
  let x := send_message C rnd (run_calls C s (ClearLocal :: cs)) b in
  res x = Ok tt -> (0 < r)%nat /\ m < 2 ^ 64 - 1 /\ rekeyed C r zeros32 <> zeros32 /\
    out x = ENCRYPT C (rekeyed C r zeros32) m [] (plaintext_of b).
Proof.
  intros s cs rnd b R T I F r m x RX. apply (wf_reachable C OK) in R.
  destruct (step_stays s ClearLocal R T) as [W' T']. set (s' := st (step C s ClearLocal)) in *.
  assert (I' : se_i s' = true) by exact I.
  assert (S' : sending true (channel_of s') = (zeros32, 0)) by reflexivity.
  pose proof (initiator_channel cs s' zeros32 0 W' T' I' S' F) as S2. rewrite N.add_0_l in S2.
  assert (Em : m = len (transport_sends C s' cs)) by reflexivity. fold r in S2. rewrite <- Em in S2.
  assert (Ex : x = step C (run_calls C s' cs) (Send rnd b)) by reflexivity. clearbody x m.
  assert (W2 : wf (run_calls C s' cs)) by (apply (wf_run C OK); exact W').
  assert (T2 : is_transport (run_calls C s' cs) = true) by (apply (run_transport_stays C); [exact (proj1 W')|exact T']).
  assert (I2 : se_i (run_calls C s' cs) = true).
  { clear - I' OK. revert I'. generalize s'. induction cs as [|c cs IH]; intros s0 X; [exact X|].
    rewrite run_calls_cons. apply IH. rewrite step_role. exact X. }
  pose proof (step_served (run_calls C s' cs) (Send rnd b) W2 T2) as SV. rewrite <- Ex, RX, I2 in SV.
  destruct (served_send _ _ _ _ _ _ SV) as (k & n & E & LN & NZ & O & _). rewrite S2 in E. injection E as <- <-.
  split; [destruct r; [contradiction NZ; reflexivity|lia]|]. auto.
Qed.
Theorem since_clear : forall s cs, reachable C s -> is_transport s = true -> Forall no_clear_local cs ->
  exists n, forall j b o, nth_error (transport_sends C s cs) j = Some (b, o) ->
    n + N.of_nat j < 2 ^ 64 - 1 /\ exists k, k <> zeros32 /\ o = ENCRYPT C k (n + N.of_nat j) [] (plaintext_of b).
Proof.
  intros s cs R T F. apply (wf_reachable C OK) in R. exists (cs_n (snd_cs s)).
  exact (counters_up cs s _ _ R T (sending_of s) F).
Qed.
(** A responder that clears and rekeys takes messages sealed under a key anybody can compute. *)
Theorem accepts_anyone : forall s pt, reachable C s -> is_transport s = true -> se_i s = false -> len pt <= 65519 ->
  REKEY C zeros32 <> zeros32 ->
  let x := recv_message C (run_calls C s [ClearLocal; RekeyLocal]) (ENCRYPT C (REKEY C zeros32) 0 [] pt) in
  res x = Ok tt /\ plaintext_of (out x) = pt.
Proof.
  intros s pt R T I L NZ. apply (wf_reachable C OK) in R. pose proof (proj1 (proj1 R) T) as M.
  set (s' := run_calls C s [ClearLocal; RekeyLocal]).
  assert (M' : 2 <= se_mc s') by exact M.
  assert (RC : rcv_cs s' = mkCS (REKEY C zeros32) 0).
  { unfold s'. cbn [run_calls step fst]. unfold rekey_local_cipherstate. rewrite (rekey_spec C OK).
    unfold rcv_cs. cbn. rewrite I. reflexivity. }
  destruct (recv_ok C OK s' pt M' L) as (b' & X & P).
  { rewrite RC. reflexivity. }
  { rewrite RC. exact NZ. }
  rewrite RC in X. cbn [cs_k cs_n] in X. rewrite sealed_spec in X by (apply (REKEY_len C OK)).
  cbv zeta. rewrite X. split; [reflexivity|exact P].
Qed.
End Transport.
