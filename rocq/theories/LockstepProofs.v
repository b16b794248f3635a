(** * LockstepProofs: attempts delivered as they are keep the two sides together (C128). *)
From Coq Require Import Lia ZifyBool ZifyNat ZifyN.
From Verif Require Import Base SpecWire BaseFacts Noise SpecNoise SpecSession SpecTransport SpecStory SpecLockstep
  NoiseFacts HandshakeProofs NxProofs BindingProofs RetryProofs NoiseClaims SessionProofs RecvProofs TransportProofs ActiveProofs StoryProofs HistoryProofs.
Local Open Scope N_scope.
Local Open Scope list_scope.

Ltac early := exfalso; match goal with X : In _ [ClearLocal; ClearRemote; RekeyLocal; RekeyRemote] |- _ => destruct X as [X|[X|[X|[X|[]]]]]; discriminate X end.

Section Lockstep.
Variable C : crypto.
Hypothesis OK : crypto_ok C.

(** ** The tokens of the second message, written and read *)
Lemma both_ee : forall pI pR q o x, p_sym pI = p_sym pR -> p_re pR = Some (kp_public (p_e pI)) -> dh_agree C (p_e pI) (p_e pR) ->
  len (kp_public (p_e pR)) = 32 -> write_tokens C pR [TE; TEE] = Some (q, o) ->
  o = kp_public (p_e pR) /\ p_e q = p_e pR /\ p_s q = p_s pR /\ p_re q = p_re pR /\ p_initiator q = p_initiator pR /\ (exists k, sy_k (p_sym q) = Some k) /\
  exists qI, read_tokens C pI [TE; TEE] (o ++ x) = Some (qI, x) /\ p_sym qI = p_sym q /\ p_e qI = p_e pI /\ p_s qI = p_s pI /\ p_initiator qI = p_initiator pI.
Proof.
  intros * S RE D L H. cbn [write_tokens dh_token with_sym p_re p_e] in H. rewrite RE in H. cbn [mix_dh with_sym p_sym] in H.
  apply some_pair in H. destruct H as [<- <-]. rewrite app_nil_r. cbn [with_sym p_sym p_e p_s p_re p_initiator].
  split; [reflexivity|]. split; [reflexivity|]. split; [reflexivity|]. split; [first [reflexivity|exact RE]|]. split; [reflexivity|].
  split; [match goal with |- context [MixKey C ?s ?d] => destruct (mix_all C s d) as (_ & _ & -> & _) end; eauto|].
  cbn [read_tokens]. assert (E : (len (kp_public (p_e pR) ++ x) <? 32) = false) by (rewrite len_app; lia). rewrite E, first_front, skip_front by exact L.
  cbn [dh_token mix_dh p_re p_e p_sym with_sym]. eexists. split; [reflexivity|]. cbn [with_sym p_sym p_e p_s p_initiator]. rewrite S, D.
  repeat split.
Qed.

Lemma both_s : forall pI pR q o x, p_sym pI = p_sym pR -> keypair_ok (p_s pR) -> (exists k, sy_k (p_sym pR) = Some k) -> write_tokens C pR [TS] = Some (q, o) ->
  len o = 48 /\ p_e q = p_e pR /\ p_s q = p_s pR /\ p_re q = p_re pR /\ p_initiator q = p_initiator pR /\
  exists qI, read_tokens C pI [TS] (o ++ x) = Some (qI, x) /\ p_sym qI = p_sym q /\ p_e qI = p_e pI /\ p_s qI = p_s pI /\ p_initiator qI = p_initiator pI /\
    p_rs qI = Some (kp_public (p_s pR)).
Proof.
  intros * S K (k & Q) H. cbn [write_tokens] in H. unfold EncryptAndHash in H. rewrite Q in H. apply some_pair in H. destruct H as [<- <-].
  rewrite app_nil_r. set (bx := ENCRYPT C k _ _ _). assert (L : len bx = 48) by (unfold bx; rewrite (enc_len C OK), (proj2 K); reflexivity).
  split; [exact L|]. do 4 (split; [reflexivity|]). cbn [read_tokens]. rewrite S. unfold has_key. rewrite Q.
  assert (E : (len (bx ++ x) <? N.of_nat 48) = false) by (rewrite len_app; lia). rewrite E.
  rewrite first_box by exact L. rewrite (skipn_app_exact _ 48 bx) by (rewrite L; reflexivity).
  unfold DecryptAndHash. rewrite Q. unfold bx. rewrite (open_sealed C OK). eexists. split; [reflexivity|]. repeat split.
Qed.

Lemma read_app : forall ts ts' p m, read_tokens C p (ts ++ ts') m =
  match read_tokens C p ts m with Some (q, r) => read_tokens C q ts' r | None => None end.
Proof.
  induction ts as [|t ts IH]; intros ts' p m; [reflexivity|]. destruct t; cbn [app read_tokens].
  - destruct (len m <? 32); [reflexivity|apply IH].
  - destruct (len m <? _); [reflexivity|]. destruct (DecryptAndHash C _ _) as [[? ?]|]; [apply IH|reflexivity].
  - destruct (dh_token C p TEE); [apply IH|reflexivity].
  - destruct (dh_token C p TES); [apply IH|reflexivity].
Qed.
Lemma write_app : forall ts ts' p, write_tokens C p (ts ++ ts') =
  match write_tokens C p ts with Some (q, o) => match write_tokens C q ts' with Some (q', o') => Some (q', o ++ o') | None => None end | None => None end.
Proof.
  induction ts as [|t ts IH]; intros ts' p; [cbn [app write_tokens]; destruct (write_tokens C p ts') as [[? ?]|]; reflexivity|]. cbn [app write_tokens].
  match goal with |- context [match ?s with Some _ => _ | None => None end = _] => destruct s as [[q o]|] end; [|reflexivity].
  rewrite IH. destruct (write_tokens C q ts) as [[q1 o1]|]; [|reflexivity]. destruct (write_tokens C q1 ts') as [[q2 o2]|]; [|reflexivity].
  rewrite app_assoc. reflexivity.
Qed.
Lemma both_es : forall pI pR q o x, p_sym pI = p_sym pR -> p_initiator pI = true -> p_initiator pR = false ->
  p_rs pI = Some (kp_public (p_s pR)) -> p_re pR = Some (kp_public (p_e pI)) -> dh_agree C (p_e pI) (p_s pR) ->
  write_tokens C pR [TES] = Some (q, o) ->
  o = [] /\ p_e q = p_e pR /\ p_s q = p_s pR /\ p_re q = p_re pR /\
  exists qI, read_tokens C pI [TES] x = Some (qI, x) /\ p_sym qI = p_sym q /\ p_e qI = p_e pI /\ p_rs qI = p_rs pI.
Proof.
  intros * S I1 I2 RS RE D H. cbn [write_tokens dh_token] in H. rewrite I2, RE in H. cbn [mix_dh] in H. apply some_pair in H. destruct H as [<- <-].
  do 4 (split; [reflexivity|]). cbn [read_tokens dh_token]. rewrite I1, RS. cbn [mix_dh]. eexists. split; [reflexivity|]. cbn [with_sym p_sym p_e p_rs]. rewrite S, D.
  repeat split. exact RS.
Qed.

(** ** Two parties in step *)
Variables (rnd : bytes) (ei er sr : keypair).
Hypothesis (Kr : len (kp_public er) = 32) (Ks : keypair_ok sr) (Lr : ~ low_order (kp_public er)) (Ls : ~ low_order (kp_public sr)).
Hypothesis (Dee : dh_agree C ei er) (Des : dh_agree C ei sr).

Definition insync (pI pR : party) : Prop :=
  p_sym pI = p_sym pR /\ p_e pI = ei /\ p_s pR = sr /\ p_re pR = Some (kp_public ei) /\ p_e (drawn C rnd pR) = er.

Lemma drawn_kept : forall p q, p_e (drawn C rnd p) = er -> p_e q = er -> p_e (drawn C rnd q) = er.
Proof.
  intros p q H E. unfold drawn in *. rewrite E. destruct (bytes_eqb (kp_private (p_e p)) zeros32) eqn:Z; cbn [with_pair p_e] in H.
  - destruct (bytes_eqb (kp_private er) zeros32); [cbn [with_pair p_e]; exact H|exact E].
  - rewrite H in Z. rewrite Z. exact E.
Qed.

Lemma sync_ee : forall pI pR q o x, insync pI pR -> write_tokens C (acting false (drawn C rnd pR)) [TE; TEE] = Some (q, o) ->
  o = kp_public er /\ (exists k, sy_k (p_sym q) = Some k) /\ exists qI, read_tokens C (acting true pI) [TE; TEE] (o ++ x) = Some (qI, x) /\ insync qI q /\ p_initiator qI = true /\
  p_initiator q = false /\ p_e q = er.
Proof.
  intros * (S & E & PS & PR & D) H. destruct (drawn_same C rnd pR) as (D1 & D2 & D3 & _).
  destruct (both_ee (acting true pI) (acting false (drawn C rnd pR)) q o x) as (A1 & A2 & A3 & A4 & A5 & A6 & qI & B1 & B2 & B3 & B4 & B5); cbn [acting p_sym p_re p_e p_s p_initiator] in *.
  - rewrite D1. exact S.
  - rewrite D3, E. exact PR.
  - rewrite E, D. exact Dee.
  - rewrite D. exact Kr.
  - exact H.
  - rewrite D in A1, A2. split; [exact A1|]. split; [exact A6|]. exists qI. split; [exact B1|]. split; [|split; [exact B5|split; [exact A5|exact A2]]]. unfold insync.
    rewrite B2, B3, E, A3, D2, PS, A4, D3, PR. repeat (split; [reflexivity|]). exact (drawn_kept pR q D A2).
Qed.

Lemma sync_all : forall pI pR q o q' o' x, insync pI pR -> write_tokens C (acting false (drawn C rnd pR)) [TE; TEE] = Some (q, o) ->
  write_tokens C (acting false (drawn C rnd pR)) NX2 = Some (q', o') ->
  len o' = 80 /\ firstn 32 (o' ++ x) = kp_public er /\
  exists q1 r1 q2 q3, read_tokens C (acting true pI) [TE; TEE] (o' ++ x) = Some (q1, r1) /\ sy_k (p_sym q1) = sy_k (p_sym q) /\
    read_tokens C (acting true pI) [TE; TEE; TS] (o' ++ x) = Some (q2, x) /\ p_rs q2 = Some (kp_public sr) /\
    read_tokens C (acting true pI) NX2 (o' ++ x) = Some (q3, x) /\ insync q3 q' /\ p_rs q3 = Some (kp_public sr).
Proof.
  intros * S H H'. change NX2 with ([TE; TEE] ++ [TS] ++ [TES]) in H' |- *. rewrite write_app, H, write_app in H'.
  destruct (write_tokens C q [TS]) as [[qs os]|] eqn:HS; [|discriminate].
  destruct (write_tokens C qs [TES]) as [[qz oz]|] eqn:HZ; [|discriminate]. apply some_pair in H'. destruct H' as [-> <-].
  destruct (sync_ee pI pR q o (os ++ x) S H) as (A1 & A2 & q1 & A3 & A4 & A5 & A6 & A7).
  destruct A4 as (S1 & S2 & S3 & S4 & S5).
  destruct (both_s q1 q qs os x S1 ltac:(rewrite S3; exact Ks) A2 HS) as (B1 & B2 & B3 & B4 & B5 & q2 & B6 & B7 & B8 & B9 & B10 & B11).
  destruct (both_es q2 qs q' oz x B7 ltac:(rewrite B10; exact A5) ltac:(rewrite B5; exact A6) ltac:(rewrite B3; exact B11)
    ltac:(rewrite B4, B8, S2; exact S4) ltac:(rewrite B8, S2, B3, S3; exact Des) HZ) as (-> & C1 & C2 & C3 & q3 & C4 & C5 & C6 & C7).
  rewrite app_nil_r. split; [rewrite len_app, A1, Kr, B1; reflexivity|]. split; [rewrite <- app_assoc, A1, first_front by exact Kr; reflexivity|].
  exists q1, (os ++ x), q2, q3. rewrite <- app_assoc. split; [exact A3|]. split; [rewrite S1; reflexivity|].
  change [TE; TEE; TS] with ([TE; TEE] ++ [TS]). rewrite !read_app, A3, read_app, B6. split; [reflexivity|]. split; [rewrite B11, S3; reflexivity|].
  split; [exact C4|]. split; [|rewrite C7, B11, S3; reflexivity].
  unfold insync. rewrite C5, C6, B8, S2, C2, B3, S3, C3, B4, S4. repeat (split; [reflexivity|]). apply (drawn_kept q q' S5). rewrite C1, B2. exact A7.
Qed.

Lemma sync_done : forall pI pR pl p2 m, insync pI pR -> WriteMessage C (acting false (drawn C rnd pR)) NX2 pl = Some (p2, m) ->
  len m = len pl + 96 /\ exists q2, ReadMessage C (acting true pI) NX2 m = Some (q2, pl) /\ p_sym q2 = p_sym p2 /\ p_rs q2 = Some (kp_public sr).
Proof.
  intros * S H. unfold WriteMessage in H. destruct (write_tokens C _ NX2) as [[q' o']|] eqn:W; [|discriminate].
  assert (X : exists q o, write_tokens C (acting false (drawn C rnd pR)) [TE; TEE] = Some (q, o)).
  { change NX2 with ([TE; TEE] ++ [TS; TES]) in W. rewrite write_app in W. destruct (write_tokens C _ [TE; TEE]) as [[q o]|]; [eauto|discriminate]. }
  destruct X as (q & o & X). destruct S as (S1 & S2 & S3 & S4 & S5) eqn:SE. clear SE.
  assert (K : sy_k (p_sym q') <> None).
  { destruct (drawn_same C rnd pR) as (D1 & D2 & D3 & _). apply (tok_wall C (acting false (drawn C rnd pR)) q' o' (kp_public ei)); [cbn [acting p_re]; rewrite D3; exact S4|reflexivity|exact W]. }
  unfold EncryptAndHash in H. destruct (sy_k (p_sym q')) as [k|] eqn:Q; [|contradiction]. apply some_pair in H. destruct H as [<- <-].
  set (ct := ENCRYPT C k (sy_n (p_sym q')) (sy_h (p_sym q')) pl).
  destruct (sync_all pI pR q o q' o' ct (conj S1 (conj S2 (conj S3 (conj S4 S5)))) X W) as (A1 & A2 & q1 & r1 & q2 & q3 & _ & _ & _ & _ & A3 & A4 & A5).
  split; [rewrite len_app, A1; unfold ct; rewrite (enc_len C OK); lia|].
  unfold ReadMessage. rewrite A3. unfold DecryptAndHash. destruct A4 as (B1 & _). rewrite B1, Q. unfold ct at 1. rewrite (open_sealed C OK).
  eexists. split; [reflexivity|]. cbn [with_sym p_sym p_rs]. split; [reflexivity|exact A5].
Qed.

Lemma payload_kept : forall m k pl, 96 <= len m -> len k = 32 -> len pl = len m - 96 ->
  payload2 (firstn 32 m ++ k ++ firstn 16 (skipn 64 m) ++ pl ++ skipn (length m - 16) m) = pl.
Proof.
  intros m k pl L K P. unfold payload2. set (t := skipn (length m - 16) m). set (a := firstn 32 m). set (c := firstn 16 (skipn 64 m)).
  assert (LA : length a = 32%nat) by (unfold a; rewrite firstn_length; unfold len in *; lia).
  assert (LC : length c = 16%nat) by (unfold c; rewrite firstn_length, skipn_length; unfold len in *; lia).
  assert (LT : length t = 16%nat) by (unfold t; rewrite skipn_length; unfold len in *; lia).
  replace (a ++ k ++ c ++ pl ++ t) with ((a ++ k ++ c) ++ pl ++ t) by (rewrite <- !app_assoc; reflexivity).
  assert (L80 : length (a ++ k ++ c) = 80%nat) by (rewrite !app_length; unfold len in *; lia).
  rewrite (skipn_app_exact _ 80 (a ++ k ++ c)) by (unfold len; rewrite L80; reflexivity). apply firstn_app_exact.
  rewrite !app_length in *. unfold len in *. lia.
Qed.
Lemma payload2_len : forall b, 96 <= len b -> len (payload2 b) = len b - 96.
Proof. intros b H. unfold payload2. rewrite len_firstn', len_skipn. unfold len in *. lia. Qed.

Lemma round : forall pI pR g g' b o r o2 r2, insync pI pR -> in_step b -> len (kp_public (p_s pR)) = 32 ->
  asked C false (Handshake true pR) (Send rnd b) g o r -> asked C true (Handshake true pI) (Recv o) g' o2 r2 ->
  same_success (mkAttempt b r o2 r2) /\
  ((r <> Ok tt /\ exists pI' pR', g' = Handshake true pI' /\ g = Handshake true pR' /\ insync pI' pR') \/
   (r = Ok tt /\ exists h k c, g' = Done h (kp_public sr) c /\ g = Done h k c)).
Proof.
  intros * S IN LS HR HI. unfold in_step in IN.
  assert (FF : forall x, firstn 32 (kp_public er ++ x) = kp_public er) by (intro; apply first_front; exact Kr).
  assert (ERR : forall e e', (96 <= len b <= 2128 -> e = EmptyKeyError /\ e' = EmptyKeyError) -> same_success (mkAttempt b (Err e) o2 (Err e'))).
  { intros e e' H. right. exists e, e'. repeat split; try reflexivity; apply H; assumption. }
  inversion HR; subst; try early; try lia.
  - (* size *)
    inversion HI; subst; try early; try lia. split; [apply ERR; lia|]. left. split; [discriminate|]. exists pI, pR. auto.
  - (* no room for a key *)
    inversion HI; subst; try early; try lia. split; [apply ERR; lia|]. left. split; [discriminate|]. exists pI, pR. auto.
  - (* no room for the static key *)
    match goal with X : write_tokens _ _ [TE; TEE] = Some (q, ?w) |- _ => destruct (sync_ee pI pR q w (skipn 32 b) S X) as (A1 & A2 & qI & A3 & A4 & _); clear X HR end.
    assert (LN : len (o0 ++ skipn 32 b) = len b) by (rewrite len_app, A1, Kr, len_skipn; lia).
    assert (F32 : firstn 32 (o0 ++ skipn 32 b) = kp_public er) by (rewrite A1; apply FF).
    set (m := o0 ++ skipn 32 b) in *. clearbody m.
    inversion HI; subst; try early; try lia; rewrite ?F32 in *; try contradiction.
    split; [apply ERR; lia|]. left. split; [discriminate|]. exists qI, q. split; [|split; [reflexivity|exact A4]]. congruence.
  - (* the first key is zero *)
    match goal with X : write_tokens _ _ [TE; TEE] = Some (q, ?w) |- _ => destruct (sync_ee pI pR q w (kp_public (p_s pR) ++ skipn 64 b) S X) as (A1 & A2 & qI & A3 & A4 & _); clear X HR end.
    assert (LN : len (o0 ++ kp_public (p_s pR) ++ skipn 64 b) = len b) by (rewrite !len_app, A1, Kr, LS, len_skipn; lia).
    assert (F32 : firstn 32 (o0 ++ kp_public (p_s pR) ++ skipn 64 b) = kp_public er) by (rewrite A1; apply FF).
    set (m := o0 ++ kp_public (p_s pR) ++ skipn 64 b) in *. clearbody m.
    pose proof (proj1 A4) as EQ.
    inversion HI; subst; try early; try lia; rewrite ?F32 in *; try contradiction; try congruence.
    split; [apply ERR; auto|]. left. split; [discriminate|]. exists qI, q. split; [|split; [reflexivity|exact A4]]. congruence.
  - (* the second key is zero *)
    match goal with X : write_tokens _ _ [TE; TEE] = Some (q, ?w), Y : write_tokens _ _ NX2 = Some (q', ?v) |- _ =>
      destruct (sync_all pI pR q w q' v (skipn 80 b) S X Y) as (A1 & A2 & q1 & r1 & q2 & q3 & A3 & A4 & A5 & A6 & A7 & A8 & A9) end.
    assert (LN : len (o' ++ skipn 80 b) = len b) by (rewrite len_app, A1, len_skipn; lia). clear HR.
    set (m := o' ++ skipn 80 b) in *. clearbody m.
    pose proof (proj1 A8) as EQ.
    inversion HI; subst; try early; try lia; rewrite ?A2 in *; try contradiction; try congruence.
    match goal with X : payload_read _ _ _ _ _ _ _ _ |- _ => inversion X; subst end; try lia; try congruence.
    split; [apply ERR; auto|]. left. split; [discriminate|]. exists q3, q'. split; [|split; [reflexivity|exact A8]]. congruence.
  - (* written *)
    match goal with X : write_tokens _ _ [TE; TEE] = Some (q, ?w), Y : write_tokens _ _ NX2 = Some (q', ?v), Z : WriteMessage _ _ NX2 _ = Some _ |- _ =>
      destruct (sync_done pI pR _ _ _ S Z) as (A1 & qd & A2 & A3 & A4); pose proof Z as Z';
      unfold WriteMessage in Z'; rewrite Y in Z'; destruct (EncryptAndHash C (p_sym q') (payload2 b)) as [sy ct] eqn:EN; apply some_pair in Z'; destruct Z' as [Z1 Z2];
      destruct (sync_all pI pR q w q' v ct S X Y) as (B1 & B2 & q1 & r1 & q2 & q3 & B3 & B4 & B5 & B6 & B7 & B8 & B9) end.
    rewrite Z2 in B2, B3, B5, B7.
    assert (LN : len o = len b) by (rewrite A1, payload2_len; lia).
    pose proof (proj1 B8) as EQ.
    inversion HI; subst; try early; try lia; rewrite ?B2 in *; try contradiction; try congruence.
    assert (k = kp_public sr) by congruence. subst k.
    match goal with X : payload_read _ _ _ _ _ _ _ _ |- _ => inversion X; subst end; try lia; try congruence.
    assert (payload = payload2 b) by congruence. subst payload.
    split. { left. cbn [a_sent a_received a_left a_buffer]. split; [reflexivity|]. split; [reflexivity|]. apply payload_kept; [lia|exact (proj2 Ks)|]. rewrite payload2_len; lia. }
    right. split; [reflexivity|]. match goal with X : ReadMessage C _ NX2 _ = Some (?z, payload2 b) |- _ => assert (z = qd) by congruence; subst z end. unfold established. rewrite A3, A4. destruct (Split C _) as [k1 k2]. eexists _, _, _. split; reflexivity.
Qed.

Lemma round_panic : forall pI pR g g' b o r o2 r2, insync pI pR -> 80 <= len b < 96 \/ 2128 < len b <= 65535 ->
  asked C false (Handshake true pR) (Send rnd b) g o r -> asked C true (Handshake true pI) (Recv o) g' o2 r2 ->
  r = Err EmptyKeyError \/ r2 = Panic.
Proof.
  intros * S IN HR HI.
  inversion HR; subst; try early; try lia; try (left; reflexivity).
  - (* no room for the payload *)
    match goal with X : write_tokens _ _ [TE; TEE] = Some (q, ?w), Y : write_tokens _ _ NX2 = Some (q', ?v) |- _ =>
      destruct (sync_all pI pR q w q' v (skipn 80 b) S X Y) as (A1 & A2 & q1 & r1 & q2 & q3 & A3 & A4 & A5 & A6 & A7 & A8 & A9) end.
    assert (LN : len (o' ++ skipn 80 b) = len b) by (rewrite len_app, A1, len_skipn; lia). clear HR.
    set (m := o' ++ skipn 80 b) in *. clearbody m.
    inversion HI; subst; try early; try lia; rewrite ?A2 in *; try contradiction; try congruence.
    right. match goal with X : payload_read _ _ _ _ _ _ _ _ |- _ => inversion X; subst end; try lia; reflexivity.
  - match goal with X : write_tokens _ _ [TE; TEE] = Some (q, ?w), Y : write_tokens _ _ NX2 = Some (q', ?v), Z : WriteMessage _ _ NX2 _ = Some _ |- _ =>
      destruct (sync_done pI pR _ _ _ S Z) as (A1 & qd & A2 & A3 & A4); pose proof Z as Z';
      unfold WriteMessage in Z'; rewrite Y in Z'; destruct (EncryptAndHash C (p_sym q') (payload2 b)) as [sy ct] eqn:EN; apply some_pair in Z'; destruct Z' as [Z1 Z2];
      destruct (sync_all pI pR q w q' v ct S X Y) as (B1 & B2 & q1 & r1 & q2 & q3 & B3 & B4 & B5 & B6 & B7 & B8 & B9) end.
    rewrite Z2 in B2, B3, B5, B7.
    assert (LN : len o = len b) by (rewrite A1, payload2_len; lia).
    inversion HI; subst; try early; try lia; rewrite ?B2 in *; try contradiction; try congruence.
    right. match goal with X : payload_read _ _ _ _ _ _ _ _ |- _ => inversion X; subst end; try lia; reflexivity.
Qed.
End Lockstep.

Section Whole.
Variable C : crypto.
Hypothesis OK : crypto_ok C.

Lemma started_stage : forall i pro s rnd e S0, started C i pro s rnd e S0 -> keypair_ok s ->
  exists p, wf S0 /\ at_stage i S0 (Handshake false p) /\ p_sym p = p_sym (newcomer C i pro s) /\ p_s p = s /\ p_e (drawn C rnd p) = e.
Proof.
  intros i pro s rnd e S0 H K. pose proof (stage_new C OK i pro s K) as A. pose proof (wf_init C i pro s) as W. destruct H as [[-> ->]|[-> N]].
  - exists (newcomer C i pro s). split; [exact W|]. split; [exact A|]. split; [reflexivity|]. split; reflexivity.
  - destruct (step_asked C OK i _ _ (SetEphemeral e) W A) as (g & B1 & B2). pose proof (wf_step C OK _ (SetEphemeral e) W) as W'. inversion B1; subst.
    { match goal with X : In _ _ |- _ => destruct X as [X|[X|[X|[X|[]]]]]; discriminate X end. }
    exists (with_pair (newcomer C i pro s) e). split; [exact W'|]. split; [exact B2|]. split; [reflexivity|]. split; [reflexivity|].
    unfold drawn. cbn [with_pair p_e]. destruct (bytes_eqb (kp_private e) zeros32) eqn:Z; [|reflexivity]. apply bytes_eqb_iff in Z. contradiction.
Qed.

Lemma attempts_exact : forall rnd ei er sr, len (kp_public er) = 32 -> keypair_ok sr -> ~ low_order (kp_public er) -> ~ low_order (kp_public sr) ->
  dh_agree C ei er -> dh_agree C ei sr ->
  forall bs R I pI pR, Forall in_step bs -> wf R -> wf I ->
  at_stage true I (Handshake true pI) -> at_stage false R (Handshake true pR) -> insync C rnd ei er sr pI pR ->
  let '(l, R', I') := attempts C rnd R I bs in
  Forall same_success l /\
  ((exists pI' pR', at_stage true I' (Handshake true pI') /\ at_stage false R' (Handshake true pR') /\ wf R' /\ wf I' /\ map a_buffer l = bs /\
      insync C rnd ei er sr pI' pR' /\ Forall (fun a => a_sent a <> Ok tt) l) \/
   (exists h k c, at_stage true I' (Done h (kp_public sr) c) /\ at_stage false R' (Done h k c) /\ wf R' /\ wf I' /\ Exists (fun a => a_sent a = Ok tt) l)).
Proof.
  intros rnd ei er sr Kr Ks Lr Ls Dee Des. induction bs as [|b bs IH]; intros R I pI pR F WR WI AI AR S; cbn [attempts].
  - split; [constructor|]. left. exists pI, pR. split; [exact AI|]. split; [exact AR|]. split; [exact WR|]. split; [exact WI|]. split; [reflexivity|]. split; [exact S|constructor].
  - inversion F as [|? ? F1 F2]; subst. set (x := send_message C rnd R b). set (y := recv_message C I (out x)).
    destruct (step_asked C OK false R _ (Send rnd b) WR AR) as (g & A1 & A2). pose proof (wf_step C OK R (Send rnd b) WR) as WR'. cbn [step] in A1, A2, WR'. fold x in A1, A2, WR'.
    destruct (step_asked C OK true I _ (Recv (out x)) WI AI) as (g' & B1 & B2). pose proof (wf_step C OK I (Recv (out x)) WI) as WI'. cbn [step] in B1, B2, WI'. fold y in B1, B2, WI'.
    assert (LS : len (kp_public (p_s pR)) = 32) by (destruct S as (_ & _ & -> & _); apply Ks).
    destruct (round C OK rnd ei er sr Kr Ks Lr Ls Dee Des pI pR g g' b (out x) (res x) (out y) (res y) S F1 LS A1 B1) as [SS [(N & pI' & pR' & -> & -> & S')|(E & h & k & c & -> & ->)]].
    + specialize (IH (st x) (st y) pI' pR' F2 WR' WI' B2 A2 S').
      assert (Q : match res x with Ok _ => ([mkAttempt b (res x) (out y) (res y)], st x, st y)
        | _ => let '(l, R', I') := attempts C rnd (st x) (st y) bs in (mkAttempt b (res x) (out y) (res y) :: l, R', I') end =
        let '(l, R', I') := attempts C rnd (st x) (st y) bs in (mkAttempt b (res x) (out y) (res y) :: l, R', I')).
      { destruct (res x) as [[]| |]; [contradiction|reflexivity|reflexivity]. }
      rewrite Q. clear Q. destruct (attempts C rnd (st x) (st y) bs) as [[l R'] I']. destruct IH as [IH1 [(p1 & p2 & C1 & C2 & C3 & C4 & C5 & C6 & C7)|(h & k & c & C1 & C2 & C3 & C4 & C5)]].
      * split; [constructor; assumption|]. left. exists p1, p2. do 4 (split; [assumption|]). split; [cbn [map a_buffer]; rewrite C5; reflexivity|]. split; [exact C6|constructor; assumption].
      * split; [constructor; assumption|]. right. exists h, k, c. do 4 (split; [assumption|]). apply Exists_cons_tl. exact C5.
    + rewrite E in *. split; [constructor; [exact SS|constructor]|]. right. exists h, k, c. split; [exact B2|]. split; [exact A2|]. split; [exact WR'|]. split; [exact WI'|].
      apply Exists_cons_hd. reflexivity.
Qed.

Theorem lockstep : forall pro si sr ei er rnd1 rnd2 I0 R0 b1 bs, honest C pro si sr ei er rnd1 rnd2 I0 R0 ->
  48 <= len b1 <= 65535 -> Forall in_step bs ->
  let x1 := send_message C rnd1 I0 b1 in
  let x2 := recv_message C R0 (out x1) in
  let '(l, R, J) := attempts C rnd2 (st x2) (st x1) bs in
  Forall same_success l /\ is_transport J = is_transport R /\
  (is_transport R = false -> map a_buffer l = bs) /\
  (Exists (fun a => a_sent a = Ok tt) l <-> is_transport R = true) /\
  (is_transport R = true -> get_handshake_hash J = get_handshake_hash R /\ get_remote_static_public_key J = Some (kp_public sr) /\
     se_cs1 J = se_cs1 R /\ se_cs2 J = se_cs2 R) /\
  (Exists (fun b => 96 <= len b <= 2128) bs -> Forall (fun a => a_sent a <> Err EmptyKeyError) l -> is_transport R = true) /\
  (is_transport R = false -> forall b, 80 <= len b < 96 \/ 2128 < len b <= 65535 ->
     let x := send_message C rnd2 R b in res x = Err EmptyKeyError \/ res (recv_message C J (out x)) = Panic).
Proof.
  intros * [Ksi Ksr Kei Ker HI HR L1 L2 L3 D1 D2] Hb1 F x1 x2.
  destruct (started_stage _ _ _ _ _ _ HI Ksi) as (p & WI & AI & P1 & P2 & P3).
  destruct (started_stage _ _ _ _ _ _ HR Ksr) as (q & WR & AR & Q1 & Q2 & Q3).
  destruct (step_asked C OK true I0 _ (Send rnd1 b1) WI AI) as (g & A1 & A2). pose proof (wf_step C OK I0 (Send rnd1 b1) WI) as WI'. cbn [step] in A1, A2, WI'. fold x1 in A1, A2, WI'.
  destruct (step_asked C OK false R0 _ (Recv (out x1)) WR AR) as (g' & B1 & B2). pose proof (wf_step C OK R0 (Recv (out x1)) WR) as WR'. cbn [step] in B1, B2, WR'. fold x2 in B1, B2, WR'.
  assert (X : exists pI, g = Handshake true pI /\ out x1 = kp_public ei ++ skipn 32 b1 /\ p_e pI = ei /\
    p_sym pI = MixHash C (MixHash C (p_sym (newcomer C true pro si)) (kp_public ei)) (skipn 32 b1)).
  { remember (out x1) as o eqn:EO. remember (res x1) as r eqn:ER. clear EO ER. inversion A1; subst; try early; try lia.
    match goal with X : WriteMessage _ _ NX1 _ = Some _ |- _ => unfold WriteMessage, NX1 in X; cbn [write_tokens] in X; unfold EncryptAndHash in X; cbn [with_sym p_sym MixHash sy_k] in X end.
    destruct (drawn_same C rnd1 p) as (E1 & E2 & E3 & _). rewrite E1, P1 in *.
    match goal with X : _ = Some _ |- _ => cbn [newcomer Initialize p_sym MixHash InitializeSymmetric sy_k] in X end. 
    match goal with X : Some _ = Some _ |- _ => apply some_pair in X; destruct X as [<- <-] end.
    eexists. split; [reflexivity|]. cbn [with_sym p_e p_sym]. rewrite app_nil_r. repeat split. }
  destruct X as (pI & -> & O1 & X1 & X2).
  assert (LO : len (out x1) = len b1) by (rewrite O1, len_app, (proj2 Kei), len_skipn; lia).
  assert (F32 : firstn 32 (out x1) = kp_public ei) by (rewrite O1; apply first_front; apply Kei).
  assert (S32 : skipn 32 (out x1) = skipn 32 b1) by (rewrite O1; apply skip_front; apply Kei).
  assert (Y : exists pR, g' = Handshake true pR /\ p_s pR = sr /\ p_re pR = Some (kp_public ei) /\ p_e pR = p_e q /\
    p_sym pR = MixHash C (MixHash C (p_sym (newcomer C false pro sr)) (kp_public ei)) (skipn 32 b1)).
  { remember (out x1) as m eqn:EM. clear EM A1 O1. remember (out x2) as o eqn:EO. remember (res x2) as r eqn:ER. clear EO ER. inversion B1; subst; try early; try lia; rewrite ?F32 in *; try contradiction.
    match goal with X : ReadMessage _ _ NX1 _ = Some _ |- _ => unfold ReadMessage, NX1 in X; cbn [read_tokens] in X; match type of X with context [len ?z <? 32] => destruct (len z <? 32); [discriminate|] end;
      unfold DecryptAndHash in X; cbn [p_sym MixHash sy_k] in X; rewrite Q1 in X; cbn [newcomer Initialize p_sym MixHash InitializeSymmetric sy_k] in X end.
    match goal with X : Some _ = Some _ |- _ => apply some_pair in X; destruct X as [<- _] end.
    eexists. split; [reflexivity|]. cbn [with_sym p_s p_re p_e p_sym]. rewrite F32, S32. repeat split. }
  destruct Y as (pR & -> & Y1 & Y2 & Y3 & Y4).
  assert (S : insync C rnd2 ei er sr pI pR).
  { unfold insync. rewrite X1, X2, Y1, Y2, Y4. repeat (split; [reflexivity|]). unfold drawn in Q3 |- *. rewrite Y3. destruct (bytes_eqb (kp_private (p_e q)) zeros32); [exact Q3|]. rewrite Y3. exact Q3. }
  pose proof (attempts_exact rnd2 ei er sr (proj2 Ker) Ksr L2 L3 D1 D2 bs _ _ _ _ F WR' WI' A2 B2 S) as Z.
  destruct (attempts C rnd2 (st x2) (st x1) bs) as [[l R] J]. destruct Z as [Z1 Z2]. split; [exact Z1|].
  destruct Z2 as [(p1 & p2 & C1 & C2 & C3 & C4 & C5 & CS & C6)|(h & k & c & C1 & C2 & C3 & C4 & C5)].
  - destruct (shows_at _ _ _ C4 C1) as (T1 & _). destruct (shows_at _ _ _ C3 C2) as (T2 & _). rewrite T1, T2. split; [reflexivity|]. split; [intros _; exact C5|].
    split. { split; [|discriminate]. intro E. exfalso. apply Exists_exists in E. destruct E as (a & E1 & E2). rewrite Forall_forall in C6. exact (C6 a E1 E2). }
    split; [discriminate|]. split.
    { intros E NE. exfalso. rewrite <- C5 in E. apply Exists_exists in E. destruct E as (b & E1 & E2). apply in_map_iff in E1. destruct E1 as (a & <- & E1).
    rewrite Forall_forall in Z1, C6, NE. destruct (Z1 a E1) as [[E3 _]|(e & e' & E3 & _ & E4)]; [exact (C6 a E1 E3)|].
    destruct (E4 E2) as [-> _]. exact (NE a E1 E3). }
    intros _ b LB x. destruct (step_asked C OK false R _ (Send rnd2 b) C3 C2) as (g & A3 & _). cbn [step] in A3. fold x in A3.
    destruct (step_asked C OK true J _ (Recv (out x)) C4 C1) as (g' & B3 & _). cbn [step] in B3.
    exact (round_panic C OK rnd2 ei er sr (proj2 Ker) Ksr L2 L3 D1 D2 _ _ _ _ _ _ _ _ _ CS LB A3 B3).
  - destruct (shows_at _ _ _ C4 C1) as (T1 & _ & T3 & T4). destruct (shows_at _ _ _ C3 C2) as (T2 & _ & T5 & _). rewrite T1, T2. split; [reflexivity|].
    split; [discriminate|]. split; [split; [reflexivity|intros _; exact C5]|]. split; [|split; [reflexivity|discriminate]]. intros _. rewrite T3, T5. split; [reflexivity|]. split; [exact T4|].
    cbn [at_stage] in C1, C2. destruct C1 as (_ & _ & _ & _ & C1). destruct C2 as (_ & _ & _ & _ & C2). rewrite <- C2 in C1. unfold channel_of in C1.
    injection C1 as E1 E2 E3 E4. destruct (se_cs1 J) as [a1 a2], (se_cs2 J) as [a3 a4], (se_cs1 R) as [a5 a6], (se_cs2 R) as [a7 a8]. cbn [cs_k cs_n] in *. subst. split; reflexivity.
Qed.
End Whole.

From Verif Require Import Crypto CryptoFacts KeyProofs.
Theorem real_lockstep : forall pro ksi ksr kei ker rnd1 rnd2 I0 R0 b1 bs,
  len ksi = 32 -> len ksr = 32 -> len kei = 32 -> len ker = 32 ->
  started real_crypto true pro (real_pair ksi) rnd1 (real_pair kei) I0 ->
  started real_crypto false pro (real_pair ksr) rnd2 (real_pair ker) R0 ->
  48 <= len b1 <= 65535 -> Forall in_step bs ->
  let x1 := send_message real_crypto rnd1 I0 b1 in
  let x2 := recv_message real_crypto R0 (out x1) in
  let '(l, R, J) := attempts real_crypto rnd2 (st x2) (st x1) bs in
  Forall same_success l /\ is_transport J = is_transport R /\
  (is_transport R = true -> get_handshake_hash J = get_handshake_hash R /\ get_remote_static_public_key J = Some (kp_public (real_pair ksr)) /\
     se_cs1 J = se_cs1 R /\ se_cs2 J = se_cs2 R) /\
  (Exists (fun b => 96 <= len b <= 2128) bs -> Forall (fun a => a_sent a <> Err EmptyKeyError) l -> is_transport R = true).
Proof.
  intros * L1 L2 L3 L4 H1 H2 H3 H4 x1 x2.
  pose proof (lockstep real_crypto real_crypto_ok pro _ _ _ _ _ _ _ _ b1 bs (real_honest pro ksi ksr kei ker rnd1 rnd2 I0 R0 L1 L2 L3 L4 H1 H2) H3 H4) as X. cbv zeta in X. fold x1 in X. fold x2 in X.
  destruct (attempts real_crypto rnd2 (st x2) (st x1) bs) as [[l R] J]. destruct X as (A & B & _ & _ & D & E & _). repeat (split; [assumption|]). assumption.
Qed.

From Verif Require Import NoiseSamples.
Theorem out_of_step : exists C pro si sr ei er rnd1 rnd2 I0 R0 b1 bs, crypto_ok C /\
  honest C pro si sr ei er rnd1 rnd2 I0 R0 /\ 48 <= len b1 <= 65535 /\ map len bs = [40; 98] /\
  let x1 := send_message C rnd1 I0 b1 in
  let x2 := recv_message C R0 (out x1) in
  map (fun a => (a_sent a, a_received a)) (fst (fst (attempts C rnd2 (st x2) (st x1) bs))) =
    [(Err MissingneError, Err MissingreError); (Ok tt, Err DecryptionError)].
Proof.
  exists demo_crypto, d_prologue, d_si, d_sr, d_ei, d_er, k_ei, k_er, d_I0, d_R0, d_b1, [w_short; d_b2].
  split; [exact demo_ok|]. split; [exact d_honest|]. split; [split; discriminate|]. split; [reflexivity|]. vm_compute. reflexivity.
Qed.
