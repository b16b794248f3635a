(** * HandshakeProofs: symbolic execution of the two handshake messages. *)
From Coq Require Import Lia ZifyBool ZifyNat ZifyN.
From Verif Require Import Base SpecWire BaseFacts Noise SpecNoise SpecSession NoiseFacts.
Open Scope N_scope.

Section Handshake.
Variable C : crypto.
Hypothesis OK : crypto_ok C.

Notation Z := EMPTY_KEY.

Definition ss0 (prologue : bytes) : symmetric_state :=
  mix_hash C (initialize_symmetric C protocol_name) prologue.

Lemma started_state : forall i pro s rnd e S0, started C i pro s rnd e S0 ->
  exists e0, S0 = mkSession (mkHS (ss0 pro) s e0 Z Z Z) Z cs_new cs_new 0 i false /\
  forall ss rs re psk, ensure_ephemeral C rnd (mkHS ss s e0 rs re psk) = mkHS ss s e rs re psk.
Proof.
  intros i pro s rnd e S0 [[-> ->]|[-> H]].
  - exists keypair_empty. destruct i; (split; [reflexivity|]); intros; reflexivity.
  - exists e. destruct i; (split; [reflexivity|]); intros;
    unfold ensure_ephemeral, keypair_is_empty; cbn [hs_e];
    destruct (is_zero_key (kp_private e)) eqn:E; try reflexivity;
    apply is_zero_key_iff in E; contradiction.
Qed.

(** The symmetric states along the exchange. *)
Definition ssA (ss : symmetric_state) (pe rest : bytes) := mix_hash C (mix_hash C ss pe) rest.
Definition ssB1 (ss : symmetric_state) (pe dh : bytes) := mix_key C (mix_hash C ss pe) dh.
Definition box (ss : symmetric_state) (p : bytes) := sealed C (cs_k (ss_cs ss)) 0 (ss_h ss) p.
Definition ssBox (ss : symmetric_state) (p : bytes) :=
  mix_hash C (ss_set_cs ss (mkCS (cs_k (ss_cs ss)) 1)) (box ss p).

Lemma session_len_ok : forall b : bytes, 16 <= len b <= 65535 -> (len b <? 16) || (MAX_MESSAGE <? len b) = false.
Proof. intros b H. unfold MAX_MESSAGE. lia. Qed.

Lemma send_a : forall rnd ss s e0 e rs re psk h c1 c2 i t b, 32 <= len b <= 65535 ->
  (forall ss rs re psk, ensure_ephemeral C rnd (mkHS ss s e0 rs re psk) = mkHS ss s e rs re psk) ->
  send_message C rnd (mkSession (mkHS ss s e0 rs re psk) h c1 c2 0 i t) b =
  (mkSession (mkHS (ssA ss (kp_public e) (skipn 32 b)) s e rs re psk) h c1 c2 1 i t,
   kp_public e ++ skipn 32 b, Ok tt).
Proof.
  intros * Hb He. unfold send_message. rewrite session_len_ok by lia.
  cbn [se_mc N.eqb se_hs]. unfold write_message_a. destruct (len b <? 32) eqn:E; [lia|].
  rewrite He. reflexivity.
Qed.

Lemma recv_a : forall ss s e rs re psk h c1 c2 i t pe rest, len pe = 32 -> ~ low_order pe ->
  48 <= len (pe ++ rest) <= 65535 ->
  recv_message C (mkSession (mkHS ss s e rs re psk) h c1 c2 0 i t) (pe ++ rest) =
  (mkSession (mkHS (ssA ss pe rest) s e rs pe psk) h c1 c2 1 i t, pe ++ rest, Ok tt).
Proof.
  intros * Hpe Hlo Hb. unfold recv_message. rewrite session_len_ok by lia.
  cbn [se_mc N.eqb se_hs]. unfold read_message_a. destruct (len (pe ++ rest) <? 48) eqn:E; [lia|].
  unfold from_slice_hashlen, DHLEN. rewrite firstn_app_exact, skipn_app_exact by (rewrite Hpe; reflexivity).
  rewrite firstn_exact by (rewrite Hpe; reflexivity).
  rewrite public_key_ok by assumption. unfold hs_set_re, hs_set_ss. cbn [hs_ss hs_re hs_s hs_e hs_rs hs_psk].
  rewrite firstn_exact by (rewrite Hpe; reflexivity). reflexivity.
Qed.

Lemma split_b2 : forall b : bytes, 96 <= len b -> exists x y1 y2 p m, b = x ++ (y1 ++ y2) ++ p ++ m /\
  len x = 32 /\ len y1 = 32 /\ len y2 = 16 /\ len m = 16.
Proof.
  intros b H.
  destruct (split_at _ 32 b ltac:(lia)) as [x [b' [-> Hx]]].
  rewrite len_app in H.
  destruct (split_at _ 32 b' ltac:(lia)) as [y1 [b'' [-> Hy]]].
  rewrite len_app in H.
  destruct (split_at _ 16 b'' ltac:(lia)) as [y2 [b3 [-> Hy2]]].
  rewrite len_app in H.
  destruct (split_16 b3 ltac:(lia)) as [p [m [-> Hm]]].
  exists x, y1, y2, p, m. rewrite <- app_assoc. auto.
Qed.

Lemma send_b : forall rnd ss s e0 e rs re psk h c1 c2 i t x y1 y2 p m,
  keypair_ok s -> len x = 32 -> len y1 = 32 -> len y2 = 16 -> len m = 16 ->
  len (x ++ (y1 ++ y2) ++ p ++ m) <= 65535 ->
  (forall ss rs re psk, ensure_ephemeral C rnd (mkHS ss s e0 rs re psk) = mkHS ss s e rs re psk) ->
  let s1 := ssB1 ss (kp_public e) (c_dh C (kp_private e) re) in
  let s2 := ssBox s1 (kp_public s) in
  let s3 := mix_key C s2 (c_dh C (kp_private s) re) in
  let s4 := ssBox s3 p in
  let X := send_message C rnd (mkSession (mkHS ss s e0 rs re psk) h c1 c2 1 i t) (x ++ (y1 ++ y2) ++ p ++ m) in
  (res X = Err EmptyKeyError /\ (cs_k (ss_cs s1) = Z \/ cs_k (ss_cs s3) = Z)) \/
  (cs_k (ss_cs s1) <> Z /\ cs_k (ss_cs s3) <> Z /\
   X = (mkSession (mkHS (ss_clear s4) keypair_empty keypair_empty rs Z Z) (ss_h s4)
          (fst (split C s4)) (snd (split C s4)) 2 i true,
        kp_public e ++ box s1 (kp_public s) ++ box s3 p, Ok tt)).
Proof.
  intros * [Hs1 Hs2] Hx Hy1 Hy2 Hm Hb He s1 s2 s3 s4 X. subst X.
  assert (Hl : 96 <= len (x ++ (y1 ++ y2) ++ p ++ m)) by (rewrite !len_app; lia).
  unfold send_message. rewrite session_len_ok by lia.
  cbn [se_mc N.eqb Pos.eqb se_hs]. unfold write_message_b.
  destruct (len (x ++ (y1 ++ y2) ++ p ++ m) <? 32) eqn:E1; [lia|].
  rewrite He. cbn [hs_e hs_ss hs_re hs_s hs_rs hs_psk]. unfold DHLEN.
  rewrite skipn_app_exact by (rewrite Hx; reflexivity).
  destruct (len ((y1 ++ y2) ++ p ++ m) <? 48) eqn:E2; [rewrite !len_app in E2; lia|].
  rewrite (firstn_app_exact _ 48 (y1 ++ y2)) by (rewrite len_app, Hy1, Hy2; reflexivity).
  rewrite (skipn_app_exact _ 48 (y1 ++ y2)) by (rewrite len_app, Hy1, Hy2; reflexivity).
  rewrite skipn_app_exact by (rewrite Hy1; reflexivity).
  unfold keypair_dh. fold (ssB1 ss (kp_public e) (c_dh C (kp_private e) re)). fold s1.
  destruct (encrypt_and_hash C s1 (kp_public s ++ y2)) as [[sa ba] ra] eqn:EA.
  apply enc_cases in EA; [|exact Hy2|apply mix_key_n].
  destruct EA as [[-> Hk]|[-> [Hk [-> ->]]]].
  { left. split; [reflexivity|]. left. exact Hk. }
  fold (box s1 (kp_public s)). fold (ssBox s1 (kp_public s)). fold s2. fold s3.
  destruct (encrypt_and_hash C s3 (p ++ m)) as [[sb bb] rb] eqn:EB.
  apply enc_cases in EB; [|exact Hm|apply mix_key_n].
  destruct EB as [[-> Hk3]|[-> [Hk3 [-> ->]]]].
  { left. split; [reflexivity|]. right. exact Hk3. }
  right. split; [exact Hk|]. split; [exact Hk3|].
  fold (box s3 p). fold (ssBox s3 p). fold s4.
  destruct (split C s4) as [d1 d2]. cbn [fst snd].
  unfold from_slice_hashlen. rewrite firstn_exact.
  2:{ subst s4. unfold ssBox. rewrite (proj2 (proj2 (mix_hash_fields C OK _ _))). apply (hash_len C OK). }
  reflexivity.
Qed.

Lemma recv_b : forall ss s e rs re psk h c1 c2 i t pe ps p,
  len pe = 32 -> len ps = 32 -> ~ low_order pe -> ~ low_order ps -> len p <= 2032 ->
  let s1 := ssB1 ss pe (c_dh C (kp_private e) pe) in
  let s2 := ssBox s1 ps in
  let s3 := mix_key C s2 (c_dh C (kp_private e) ps) in
  let s4 := ssBox s3 p in
  cs_k (ss_cs s1) <> Z -> cs_k (ss_cs s3) <> Z ->
  exists m1 m2, len m1 = 16 /\ len m2 = 16 /\
  recv_message C (mkSession (mkHS ss s e rs re psk) h c1 c2 1 i t) (pe ++ box s1 ps ++ box s3 p) =
  (mkSession (mkHS (ss_clear s4) keypair_empty keypair_empty ps Z Z) (ss_h s4)
     (fst (split C s4)) (snd (split C s4)) 2 i true,
   pe ++ (ps ++ m1) ++ p ++ m2, Ok tt).
Proof.
  intros * Hpe Hps Hlo1 Hlo2 Hp s1 s2 s3 s4 Hk1 Hk3.
  assert (B1 : len (box s1 ps) = 48) by (unfold box; rewrite sealed_len by exact OK; lia).
  assert (B3 : len (box s3 p) = len p + 16) by (unfold box; apply sealed_len; exact OK).
  destruct (dec_sealed C OK s1 ps (mix_key_n C _ _) Hk1 ltac:(lia)) as [m1 [Hm1 D1]].
  destruct (dec_sealed C OK s3 p (mix_key_n C _ _) Hk3 ltac:(lia)) as [m2 [Hm2 D2]].
  exists m1, m2. split; [exact Hm1|]. split; [exact Hm2|].
  assert (Hl : len (pe ++ box s1 ps ++ box s3 p) = 96 + len p) by (rewrite !len_app; lia).
  unfold recv_message. rewrite session_len_ok by lia.
  cbn [se_mc N.eqb Pos.eqb se_hs]. unfold read_message_b. unfold DHLEN.
  rewrite (firstn_app_exact _ 32 pe) by (rewrite Hpe; reflexivity).
  rewrite (skipn_app_exact _ 32 pe) by (rewrite Hpe; reflexivity).
  unfold from_slice_hashlen at 1. rewrite (firstn_exact _ 32 pe) by (rewrite Hpe; reflexivity).
  rewrite public_key_ok by assumption.
  destruct (len (pe ++ box s1 ps ++ box s3 p) <? 48) eqn:E1; [lia|].
  cbn [hs_e hs_ss hs_re hs_s hs_rs hs_psk hs_set_re]. unfold keypair_dh.
  rewrite (firstn_exact _ 32 pe) by (rewrite Hpe; reflexivity).
  fold (ssB1 ss pe (c_dh C (kp_private e) pe)). fold s1.
  destruct (len (box s1 ps ++ box s3 p) <? 48) eqn:E2; [rewrite len_app in E2; lia|].
  rewrite firstn_app_exact by (rewrite B1; reflexivity).
  rewrite skipn_app_exact by (rewrite B1; reflexivity).
  fold (box s1 ps) in D1. rewrite D1. fold (ssBox s1 ps). fold s2.
  unfold from_slice_hashlen at 1. rewrite (firstn_app_exact _ 32 ps) by (rewrite Hps; reflexivity).
  rewrite public_key_ok by assumption. cbn [hs_e hs_set_rs hs_set_re].
  fold s3. fold (box s3 p) in D2. rewrite D2. fold (ssBox s3 p). fold s4.
  destruct (split C s4) as [d1 d2]. cbn [fst snd].
  unfold from_slice_hashlen. rewrite firstn_exact.
  2:{ subst s4. unfold ssBox. rewrite (proj2 (proj2 (mix_hash_fields C OK _ _))). apply (hash_len C OK). }
  reflexivity.
Qed.

(** ** The whole exchange *)
Theorem exchange : forall pro si sr ei er rnd1 rnd2 I0 R0 b1 b2,
  keypair_ok si -> keypair_ok sr -> keypair_ok ei -> keypair_ok er ->
  started C true pro si rnd1 ei I0 -> started C false pro sr rnd2 er R0 ->
  ~ low_order (kp_public ei) -> ~ low_order (kp_public er) -> ~ low_order (kp_public sr) ->
  dh_agree C ei er -> dh_agree C ei sr ->
  48 <= len b1 <= 65535 -> 96 <= len b2 <= 2128 ->
  let x1 := send_message C rnd1 I0 b1 in
  let x2 := recv_message C R0 (out x1) in
  let x3 := send_message C rnd2 (st x2) b2 in
  let x4 := recv_message C (st x1) (out x3) in
  res x1 = Ok tt /\ res x2 = Ok tt /\
  out x1 = kp_public ei ++ skipn 32 b1 /\ out x2 = out x1 /\
  (res x3 <> Err EmptyKeyError ->
   res x3 = Ok tt /\ res x4 = Ok tt /\
   exists s4 m1 m2 hr hi,
     len m1 = 16 /\ len m2 = 16 /\ len (ss_h s4) = 32 /\
     hs_rs hi = kp_public sr /\ hs_rs hr = Z /\
     st x3 = mkSession hr (ss_h s4) (fst (split C s4)) (snd (split C s4)) 2 false true /\
     st x4 = mkSession hi (ss_h s4) (fst (split C s4)) (snd (split C s4)) 2 true true /\
     len (out x3) = len b2 /\
     out x4 = kp_public er ++ (kp_public sr ++ m1) ++ firstn (length b2 - 96) (skipn 80 b2) ++ m2).
Proof.
  intros * Ksi Ksr Kei Ker HI HR L1 L2 L3 D1 D2 Hb1 Hb2 x1 x2 x3 x4.
  destruct (started_state _ _ _ _ _ _ HI) as [ei0 [-> EI]].
  destruct (started_state _ _ _ _ _ _ HR) as [er0 [-> ER]].
  assert (X1 : x1 = _) by (unfold x1; apply send_a; [lia|exact EI]).
  assert (X2 : x2 = (mkSession (mkHS (ssA (ss0 pro) (kp_public ei) (skipn 32 b1)) sr er0 Z (kp_public ei) Z)
                       Z cs_new cs_new 1 false false, kp_public ei ++ skipn 32 b1, Ok tt)).
  { unfold x2. rewrite X1. unfold out. cbn [fst snd]. apply recv_a.
    - apply (proj2 Kei).
    - exact L1.
    - rewrite len_app, len_skipn, (proj2 Kei). lia. }
  assert (X3 : x3 = send_message C rnd2 (st x2) b2) by reflexivity.
  assert (X4 : x4 = recv_message C (st x1) (out x3)) by reflexivity.
  clearbody x1 x2 x3 x4. subst x1 x2. unfold res, out, st in *. cbn [fst snd] in *.
  do 4 (split; [reflexivity|]). intro NE.
  destruct (split_b2 b2 ltac:(lia)) as [x [y1 [y2 [p [m [Eb [Hx [Hy1 [Hy2 Hm]]]]]]]]]. 
  assert (Lb : len b2 = 96 + len p) by (rewrite Eb, !len_app; lia).
  set (SS := ssA (ss0 pro) (kp_public ei) (skipn 32 b1)) in *.
  pose proof (send_b rnd2 SS sr er0 er Z (kp_public ei) Z Z cs_new cs_new false false x y1 y2 p m
                Ksr Hx Hy1 Hy2 Hm ltac:(rewrite <- Eb; lia) ER) as SB.
  cbv zeta in SB. rewrite <- Eb in SB. rewrite <- X3 in SB. unfold res in SB.
  destruct SB as [[Bad _]|[K1 [K3 X3']]]; [contradiction|].
  clear X3 NE. subst x3. cbn [fst snd] in *.
  unfold dh_agree in D1, D2. rewrite <- D1 in *. rewrite <- D2 in *.
  destruct (recv_b SS si ei Z Z Z Z cs_new cs_new true false (kp_public er) (kp_public sr) p
              (proj2 Ker) (proj2 Ksr) L2 L3 ltac:(lia) K1 K3) as [m1 [m2 [M1 [M2 X4']]]].
  rewrite X4' in X4. clear X4'.
  assert (HP : firstn (length b2 - 96) (skipn 80 b2) = p).
  { rewrite Eb at 2. rewrite app_assoc. rewrite skipn_app_exact by (rewrite !len_app, Hx, Hy1, Hy2; reflexivity).
    apply firstn_app_exact. unfold len in *. lia. }
  rewrite X4, HP. cbn [fst snd]. split; [reflexivity|]. split; [reflexivity|].
  match goal with |- context [ss_h ?x] => exists x end.
  exists m1, m2. eexists _, _. do 2 (split; [assumption|]).
  split. { unfold ssBox. rewrite (proj2 (proj2 (mix_hash_fields C OK _ _))). apply (hash_len C OK). }
  split; [|split]. 3:{ split; [reflexivity|]. split; [reflexivity|]. split; [|reflexivity].
    rewrite !len_app. unfold box. rewrite !sealed_len by exact OK. rewrite (proj2 Ker), (proj2 Ksr). lia. }
  - reflexivity.
  - reflexivity.
Qed.
End Handshake.
