(** * RecvProofs: receives over whole histories; keys of reachable sessions. *)
From Coq Require Import Lia ZifyBool ZifyNat ZifyN.
From Verif Require Import Base SpecWire BaseFacts Noise SpecNoise SpecSession NoiseFacts HandshakeProofs NxProofs SessionProofs.
Open Scope N_scope.

Section Recv.
Variable C : crypto.
Hypothesis OK : crypto_ok C.
Notation Z := EMPTY_KEY.

(** ** Invariants of reachable sessions *)
Definition wf (s : session) : Prop :=
  gate s /\ keys32 s /\ cs_n (se_cs1 s) <= MAX_NONCE /\ cs_n (se_cs2 s) <= MAX_NONCE.

Lemma wf_init : forall i pro kp, wf (init_session C i pro kp).
Proof.
  intros i pro kp. split; [apply init_gate|]. destruct i; cbn; (split; [split; reflexivity|split; discriminate]).
Qed.

Lemma wf_step : forall s c, wf s -> wf (st (step C s c)).
Proof.
  intros s c [G [K [N1 N2]]]. split; [apply step_gate; exact G|].
  assert (D : 2 <= se_mc s \/ early s).
  { unfold early. destruct (se_transport s) eqn:T.
    - left. apply G. exact T.
    - destruct (N.le_gt_cases 2 (se_mc s)) as [H|H]; [left; exact H|right; auto]. }
  destruct c as [rnd b|b| | | | |e].
  1,2: destruct D as [D|D].
  - cbn [step]. destruct (send_cases C rnd s b D) as [[_ ->]|[[_ [_ ->]]|[[_ [_ [_ ->]]]|[_ [NE [_ ->]]]]]];
      unfold st; cbn [fst snd]; auto.
    unfold set_snd, snd_cs, keys32 in *. destruct s as [hs h c1 c2 mc i t]. destruct K as [K1 K2]. unfold MAX_NONCE in *. destruct i; cbn [se_i se_incr se_set_cs1 se_set_cs2 se_cs1 se_cs2 cs_k cs_n] in *; (split; [split; assumption|]); lia.
  - assert (H : se_cs1 (st (step C s (Send rnd b))) = se_cs1 s /\ se_cs2 (st (step C s (Send rnd b))) = se_cs2 s \/ fresh (st (step C s (Send rnd b)))).
    { destruct (step_early C OK s (Send rnd b) D) as [E|E]; [left|right; exact E].
      cbn [step] in *. unfold send_message, st, early in *.
      match goal with |- context [if ?c then _ else _] => destruct c; [auto|] end.
      destruct (se_mc s =? 0) eqn:E0.
      { destruct (write_message_a _ _ _ _) as [[h b'] [[]|e|]]; cbn; auto. }
      destruct (se_mc s =? 1) eqn:E1; [|lia].
      destruct (write_message_b _ _ _ _) as [[h b'] [[[q1 q2] q3]|e|]]; cbn in *; auto. destruct E; discriminate. }
    unfold keys32 in *. destruct H as [[-> ->]|[_ [_ [K' [-> ->]]]]]; [auto|]. split; [exact K'|]. split; discriminate.
  - cbn [step]. destruct (recv_cases C s b D) as [[_ ->]|[[_ [_ ->]]|[[_ [_ [_ ->]]]|[_ [NE [_ [ct [mac [pt [_ [_ [[_ ->]|[_ ->]]]]]]]]]]]]];
      unfold st; cbn [fst snd]; auto.
    unfold set_rcv, rcv_cs, keys32 in *. destruct s as [hs h c1 c2 mc i t]. destruct K as [K1 K2]. unfold MAX_NONCE in *. destruct i; cbn [se_i se_incr se_set_cs1 se_set_cs2 se_cs1 se_cs2 cs_k cs_n] in *; (split; [split; assumption|]); lia.
  - assert (H : se_cs1 (st (step C s (Recv b))) = se_cs1 s /\ se_cs2 (st (step C s (Recv b))) = se_cs2 s \/ fresh (st (step C s (Recv b)))).
    { destruct (step_early C OK s (Recv b) D) as [E|E]; [left|right; exact E].
      cbn [step] in *. unfold recv_message, st, early in *.
      match goal with |- context [if ?c then _ else _] => destruct c; [auto|] end.
      destruct (se_mc s =? 0) eqn:E0.
      { destruct (read_message_a _ _ _) as [[h b'] [[]|e|]]; cbn; auto. }
      destruct (se_mc s =? 1) eqn:E1; [|lia].
      destruct (read_message_b _ _ _) as [[h b'] [[[q1 q2] q3]|e|]]; cbn in *; auto. destruct E; discriminate. }
    unfold keys32 in *. destruct H as [[-> ->]|[_ [_ [K' [-> ->]]]]]; [auto|]. split; [exact K'|]. split; discriminate.
  - destruct K as [K1 K2]. split; [split; [reflexivity|exact K2]|]. split; [discriminate|exact N2].
  - destruct K as [K1 K2]. split; [split; [exact K1|reflexivity]|]. split; [exact N1|discriminate].
  - unfold keys32 in *. unfold st. cbn [step fst snd]. unfold rekey_local_cipherstate. rewrite rekey_spec by exact OK.
    cbn [st fst snd se_set_cs1 se_cs1 se_cs2 cs_k cs_n]. rewrite REKEY_len by exact OK. destruct K as [K1 K2]. auto.
  - unfold keys32 in *. unfold st. cbn [step fst snd]. unfold rekey_remote_cipherstate. rewrite rekey_spec by exact OK.
    cbn [st fst snd se_set_cs1 se_cs1 se_cs2 cs_k cs_n]. rewrite REKEY_len by exact OK. destruct K as [K1 K2]. auto.
  - split; [exact K|]. split; [exact N1|exact N2].
Qed.

Lemma wf_run : forall cs s, wf s -> wf (run_calls C s cs).
Proof. induction cs as [|c cs IH]; intros s W; [exact W|]. rewrite run_calls_cons. apply IH, wf_step, W. Qed.

Lemma wf_reachable : forall s, reachable C s -> wf s.
Proof. intros s [i [pro [kp [cs ->]]]]. apply wf_run, wf_init. Qed.

Lemma reachable_transport : forall s, reachable C s -> is_transport s = true -> 2 <= se_mc s.
Proof. intros s R T. apply (proj1 (wf_reachable s R)). exact T. Qed.
Lemma reachable_handshake : forall s, reachable C s -> is_transport s = false -> se_mc s < 2.
Proof.
  intros s R T. destruct (wf_reachable s R) as [[_ G] _]. unfold is_transport in T.
  destruct (N.le_gt_cases 2 (se_mc s)) as [H|H]; [|exact H]. apply G in H. congruence.
Qed.
Lemma reachable_run : forall s cs, reachable C s -> reachable C (run_calls C s cs).
Proof. intros s cs [i [pro [kp [cs0 ->]]]]. exists i, pro, kp, (cs0 ++ cs). symmetry. apply run_calls_app. Qed.

(** Every message a session ever encrypts in transport mode: never under the zero key. *)
Lemma sends_nonzero : forall cs s, wf s -> forall b o, In (b, o) (transport_sends C s cs) ->
  exists k n, k <> zeros32 /\ n < 2 ^ 64 - 1 /\ o = ENCRYPT C k n [] (plaintext_of b).
Proof.
  induction cs as [|c cs IH]; intros s W b o H; [contradiction|].
  cbn [transport_sends] in H. cbv zeta in H. apply in_app_or in H.
  destruct H as [H|H]; [|exact (IH _ (wf_step s c W) b o H)].
  destruct c as [rnd b0|b0| | | | |e]; try contradiction. cbn [step] in H.
  destruct (is_transport s) eqn:T; [|destruct (res _); contradiction].
  destruct W as [G [[K1 K2] [N1 N2]]]. assert (D : 2 <= se_mc s) by (apply G; exact T).
  destruct (send_cases C rnd s b0 D) as [[_ E]|[[_ [_ E]]|[[_ [_ [_ E]]]|[_ [H1 [H2 E]]]]]];
    rewrite E in H; unfold res, out in H; cbn [fst snd] in H; try contradiction.
  destruct H as [H|[]]. injection H as <- <-.
  exists (cs_k (snd_cs s)), (cs_n (snd_cs s)). rewrite zeros32_eq.
  assert (B : cs_n (snd_cs s) <= MAX_NONCE) by (unfold snd_cs; destruct (se_i s); assumption).
  split; [exact H2|]. split; [unfold MAX_NONCE in *; lia|].
  apply sealed_spec. unfold snd_cs. destruct (se_i s); assumption.
Qed.

(** ** One accepted message *)
Lemma recv_accept : forall s b s' b', wf s -> is_transport s = true -> recv_message C s b = (s', b', Ok tt) ->
  cs_k (rcv_cs s) <> zeros32 /\ cs_n (rcv_cs s) < 2 ^ 64 - 1 /\
  b = ENCRYPT C (cs_k (rcv_cs s)) (cs_n (rcv_cs s)) [] (plaintext_of b') /\
  s' = se_incr (set_rcv s (mkCS (cs_k (rcv_cs s)) (cs_n (rcv_cs s) + 1))) /\
  len b' = len b /\ skipn (length b' - 16) b' = skipn (length b - 16) b.
Proof.
  intros s b s' b' [G [[K1 K2] [N1 N2]]] T E. assert (D : 2 <= se_mc s) by (apply G; exact T).
  destruct (recv_cases C s b D) as [[_ X]|[[_ [_ X]]|[[_ [_ [_ X]]]|[Hb [H1 [H2 [ct [mac [pt [Eb [Hm [[_ X]|[Op X]]]]]]]]]]]]];
    rewrite X in E; try discriminate.
  injection E as <- <-. rewrite zeros32_eq. split; [exact H2|].
  assert (B : cs_n (rcv_cs s) <= MAX_NONCE) by (unfold rcv_cs; destruct (se_i s); assumption).
  split; [unfold MAX_NONCE in *; lia|].
  assert (Lk : len (cs_k (rcv_cs s)) = 32) by (unfold rcv_cs; destruct (se_i s); assumption).
  pose proof (open_len C OK _ _ _ _ _ : len (snd (c_open C (firstn 32 (cs_k (rcv_cs s))) (prep_nonce (cs_n (rcv_cs s))) [] ct mac)) = len ct) as Lp.
  rewrite Op in Lp. cbn [snd] in Lp.
  apply (open_exact C OK) in Op.
  split. { rewrite plaintext_app by exact Hm. rewrite <- sealed_spec by exact Lk. unfold sealed. rewrite Op. exact Eb. }
  split; [reflexivity|]. split; [rewrite Eb, !len_app; lia|].
  rewrite Eb, !app_length. unfold len in Hm.
  replace (length pt + length mac - 16)%nat with (length pt) by lia.
  replace (length ct + length mac - 16)%nat with (length ct) by lia.
  rewrite !skipn_app, !Nat.sub_diag, !skipn_all. reflexivity.
Qed.

(** ** Counting receives *)
Definition rkey_after (k : bytes) (c : call) (i : bool) : bytes :=
  match c with
  | RekeyLocal | RekeyRemote => if i then k else REKEY C k
  | _ => k
  end.
Definition rhop (s : session) (c : call) : N :=
  match c, res (step C s c) with Recv _, Ok _ => 1 | _, _ => 0 end.

Lemma step_rcv : forall s c, 2 <= se_mc s -> no_clear c ->
  let s' := st (step C s c) in
  2 <= se_mc s' /\ se_i s' = se_i s /\
  cs_n (rcv_cs s') = cs_n (rcv_cs s) + rhop s c /\
  cs_k (rcv_cs s') = rkey_after (cs_k (rcv_cs s)) c (se_i s).
Proof.
  intros s c Hm NC s'. unfold s', rhop.
  destruct c as [rnd b|b| | | | |e]; cbn [step no_clear] in *; try contradiction.
  - destruct (send_cases C rnd s b Hm) as [[_ ->]|[[_ [_ ->]]|[[_ [_ [_ ->]]]|[_ [_ [_ ->]]]]]];
      unfold st, res; cbn [fst snd rkey_after]; try (repeat split; auto; lia).
    unfold set_snd, snd_cs, rcv_cs. destruct s as [hs h c1 c2 mc i t]. cbn in *.
    destruct i; cbn; repeat split; auto; lia.
  - destruct (recv_cases C s b Hm) as [[_ ->]|[[_ [_ ->]]|[[_ [_ [_ ->]]]|[_ [_ [_ [ct [mac [pt [_ [_ [[_ ->]|[_ ->]]]]]]]]]]]]];
      unfold st, res; cbn [fst snd rkey_after]; try (repeat split; auto; lia).
    unfold set_rcv, rcv_cs. destruct s as [hs h c1 c2 mc i t]. cbn in *.
    destruct i; cbn; repeat split; auto; lia.
  - unfold st, rekey_local_cipherstate. rewrite rekey_spec by exact OK.
    destruct s as [hs h c1 c2 mc i t]. unfold rcv_cs, res.
    cbn [fst snd rkey_after se_i se_cs1 se_cs2 se_mc se_transport se_set_cs1 cs_n cs_k] in *.
    repeat (split; [first [assumption|reflexivity]|]).
    destruct i; cbn [cs_n cs_k]; (split; [lia|reflexivity]).
  - unfold st, rekey_remote_cipherstate. rewrite rekey_spec by exact OK.
    destruct s as [hs h c1 c2 mc i t]. unfold rcv_cs, res.
    cbn [fst snd rkey_after se_i se_cs1 se_cs2 se_mc se_transport se_set_cs1 cs_n cs_k] in *.
    repeat (split; [first [assumption|reflexivity]|]).
    destruct i; cbn [cs_n cs_k]; (split; [lia|reflexivity]).
  - unfold st. cbn. destruct s as [hs h c1 c2 mc i t]. cbn in *. unfold rcv_cs. cbn. destruct i; repeat split; auto; lia.
Qed.

Lemma recvs_from : forall cs s, wf s -> se_transport s = true -> Forall no_clear cs ->
  forall j b o, nth_error (transport_recvs C s cs) j = Some (b, o) ->
     cs_n (rcv_cs s) + N.of_nat j < 2 ^ 64 - 1 /\
     exists k, k <> zeros32 /\ b = ENCRYPT C k (cs_n (rcv_cs s) + N.of_nat j) [] (plaintext_of o) /\
               (Forall no_rekey cs -> k = cs_k (rcv_cs s)).
Proof.
  induction cs as [|c cs IH]; intros s W T F j b o Hj; [destruct j; discriminate|].
  inversion F as [|? ? NC F']; subst.
  assert (Hm : 2 <= se_mc s) by (apply (proj1 W); exact T).
  destruct (step_rcv s c Hm NC) as [Hm' [I' [N' Kk]]].
  pose proof (wf_step s c W) as W'.
  assert (T' : se_transport (st (step C s c)) = true) by (apply (proj1 W'); exact Hm').
  cbn [transport_recvs] in Hj. cbv zeta in Hj.
  assert (Here : (exists b0 o0, c = Recv b0 /\ recv_message C s b0 = (st (step C s c), o0, Ok tt) /\ rhop s c = 1 /\
                  match c, res (step C s c) with
                  | Recv b, Ok _ => if is_transport s then [(b, out (step C s c))] else []
                  | _, _ => [] end = [(b0, o0)]) \/
                 (match c, res (step C s c) with
                  | Recv b, Ok _ => if is_transport s then [(b, out (step C s c))] else []
                  | _, _ => [] end = [] /\ rhop s c = 0)).
  { destruct c as [rnd b1|b1| | | | |e]; try (right; split; reflexivity).
    unfold rhop. cbn [step]. destruct (recv_message C s b1) as [[s1 o1] [[]|e|]] eqn:EX; unfold res, st, out; cbn [fst snd];
      try (right; split; reflexivity).
    left. exists b1, o1. unfold is_transport. rewrite T, EX. auto. }
  destruct Here as [[b0 [o0 [Ec [Er [Eh EL]]]]]|[E0 Eh]].
  - rewrite EL in Hj. destruct (recv_accept s b0 _ _ W T Er) as [A1 [A2 [A3 _]]].
    destruct j as [|j]; cbn [app nth_error] in Hj.
    + injection Hj as <- <-. split; [lia|]. exists (cs_k (rcv_cs s)).
      split; [exact A1|]. split; [|auto]. change (N.of_nat 0) with 0. rewrite N.add_0_r. exact A3.
    + destruct (IH _ W' T' F' j b o Hj) as [B1 [k [B2 [B3 B4]]]].
      split; [lia|]. exists k. split; [exact B2|]. split. { rewrite B3 at 1. f_equal. lia. }
      intro FR. inversion FR; subst c. rewrite B4 by assumption. rewrite Kk. reflexivity.
  - rewrite E0 in Hj. cbn [app] in Hj.
    destruct (IH _ W' T' F' j b o Hj) as [B1 [k [B2 [B3 B4]]]].
    split; [lia|]. exists k. split; [exact B2|]. split. { rewrite B3 at 1. f_equal. lia. }
    intro FR. inversion FR as [|? ? NR FR']; subst. rewrite B4 by assumption. rewrite Kk.
    destruct c; cbn in *; try contradiction; reflexivity.
Qed.

Lemma recvs_early : forall cs s, early s ->
  transport_recvs C s cs = [] \/
  (exists cs1 cs2 s', cs = cs1 ++ cs2 /\ run_calls C s cs1 = s' /\ fresh s' /\
     transport_recvs C s cs = transport_recvs C s' cs2).
Proof.
  induction cs as [|c cs IH]; intros s E.
  - left. auto.
  - cbn [transport_recvs]. cbv zeta.
    assert (N0 : match c, res (step C s c) with
                 | Recv b, Ok _ => if is_transport s then [(b, out (step C s c))] else []
                 | _, _ => [] end = []).
    { destruct c; try reflexivity. unfold is_transport. rewrite (proj2 E).
      destruct (res _); reflexivity. }
    rewrite N0. cbn [app].
    destruct (step_early C OK s c E) as [E'|F'].
    + destruct (IH _ E') as [H1|[cs1 [cs2 [s' [-> [H2 [H3 H4]]]]]]]; [left; auto|].
      right. exists (c :: cs1), cs2, s'. split; [reflexivity|]. split; [exact H2|]. split; [exact H3|exact H4].
    + right. exists [c], cs, (st (step C s c)). split; [reflexivity|]. split; [reflexivity|]. split; [exact F'|reflexivity].
Qed.

Theorem history_recvs : forall i pro s cs, Forall no_clear cs ->
  exists k0,
  (forall j b o, nth_error (transport_recvs C (init_session C i pro s) cs) j = Some (b, o) ->
     N.of_nat j < 2 ^ 64 - 1 /\
     exists k, k <> zeros32 /\ b = ENCRYPT C k (N.of_nat j) [] (plaintext_of o) /\
               (Forall no_rekey cs -> k = k0)).
Proof.
  intros i pro s cs F.
  destruct (recvs_early cs _ (early_init C i pro s)) as [->|[cs1 [cs2 [s' [-> [RR [Fr ->]]]]]]].
  - exists Z. intros [|j] b o H; discriminate.
  - exists (cs_k (rcv_cs s')). intros j b o H.
    apply Forall_app in F. destruct F as [_ F2].
    assert (W : wf s') by (rewrite <- RR; apply wf_run, wf_init).
    destruct Fr as [A1 [A2 [A3 [A4 A5]]]].
    assert (N0 : cs_n (rcv_cs s') = 0) by (unfold rcv_cs; destruct (se_i s'); assumption).
    destruct (recvs_from cs2 s' W A2 F2 j b o H) as [B1 [k [B2 [B3 B4]]]]. rewrite N0, N.add_0_l in *.
    split; [exact B1|]. exists k. split; [exact B2|]. split; [exact B3|].
    intro FR. apply Forall_app in FR. apply B4, FR.
Qed.

(** ** Rejected messages *)
Lemma recv_reject : forall s b, 2 <= se_mc s -> res (recv_message C s b) <> Ok tt -> st (recv_message C s b) = s.
Proof.
  intros s b D H. destruct (recv_cases C s b D) as [[_ X]|[[_ [_ X]]|[[_ [_ [_ X]]]|[Hb [H1 [H2 [ct [mac [pt [Eb [Hm [[_ X]|[Op X]]]]]]]]]]]]];
    rewrite X in *; try reflexivity. exfalso. apply H. reflexivity.
Qed.
Lemma send_reject : forall rnd s b, 2 <= se_mc s -> res (send_message C rnd s b) <> Ok tt -> send_message C rnd s b = (s, b, res (send_message C rnd s b)).
Proof.
  intros rnd s b D H. destruct (send_cases C rnd s b D) as [[_ X]|[[_ [_ X]]|[[_ [_ [_ X]]]|[_ [_ [_ X]]]]]];
    rewrite X in *; try reflexivity. exfalso. apply H. reflexivity.
Qed.
Lemma junk_ignored : forall bs s, 2 <= se_mc s -> Forall (fun b => res (recv_message C s b) <> Ok tt) bs ->
  run_calls C s (map Recv bs) = s.
Proof.
  induction bs as [|b bs IH]; intros s D F; [reflexivity|].
  inversion F; subst. cbn [map]. rewrite run_calls_cons. cbn [step]. rewrite recv_reject by assumption.
  apply IH; assumption.
Qed.
End Recv.
