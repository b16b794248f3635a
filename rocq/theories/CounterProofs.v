(** * CounterProofs: the 128-bit message counter (C131). *)
From Coq Require Import Lia ZifyBool ZifyNat ZifyN.
From Verif Require Import Base SpecWire BaseFacts Noise SpecNoise SpecSession SpecTransport NoiseFacts NoiseSamples HandshakeProofs NxProofs
  SessionProofs RecvProofs SessionClaims TransportProofs Crypto CryptoFacts Counter SpecCounter.
Local Open Scope N_scope.
Local Open Scope list_scope.

Section Counter.
Variable C : crypto.
Hypothesis OK : crypto_ok C.

(** How many more calls may succeed without another clearing call. *)
Definition budget (s : session) : N :=
  if se_mc s <? 2 then (2 - se_mc s) + 2 * MAX_NONCE
  else (MAX_NONCE - cs_n (se_cs1 s)) + (MAX_NONCE - cs_n (se_cs2 s)).
Definition one (c : call) (r : NResult unit) : N :=
  match c, r with Send _ _, Ok _ => 1 | Recv _, Ok _ => 1 | _, _ => 0 end.

Lemma step_count : forall s c, gate s -> gate (st (step C s c)) /\ se_mc (st (step C s c)) = se_mc s + one c (res (step C s c)).
Proof. intros s c G. destruct (step_gate C s c G) as [G' M]. split; [exact G'|]. rewrite M. destruct c; reflexivity. Qed.
Lemma successes_cons : forall s c cs, successes C s (c :: cs) = one c (res (step C s c)) + successes C (st (step C s c)) cs.
Proof. intros s c cs. cbn [successes]. destruct c; reflexivity. Qed.

Lemma budget_top : forall s, budget s <= 2 + 2 * MAX_NONCE.
Proof. intro s. unfold budget. destruct (se_mc s <? 2); lia. Qed.
Lemma budget_early : forall s, se_mc s < 2 -> budget s = (2 - se_mc s) + 2 * MAX_NONCE.
Proof. intros s H. unfold budget. destruct (se_mc s <? 2) eqn:E; [reflexivity|lia]. Qed.
Lemma budget_late : forall s, 2 <= se_mc s -> budget s = (MAX_NONCE - cs_n (se_cs1 s)) + (MAX_NONCE - cs_n (se_cs2 s)).
Proof. intros s H. unfold budget. destruct (se_mc s <? 2) eqn:E; [lia|reflexivity]. Qed.

Lemma step_budget : forall s c, wf s ->
  one c (res (step C s c)) + budget (st (step C s c)) <= budget s + (if is_clear c then MAX_NONCE else 0).
Proof.
  intros s c W. pose proof W as [G [_ [N1 N2]]].
  destruct (step_count s c G) as [G' M].
  assert (O : one c (res (step C s c)) <= 1) by (unfold one; destruct c; try lia; destruct (res _); lia).
  destruct (N.lt_ge_cases (se_mc s) 2) as [D|D].
  - rewrite (budget_early s D).
    destruct (N.lt_ge_cases (se_mc (st (step C s c))) 2) as [D'|D'].
    + rewrite (budget_early _ D'). destruct (is_clear c); lia.
    + rewrite (budget_late _ D'). destruct (is_clear c); lia.
  - assert (D' : 2 <= se_mc (st (step C s c))) by lia. rewrite (budget_late s D), (budget_late _ D'). clear G' M O D'.
    destruct c as [rnd b|b| | | | |e]; cbn [step is_clear one].
    + destruct (send_cases C rnd s b D) as [[_ ->]|[[_ [_ ->]]|[[_ [_ [_ ->]]]|[_ [NE [_ ->]]]]]];
        unfold st, res; cbn [fst snd one]; try lia.
      unfold set_snd, snd_cs in *. destruct s as [hs h c1 c2 mc i t]. unfold MAX_NONCE in *. destruct i; cbn [se_i se_incr se_set_cs1 se_set_cs2 se_cs1 se_cs2 cs_k cs_n] in *; lia.
    + destruct (recv_cases C s b D) as [[_ ->]|[[_ [_ ->]]|[[_ [_ [_ ->]]]|[_ [NE [_ [ct [mac [pt [_ [_ [[_ ->]|[_ ->]]]]]]]]]]]]];
        unfold st, res; cbn [fst snd one]; try lia.
      unfold set_rcv, rcv_cs in *. destruct s as [hs h c1 c2 mc i t]. unfold MAX_NONCE in *. destruct i; cbn [se_i se_incr se_set_cs1 se_set_cs2 se_cs1 se_cs2 cs_k cs_n] in *; lia.
    + unfold st, clear_local_cipherstate, cs_clear. cbn [fst snd se_cs1 se_cs2 se_set_cs1 cs_n]. lia.
    + unfold st, clear_remote_cipherstate, cs_clear. cbn [fst snd se_cs1 se_cs2 se_set_cs2 cs_n]. lia.
    + unfold st, rekey_local_cipherstate, cs_rekey. cbn [fst snd se_cs1 se_cs2 se_set_cs1 cs_n]. lia.
    + unfold st, rekey_remote_cipherstate, cs_rekey. cbn [fst snd se_cs1 se_cs2 se_set_cs1 cs_n]. lia.
    + unfold st, set_ephemeral_keypair. cbn [fst snd se_cs1 se_cs2 se_set_hs cs_n]. lia.
Qed.

Lemma clears_cons : forall c cs, clears (c :: cs) = (if is_clear c then 1 else 0) + clears cs.
Proof. intros c cs. unfold clears. cbn [filter]. destruct (is_clear c); [|reflexivity]. unfold len. cbn [length]. lia. Qed.

Lemma run_budget : forall cs s, wf s -> successes C s cs <= budget s + MAX_NONCE * clears cs.
Proof.
  induction cs as [|c cs IH]; intros s W.
  - cbn [successes]. lia.
  - rewrite successes_cons.
    pose proof (step_budget s c W) as B. pose proof (IH _ (wf_step C OK s c W)) as I0. rewrite clears_cons.
    destruct (is_clear c); lia.
Qed.

Lemma successes_bound : forall i pro kp cs,
  successes C (init_session C i pro kp) cs <= 2 + (2 ^ 64 - 1) * (2 + clears cs).
Proof.
  intros i pro kp cs. pose proof (run_budget cs _ (wf_init C i pro kp)) as B.
  pose proof (budget_top (init_session C i pro kp)) as T. change (2 ^ 64 - 1) with MAX_NONCE. lia.
Qed.

(** ** Below 2^128 the width of the counter cannot be seen *)
Lemma step_same : forall checks s c, se_mc (st (step C s c)) < 2 ^ 128 -> step_u128 C checks s c = step C s c.
Proof.
  intros checks s c H. unfold step_u128. destruct (step C s c) as [[s' b] r]. unfold st in H. cbn [fst] in H.
  destruct (se_mc s' <? 2 ^ 128) eqn:E; [reflexivity|]. apply N.ltb_ge in E. exfalso. exact (N.lt_irrefl _ (N.le_lt_trans _ _ _ E H)).
Qed.

Lemma run_same : forall checks cs s, gate s -> se_mc s + successes C s cs < 2 ^ 128 ->
  run_u128 C checks s cs = run_calls C s cs /\ results_u128 C checks s cs = results C s cs.
Proof.
  intros checks. induction cs as [|c cs IH]; intros s G H; [split; reflexivity|].
  cbn [run_u128 results_u128 results]. rewrite run_calls_cons. rewrite successes_cons in H.
  destruct (step_count s c G) as [G' M].
  rewrite step_same by (rewrite M; lia). destruct (IH (st (step C s c)) G') as [E1 E2].
  { rewrite M. lia. }
  unfold st in *. rewrite E1, E2. split; reflexivity.
Qed.

Lemma below : forall checks i pro kp cs, let s := init_session C i pro kp in
  successes C s cs < 2 ^ 128 ->
  run_u128 C checks s cs = run_calls C s cs /\ results_u128 C checks s cs = results C s cs.
Proof.
  intros checks i pro kp cs s H. destruct (init_gate C i pro kp) as [G M]. fold s in G, M.
  apply run_same; [exact G|]. rewrite M. exact H.
Qed.

Lemma few_clears : forall checks i pro kp cs, let s := init_session C i pro kp in
  clears cs < 2 ^ 64 - 1 ->
  run_u128 C checks s cs = run_calls C s cs /\ results_u128 C checks s cs = results C s cs.
Proof.
  intros checks i pro kp cs s H. apply below. pose proof (successes_bound i pro kp cs) as B.
  set (n := clears cs) in *. set (m := successes _ _ _) in *. change (2 ^ 64 - 1) with 18446744073709551615 in *.
  change (2 ^ 128) with 340282366920938463463374607431768211456. lia.
Qed.

(** ** At 2^128 *)
Lemma at_limit : forall i pro kp cs c, let s := run_calls C (init_session C i pro kp) cs in
  successes C (init_session C i pro kp) cs = 2 ^ 128 - 1 -> counted c -> res (step C s c) = Ok tt ->
  res (step_u128 C true s c) = Panic /\ get_message_count (st (step_u128 C true s c)) = 2 ^ 128 - 1 /\
  let s' := st (step_u128 C false s c) in
  res (step_u128 C false s c) = Ok tt /\ out (step_u128 C false s c) = out (step C s c) /\
  get_message_count s' = 0 /\ is_transport s' = true /\
  forall rnd b, 32 <= len b <= 65535 -> exists pk s'', send_message C rnd s' b = (s'', pk ++ skipn 32 b, Ok tt).
Proof.
  intros i pro kp cs c s H K R. destruct (init_gate C i pro kp) as [G0 M0].
  destruct (run_gate C cs _ G0) as [G M]. fold s in G, M. rewrite M0, H in M.
  destruct (step_count s c G) as [G' M'].
  assert (O : one c (res (step C s c)) = 1) by (rewrite R; destruct c; try contradiction; reflexivity).
  rewrite O, M in M'. change (0 + (2 ^ 128 - 1) + 1) with (2 ^ 128) in M'.
  assert (T : se_transport (st (step C s c)) = true) by (apply G'; rewrite M'; discriminate).
  unfold step_u128. destruct (step C s c) as [[s1 b1] r1]. unfold st, res, out in *. cbn [fst snd] in *. subst r1.
  rewrite M', N.ltb_irrefl. do 2 (split; [reflexivity|]). do 3 (split; [reflexivity|]). split; [exact T|].
  intros rnd b L. unfold send_message. rewrite session_len_ok by lia. cbn [se_set_mc se_mc se_hs].
  change (0 =? 0) with true. cbv iota. unfold write_message_a. destruct (len b <? 32) eqn:E; [lia|].
  eexists _, _. reflexivity.
Qed.

(** ** With overflow checks *)
Lemma run_u128_app : forall checks cs cs' s, run_u128 C checks s (cs ++ cs') = run_u128 C checks (run_u128 C checks s cs) cs'.
Proof. induction cs as [|c cs IH]; intros; [reflexivity|]. cbn [app run_u128]. apply IH. Qed.
Lemma checked_gate : forall s c, gate s -> gate (st (step_u128 C true s c)).
Proof.
  intros s c G. destruct (step_count s c G) as [G' _]. unfold step_u128, st in *. destruct (step C s c) as [[s' b] r]. cbn [fst] in *.
  destruct (se_mc s' <? 2 ^ 128) eqn:E; cbn [fst]; [exact G'|]. apply N.ltb_ge in E.
  assert (T : se_transport s' = true).
  { apply G'. refine (N.le_trans _ _ _ _ E). discriminate. }
  unfold gate in *. cbn [se_set_mc se_transport se_mc]. rewrite T. split; [intros _; discriminate|reflexivity].
Qed.
Lemma checked_run : forall cs s, gate s -> gate (run_u128 C true s cs).
Proof. induction cs as [|c cs IH]; intros s G; [exact G|]. cbn [run_u128]. apply IH. exact (checked_gate s c G). Qed.
Lemma checked : forall i pro kp cs, let s := run_u128 C true (init_session C i pro kp) cs in
  (is_transport s = true <-> 2 <= get_message_count s) /\ get_message_count s < 2 ^ 128.
Proof.
  intros i pro kp cs s. split.
  - apply checked_run. exact (proj1 (init_gate C i pro kp)).
  - unfold s. destruct (init_gate C i pro kp) as [_ M]. assert (B : se_mc (init_session C i pro kp) < 2 ^ 128) by (rewrite M; reflexivity).
    revert B. generalize (init_session C i pro kp). clear M s. induction cs as [|c cs IH]; intros s B; [exact B|]. cbn [run_u128]. apply IH.
    unfold step_u128. destruct (step C s c) as [[s' b] r]. destruct (se_mc s' <? 2 ^ 128) eqn:E; cbn [fst se_set_mc se_mc]; [apply N.ltb_lt; exact E|reflexivity].
Qed.
Lemma checked_stays : forall i pro kp cs more, is_transport (run_u128 C true (init_session C i pro kp) cs) = true ->
  is_transport (run_u128 C true (init_session C i pro kp) (cs ++ more)) = true /\
  2 <= get_message_count (run_u128 C true (init_session C i pro kp) (cs ++ more)).
Proof.
  intros i pro kp cs more T. rewrite run_u128_app.
  assert (G : gate (run_u128 C true (init_session C i pro kp) cs)) by (apply checked_run; exact (proj1 (init_gate C i pro kp))).
  revert T G. generalize (run_u128 C true (init_session C i pro kp) cs). unfold is_transport, get_message_count.
  induction more as [|c more IH]; intros s T G; [split; [exact T|apply G; exact T]|]. cbn [run_u128].
  pose proof (checked_gate s c G) as G1. apply IH; [|exact G1]. apply G1.
  destruct (step_count s c G) as [_ M]. pose proof (proj1 G T) as L. unfold step_u128, st in *.
  destruct (step C s c) as [[s' b] r]. cbn [fst] in *. destruct (se_mc s' <? 2 ^ 128); cbn [fst se_set_mc se_mc]; [lia|discriminate].
Qed.

(** ** Getting there *)
Definition lap (i : bool) : list call :=
  [ClearLocal; RekeyLocal;
   if i then Send [] (repeat x00 16) else Recv (sealed C (REKEY C zeros32) 0 [] [])].

Hypothesis KZ : REKEY C zeros32 <> zeros32.

Lemma lap_steps : forall s, wf s -> is_transport s = true ->
  get_message_count (run_calls C s (lap (se_i s))) = get_message_count s + 1 /\ successes C s (lap (se_i s)) = 1.
Proof.
  intros s W T. destruct (run_gate C (lap (se_i s)) s (proj1 W)) as [_ M].
  assert (E : successes C s (lap (se_i s)) = 1); [|unfold get_message_count; rewrite M, E; auto].
  assert (D : 2 <= se_mc s) by (apply (proj1 W); exact T).
  unfold lap. cbn [successes step st res fst snd]. unfold st. cbn [fst].
  set (s2 := rekey_local_cipherstate C (clear_local_cipherstate s)).
  assert (E2 : s2 = mkSession (se_hs s) (se_h s) (mkCS (REKEY C zeros32) 0) (se_cs2 s) (se_mc s) (se_i s) (se_transport s)).
  { unfold s2, rekey_local_cipherstate. rewrite (rekey_spec C OK). cbn [clear_local_cipherstate se_set_cs1 se_cs1 cs_clear cs_k cs_n].
    rewrite <- zeros32_eq. reflexivity. }
  assert (D2 : 2 <= se_mc s2) by (rewrite E2; exact D).
  assert (KZ' : REKEY C zeros32 <> EMPTY_KEY) by (rewrite <- zeros32_eq; exact KZ).
  destruct (se_i s) eqn:I0.
  - cbn [step]. destruct (send_cases C [] s2 (repeat x00 16) D2) as [[B _]|[[_ [B _]]|[[_ [_ [B _]]]|[_ [_ [_ ->]]]]]];
      [exfalso; apply B; vm_compute; split; discriminate|rewrite E2 in B; discriminate B|rewrite E2 in B; destruct (KZ' B)|reflexivity].
  - cbn [step].
    assert (SL : len (sealed C (REKEY C zeros32) 0 [] []) = 16).
    { unfold sealed. rewrite len_app, (seal_ct_len C OK), (seal_mac_len C OK). reflexivity. }
    destruct (recv_cases C s2 (sealed C (REKEY C zeros32) 0 [] []) D2) as [[B _]|[[_ [B _]]|[[_ [_ [B _]]]|[_ [_ [_ (ct & mac & pt & E & L & [[B _]|[_ ->]])]]]]]];
      [exfalso; apply B; rewrite SL; split; discriminate|rewrite E2 in B; discriminate B|rewrite E2 in B; destruct (KZ' B)| |reflexivity].
    exfalso. unfold sealed in E. rewrite E2 in B. cbn [rcv_cs se_i se_cs1 cs_k cs_n] in B.
    destruct (c_seal C (firstn 32 (REKEY C zeros32)) (prep_nonce 0) [] []) as [ct0 mac0] eqn:S0. cbn [fst snd] in E.
    assert (L0 : len ct0 = 0) by (pose proof (seal_ct_len C OK (firstn 32 (REKEY C zeros32)) (prep_nonce 0) [] []) as X; rewrite S0 in X; exact X).
    assert (L1 : len mac0 = 16) by (pose proof (seal_mac_len C OK (firstn 32 (REKEY C zeros32)) (prep_nonce 0) [] []) as X; rewrite S0 in X; exact X).
    assert (ct = ct0 /\ mac = mac0) as [-> ->].
    { destruct ct0; [|unfold len in L0; cbn [length] in L0; lia]. destruct ct as [|x ct]; [split; [reflexivity|symmetry; exact E]|].
      exfalso. cbn [app] in E. apply (f_equal (@length _)) in E. cbn [length] in E. rewrite app_length in E. unfold len in L, L1. lia. }
    pose proof (open_seal C OK (firstn 32 (REKEY C zeros32)) (prep_nonce 0) [] []) as X. rewrite S0 in X. cbn [fst snd] in X. rewrite X in B. discriminate.
Qed.

Fixpoint laps (i : bool) (n : nat) : list call := match n with O => [] | S m => lap i ++ laps i m end.

Lemma successes_app : forall cs cs' s, successes C s (cs ++ cs') = successes C s cs + successes C (run_calls C s cs) cs'.
Proof.
  induction cs as [|c cs IH]; intros cs' s; [reflexivity|]. cbn [app successes]. rewrite run_calls_cons, IH.
  destruct c; rewrite N.add_assoc; reflexivity.
Qed.
Lemma run_role : forall cs s, se_i (run_calls C s cs) = se_i s.
Proof. induction cs as [|c cs IH]; intro s; [reflexivity|]. rewrite run_calls_cons, IH. apply step_role. Qed.

Lemma laps_count : forall n s, wf s -> is_transport s = true -> successes C s (laps (se_i s) n) = N.of_nat n.
Proof.
  induction n as [|n IH]; intros s W T; [reflexivity|]. cbn [laps]. rewrite successes_app.
  destruct (lap_steps s W T) as [_ ->].
  pose proof (IH (run_calls C s (lap (se_i s))) (wf_run C OK _ s W) (run_transport_stays C _ s (proj1 W) T)) as X.
  rewrite run_role in X. rewrite X. lia.
Qed.
Lemma laps_split : forall i n, laps i (S n) = (laps i n ++ firstn 2 (lap i)) ++ skipn 2 (lap i).
Proof.
  intros i n. rewrite <- app_assoc, firstn_skipn. induction n as [|n IH]; [cbn [laps]; rewrite app_nil_r; reflexivity|].
  transitivity (lap i ++ (laps i n ++ lap i)); [rewrite <- IH; reflexivity|rewrite app_assoc; reflexivity].
Qed.

Lemma nearly : forall s, wf s -> is_transport s = true -> get_message_count s < 2 ^ 128 -> exists front c,
  get_message_count s + successes C s front = 2 ^ 128 - 1 /\ counted c /\ res (step C (run_calls C s front) c) = Ok tt.
Proof.
  intros s W T L.
  destruct (N.to_nat (2 ^ 128 - se_mc s)) as [|n] eqn:En; [unfold get_message_count in L; lia|].
  set (front := laps (se_i s) n ++ firstn 2 (lap (se_i s))).
  set (last := if se_i s then Send [] (repeat x00 16) else Recv (sealed C (REKEY C zeros32) 0 [] [])).
  assert (El : skipn 2 (lap (se_i s)) = [last]) by reflexivity.
  pose proof (laps_count (S n) s W T) as Q. rewrite laps_split, El in Q. fold front in Q. rewrite successes_app in Q.
  pose proof (laps_count n s W T) as Q0.
  assert (Qf : successes C s front = N.of_nat n).
  { unfold front. rewrite successes_app, Q0. cbn [lap firstn successes step res snd]. lia. }
  rewrite Qf in Q. assert (Ql : successes C (run_calls C s front) [last] = 1) by lia. clear Q.
  exists front, last. split; [rewrite Qf; unfold get_message_count in *; lia|].
  split; [unfold last; destruct (se_i s); exact Logic.I|].
  unfold last in *. destruct (se_i s); cbn [successes] in Ql;
    match goal with H : context [res ?x] |- _ => destruct (res x) as [[]| |]; [reflexivity|cbn in H; discriminate|cbn in H; discriminate] end.
Qed.

Lemma reaches : forall s, reachable C s -> is_transport s = true -> get_message_count s < 2 ^ 128 -> exists more,
  let s' := run_u128 C false s more in
  get_message_count s' = 0 /\ is_transport s' = true /\ se_i s' = se_i s /\
  forall rnd b, 32 <= len b <= 65535 -> exists pk s'', send_message C rnd s' b = (s'', pk ++ skipn 32 b, Ok tt).
Proof.
  intros s Rs T L. pose proof (wf_reachable C OK s Rs) as W. destruct Rs as (i0 & pro & kp & cs & Es).
  destruct (nearly s W T L) as (front & last & Qf & K & R).
  assert (M : se_mc s = successes C (init_session C i0 pro kp) cs).
  { destruct (init_gate C i0 pro kp) as [G0 M0]. destruct (run_gate C cs _ G0) as [_ M]. rewrite <- Es, M0 in M. exact M. }
  exists (front ++ [last]). cbv zeta. rewrite run_u128_app. unfold get_message_count in Qf.
  assert (B : se_mc s + successes C s front < 2 ^ 128) by (rewrite Qf; reflexivity).
  destruct (run_same false front s (proj1 W) B) as [-> _]. cbn [run_u128].
  assert (H : successes C (init_session C i0 pro kp) (cs ++ front) = 2 ^ 128 - 1).
  { rewrite successes_app, <- Es, <- M. exact Qf. }
  pose proof (at_limit i0 pro kp (cs ++ front) last H K) as A. cbv zeta in A. rewrite run_calls_app, <- Es in A.
  destruct (A R) as (_ & _ & _ & _ & A1 & A2 & A3).
  split; [exact A1|]. split; [exact A2|]. split; [|exact A3].
  transitivity (se_i (st (step C (run_calls C s front) last))).
  - unfold step_u128, st. destruct (step C (run_calls C s front) last) as [[s1 b1] r1]. cbn [fst].
    destruct (se_mc s1 <? 2 ^ 128); reflexivity.
  - rewrite step_role. apply run_role.
Qed.
End Counter.

Lemma real_rekey : REKEY real_crypto zeros32 <> zeros32.
Proof. intro H. apply (f_equal (hd x00)) in H. vm_compute in H. discriminate. Qed.

Lemma d_limit : exists cs c, let s := run_calls demo_crypto d_I0 cs in
  successes demo_crypto d_I0 cs = 2 ^ 128 - 1 /\ counted c /\ res (step demo_crypto s c) = Ok tt.
Proof.
  destruct (nearly demo_crypto demo_ok real_rekey d_I (wf_reachable _ demo_ok _ d_reach_I) eq_refl eq_refl) as (front & c & Q & K & R).
  set (h := [Send k_ei d_b1; Recv (out d_x3)]).
  assert (E : run_calls demo_crypto d_I0 h = d_I).
  { unfold h. cbn [run_calls step]. fold d_I0 d_R0. rewrite d_x1_eq. fold (st d_x1). rewrite d_x4_eq. reflexivity. }
  exists (h ++ front), c. cbv zeta. rewrite successes_app, run_calls_app, E.
  assert (M : get_message_count d_I = successes demo_crypto d_I0 h).
  { destruct (init_gate demo_crypto true d_prologue d_si) as [G0 M0]. destruct (run_gate demo_crypto h _ G0) as [_ M]. fold d_I0 in M, M0.
    rewrite E, M0, N.add_0_l in M. exact M. }
  rewrite <- M. auto.
Qed.

Lemma wrap_refuted : exists C s, crypto_ok C /\ reachable C s /\ is_transport s = true /\ exists more,
  let s' := run_u128 C false s more in
  get_message_count s' = 0 /\ is_transport s' = true /\
  forall rnd b, 32 <= len b <= 65535 -> exists pk s'', send_message C rnd s' b = (s'', pk ++ skipn 32 b, Ok tt).
Proof.
  exists demo_crypto, d_I. split; [exact demo_ok|]. split; [exact d_reach_I|]. split; [reflexivity|].
  destruct (reaches demo_crypto demo_ok real_rekey d_I d_reach_I eq_refl eq_refl) as (more & H1 & H2 & _ & H3). exists more.
  split; [exact H1|]. split; [exact H2|exact H3].
Qed.

Lemma d_checked : exists cs more, is_transport (run_u128 demo_crypto true d_I0 cs) = true /\
  get_message_count (run_u128 demo_crypto true d_I0 (cs ++ more)) = 2 ^ 128 - 1.
Proof.
  destruct d_limit as (cs & c & Q & K & R). exists cs, [c].
  assert (B : successes demo_crypto d_I0 cs < 2 ^ 128) by (rewrite Q; reflexivity).
  destruct (below demo_crypto true true d_prologue d_si cs B) as [E _]. fold d_I0 in E.
  destruct (at_limit demo_crypto true d_prologue d_si cs c Q K R) as (_ & A & _). fold d_I0 in A.
  rewrite run_u128_app, E. split; [|exact A].
  rewrite <- E. apply (proj1 (checked demo_crypto true d_prologue d_si cs)). fold d_I0. rewrite E.
  destruct (init_gate demo_crypto true d_prologue d_si) as [G0 M0]. destruct (run_gate demo_crypto cs _ G0) as [_ M]. fold d_I0 in M, M0.
  unfold get_message_count. rewrite M, M0, Q. discriminate.
Qed.
