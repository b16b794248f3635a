(** * NoiseMainProofs: lemmas for C141. *)
From Coq Require Import Arith Lia ZArith ZifyBool ZifyNat ZifyN.
From Verif Require Import Base Codec Types Certs SpecWire Noise SpecNoise SpecCerts SpecSession Network SpecNetwork Base58Facts CertProofs NoiseSamples NetworkProofs Apps AppProofs SpecMiner MinerProofs Mains SpecMains MainProofs.
Local Open Scope N_scope.
Local Open Scope list_scope.
Local Notation P := PoolTurn.
Local Notation M := MinerTurn.

Lemma conn_whole : forall b, conn_read (mkConn b true) = Some b.
Proof. intros [|x b]; reflexivity. Qed.

Section Main.
Variables (C : crypto) (E : ed_ops) (pf : profile).
Variables (rsi rnd rnd1 rnd2 rsr : bytes) (static : keypair) (authority : ed_keypair) (text : bytes).
Variables clock clock' : nat -> system_time.
Let zs : bytes := repeat x00 1024.

(** What the pool's program does, step by step. *)
Lemma pool_parts : forall t1 t2 bs m2 m3, nh_pool_run C E rnd1 rnd2 rsr static authority t1 t2 bs = Ok (m2, m3) ->
  exists s1 b1 u s2 buf s3, recv_message C (new_inbound C (Some static) rsr) (read_into zs bs) = (s1, b1, Ok u) /\
    nh_send C rnd1 s1 b1 = (s2, Ok m2) /\ nh_certificate E static authority t1 t2 = Some buf /\ nh_send C rnd2 s2 buf = (s3, Ok m3).
Proof.
  intros t1 t2 bs m2 m3 H. unfold nh_pool_run, nh_pool_recv in H. fold zs in H.
  destruct (recv_message C (new_inbound C (Some static) rsr) (read_into zs bs)) as [[s1 b1] r1].
  destruct r1 as [u| |]; [|discriminate H|discriminate H].
  destruct (nh_send C rnd1 s1 b1) as [s2 r2] eqn:S1. exists s1, b1, u, s2. unfold nh_certificate.
  destruct r2 as [x2|e|]; [|discriminate H|discriminate H].
  destruct (system_unix_time_to_u32 t1) as [vf| |]; [|discriminate H|discriminate H].
  destruct (system_unix_time_to_u32 (t2 + 5 * 10 ^ 9)%Z) as [nva| |]; [|discriminate H|discriminate H].
  unfold nh_send_certificate in H. destruct (cert_new 0 vf nva (kp_public static)) as [cert| |]; [|discriminate H|discriminate H].
  destruct (obind (from_auth_key E authority cert) (fun m => serialize (ser_snm m))) as [enc| |]; [|discriminate H|discriminate H].
  destruct (1024 <? len enc); [discriminate H|].
  destruct (nh_send C rnd2 s2 (enc ++ repeat x00 (1024 - length enc))) as [s3 r3] eqn:S2. cbn [snd] in H.
  destruct r3 as [x3| |]; [|discriminate H|discriminate H]. injection H as <- <-.
  eexists _, s3. split; [reflexivity|]. split; [exact S1|]. split; [reflexivity|exact S2].
Qed.
(** What the miner's does. *)
Lemma miner_parts : forall m1 m2 m3 now now' vs, nh_miner_run C E pf text rsi rnd [(m2, now); (m3, now')] = Ok (m1, (vs, false)) ->
  exists sm sa sa' ba ra sb bb rb sb' v1 v2,
    nh_send C rnd (new_outbound C rsi) zs = (sm, Ok m1) /\
    recv_message C sm (read_into zs m2) = (sa, ba, ra) /\ nh_miner_recv C E pf text now sm (read_into zs m2) = (sa', Ok v1) /\
    recv_message C sa' (read_into ba m3) = (sb, bb, rb) /\ nh_miner_recv C E pf text now' sa' (read_into ba m3) = (sb', Ok v2) /\
    vs = (match v1 with Some x => [x] | None => [] end) ++ (match v2 with Some x => [x] | None => [] end).
Proof.
  intros m1 m2 m3 now now' vs H. unfold nh_miner_run in H. fold zs in H.
  destruct (nh_send C rnd (new_outbound C rsi) zs) as [sm r] eqn:S. destruct r as [x1| |]; [|discriminate H|discriminate H].
  cbn [obind] in H. injection H as -> H. cbn [nh_miner_listen] in H. cbv zeta in H.
  destruct (recv_message C sm (read_into zs m2)) as [[sa ba] ra] eqn:Ra.
  destruct (nh_miner_recv C E pf text now sm (read_into zs m2)) as [sa' [v1| |]] eqn:Na; [|discriminate H|discriminate H].
  destruct (recv_message C sa' (read_into ba m3)) as [[sb bb] rb] eqn:Rb.
  destruct (nh_miner_recv C E pf text now' sa' (read_into ba m3)) as [sb' [v2| |]] eqn:Nb; [|discriminate H|discriminate H].
  exists sm, sa, sa', ba, ra, sb, bb, rb, sb', v1, v2. split; [reflexivity|]. split; [exact Ra|]. split; [exact Na|]. split; [exact Rb|].
  split; [exact Nb|]. injection H as <-. destruct v1, v2; reflexivity.
Qed.
(** The clock does not matter when the miner is not in transport mode. *)
Lemma miner_recv_clock : forall now now' s b, is_transport s = false ->
  nh_miner_recv C E pf text now s b = nh_miner_recv C E pf text now' s b /\
  (forall s' v, nh_miner_recv C E pf text now s b = (s', Ok v) -> v = None).
Proof.
  intros now now' s b H. unfold nh_miner_recv. destruct (recv_message C s b) as [[s1 b1] [u| |]]; rewrite ?H; (split; [reflexivity|]); intros s' v X; congruence.
Qed.
Lemma first_send_mode : forall sm m1, nh_send C rnd (new_outbound C rsi) zs = (sm, Ok m1) -> is_transport sm = false.
Proof.
  intros sm m1 H. unfold nh_send, send_message in H. change (se_mc (new_outbound C rsi)) with 0 in H.
  destruct ((len zs <? 16) || (MAX_MESSAGE <? len zs)); [discriminate H|]. change (0 =? 0) with true in H. cbv iota in H.
  destruct (write_message_a C rnd (se_hs (new_outbound C rsi)) zs) as [[h b] r]. cbv zeta in H.
  destruct r; [|discriminate H|discriminate H]. injection H as <- _. reflexivity.
Qed.

Let turn := nh_turn C E pf rsi rnd rnd1 rnd2 rsr static authority text clock clock'.
Let run (w : nh_world) (r : list task) : nh_world := fold_left (fun w t => turn t w) r w.
Lemma nrun_app : forall w a b, run w (a ++ b) = run (run w a) b.
Proof. intros w a b. unfold run. apply fold_left_app. Qed.
Lemma nrun_cons : forall w t r, run w (t :: r) = run (turn t w) r.
Proof. reflexivity. Qed.

Lemma n_refused : forall r, nw_miner (run nh_start (M :: r)) = NM_dead [].
Proof.
  intro r. rewrite nrun_cons. change (turn M nh_start) with (mkNhWorld NP_start (NM_dead []) None [] 1).
  induction r as [|t r IH]; [reflexivity|]. rewrite nrun_cons. exact IH.
Qed.

(** Before the miner has had three turns. *)
Definition level (m : nh_miner_at) : nat := match m with NM_start | NM_dead [] => 0 | NM_connected => 1 | NM_sent _ => 2 | _ => 3 end.
Fixpoint miner_turns (r : list task) : nat := match r with [] => 0 | P :: r => miner_turns r | M :: r => S (miner_turns r) end.
Lemma early : forall r w, (level (nw_miner w) + miner_turns r <= 2)%nat -> printed (nw_miner (run w r)) = [].
Proof.
  induction r as [|t r IH]; intros w H.
  - cbn [run fold_left] in *. unfold run. cbn [fold_left]. destruct (nw_miner w) as [| | | | |[|v vs]]; cbn in H; try lia; reflexivity.
  - change (run w (t :: r)) with (run (turn t w) r). apply IH. unfold turn, nh_turn. destruct (nh_over w) eqn:O.
    { cbn [miner_turns] in H. destruct t; lia. }
    destruct t; cbn [miner_turns] in H.
    + replace (nw_miner (nh_pool_turn C E rnd1 rnd2 rsr static authority clock clock' w)) with (nw_miner w); [exact H|].
      unfold nh_pool_turn. destruct (nw_pool w); repeat (match goal with |- context [match ?x with _ => _ end] => destruct x end); reflexivity.
    + unfold nh_over in O. unfold nh_miner_turn. destruct (nw_miner w) eqn:Mw; try discriminate O; cbn [level] in H; try lia.
      * destruct (nw_pool w); cbn [nw_miner level]; lia.
      * destruct (nh_send C rnd (new_outbound C rsi) (repeat x00 1024)) as [? [?| |]]; cbn [nw_miner level]; lia.
Qed.

(** Everything that is fixed before the certificate is made. *)
Variables (m1 m2 b1 : bytes) (sm s1 s2 sa' : session) (ba : bytes) (u : unit).
Hypothesis Hm1 : nh_send C rnd (new_outbound C rsi) zs = (sm, Ok m1).
Hypothesis Hrecv : recv_message C (new_inbound C (Some static) rsr) (read_into zs m1) = (s1, b1, Ok u).
Hypothesis Hm2 : nh_send C rnd1 s1 b1 = (s2, Ok m2).
Hypothesis Hba : snd (fst (recv_message C sm (read_into zs m2))) = ba.
Hypothesis Hsa : forall now, nh_miner_recv C E pf text now sm (read_into zs m2) = (sa', Ok None).
Variable verdict : nat -> nat -> bool.
Hypothesis Hlast : forall i, exists buf s3 m3, nh_certificate E static authority (clock i) (clock' i) = Some buf /\
  nh_send C rnd2 s2 buf = (s3, Ok m3) /\ forall j, exists sb', nh_miner_recv C E pf text (clock j) sa' (read_into ba m3) = (sb', Ok (Some (verdict i j))).

Definition n_full := Some (mkConn m1 true).
Definition n_open := Some (mkConn [] false).
Definition n_after (x : nat) : nh_pool_at := match x with O => NP_bound | 1%nat => NP_accepted | _ => NP_read (read_into zs m1) end.

Lemma n_front : forall c0, run nh_start (repeat P (S c0) ++ [M]) = mkNhWorld NP_bound NM_connected n_open [] (S c0 + 1).
Proof.
  intro c0. rewrite nrun_app. cbn [repeat]. rewrite (nrun_cons nh_start). change (turn P nh_start) with (mkNhWorld NP_bound NM_start None [] 1).
  assert (G : forall c n, run (mkNhWorld NP_bound NM_start None [] n) (repeat P c) = mkNhWorld NP_bound NM_start None [] (n + c)).
  { induction c as [|c IH]; intro n; [rewrite Nat.add_0_r; reflexivity|]. cbn [repeat]. rewrite nrun_cons.
    change (turn P (mkNhWorld NP_bound NM_start None [] n)) with (mkNhWorld NP_bound NM_start None [] (S n)). rewrite IH. f_equal. lia. }
  rewrite G, nrun_cons. replace (S c0 + 1)%nat with (S (1 + c0)) by lia. reflexivity.
Qed.
Lemma n_front2 : forall c0 c1, exists n, run nh_start (repeat P (S c0) ++ M :: repeat P c1 ++ [M]) =
  mkNhWorld (n_after (min c1 1)) (NM_sent sm) n_full [] n.
Proof.
  intros c0 c1. change (M :: repeat P c1 ++ [M]) with ([M] ++ repeat P c1 ++ [M]). rewrite app_assoc, nrun_app, n_front.
  rewrite nrun_app.
  assert (T : forall p k, turn M (mkNhWorld p NM_connected n_open [] k) = mkNhWorld p (NM_sent sm) n_full [] (S k)).
  { intros p k. unfold turn, nh_turn, nh_over, nh_miner_turn. cbn [nw_miner]. fold zs. rewrite Hm1. reflexivity. }
  destruct c1 as [|c1].
  - eexists. cbn [repeat]. unfold run at 2. cbn [fold_left]. rewrite nrun_cons, T. reflexivity.
  - cbn [repeat]. rewrite (nrun_cons _ P).
    assert (G : forall c k, run (mkNhWorld NP_accepted NM_connected n_open [] k) (repeat P c) = mkNhWorld NP_accepted NM_connected n_open [] (k + c)).
    { induction c as [|c IH]; intro k; [rewrite Nat.add_0_r; reflexivity|]. cbn [repeat]. rewrite nrun_cons.
      change (turn P (mkNhWorld NP_accepted NM_connected n_open [] k)) with (mkNhWorld NP_accepted NM_connected n_open [] (S k)). rewrite IH. f_equal. lia. }
    change (turn P (mkNhWorld NP_bound NM_connected n_open [] (S c0 + 1))) with (mkNhWorld NP_accepted NM_connected n_open [] (S (S c0 + 1))).
    eexists. rewrite G, nrun_cons, T. replace (Nat.min (S c1) 1) with 1%nat by lia. reflexivity.
Qed.
Lemma n_step : forall mi x n, match mi with NM_dead _ => False | _ => True end -> (x < 2)%nat ->
  turn P (mkNhWorld (n_after x) mi n_full [] n) = mkNhWorld (n_after (S x)) mi n_full [] (S n).
Proof.
  intros mi x n H L. assert (O : forall p, nh_over (mkNhWorld p mi n_full [] n) = false) by (intro p; destruct mi; try contradiction; reflexivity).
  unfold turn, nh_turn. rewrite O. destruct x as [|[|x]]; [reflexivity| |lia].
  unfold nh_pool_turn, n_full. cbn [n_after nw_pool nw_to_pool]. rewrite conn_whole. reflexivity.
Qed.
Lemma n_sent : forall c x n, (x + c < 3)%nat ->
  run (mkNhWorld (n_after x) (NM_sent sm) n_full [] n) (repeat P c) = mkNhWorld (n_after (x + c)) (NM_sent sm) n_full [] (n + c).
Proof.
  induction c as [|c IH]; intros x n L; [rewrite !Nat.add_0_r; reflexivity|]. cbn [repeat]. rewrite nrun_cons, n_step by (try exact I; lia).
  rewrite IH by lia. f_equal; [f_equal; lia|lia].
Qed.
Lemma n_front3 : forall c0 c1 c2, (pool_ahead c1 c2 < 3)%nat -> exists n,
  run nh_start (opening c0 c1 c2) = mkNhWorld (n_after (pool_ahead c1 c2)) (NM_listen sm zs 0 []) n_full [] n.
Proof.
  intros c0 c1 c2 L. unfold opening, pool_ahead in *.
  replace (repeat P (S c0) ++ M :: repeat P c1 ++ M :: repeat P c2 ++ [M])
    with ((repeat P (S c0) ++ M :: repeat P c1 ++ [M]) ++ repeat P c2 ++ [M]) by (rewrite <- !app_assoc; cbn [app]; rewrite <- app_assoc; reflexivity).
  destruct (n_front2 c0 c1) as [n E2]. rewrite nrun_app, E2, nrun_app, n_sent by exact L. eexists. reflexivity.
Qed.
Lemma n_too_early : forall c0 c1 c2, (3 <= pool_ahead c1 c2)%nat -> forall r,
  let w := run nh_start (repeat P (S c0) ++ M :: repeat P c1 ++ M :: repeat P c2 ++ r) in
  nw_pool w = NP_dead /\ nh_over w = false /\ printed (nw_miner w) = [].
Proof.
  intros c0 c1 c2 L r. cbv zeta. unfold pool_ahead in L.
  replace (repeat P (S c0) ++ M :: repeat P c1 ++ M :: repeat P c2 ++ r)
    with ((repeat P (S c0) ++ M :: repeat P c1 ++ [M]) ++ repeat P c2 ++ r) by (rewrite <- !app_assoc; cbn [app]; rewrite <- app_assoc; reflexivity).
  destruct (n_front2 c0 c1) as [n E2]. rewrite nrun_app, E2. set (x := min c1 1) in *.
  replace c2 with ((2 - x) + S (c2 - (3 - x)))%nat by lia. rewrite repeat_app, <- app_assoc, nrun_app, n_sent by lia.
  replace (x + (2 - x))%nat with 2%nat by (subst x; lia). cbn [repeat app]. rewrite nrun_cons.
  assert (D : forall n, turn P (mkNhWorld (n_after 2) (NM_sent sm) n_full [] n) = mkNhWorld NP_dead (NM_sent sm) n_full [] (S n)).
  { intro k. unfold turn, nh_turn, nh_over, nh_pool_turn. cbn [nw_miner nw_pool n_after]. rewrite Hrecv. reflexivity. }
  rewrite D. generalize (repeat P (c2 - (3 - x)) ++ r). intro q. clear L D E2.
  assert (B : forall q k, let w := run (mkNhWorld NP_dead (NM_listen sm zs 0 []) n_full [] k) q in
    nw_pool w = NP_dead /\ nh_over w = false /\ printed (nw_miner w) = []).
  { cbv zeta. clear q. induction q as [|[|] q IH]; intro k; [|rewrite nrun_cons; exact (IH (S k))|rewrite nrun_cons; exact (IH (S k))].
    split; [reflexivity|]. split; reflexivity. }
  generalize (S (n + (2 - x))). induction q as [|[|] q IH]; intro k.
  - split; [reflexivity|]. split; reflexivity.
  - rewrite nrun_cons. exact (IH (S k)).
  - rewrite nrun_cons. exact (B q (S k)).
Qed.


(** ** Stages after the miner listens *)
Definition pool_stage (p : nat) (buf : bytes) : nh_pool_at := match p with
  | 0%nat | 1%nat | 2%nat => n_after p | 3%nat => NP_first s1 b1 | 4%nat => NP_replied s2 | 5%nat => NP_second s2 buf | _ => NP_done end.
Definition conns_stage (p : nat) (m3 : bytes) : list conn := match p with
  | 0%nat | 1%nat | 2%nat => [] | 3%nat => [mkConn [] false] | 4%nat => [mkConn m2 true]
  | 5%nat => [mkConn m2 true; mkConn [] false] | _ => [mkConn m2 true; mkConn m3 true] end.
Definition miner_stage (a : pace) (m : nh_miner_at) : Prop := match pa_miner a with
  | 0%nat => m = NM_listen sm zs 0 []
  | 1%nat => m = NM_accepted sm zs 0 [] /\ (3 <= pa_pool a)%nat
  | 2%nat => m = NM_listen sa' ba 1 [] /\ (4 <= pa_pool a)%nat
  | 3%nat => m = NM_accepted sa' ba 1 [] /\ (5 <= pa_pool a)%nat
  | _ => (exists s b, m = NM_listen s b 2 [verdict (pa_issued a) (pa_checked a)]) /\ (6 <= pa_pool a)%nat
  end.
Definition stage (a : pace) (w : nh_world) : Prop := exists buf m3,
  nh_certificate E static authority (clock (pa_issued a)) (clock' (pa_issued a)) = Some buf /\ (exists s3, nh_send C rnd2 s2 buf = (s3, Ok m3)) /\
  (forall j, exists sb', nh_miner_recv C E pf text (clock j) sa' (read_into ba m3) = (sb', Ok (Some (verdict (pa_issued a) j)))) /\
  (pa_pool a <= 6)%nat /\ (pa_miner a <= 4)%nat /\
  nw_to_pool w = n_full /\ nw_pool w = pool_stage (pa_pool a) buf /\ nw_to_miner w = conns_stage (pa_pool a) m3 /\
  miner_stage a (nw_miner w) /\ nw_turn w = pa_now a.
Lemma miner_alive : forall a m, miner_stage a m -> nh_listening m = true /\ match m with NM_dead _ => False | _ => True end.
Proof.
  intros a m H. unfold miner_stage in H.
  destruct (pa_miner a) as [|[|[|[|q]]]]; [subst m|destruct H as [-> _]|destruct H as [-> _]|destruct H as [-> _]|destruct H as [[s [b ->]] _]]; split; exact I || reflexivity.
Qed.
Lemma stage_not_over : forall a w, stage a w -> nh_over w = false.
Proof.
  intros a w (buf & m3 & _ & _ & _ & _ & _ & _ & _ & _ & H & _). destruct (miner_alive _ _ H) as [_ G]. unfold nh_over. destruct (nw_miner w); try reflexivity. contradiction.
Qed.
Lemma stage_turn : forall t a w, stage a w -> stage (advance a t) (turn t w).
Proof.
  intros t a w S0. pose proof (stage_not_over a w S0) as O. unfold turn, nh_turn. rewrite O.
  destruct S0 as (buf & m3 & Hc & Hs & Hv & Lp & Lq & Htp & Hp & Htm & Hq & Hn).
  destruct w as [pw mw tp tm n]. cbn [nw_pool nw_miner nw_to_pool nw_to_miner nw_turn] in *. subst tp pw tm.
  destruct a as [p q i j n']. cbn [pa_pool pa_miner pa_issued pa_checked pa_now] in *. subst n'.
  destruct t; cbn [advance pa_pool pa_miner pa_issued pa_checked pa_now].
  - (* the pool *)
    pose proof (proj1 (miner_alive _ _ Hq)) as Lis.
    assert (Mono : forall p' i' n', (p <= p')%nat -> (p = 6%nat \/ (q < 4)%nat) -> ((4 <= q)%nat -> i' = i) -> miner_stage (mkPace p' q i' j n') mw).
    { intros p' i' n' L _ Ei. unfold miner_stage in *. cbn [pa_pool pa_miner pa_issued pa_checked pa_now] in *.
      destruct q as [|[|[|[|q]]]]; [exact Hq|destruct Hq|destruct Hq|destruct Hq|destruct Hq; rewrite Ei by lia]; (split; [assumption|lia]). }
    assert (Four : p = 6%nat \/ (q < 4)%nat).
    { unfold miner_stage in Hq. cbn [pa_pool pa_miner] in Hq. destruct q as [|[|[|[|q]]]]; try (right; lia). left. lia. }
    destruct (Nat.eqb p 4) eqn:P4.
    + apply Nat.eqb_eq in P4. subst p. destruct (Hlast n) as (buf' & s3' & m3' & Hc' & Hs' & Hv').
      exists buf', m3'. cbn [pa_pool pa_miner pa_issued pa_checked pa_now]. split; [exact Hc'|]. split; [exists s3'; exact Hs'|]. split; [exact Hv'|].
      unfold nh_pool_turn, pool_stage, conns_stage. cbn [nw_pool nw_to_pool nw_miner nw_turn nw_to_miner]. rewrite Hc', Lis.
      cbn [nw_pool nw_to_pool nw_miner nw_turn nw_to_miner].
      split; [lia|]. split; [exact Lq|]. split; [reflexivity|]. split; [reflexivity|]. split; [reflexivity|]. split; [|reflexivity].
      apply Mono; [lia|exact Four|]. destruct Four; lia.
    + apply Nat.eqb_neq in P4. exists buf, m3. cbn [pa_pool pa_miner pa_issued pa_checked pa_now]. split; [exact Hc|]. split; [exact Hs|]. split; [exact Hv|].
      split; [lia|]. split; [exact Lq|].
      assert (MS : miner_stage (mkPace (Nat.min 6 (S p)) q i j (S n)) mw) by (apply Mono; [lia|exact Four|reflexivity]).
      destruct p as [|[|[|[|[|[|p]]]]]].
      * split; [reflexivity|]. split; [reflexivity|]. split; [reflexivity|]. split; [exact MS|reflexivity].
      * unfold nh_pool_turn, n_full. cbn [nw_pool pool_stage n_after nw_to_pool]. rewrite conn_whole.
        split; [reflexivity|]. split; [reflexivity|]. split; [reflexivity|]. split; [exact MS|reflexivity].
      * unfold nh_pool_turn. cbn [nw_pool pool_stage n_after nw_to_pool nw_miner]. rewrite Hrecv, Lis.
        split; [reflexivity|]. split; [reflexivity|]. split; [reflexivity|]. split; [exact MS|reflexivity].
      * unfold nh_pool_turn. cbn [nw_pool pool_stage n_after nw_to_pool nw_miner]. rewrite Hm2.
        split; [reflexivity|]. split; [reflexivity|]. split; [reflexivity|]. split; [exact MS|reflexivity].
      * lia.
      * destruct Hs as [s3 Hs]. unfold nh_pool_turn. cbn [nw_pool pool_stage n_after nw_to_pool nw_miner]. rewrite Hs.
        split; [reflexivity|]. split; [reflexivity|]. split; [reflexivity|]. split; [exact MS|reflexivity].
      * assert (p = 0)%nat as -> by lia.
        split; [reflexivity|]. split; [reflexivity|]. split; [reflexivity|]. split; [exact MS|reflexivity].
  - (* the miner *)
    assert (Keep : stage (mkPace p q i j (S n)) (mkNhWorld (pool_stage p buf) mw n_full (conns_stage p m3) (S n))).
    { exists buf, m3. cbn [pa_pool pa_miner pa_issued pa_checked pa_now]. split; [exact Hc|]. split; [exact Hs|]. split; [exact Hv|].
      split; [exact Lp|]. split; [exact Lq|]. split; [reflexivity|]. split; [reflexivity|]. split; [reflexivity|]. split; [exact Hq|reflexivity]. }
    unfold pool_needed. unfold miner_stage in Hq. cbn [pa_pool pa_miner pa_issued pa_checked pa_now] in Hq.
    destruct (Nat.ltb q 4 && Nat.leb (q + 3) p) eqn:Q.
    + apply andb_prop in Q. destruct Q as [Q4 Q]. apply Nat.ltb_lt in Q4. apply Nat.leb_le in Q.
      exists buf, m3. cbn [pa_pool pa_miner pa_issued pa_checked pa_now]. split; [exact Hc|]. split; [exact Hs|]. split; [exact Hv|].
      split; [exact Lp|]. split; [lia|]. destruct q as [|[|[|[|q]]]]; [| | | |lia].
      * rewrite Hq. unfold nh_miner_turn. cbn [nw_miner nw_to_miner nw_turn nw_pool nw_to_pool].
        assert (B : Nat.ltb 0 (length (conns_stage p m3)) = true) by (destruct p as [|[|[|[|[|[|p]]]]]]; try lia; reflexivity).
        rewrite B. split; [reflexivity|]. split; [reflexivity|]. split; [reflexivity|]. split; [split; [reflexivity|cbn; lia]|reflexivity].
      * destruct Hq as [-> _]. unfold nh_miner_turn. cbn [nw_miner nw_to_miner nw_turn nw_pool nw_to_pool].
        assert (B : nth_error (conns_stage p m3) 0 = Some (mkConn m2 true)) by (destruct p as [|[|[|[|[|[|p]]]]]]; try lia; reflexivity).
        rewrite B, conn_whole. cbv zeta. pose proof Hba as HB. destruct (recv_message C sm (read_into zs m2)) as [[x y] z]. cbn [fst snd] in HB. subst y.
        rewrite (Hsa (clock n)). cbn [app].
        split; [reflexivity|]. split; [reflexivity|]. split; [reflexivity|]. split; [split; [reflexivity|cbn; lia]|reflexivity].
      * destruct Hq as [-> _]. unfold nh_miner_turn. cbn [nw_miner nw_to_miner nw_turn nw_pool nw_to_pool].
        assert (B : Nat.ltb 1 (length (conns_stage p m3)) = true) by (destruct p as [|[|[|[|[|[|p]]]]]]; try lia; reflexivity).
        rewrite B. split; [reflexivity|]. split; [reflexivity|]. split; [reflexivity|]. split; [split; [reflexivity|cbn; lia]|reflexivity].
      * destruct Hq as [-> _]. assert (p = 6)%nat as -> by lia.
        unfold nh_miner_turn. cbn [nw_miner nw_to_miner nw_turn nw_pool nw_to_pool conns_stage nth_error]. rewrite conn_whole. cbv zeta.
        destruct (recv_message C sa' (read_into ba m3)) as [[x y] z]. destruct (Hv n) as [sb' Hn]. rewrite Hn. cbn [app].
        split; [reflexivity|]. split; [reflexivity|]. split; [reflexivity|]. split; [|reflexivity]. split; [|cbn; lia].
        exists sb', y. reflexivity.
    + assert (Q' : (4 <= q \/ p < q + 3)%nat) by (apply andb_false_iff in Q; destruct Q as [Q|Q]; [apply Nat.ltb_ge in Q; lia|apply Nat.leb_gt in Q; lia]).
      destruct q as [|[|[|[|q]]]].
      * rewrite Hq in *. assert (L3 : (p < 3)%nat) by lia.
        destruct p as [|[|[|p]]]; try lia; exact Keep.
      * destruct Hq as [-> L3]. assert (p = 3)%nat as -> by lia. exact Keep.
      * destruct Hq as [-> L3]. assert (p = 4)%nat as -> by lia. exact Keep.
      * destruct Hq as [-> L3]. assert (p = 5)%nat as -> by lia. exact Keep.
      * destruct Hq as [[s [b ->]] L6]. assert (p = 6)%nat as -> by lia. exact Keep.
Qed.
Lemma stage_run : forall r a w, stage a w -> stage (fold_left advance r a) (run w r).
Proof.
  induction r as [|t r IH]; intros a w H; [exact H|]. exact (IH _ _ (stage_turn t a w H)).
Qed.
Lemma turns_run : forall r w, nh_over (run w r) = false -> nw_turn (run w r) = (nw_turn w + length r)%nat.
Proof.
  induction r as [|t r IH] using rev_ind; intros w H; [cbn; lia|]. rewrite nrun_app in *. set (v := run w r) in *.
  assert (V : nh_over v = false).
  { destruct (nh_over v) eqn:O; [|reflexivity]. cbn in H. unfold turn, nh_turn in H. rewrite O in H. rewrite O in H. discriminate. }
  specialize (IH w V). rewrite app_length. cbn [length]. fold v in IH. cbn. unfold turn, nh_turn. rewrite V.
  assert (T : nw_turn (match t with PoolTurn => nh_pool_turn C E rnd1 rnd2 rsr static authority clock clock' v | MinerTurn => nh_miner_turn C E pf rsi rnd text clock v end) = S (nw_turn v)).
  { destruct t.
    - unfold nh_pool_turn. destruct (nw_pool v); repeat (match goal with |- context [match ?x with _ => _ end] => destruct x end); reflexivity.
    - unfold nh_miner_turn. destruct (nw_miner v); cbv zeta; repeat (match goal with |- context [match ?x with _ => _ end] => destruct x end); reflexivity. }
  rewrite T. lia.
Qed.
Lemma stage_open : forall c0 c1 c2, (pool_ahead c1 c2 < 3)%nat ->
  stage (mkPace (pool_ahead c1 c2) 0 0 0 (length (opening c0 c1 c2))) (run nh_start (opening c0 c1 c2)).
Proof.
  intros c0 c1 c2 H. destruct (n_front3 c0 c1 c2 H) as [n E0].
  pose proof (turns_run (opening c0 c1 c2) nh_start) as T. rewrite E0 in *. specialize (T eq_refl). cbn [nw_turn nh_start Nat.add] in T. subst n.
  destruct (Hlast 0) as (buf & s3 & m3 & A & B & D).
  exists buf, m3. cbn [pa_pool pa_miner pa_issued pa_checked pa_now]. split; [exact A|]. split; [exists s3; exact B|]. split; [exact D|].
  split; [lia|]. split; [lia|]. split; [reflexivity|].
  split; [destruct (pool_ahead c1 c2) as [|[|[|x]]]; try lia; reflexivity|].
  split; [destruct (pool_ahead c1 c2) as [|[|[|x]]]; try lia; reflexivity|]. split; reflexivity.
Qed.
Lemma n_result : forall c0 c1 c2 r, (pool_ahead c1 c2 < 3)%nat ->
  let w := run nh_start (opening c0 c1 c2 ++ r) in
  let a := progress c0 c1 c2 r in
  nh_over w = false /\ nw_pool w <> NP_dead /\ (nw_pool w = NP_done <-> pa_pool a = 6%nat) /\
  printed (nw_miner w) = if Nat.eqb (pa_miner a) 4 then [verdict (pa_issued a) (pa_checked a)] else [].
Proof.
  intros c0 c1 c2 r H w a. pose proof (stage_run r _ _ (stage_open c0 c1 c2 H)) as S0. rewrite <- nrun_app in S0. fold w in S0.
  change (fold_left advance r _) with a in S0.
  pose proof (stage_not_over a w S0) as O. split; [exact O|].
  destruct S0 as (buf & m3 & Hc & Hs & Hv & Lp & Lq & Htp & Hp & Htm & Hq & Hn).
  split; [rewrite Hp; destruct (pa_pool a) as [|[|[|[|[|[|p]]]]]]; discriminate|].
  split; [rewrite Hp; destruct (pa_pool a) as [|[|[|[|[|[|p]]]]]]; split; intro X; try discriminate X; try reflexivity; lia|].
  unfold miner_stage in Hq. destruct (pa_miner a) as [|[|[|[|q]]]]; cbn [Nat.eqb].
  - rewrite Hq. reflexivity.
  - destruct Hq as [-> _]. reflexivity.
  - destruct Hq as [-> _]. reflexivity.
  - destruct Hq as [-> _]. reflexivity.
  - assert (q = 0)%nat as -> by lia. destruct Hq as [[s [b ->]] _]. reflexivity.
Qed.
End Main.

(** ** The abstract progress *)
Lemma io_drop : forall A (a b r : list A), in_order (a ++ b) r -> in_order a r.
Proof.
  intros A a b r H. remember (a ++ b) as l eqn:E. revert a b E. induction H as [r|x l r H IH|y l r H IH]; intros a b E.
  - symmetry in E. apply app_eq_nil in E. destruct E as [-> _]. constructor.
  - destruct a as [|z a]; [constructor|]. injection E as <- E. constructor. exact (IH a b E).
  - constructor. exact (IH a b E).
Qed.
Lemma pace_end : forall r a, (pa_pool a <= 6)%nat -> (pa_miner a <= 4)%nat ->
  in_order (repeat P (6 - pa_pool a) ++ repeat M (4 - pa_miner a)) r -> pa_miner (fold_left advance r a) = 4%nat.
Proof.
  induction r as [|t r IH]; intros [p q i j n] Hp Hq H; cbn [pa_pool pa_miner] in *.
  - destruct (6 - p)%nat eqn:A; [|exfalso; exact (io_none _ _ _ H)]. destruct (4 - q)%nat eqn:B; [|exfalso; exact (io_none _ _ _ H)]. cbn. lia.
  - cbn [fold_left]. apply IH; destruct t; cbn [advance pa_pool pa_miner pa_issued pa_checked pa_now].
    + lia.
    + destruct (Nat.ltb q 4 && Nat.leb (pool_needed q) p); cbn [pa_pool]; exact Hp.
    + exact Hq.
    + destruct (Nat.ltb q 4) eqn:Q; cbn [andb]; [|cbn [pa_miner]; exact Hq]. apply Nat.ltb_lt in Q.
      destruct (Nat.leb (pool_needed q) p); cbn [pa_miner]; lia.
    + destruct (6 - p)%nat as [|k] eqn:A.
      * replace (6 - Nat.min 6 (S p))%nat with 0%nat by lia. cbn [repeat app] in *. destruct (4 - q)%nat; [constructor|]. exact (proj1 (io_mp _ _) H).
      * replace (6 - Nat.min 6 (S p))%nat with k by lia. cbn [repeat app] in H. exact (proj1 (io_same _ _ _ _) H).
    + unfold pool_needed. destruct (6 - p)%nat as [|k] eqn:A.
      * cbn [repeat app] in H. destruct (4 - q)%nat as [|k] eqn:B.
        -- rewrite (proj2 (Nat.ltb_ge q 4)) by lia. cbn [andb pa_pool pa_miner]. rewrite A, B. constructor.
        -- rewrite (proj2 (Nat.ltb_lt q 4)) by lia. rewrite (proj2 (Nat.leb_le (q + 3) p)) by lia. cbn [andb pa_pool pa_miner]. rewrite A.
           replace (4 - S q)%nat with k by lia. cbn [repeat app] in *. exact (proj1 (io_same _ _ _ _) H).
      * cbn [repeat app] in H. apply (proj1 (io_pm _ _)) in H.
        destruct (Nat.ltb q 4) eqn:Q; cbn [andb pa_pool pa_miner]; [|rewrite A; exact H]. apply Nat.ltb_lt in Q.
        destruct (Nat.leb (q + 3) p); cbn [pa_pool pa_miner]; [|rewrite A; exact H]. rewrite A.
        replace (4 - q)%nat with ((4 - S q) + 1)%nat in H by lia. rewrite repeat_app, app_comm_cons, app_assoc in H. exact (io_drop _ _ _ _ H).
Qed.
Lemma pace_order : forall r c0 c1 c2, (pool_ahead c1 c2 < 3)%nat -> let a := progress c0 c1 c2 r in
  pa_now a = length (opening c0 c1 c2 ++ r) /\ (pa_miner a = 4%nat -> (length (opening c0 c1 c2) <= pa_issued a < pa_checked a /\ pa_checked a < pa_now a)%nat).
Proof.
  intros r c0 c1 c2 H. unfold progress. set (o := length (opening c0 c1 c2)). set (a0 := mkPace (pool_ahead c1 c2) 0 0 0 o).
  assert (G : let a := fold_left advance r a0 in pa_now a = (o + length r)%nat /\ (pa_pool a <= 6)%nat /\ (pa_miner a <= 4)%nat /\
    ((1 <= pa_miner a)%nat -> (pa_miner a + 2 <= pa_pool a)%nat) /\ ((5 <= pa_pool a)%nat -> (o <= pa_issued a < pa_now a)%nat) /\
    (pa_miner a = 4%nat -> (pa_issued a < pa_checked a < pa_now a)%nat)).
  { induction r as [|t r IH] using rev_ind.
    - cbn. lia.
    - rewrite fold_left_app, app_length. cbn [fold_left length]. cbv zeta in *. destruct (fold_left advance r a0) as [p q i j n].
      destruct t; cbn [advance pa_pool pa_miner pa_issued pa_checked pa_now] in *.
      + destruct (Nat.eqb p 4) eqn:P4; [apply Nat.eqb_eq in P4|apply Nat.eqb_neq in P4]; lia.
      + unfold pool_needed. destruct (Nat.ltb q 4 && Nat.leb (q + 3) p) eqn:Q.
        * apply andb_prop in Q. destruct Q as [Q4 Q]. apply Nat.ltb_lt in Q4. apply Nat.leb_le in Q.
          cbn [pa_pool pa_miner pa_issued pa_checked pa_now]. destruct (Nat.eqb q 3) eqn:Q3; [apply Nat.eqb_eq in Q3|apply Nat.eqb_neq in Q3]; lia.
        * cbn [pa_pool pa_miner pa_issued pa_checked pa_now]. lia. }
  cbv zeta in *. rewrite app_length. fold o. destruct G as (G1 & G2 & G3 & G4 & G5 & G6). split; [exact G1|]. intro X. specialize (G6 X). lia.
Qed.
Lemma first_miner : forall r, (exists c, r = repeat P c) \/ exists c r', r = repeat P c ++ M :: r'.
Proof.
  induction r as [|[|] r IH].
  - left. exists 0%nat. reflexivity.
  - destruct IH as [[c ->]|(c & r' & ->)]; [left; exists (S c)|right; exists (S c), r']; reflexivity.
  - right. exists 0%nat, r. reflexivity.
Qed.
Lemma turns_rep : forall c, miner_turns (repeat P c) = 0%nat.
Proof. induction c; [reflexivity|exact IHc]. Qed.
Lemma turns_app : forall a b, miner_turns (a ++ b) = (miner_turns a + miner_turns b)%nat.
Proof. induction a as [|[|] a IH]; intro b; cbn; rewrite ?IH; lia. Qed.
(** Every schedule is of one of these kinds. *)
Lemma schedule_cases : forall r, (exists r', r = M :: r') \/ (miner_turns r <= 2)%nat \/
  (exists c0 c1 c2 r', r = opening c0 c1 c2 ++ r').
Proof.
  intro r. destruct (first_miner r) as [[c ->]|(c & r1 & ->)]; [right; left; rewrite turns_rep; lia|].
  destruct c as [|c0]; [left; exists r1; reflexivity|]. right.
  destruct (first_miner r1) as [[c1 ->]|(c1 & r2 & ->)]; [left; rewrite turns_app; cbn [miner_turns]; rewrite !turns_rep; lia|].
  destruct (first_miner r2) as [[c2 ->]|(c2 & r3 & ->)].
  { left. rewrite turns_app. cbn [miner_turns]. rewrite turns_app. cbn [miner_turns]. rewrite !turns_rep. lia. }
  right. exists c0, c1, c2, r3. unfold opening. rewrite <- !app_assoc. cbn [app]. rewrite <- !app_assoc. cbn [app]. rewrite <- app_assoc. reflexivity.
Qed.
Lemma opening_late : forall c0 c1 c2 r, opening c0 c1 c2 ++ r = repeat P (S c0) ++ M :: repeat P c1 ++ M :: repeat P c2 ++ M :: r.
Proof. intros. unfold opening. rewrite <- !app_assoc. cbn [app]. rewrite <- !app_assoc. cbn [app]. rewrite <- app_assoc. reflexivity. Qed.

Lemma in_time_eq : forall clock clock', clock_ok clock clock' -> forall i j,
  ((0 <=? clock j)%Z && (secs32 (clock j) <? secs32 (clock' i + 5 * 10 ^ 9))) = in_time (clock' i) (clock j) /\
  secs32 (clock i) < secs32 (clock' i + 5 * 10 ^ 9).
Proof.
  intros clock clock' H i j. destruct (H i) as [Ai Bi]. destruct (H j) as [Aj Bj].
  assert (S : forall t, (0 <= t < 2 ^ 32 * 10 ^ 9)%Z -> secs32 t = Z.to_N (t / 10 ^ 9)).
  { intros t Ht. unfold secs32. apply N.mod_small. change (2 ^ 32) with (Z.to_N (2 ^ 32)%Z). apply Z2N.inj_lt; [apply Z.div_pos; lia|lia|].
    apply Z.div_lt_upper_bound; lia. }
  assert (F : forall t, ((t + 5 * 10 ^ 9) / 10 ^ 9 = t / 10 ^ 9 + 5)%Z) by (intro t; apply Z.div_add; lia).
  rewrite (S (clock j)), (S (clock' i + 5 * 10 ^ 9)%Z), (S (clock i)) by lia. rewrite F. unfold in_time.
  assert (D1 : (0 <= clock j / 10 ^ 9)%Z) by (apply Z.div_pos; lia). assert (D2 : (0 <= clock' i / 10 ^ 9)%Z) by (apply Z.div_pos; lia).
  assert (D3 : (clock i / 10 ^ 9 <= clock' i / 10 ^ 9)%Z) by (apply Z.div_le_mono; lia).
  assert (D4 : (0 <= clock i / 10 ^ 9)%Z) by (apply Z.div_pos; lia).
  generalize dependent (clock j / 10 ^ 9)%Z. generalize dependent (clock' i / 10 ^ 9)%Z. generalize dependent (clock i / 10 ^ 9)%Z. intros x y Hx z. intros.
  split; [|lia]. rewrite (proj2 (Z.leb_le 0 (clock j))) by lia. lia.
Qed.

Section Whole.
Variables (C : crypto) (E : ed_ops).
Hypotheses (OK : crypto_ok C) (EOK : ed_ok E).
Variables (sr : keypair) (rsi rsr rnd1 rnd2 rnd3 : bytes) (kp : ed_keypair) (text : bytes).
Hypothesis R : programs_ready C E sr rsi rnd1 rnd2 kp text.
Variables (pf : profile) (clock clock' : nat -> Z).
Hypothesis K : clock_ok clock clock'.
Let main (r : list task) := nh_main C E pf rsi rnd1 rnd2 rnd3 rsr sr kp text clock clock' r.

Definition facts (m1 m2 b1 : bytes) (sm s1 s2 sa' : session) (ba : bytes) (u : unit) : Prop :=
  nh_send C rnd1 (new_outbound C rsi) (repeat x00 1024) = (sm, Ok m1) /\
  recv_message C (new_inbound C (Some sr) rsr) (read_into (repeat x00 1024) m1) = (s1, b1, Ok u) /\
  nh_send C rnd2 s1 b1 = (s2, Ok m2) /\
  snd (fst (recv_message C sm (read_into (repeat x00 1024) m2))) = ba /\
  (forall now, nh_miner_recv C E pf text now sm (read_into (repeat x00 1024) m2) = (sa', Ok None)) /\
  forall i, exists buf s3 m3, nh_certificate E sr kp (clock i) (clock' i) = Some buf /\
    nh_send C rnd3 s2 buf = (s3, Ok m3) /\
    forall j, exists sb', nh_miner_recv C E pf text (clock j) sa' (read_into ba m3) = (sb', Ok (Some (in_time (clock' i) (clock j)))).
Lemma the_facts : exists m1 m2 b1 sm s1 s2 sa' ba u, facts m1 m2 b1 sm s1 s2 sa' ba u.
Proof.
  destruct R as (U & NK & NT & EP & B58). set (m1 := kp_public (mkKeypair rnd1 (c_pub C rnd1)) ++ repeat (b8 0) 992) in *.
  assert (A : forall i, exists m2 m3, nh_pool_run C E rnd2 rnd3 rsr sr kp (clock i) (clock' i) m1 = Ok (m2, m3) /\
    forall pf now now', nh_miner_run C E pf text rsi rnd1 [(m2, now); (m3, now')] = Ok (m1, ([(0 <=? now')%Z && (secs32 now' <? secs32 (clock' i + 5 * 10 ^ 9))], false))).
  { intro i. destruct (K i) as [Ki _]. apply (programs_agree C OK E EOK sr rsi rsr rnd1 rnd2 rnd3 kp text (clock i) (clock' i) U NK NT EP B58).
    - lia.
    - lia.
    - apply (in_time_eq clock clock' K i i). }
  destruct (A 0%nat) as (m2 & m3_0 & P0 & M0).
  destruct (pool_parts C E rnd2 rnd3 rsr sr kp _ _ _ _ _ P0) as (s1 & b1 & u & s2 & buf0 & s30 & H1 & H2 & _ & _).
  destruct (miner_parts C E pf rsi rnd1 text _ _ _ _ _ _ (M0 pf (clock 0%nat) (clock 0%nat))) as (sm & sa & sa' & ba & ra & sb & bb & rb & sb' & v1 & v2 & G1 & G2 & G3 & _ & _ & _).
  pose proof (first_send_mode C rsi rnd1 sm m1 G1) as Mode.
  exists m1, m2, b1, sm, s1, s2, sa', ba, u. split; [exact G1|]. split; [exact H1|]. split; [exact H2|]. split; [rewrite G2; reflexivity|].
  assert (G : forall now, nh_miner_recv C E pf text now sm (read_into (repeat x00 1024) m2) = (sa', Ok None)).
  { intro now. destruct (miner_recv_clock C E pf text now (clock 0%nat) sm (read_into (repeat x00 1024) m2) Mode) as [X _].
    destruct (miner_recv_clock C E pf text (clock 0%nat) now sm (read_into (repeat x00 1024) m2) Mode) as [_ Y].
    rewrite X, G3. rewrite (Y _ _ G3). reflexivity. }
  split; [exact G|]. intro i. destruct (A i) as (m2' & m3 & Pi & Mi).
  destruct (pool_parts C E rnd2 rnd3 rsr sr kp _ _ _ _ _ Pi) as (s1' & b1' & u' & s2' & buf & s3 & H1' & H2' & H3' & H4').
  assert (Q1 : (s1', b1', u') = (s1, b1, u)) by congruence. injection Q1 as -> -> ->.
  assert (Q2 : (s2', m2') = (s2, m2)) by congruence. injection Q2 as -> ->.
  exists buf, s3, m3. split; [exact H3'|]. split; [exact H4'|]. intro j.
  destruct (miner_parts C E pf rsi rnd1 text _ _ _ _ _ _ (Mi pf (clock 0%nat) (clock j))) as (sm' & sa1 & sa1' & ba' & ra' & sb1 & bb1 & rb1 & sb1' & w1 & w2 & G1' & G2' & G3' & _ & G5' & G6').
  assert (Q3 : sm' = sm) by congruence. subst sm'.
  assert (Q4 : ba' = ba) by congruence. subst ba'. rewrite G in G3'. assert (Q5 : sa1' = sa') by congruence. subst sa1'. assert (w1 = None) as -> by congruence.
  rewrite (proj1 (in_time_eq clock clock' K i j)) in G6'. exists sb1'. destruct w2 as [w2|]; [|discriminate G6']. cbn [app] in G6'. injection G6' as G6'. rewrite G6'. exact G5'.
Qed.

Lemma noise_refused : forall r, nw_miner (main (M :: r)) = NM_dead [].
Proof. intro r. apply (n_refused C E pf rsi rnd1 rnd2 rnd3 rsr sr kp text clock clock' r). Qed.
Lemma noise_good : forall c0 c1 c2 r, (pool_ahead c1 c2 < 3)%nat ->
  let w := main (opening c0 c1 c2 ++ r) in
  let a := progress c0 c1 c2 r in
  nh_over w = false /\ nw_pool w <> NP_dead /\ (nw_pool w = NP_done <-> pa_pool a = 6%nat) /\
  printed (nw_miner w) = if Nat.eqb (pa_miner a) 4 then [in_time (clock' (pa_issued a)) (clock (pa_checked a))] else [].
Proof.
  intros c0 c1 c2 r H. destruct the_facts as (m1 & m2 & b1 & sm & s1 & s2 & sa' & ba & u & F1 & F2 & F3 & F4 & F5 & F6).
  exact (n_result C E pf rsi rnd1 rnd2 rnd3 rsr sr kp text clock clock' m1 m2 b1 sm s1 s2 sa' ba u F1 F2 F3 F4 F5 (fun i j => in_time (clock' i) (clock j)) F6 c0 c1 c2 r H).
Qed.
Lemma noise_late : forall c0 c1 c2 r, (3 <= pool_ahead c1 c2)%nat ->
  let w := main (repeat P (S c0) ++ M :: repeat P c1 ++ M :: repeat P c2 ++ r) in
  nw_pool w = NP_dead /\ nh_over w = false /\ printed (nw_miner w) = [].
Proof.
  intros c0 c1 c2 r H. destruct the_facts as (m1 & m2 & b1 & sm & s1 & s2 & sa' & ba & u & F1 & F2 & F3 & F4 & F5 & F6).
  exact (n_too_early C E pf rsi rnd1 rnd2 rnd3 rsr sr kp text clock clock' m1 m2 b1 sm s1 s2 sa' ba u F1 F2 F5 (fun i j => in_time (clock' i) (clock j)) F6 c0 c1 c2 H r).
Qed.
(** What any schedule at all prints. *)
Lemma noise_any : forall r,
  (exists c0 c1 c2 r', r = opening c0 c1 c2 ++ r' /\ (pool_ahead c1 c2 < 3)%nat /\
    let a := progress c0 c1 c2 r' in pa_miner a = 4%nat /\ printed (nw_miner (main r)) = [in_time (clock' (pa_issued a)) (clock (pa_checked a))]) \/
  printed (nw_miner (main r)) = [].
Proof.
  intro r. destruct (schedule_cases r) as [[r' ->]|[H|(c0 & c1 & c2 & r' & ->)]].
  - right. rewrite noise_refused. reflexivity.
  - right. apply (early C E pf rsi rnd1 rnd2 rnd3 rsr sr kp text clock clock' r nh_start). exact H.
  - destruct (le_lt_dec 3 (pool_ahead c1 c2)) as [Bad|Good].
    + right. rewrite opening_late. apply (noise_late c0 c1 c2 (M :: r') Bad).
    + destruct (noise_good c0 c1 c2 r' Good) as (_ & _ & _ & X). cbv zeta in X. destruct (Nat.eqb (pa_miner (progress c0 c1 c2 r')) 4) eqn:Q; [left|right; exact X].
      exists c0, c1, c2, r'. split; [reflexivity|]. split; [exact Good|]. cbv zeta. split; [apply Nat.eqb_eq; exact Q|exact X].
Qed.
Lemma noise_fair : forall f, fair f ->
  ((exists n, printed (nw_miner (main (start_of f n))) <> []) <->
   (exists c0 c1 c2 n, start_of f n = opening c0 c1 c2 /\ (pool_ahead c1 c2 < 3)%nat)).
Proof.
  intros f F. split.
  - intros [n H]. destruct (noise_any (start_of f n)) as [(c0 & c1 & c2 & r & O & L & _)|X]; [|contradiction].
    exists c0, c1, c2, (length (opening c0 c1 c2)). split; [|exact L].
    assert (N : n = (length (opening c0 c1 c2) + length r)%nat) by (rewrite <- app_length, <- O; unfold start_of; rewrite map_length, seq_length; reflexivity).
    rewrite N, start_app in O. apply (f_equal (firstn (length (opening c0 c1 c2)))) in O.
    assert (L1 : length (start_of f (length (opening c0 c1 c2))) = length (opening c0 c1 c2)) by (unfold start_of; rewrite map_length, seq_length; reflexivity).
    rewrite <- L1 in O at 1. rewrite !firstn_app, !firstn_all, !L1, !Nat.sub_diag, !app_nil_r in O. exact O.
  - intros (c0 & c1 & c2 & n & O & H). destruct (fair_order f F (repeat P (6 - pool_ahead c1 c2) ++ repeat M 4) n) as [k Hk].
    exists (n + k)%nat. rewrite start_app, O. destruct (noise_good c0 c1 c2 (map f (seq n k)) H) as (_ & _ & _ & X). cbv zeta in X. rewrite X.
    unfold progress. rewrite pace_end; [discriminate|cbn; lia|cbn; lia|exact Hk].
Qed.
Lemma noise_fails : exists f1 f2, fair f1 /\ fair f2 /\
  (exists k, forall n, (k <= n)%nat -> nw_miner (main (start_of f1 n)) = NM_dead []) /\
  (exists k, forall n, (k <= n)%nat -> let w := main (start_of f2 n) in nw_pool w = NP_dead /\ nh_over w = false /\ printed (nw_miner w) = []).
Proof.
  exists (alternating [M]), (alternating [P; M; P; M; P; P]). split; [apply alternating_fair|]. split; [apply alternating_fair|]. split.
  - exists 1%nat. intros n L. destruct (alternating_start [M] (n - 1)) as [r H]. cbn [length] in H. replace (1 + (n - 1))%nat with n in H by lia.
    rewrite H. apply noise_refused.
  - exists 6%nat. intros n L. destruct (alternating_start [P; M; P; M; P; P] (n - 6)) as [r H]. cbn [length] in H. replace (6 + (n - 6))%nat with n in H by lia.
    rewrite H. apply (noise_late 0 1 2 r). cbn. lia.
Qed.
End Whole.
Lemma noise_sample : programs_ready demo_crypto (demo_ed true) d_sr k_si k_ei k_er d_kp d_text.
Proof.
  split; [exact de_usable|]. split; [exact de_keys|]. split; [exact de_tkeys|]. split; [exact (CertProofs.demo_pair true)|].
  apply (proj1 (base58_from_spec d_text)). vm_compute. reflexivity.
Qed.
Definition ticking (n : nat) : Z := (1600000000 * 10 ^ 9 + Z.of_nat (Nat.min n 1000) * 10 ^ 9)%Z.
Lemma ticking_ok : clock_ok ticking ticking.
Proof. intro n. unfold ticking. lia. Qed.
Lemma noise_refuted : exists C E pf rsi rnd1 rnd2 rnd3 rsr sr kp text clock clock' f, crypto_ok C /\ ed_ok E /\
  programs_ready C E sr rsi rnd1 rnd2 kp text /\ clock_ok clock clock' /\ fair f /\
  forall n, printed (nw_miner (nh_main C E pf rsi rnd1 rnd2 rnd3 rsr sr kp text clock clock' (start_of f n))) = [].
Proof.
  exists demo_crypto, (demo_ed true), Debug, k_si, k_ei, k_er, [], [], d_sr, d_kp, d_text, ticking, ticking, (alternating [M]).
  split; [exact demo_ok|]. split; [apply demo_ed_ok|]. split; [exact noise_sample|]. split; [exact ticking_ok|]. split; [apply alternating_fair|].
  intro n. destruct n as [|n]; [reflexivity|]. destruct (alternating_start [M] n) as [r H]. cbn [length Nat.add] in H. rewrite H. cbn [app].
  rewrite noise_refused. reflexivity.
Qed.
