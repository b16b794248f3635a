(** * MainProofs: lemmas for C140. *)
From Coq Require Import Arith Lia ZifyBool ZifyNat ZifyN.
From Verif Require Import Base Codec Types Messages Frame SpecWire SpecTypes SpecPool SpecAnswer Apps AppProofs AnswerProofs Mains SpecMains.
Local Open Scope N_scope.
Local Open Scope list_scope.
Local Notation P := PoolTurn.
Local Notation M := MinerTurn.

(** ** Turns in order *)
Lemma io_tail : forall A (x : A) a r, in_order (x :: a) r -> in_order a r.
Proof.
  intros A x a r. remember (x :: a) as l eqn:E. intro H. revert x a E. induction H as [r|y b r H IH|y b r H IH]; intros x a E.
  - discriminate.
  - injection E as -> ->. apply io_skip. exact H.
  - apply io_skip. exact (IH x a E).
Qed.
Lemma io_same : forall A (x : A) a r, in_order (x :: a) (x :: r) <-> in_order a r.
Proof.
  intros A x a r. split; [|apply io_take]. intro H. inversion H; subst; [assumption|]. eapply io_tail. eassumption.
Qed.
Lemma io_other : forall A (x y : A) a r, x <> y -> (in_order (x :: a) (y :: r) <-> in_order (x :: a) r).
Proof. intros A x y a r N. split; [|apply io_skip]. intro H. inversion H; subst; [contradiction|assumption]. Qed.
Lemma io_pm : forall a r, in_order (P :: a) (M :: r) <-> in_order (P :: a) r.
Proof. intros. apply io_other. discriminate. Qed.
Lemma io_mp : forall a r, in_order (M :: a) (P :: r) <-> in_order (M :: a) r.
Proof. intros. apply io_other. discriminate. Qed.
Lemma io_none : forall A (x : A) a, ~ in_order (x :: a) [].
Proof. intros A x a H. inversion H. Qed.
Lemma io_app : forall A (a b r s : list A), in_order a r -> in_order b s -> in_order (a ++ b) (r ++ s).
Proof.
  intros A a b r s H K. induction H as [r|x a r H IH|y a r H IH].
  - cbn [app]. induction r as [|y r IH]; [exact K|apply io_skip; exact IH].
  - cbn [app]. apply io_take. exact IH.
  - cbn [app]. apply io_skip. exact IH.
Qed.
Lemma start_app : forall f n k, start_of f (n + k) = start_of f n ++ map f (seq n k).
Proof. intros f n k. unfold start_of. rewrite seq_app, map_app. reflexivity. Qed.
Lemma fair_order : forall f, fair f -> forall a n, exists k, in_order a (map f (seq n k)).
Proof.
  intros f F a. induction a as [|t a IH]; intro n; [exists 0%nat; constructor|].
  destruct (F t n) as [k [L E]]. destruct (IH (S k)) as [j H].
  exists (S (k - n) + j)%nat. rewrite seq_app, map_app.
  change (t :: a) with ([t] ++ a). apply io_app.
  - rewrite seq_S, map_app. cbn [map]. replace (n + (k - n))%nat with k by lia. rewrite E.
    change [t] with ([] ++ [t]) at 1. apply io_app; [constructor|apply io_take; constructor].
  - replace (n + S (k - n))%nat with (S k) by lia. exact H.
Qed.
Lemma fair_until : forall f, fair f -> forall n, exists c, map f (seq n (S c)) = repeat P c ++ [M].
Proof.
  intros f F n. destruct (F M n) as [k [L E]]. remember (k - n)%nat as d eqn:D. revert n L D.
  induction d as [|d IH]; intros n L D.
  - exists 0%nat. replace k with n in E by lia. cbn. rewrite E. reflexivity.
  - destruct (f n) eqn:Fn.
    + destruct (IH (S n) ltac:(lia) ltac:(lia)) as [c H]. exists (S c). cbn [seq map repeat app] in *. rewrite Fn. f_equal. exact H.
    + exists 0%nat. cbn. rewrite Fn. reflexivity.
Qed.
Lemma fair_opening : forall f, fair f -> f 0%nat = P -> exists c0 c1 c2 n, start_of f n = opening c0 c1 c2.
Proof.
  intros f F H0. destruct (fair_until f F 1) as [c0 A0]. destruct (fair_until f F (1 + S c0)) as [c1 A1].
  destruct (fair_until f F (1 + S c0 + S c1)) as [c2 A2].
  exists c0, c1, c2, (1 + S c0 + S c1 + S c2)%nat. rewrite !start_app, A0, A1, A2. unfold opening, start_of. cbn [seq map]. rewrite H0.
  cbn [repeat app]. rewrite <- !app_assoc. reflexivity.
Qed.

(** ** The setup example *)
Section Setup.
Variables (pf : profile) (flags : N) (m : common_setup_connection) (bs : bytes).
Hypothesis Hsend : sc_miner_send m = Ok bs.
Let run (w : sc_world) (r : list task) : sc_world := fold_left (fun w t => sc_turn pf flags m t w) r w.
Let turn := sc_turn pf flags m.
Lemma run_app : forall w a b, run w (a ++ b) = run (run w a) b.
Proof. intros w a b. unfold run. apply fold_left_app. Qed.
Lemma run_cons : forall w t r, run w (t :: r) = run (turn t w) r.
Proof. reflexivity. Qed.
Lemma run_stay : forall w, turn P w = w -> forall c, run w (repeat P c) = w.
Proof. intros w H. induction c as [|c IH]; [reflexivity|]. cbn [repeat]. rewrite run_cons, H. exact IH. Qed.
Lemma run_over : forall w, turn P w = w -> turn M w = w -> forall r, run w r = w.
Proof. intros w H K. induction r as [|[|] r IH]; [reflexivity| |]; rewrite run_cons; [rewrite H|rewrite K]; exact IH. Qed.

Definition full := Some (mkConn bs true).
Definition open_ := Some (mkConn [] false).
Lemma full_read : conn_read (mkConn bs true) = Some bs.
Proof. unfold conn_read. cbn [c_data c_closed]. destruct bs; reflexivity. Qed.

Lemma refused : forall r, run sc_start (M :: r) = mkScWorld SP_start SM_dead None None.
Proof. intro r. rewrite run_cons. change (turn M sc_start) with (mkScWorld SP_start SM_dead None None). apply run_over; reflexivity. Qed.
(** Before the miner has sent. *)
Lemma front : forall c0, run sc_start (repeat P (S c0) ++ [M]) = mkScWorld SP_bound SM_connected open_ None.
Proof.
  intro c0. rewrite run_app. cbn [repeat]. rewrite (run_cons sc_start). change (turn P sc_start) with (mkScWorld SP_bound SM_start None None).
  rewrite run_stay by reflexivity. reflexivity.
Qed.
(** Where the pool is after [x] of its operations, before it has connected. *)
Definition pool_after (x : nat) : sc_pool_at := match x with O => SP_bound | 1%nat => SP_accepted | _ => SP_read bs end.
Lemma front2 : forall c0 c1, run sc_start (repeat P (S c0) ++ M :: repeat P c1 ++ [M]) =
  mkScWorld (pool_after (min c1 1)) SM_sent full None.
Proof.
  intros c0 c1. change (M :: repeat P c1 ++ [M]) with ([M] ++ repeat P c1 ++ [M]). rewrite app_assoc, run_app, front.
  rewrite run_app. destruct c1 as [|c1].
  - cbn [repeat]. unfold run at 2. cbn [fold_left]. rewrite run_cons. unfold turn, sc_turn, sc_over, sc_miner_turn. cbn [sw_miner].
    rewrite Hsend. reflexivity.
  - cbn [repeat]. rewrite (run_cons _ P). change (turn P (mkScWorld SP_bound SM_connected open_ None)) with (mkScWorld SP_accepted SM_connected open_ None).
    rewrite run_stay by reflexivity. rewrite run_cons. unfold turn, sc_turn, sc_over, sc_miner_turn. cbn [sw_miner].
    rewrite Hsend. replace (Nat.min (S c1) 1) with 1%nat by lia. reflexivity.
Qed.
(** After it has sent and before it listens, as long as the pool does not connect back. *)
Lemma step_sent : forall mi x, mi = SM_sent \/ mi = SM_bound -> (x < 2)%nat ->
  turn P (mkScWorld (pool_after x) mi full None) = mkScWorld (pool_after (S x)) mi full None.
Proof.
  intros mi x H L. assert (O : forall p, sc_over (mkScWorld p mi full None) = false) by (intro p; destruct H as [-> | ->]; reflexivity).
  unfold turn, sc_turn. rewrite O. destruct x as [|[|x]]; [reflexivity| |lia].
  unfold sc_pool_turn, full. cbn [pool_after sw_pool sw_to_pool]. rewrite full_read. reflexivity.
Qed.
Lemma run_sent : forall c x, (x + c < 3)%nat ->
  run (mkScWorld (pool_after x) SM_sent full None) (repeat P c) = mkScWorld (pool_after (x + c)) SM_sent full None.
Proof.
  induction c as [|c IH]; intros x L; [rewrite Nat.add_0_r; reflexivity|]. cbn [repeat]. rewrite run_cons, step_sent by (auto; lia).
  rewrite IH by lia. do 2 f_equal. lia.
Qed.
Lemma front3 : forall c0 c1 c2, (pool_ahead c1 c2 < 3)%nat ->
  run sc_start (opening c0 c1 c2) = mkScWorld (pool_after (pool_ahead c1 c2)) SM_bound full None.
Proof.
  intros c0 c1 c2 L. unfold opening, pool_ahead in *.
  replace (repeat P (S c0) ++ M :: repeat P c1 ++ M :: repeat P c2 ++ [M])
    with ((repeat P (S c0) ++ M :: repeat P c1 ++ [M]) ++ repeat P c2 ++ [M]) by (rewrite <- !app_assoc; cbn [app]; rewrite <- app_assoc; reflexivity).
  rewrite run_app, front2, run_app, run_sent by exact L. reflexivity.
Qed.

(** The pool has an answer. *)
Section Reply.
Variable reply : bytes.
Variable shown : list bytes * bool.
Hypothesis Hreply : sc_pool_recv pf flags (read_1024 bs) = Ok (Some reply).
Hypothesis Hshown : sc_miner_listen pf reply = shown.
Lemma reply_read : conn_read (mkConn reply true) = Some reply.
Proof. unfold conn_read. cbn [c_data c_closed]. destruct reply; reflexivity. Qed.
Definition fin (w : sc_world) : Prop := sw_miner w = SM_done shown.
Definition good (w : sc_world) : Prop :=
  sw_pool w <> SP_dead /\ sw_miner w <> SM_dead /\ forall s, sw_miner w = SM_done s -> s = shown.
Let W5e := mkScWorld SP_done SM_accepted full (Some (mkConn reply true)).
Let W4e := mkScWorld SP_done SM_bound full (Some (mkConn reply true)).
Let W5c := mkScWorld (SP_connected reply) SM_accepted full open_.
Let W4c := mkScWorld (SP_connected reply) SM_bound full open_.
Let Wf := mkScWorld SP_done (SM_done shown) full (Some (mkConn reply true)).
Let W4 (x : nat) := mkScWorld (pool_after x) SM_bound full None.

Lemma t_W4 : forall x, (x < 2)%nat -> turn P (W4 x) = W4 (S x).
Proof. intros x L. apply step_sent; auto. Qed.
Lemma t_W42 : turn P (W4 2) = W4c.
Proof. unfold turn, sc_turn, sc_over, W4, sc_pool_turn. cbn [sw_miner sw_pool pool_after]. rewrite Hreply. reflexivity. Qed.
Lemma m_W4 : forall x, turn M (W4 x) = W4 x.
Proof. reflexivity. Qed.
Lemma t_W4c : turn P W4c = W4e. Proof. reflexivity. Qed.
Lemma m_W4c : turn M W4c = W5c. Proof. reflexivity. Qed.
Lemma t_W5c : turn P W5c = W5e. Proof. reflexivity. Qed.
Lemma m_W5c : turn M W5c = W5c. Proof. reflexivity. Qed.
Lemma t_W4e : turn P W4e = W4e. Proof. reflexivity. Qed.
Lemma m_W4e : turn M W4e = W5e. Proof. reflexivity. Qed.
Lemma t_W5e : turn P W5e = W5e. Proof. reflexivity. Qed.
Lemma m_W5e : turn M W5e = Wf.
Proof. unfold turn, sc_turn, sc_over, W5e, sc_miner_turn. cbn [sw_miner sw_to_miner]. rewrite reply_read, Hshown. reflexivity. Qed.
Lemma run_Wf : forall r, run Wf r = Wf.
Proof. apply run_over; reflexivity. Qed.
Lemma good_mid : forall p mi a b, p <> SP_dead -> match mi with SM_done _ | SM_dead => False | _ => True end -> good (mkScWorld p mi a b).
Proof. intros p mi a b H K. split; [exact H|]. cbn [sw_miner]. destruct mi; try contradiction; (split; [discriminate|intros s X; discriminate]). Qed.

Lemma end_5e : forall r, good (run W5e r) /\ (fin (run W5e r) <-> in_order [M] r).
Proof.
  induction r as [|[|] r [G IH]].
  - split; [apply good_mid; [discriminate|exact I]|]. split; [discriminate|]. intro H. destruct (io_none _ _ _ H).
  - rewrite run_cons, t_W5e. split; [exact G|]. rewrite io_mp. exact IH.
  - rewrite run_cons, m_W5e, run_Wf. split; [|split; [intros _; apply io_take; constructor|intros _; reflexivity]].
    split; [discriminate|]. split; [discriminate|]. intros s E. injection E as <-. reflexivity.
Qed.
Lemma end_4e : forall r, good (run W4e r) /\ (fin (run W4e r) <-> in_order [M; M] r).
Proof.
  induction r as [|[|] r [G IH]].
  - split; [apply good_mid; [discriminate|exact I]|]. split; [discriminate|]. intro H. destruct (io_none _ _ _ H).
  - rewrite run_cons, t_W4e. split; [exact G|]. rewrite io_mp. exact IH.
  - rewrite run_cons, m_W4e, io_same. apply end_5e.
Qed.
Lemma end_5c : forall r, good (run W5c r) /\ (fin (run W5c r) <-> in_order [P; M] r).
Proof.
  induction r as [|[|] r [G IH]].
  - split; [apply good_mid; [discriminate|exact I]|]. split; [discriminate|]. intro H. destruct (io_none _ _ _ H).
  - rewrite run_cons, t_W5c, io_same. apply end_5e.
  - rewrite run_cons, m_W5c. split; [exact G|]. rewrite io_pm. exact IH.
Qed.
Lemma end_4c : forall r, good (run W4c r) /\ (fin (run W4c r) <-> in_order [M; P; M] r \/ in_order [P; M; M] r).
Proof.
  intros [|[|] r].
  - split; [apply good_mid; [discriminate|exact I]|]. split; [discriminate|]. intros [H|H]; destruct (io_none _ _ _ H).
  - rewrite run_cons, t_W4c, io_same, io_mp. destruct (end_4e r) as [G E]. split; [exact G|]. rewrite E. split; [auto|].
    intros [H|H]; [|exact H]. 
    revert H. clear. induction r as [|[|] r IH]; intro H.
    + destruct (io_none _ _ _ H).
    + apply io_skip. apply (proj1 (io_mp _ _)) in H. exact (IH H).
    + apply io_take. apply (proj1 (io_same _ _ _ _)) in H. eapply io_tail. exact H.
  - rewrite run_cons, m_W4c, io_same, io_pm. destruct (end_5c r) as [G E]. split; [exact G|]. rewrite E. split; [auto|].
    intros [H|H]; [exact H|]. revert H. clear. induction r as [|[|] r IH]; intro H.
    + destruct (io_none _ _ _ H).
    + apply io_take. apply (proj1 (io_same _ _ _ _)) in H. eapply io_tail. exact H.
    + apply io_skip. apply (proj1 (io_pm _ _)) in H. exact (IH H).
Qed.
Definition rest_ends (x : nat) (r : list task) : Prop :=
  in_order (repeat P (3 - x) ++ [M; P; M]) r \/ in_order (repeat P (4 - x) ++ [M; M]) r.
Lemma end_4 : forall r x, (x < 3)%nat -> good (run (W4 x) r) /\ (fin (run (W4 x) r) <-> rest_ends x r).
Proof.
  induction r as [|[|] r IH]; intros x L.
  - split; [apply good_mid; [destruct x as [|[|x]]; discriminate|exact I]|]. split; [discriminate|].
    unfold rest_ends. replace (3 - x)%nat with (S (2 - x)) by lia. replace (4 - x)%nat with (S (3 - x)) by lia. cbn [repeat app].
    intros [H|H]; destruct (io_none _ _ _ H).
  - rewrite run_cons. unfold rest_ends.
    replace (3 - x)%nat with (S (2 - x)) by lia. replace (4 - x)%nat with (S (3 - x)) by lia. cbn [repeat app]. rewrite !io_same.
    destruct (Nat.eq_dec x 2) as [->|N].
    + rewrite t_W42. apply end_4c.
    + rewrite t_W4 by lia. exact (IH (S x) ltac:(lia)).
  - rewrite run_cons, m_W4. destruct (IH x L) as [G E]. split; [exact G|]. rewrite E. unfold rest_ends.
    replace (3 - x)%nat with (S (2 - x)) by lia. replace (4 - x)%nat with (S (3 - x)) by lia. cbn [repeat app]. rewrite !io_pm. reflexivity.
Qed.
(** The pool connects before the miner listens. *)
Lemma too_early : forall c0 c1 c2, (3 <= pool_ahead c1 c2)%nat -> forall r,
  let w := run sc_start (repeat P (S c0) ++ M :: repeat P c1 ++ M :: repeat P c2 ++ r) in
  sw_pool w = SP_dead /\ sc_over w = false.
Proof.
  intros c0 c1 c2 L r. cbv zeta. unfold pool_ahead in L.
  replace (repeat P (S c0) ++ M :: repeat P c1 ++ M :: repeat P c2 ++ r)
    with ((repeat P (S c0) ++ M :: repeat P c1 ++ [M]) ++ repeat P c2 ++ r) by (rewrite <- !app_assoc; cbn [app]; rewrite <- app_assoc; reflexivity).
  rewrite run_app, front2. set (x := min c1 1) in *.
  replace c2 with ((2 - x) + S (c2 - (3 - x)))%nat by lia. rewrite repeat_app, <- app_assoc, run_app, run_sent by lia.
  replace (x + (2 - x))%nat with 2%nat by (subst x; lia). cbn [repeat app]. rewrite run_cons.
  assert (D : turn P (mkScWorld (pool_after 2) SM_sent full None) = mkScWorld SP_dead SM_sent full None).
  { unfold turn, sc_turn, sc_over, sc_pool_turn. cbn [sw_miner sw_pool pool_after]. rewrite Hreply. reflexivity. }
  rewrite D. generalize (repeat P (c2 - (3 - x)) ++ r). intro q. clear L D.
  assert (B : forall q, run (mkScWorld SP_dead SM_bound full None) q = mkScWorld SP_dead SM_bound full None) by (apply run_over; reflexivity).
  induction q as [|[|] q IH]; [split; reflexivity|rewrite run_cons; exact IH|].
  rewrite run_cons. change (turn M (mkScWorld SP_dead SM_sent full None)) with (mkScWorld SP_dead SM_bound full None). rewrite B. split; reflexivity.
Qed.
End Reply.

(** The pool has none. *)
Lemma silent : (forall reply, sc_pool_recv pf flags (read_1024 bs) <> Ok (Some reply)) ->
  forall r, let w := run sc_start (P :: r) in sc_over w = false /\ sw_to_miner w = None /\
  (sc_pool_recv pf flags (read_1024 bs) = Ok None -> sw_pool w <> SP_dead) /\
  (sc_pool_recv pf flags (read_1024 bs) <> Ok None -> sw_pool w <> SP_done).
Proof.
  remember (sc_pool_recv pf flags (read_1024 bs)) as rc eqn:Erc. intros H r.
  assert (I : forall r w, sc_over w = false -> sw_to_miner w = None ->
    match sw_miner w with SM_start => sw_pool w = SP_bound /\ sw_to_pool w = None
    | SM_connected => (sw_pool w = SP_bound \/ sw_pool w = SP_accepted) /\ sw_to_pool w = open_
    | SM_sent | SM_bound => sw_to_pool w = full /\ match sw_pool w with SP_connected _ | SP_start => False | SP_read b => b = bs
        | SP_done => rc = Ok None | SP_dead => rc <> Ok None | _ => True end
    | _ => False end -> sc_over (run w r) = false /\ sw_to_miner (run w r) = None /\
      (rc = Ok None -> sw_pool (run w r) <> SP_dead) /\
      (rc <> Ok None -> sw_pool (run w r) <> SP_done)).
  { clear r. induction r as [|t r IH]; intros w O N V.
    { split; [exact O|]. split; [exact N|]. unfold run. cbn [fold_left]. destruct w as [p mi a b]. cbn [sw_pool sw_miner sw_to_pool] in *.
      split; intros R E; subst p; destruct mi; try contradiction; destruct V as [V1 V2]; try discriminate V1; try (destruct V1; discriminate); contradiction. }
    rewrite run_cons. destruct w as [p mi a b]. cbn in N, V. subst b.
    assert (T : forall t, turn t (mkScWorld p mi a None) = match t with P => sc_pool_turn pf flags (mkScWorld p mi a None) | M => sc_miner_turn pf m (mkScWorld p mi a None) end).
    { intro t0. unfold turn, sc_turn. rewrite O. reflexivity. }
    rewrite T. clear T. destruct mi; try contradiction.
    - destruct V as [-> ->]. destruct t; (apply IH; [reflexivity|reflexivity|]); cbn; auto.
    - destruct V as [V ->]. destruct t.
      + destruct V as [-> | ->]; (apply IH; [reflexivity|reflexivity|]); cbn; auto.
      + unfold sc_miner_turn. cbn [sw_miner]. rewrite Hsend. apply IH; [reflexivity|reflexivity|]. cbn. split; [reflexivity|]. destruct V as [-> | ->]; exact I.
    - destruct V as [-> V]. destruct t; [|apply IH; [reflexivity|reflexivity|]; cbn; auto].
      destruct p; try contradiction; try (apply IH; [reflexivity|reflexivity|]; cbn; auto; fail).
      + unfold sc_pool_turn. cbn [sw_pool sw_to_pool full]. unfold full. rewrite full_read. apply IH; [reflexivity|reflexivity|]. cbn. auto.
      + rewrite V. unfold sc_pool_turn. cbn [sw_pool]. rewrite <- Erc. destruct rc as [[reply|]|e|] eqn:R;
          [destruct (H reply eq_refl)| | |]; (apply IH; [reflexivity|reflexivity|]; cbn; split; [reflexivity|]); try reflexivity; discriminate.
    - destruct V as [-> V]. destruct t; [|apply IH; [reflexivity|reflexivity|]; cbn; auto].
      destruct p; try contradiction; try (apply IH; [reflexivity|reflexivity|]; cbn; auto; fail).
      + unfold sc_pool_turn. cbn [sw_pool sw_to_pool full]. unfold full. rewrite full_read. apply IH; [reflexivity|reflexivity|]. cbn. auto.
      + rewrite V. unfold sc_pool_turn. cbn [sw_pool]. rewrite <- Erc. destruct rc as [[reply|]|e|] eqn:R;
          [destruct (H reply eq_refl)| | |]; (apply IH; [reflexivity|reflexivity|]; cbn; split; [reflexivity|]); try reflexivity; discriminate. }
  cbv zeta. rewrite run_cons. apply I; [reflexivity|reflexivity|]. cbn. auto.
Qed.
End Setup.

(** ** Put together *)
Lemma setup_facts : forall v flags, constructed K_CommonSetupConnection (CSC_Mining v) -> flags_ok MiningSuccessFlags flags ->
  6 + len (layout K_CommonSetupConnection (CSC_Mining v)) <= 1024 -> forall pf, exists bs reply,
  sc_miner_send (CSC_Mining v) = Ok bs /\ sc_pool_recv pf flags (read_1024 bs) = Ok (Some reply) /\
  sc_miner_listen pf reply = ([received_line; flags_line flags], false).
Proof.
  intros v flags Hv Hf L pf. destruct (setup_flow v flags Hv Hf) as [bs [Hs [Hl [Ha _]]]].
  destruct (Ha ltac:(lia) pf pf) as [reply [Hr _]]. exists bs, reply. split; [exact Hs|]. split; [exact Hr|].
  assert (S : rust_slice (read_1024 bs)).
  { unfold rust_slice, read_1024, len. rewrite app_length, repeat_length. pose proof (firstn_le_length 1024 bs). lia. }
  apply flags_lt4 in Hf. destruct (reply_cut pf pf flags _ reply S Hf Hr) as [L12 Hc].
  specialize (Hc 12 ltac:(lia)). replace (firstn (N.to_nat 12) reply) with reply in Hc; [exact Hc|].
  symmetry. apply firstn_all2. unfold len in L12. lia.
Qed.

(** A schedule that begins as given and then alternates. *)
Definition alternating (first : list task) (n : nat) : task :=
  match nth_error first n with Some t => t | None => if Nat.even n then P else M end.
Lemma alternating_fair : forall first, fair (alternating first).
Proof.
  intros first t n. set (k := (2 * (n + length first) + match t with P => 0 | M => 1 end)%nat). exists k. split; [unfold k; lia|].
  unfold alternating. replace (nth_error first k) with (@None task); [|symmetry; apply nth_error_None; unfold k; lia].
  unfold k. destruct t; rewrite Nat.even_add_mul_2 || idtac.
  - rewrite Nat.add_0_r, Nat.even_mul. reflexivity.
  - rewrite Nat.even_add, Nat.even_mul. reflexivity.
Qed.
Lemma alternating_start : forall first k, exists r, start_of (alternating first) (length first + k) = first ++ r.
Proof.
  intros first k. rewrite start_app. eexists. f_equal. unfold start_of.
  assert (G : forall l pre, map (alternating (pre ++ l)) (seq (length pre) (length l)) = l).
  { induction l as [|x l IH]; intro pre; [reflexivity|]. cbn [length seq map]. f_equal.
    - unfold alternating. rewrite nth_error_app2, Nat.sub_diag by lia. reflexivity.
    - specialize (IH (pre ++ [x])). rewrite <- app_assoc, app_length in IH. cbn [app length] in IH. rewrite Nat.add_comm in IH. exact IH. }
  exact (G first []).
Qed.

Section Whole.
Variables (pf : profile) (flags : N) (v : setup_connection).
Hypothesis Hv : constructed K_CommonSetupConnection (CSC_Mining v).
Hypothesis Hf : flags_ok MiningSuccessFlags flags.
Hypothesis L : 6 + len (layout K_CommonSetupConnection (CSC_Mining v)) <= 1024.
Let main := sc_main pf flags (CSC_Mining v).
Let shown : list bytes * bool := ([received_line; flags_line flags], false).
Lemma main_refused : forall r, sw_miner (main (M :: r)) = SM_dead.
Proof. intro r. unfold main, sc_main. pose proof (refused pf flags (CSC_Mining v) r) as E. cbv beta in E. rewrite E. reflexivity. Qed.
Lemma main_late : forall c0 c1 c2 r, (3 <= pool_ahead c1 c2)%nat ->
  let w := main (repeat P (S c0) ++ M :: repeat P c1 ++ M :: repeat P c2 ++ r) in sw_pool w = SP_dead /\ sc_over w = false.
Proof.
  intros c0 c1 c2 r H. destruct (setup_facts v flags Hv Hf L pf) as (bs & reply & A & D & G).
  exact (too_early pf flags (CSC_Mining v) bs A reply D c0 c1 c2 H r).
Qed.
Lemma main_good : forall c0 c1 c2 r, (pool_ahead c1 c2 < 3)%nat ->
  let w := main (opening c0 c1 c2 ++ r) in
  let x := pool_ahead c1 c2 in
  sw_pool w <> SP_dead /\ sw_miner w <> SM_dead /\ (forall s, sw_miner w = SM_done s -> s = shown) /\
  (sw_miner w = SM_done shown <->
   in_order (repeat P (3 - x) ++ [M; P; M]) r \/ in_order (repeat P (4 - x) ++ [M; M]) r).
Proof.
  intros c0 c1 c2 r H. cbv zeta. destruct (setup_facts v flags Hv Hf L pf) as (bs & reply & A & D & G).
  pose proof (end_4 pf flags (CSC_Mining v) bs A reply shown D G r _ H) as [[G1 [G2 G3]] Fi].
  pose proof (run_app pf flags (CSC_Mining v) sc_start (opening c0 c1 c2) r) as RA.
  pose proof (front3 pf flags (CSC_Mining v) bs A c0 c1 c2 H) as F3. cbv beta in *. unfold main, sc_main in *. rewrite RA, F3.
  split; [exact G1|]. split; [exact G2|]. split; [exact G3|exact Fi].
Qed.
Lemma main_fair : forall f, fair f ->
  ((exists n, sw_miner (main (start_of f n)) = SM_done shown) <->
   (exists c0 c1 c2 n, start_of f n = opening c0 c1 c2 /\ (pool_ahead c1 c2 < 3)%nat)).
Proof.
  intros f F. split.
  - intros [n H]. destruct (f 0%nat) eqn:F0.
    + destruct (fair_opening f F F0) as (c0 & c1 & c2 & k & O). exists c0, c1, c2, k. split; [exact O|].
      destruct (le_lt_dec 3 (pool_ahead c1 c2)) as [Bad|Ok_]; [exfalso|exact Ok_].
      assert (X : sw_miner (main (start_of f (n + k))) = SM_done shown).
      { rewrite start_app. pose proof (run_app pf flags (CSC_Mining v) sc_start (start_of f n) (map f (seq n k))) as RA.
        cbv beta in *. unfold main, sc_main in *. rewrite RA. set (w := fold_left _ (start_of f n) _) in *.
        assert (S : forall q w, sw_miner w = SM_done shown -> sw_miner (fold_left (fun w t => sc_turn pf flags (CSC_Mining v) t w) q w) = SM_done shown).
        { clear. induction q as [|t q IH]; intros w H; [exact H|]. cbn [fold_left]. apply IH. unfold sc_turn, sc_over. rewrite H. exact H. }
        apply S. exact H. }
      rewrite Nat.add_comm, start_app, O in X.
      replace (opening c0 c1 c2 ++ map f (seq k n))
        with (repeat P (S c0) ++ M :: repeat P c1 ++ M :: repeat P c2 ++ [M] ++ map f (seq k n)) in X
        by (unfold opening; rewrite <- !app_assoc; cbn [app]; rewrite <- !app_assoc; cbn [app]; rewrite <- app_assoc; reflexivity).
      pose proof (main_late c0 c1 c2 ([M] ++ map f (seq k n)) Bad) as [_ Y].
      unfold sc_over in Y. rewrite X in Y. discriminate.
    + destruct n as [|n]; [discriminate H|]. unfold start_of in H. cbn [seq map] in H. rewrite F0, main_refused in H. discriminate.
  - intros (c0 & c1 & c2 & n & O & H). destruct (fair_order f F (repeat P (4 - pool_ahead c1 c2) ++ [M; M]) n) as [k K].
    exists (n + k)%nat. rewrite start_app, O. apply (main_good c0 c1 c2 (map f (seq n k)) H). right. exact K.
Qed.
(** Each of the two failures happens under a fair schedule. *)
Lemma main_fails : exists f1 f2, fair f1 /\ fair f2 /\
  (exists k, forall n, (k <= n)%nat -> sw_miner (main (start_of f1 n)) = SM_dead) /\
  (exists k, forall n, (k <= n)%nat -> sw_pool (main (start_of f2 n)) = SP_dead /\ sc_over (main (start_of f2 n)) = false).
Proof.
  exists (alternating [M]), (alternating [P; M; M; P; P; P]). split; [apply alternating_fair|]. split; [apply alternating_fair|]. split.
  - exists 1%nat. intros n Hn. destruct (alternating_start [M] (n - 1)) as [r E]. replace (length [M] + (n - 1))%nat with n in E by (cbn; lia).
    rewrite E. apply main_refused.
  - exists 6%nat. intros n Hn. destruct (alternating_start [P; M; M; P; P; P] (n - 6)) as [r E].
    replace (length [P; M; M; P; P; P] + (n - 6))%nat with n in E by (cbn [length]; lia). rewrite E.
    exact (main_late 0 0 3 r ltac:(cbn; lia)).
Qed.
End Whole.
Lemma main_other : forall pf flags m bs, sc_miner_send m = Ok bs ->
  (forall reply, sc_pool_recv pf flags (read_1024 bs) <> Ok (Some reply)) -> forall r, let w := sc_main pf flags m (P :: r) in
  sc_over w = false /\ sw_to_miner w = None /\
  (sc_pool_recv pf flags (read_1024 bs) = Ok None -> sw_pool w <> SP_dead) /\
  (sc_pool_recv pf flags (read_1024 bs) <> Ok None -> sw_pool w <> SP_done).
Proof. exact silent. Qed.
From Verif Require Import Samples TypesProofs.
Lemma sample_facts : constructed K_CommonSetupConnection (CSC_Mining sample_sc) /\ flags_ok MiningSuccessFlags REQUIRES_FIXED_VERSION /\
  6 + len (layout K_CommonSetupConnection (CSC_Mining sample_sc)) <= 1024.
Proof.
  split; [apply constructed_iff; exact sample_sc_ok|]. split; [apply (proj2 (flags_lt4 _)); reflexivity|]. vm_compute. discriminate.
Qed.
Lemma main_refuted : exists pf flags v f, constructed K_CommonSetupConnection (CSC_Mining v) /\ flags_ok MiningSuccessFlags flags /\
  6 + len (layout K_CommonSetupConnection (CSC_Mining v)) <= 1024 /\ fair f /\
  forall n s, sw_miner (sc_main pf flags (CSC_Mining v) (start_of f n)) <> SM_done s.
Proof.
  destruct sample_facts as (A & B & D). exists Debug, REQUIRES_FIXED_VERSION, sample_sc, (alternating [M]).
  split; [exact A|]. split; [exact B|]. split; [exact D|]. split; [apply alternating_fair|]. intros n s H. destruct n as [|n]; [discriminate H|].
  destruct (alternating_start [M] n) as [r E]. cbn [length Nat.add] in E. rewrite E in H. cbn [app] in H. rewrite main_refused in H. discriminate.
Qed.
