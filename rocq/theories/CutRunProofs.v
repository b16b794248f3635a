(** * CutRunProofs: lemmas for C142. *)
From Coq Require Import Arith Lia ZifyBool ZifyNat ZifyN.
From Verif Require Import Base BaseFacts Codec Types Messages Frame SpecWire SpecTypes SpecPool SpecAnswer Apps AppProofs AnswerProofs
  CutProofs ReasonProofs TypesProofs Mains MainProofs Cuts SpecCuts.
Local Open Scope N_scope.
Local Open Scope list_scope.

(** ** Streams *)
Definition part (bs : bytes) (k : nat) : stream := mkStream (skipn k bs) (firstn k bs) true.
Lemma arrive_part : forall bs k n, arrive n (part bs k) = part bs (k + n).
Proof.
  intros bs k n. unfold arrive, part. cbn [t_way t_here t_end]. f_equal.
  - revert bs. induction k as [|k IH]; intros [|b bs]; cbn [skipn Nat.add]; [reflexivity|reflexivity|apply skipn_nil|apply IH].
  - revert bs. induction k as [|k IH]; intros [|b bs]; cbn [skipn firstn Nat.add app]; [reflexivity|reflexivity|apply firstn_nil|f_equal; apply IH].
Qed.
Lemma part_add : forall bs a b n, part bs a = part bs b -> part bs (a + n) = part bs (b + n).
Proof. intros bs a b n E. rewrite <- !arrive_part, E. reflexivity. Qed.
Lemma arrive_open : forall n b, arrive n (mkStream [] [] b) = mkStream [] [] b.
Proof. intros n b. unfold arrive. cbn [t_way t_here t_end]. rewrite skipn_nil, firstn_nil. reflexivity. Qed.
Lemma read_part : forall bs k, bs <> [] -> stream_read (part bs k) = match k with O => None | _ => Some (firstn k bs) end.
Proof. intros [|b bs] k H; [contradiction|]. destruct k; reflexivity. Qed.
Lemma read_open : stream_read (mkStream [] [] false) = None.
Proof. reflexivity. Qed.
Lemma firstn_min : forall (bs : bytes) k, firstn k bs = firstn (min k (length bs)) bs.
Proof.
  intros bs k. destruct (Nat.le_gt_cases k (length bs)); [rewrite Nat.min_l by lia; reflexivity|].
  rewrite Nat.min_r by lia. rewrite !firstn_all2 by lia. reflexivity.
Qed.
Lemma arrivals : forall bs ns k, fold_left (fun s n => arrive n s) ns (part bs k) = part bs (k + list_sum ns).
Proof.
  intros bs ns. induction ns as [|n ns IH]; intro k; cbn [fold_left list_sum fold_right]; [rewrite Nat.add_0_r; reflexivity|].
  rewrite arrive_part, IH. f_equal. unfold list_sum. lia.
Qed.

Lemma miner_turns_snoc : forall es e, miner_turns (es ++ [e]) = (miner_turns es + match e with MinerGoes => 1 | _ => 0 end)%nat.
Proof. induction es as [|x es IH]; intro e; [destruct e; reflexivity|]. cbn [app miner_turns]. rewrite IH. destruct x; lia. Qed.
Lemma arrived_gen : forall es e t, arrived_after t (es ++ [e]) =
  (arrived_after t es + match e with ToPool n => if Nat.leb t (miner_turns es) then n else 0 | _ => 0 end)%nat.
Proof.
  induction es as [|x es IH]; intros e t.
  - cbn [app arrived_after miner_turns]. destruct e; try reflexivity. destruct t; cbn; lia.
  - cbn [app]. destruct x; cbn [arrived_after miner_turns]; rewrite IH; [reflexivity| |destruct e; lia|reflexivity].
    destruct e; try reflexivity. destruct t; reflexivity.
Qed.
Lemma arrived_snoc : forall es e, arrived_after 2 (es ++ [e]) =
  (arrived_after 2 es + match e with ToPool n => if Nat.leb 2 (miner_turns es) then n else 0 | _ => 0 end)%nat.
Proof. intros. apply arrived_gen. Qed.
Lemma arrived_early : forall es t, (miner_turns es < t)%nat -> arrived_after t es = 0%nat.
Proof.
  induction es as [|x es IH]; intros t H; [reflexivity|]. destruct x; cbn [arrived_after miner_turns] in *; [apply IH; lia|apply IH; lia| |apply IH; lia].
  destruct t; [lia|]. rewrite IH by lia. reflexivity.
Qed.

Section Cut.
Variables (pf : profile) (flags : N) (m : common_setup_connection) (bs reply : bytes) (good : nat -> Prop) (shows : nat -> list bytes * bool).
Hypothesis Hsend : sc_miner_send m = Ok bs.
Hypothesis Hne : bs <> [].
Hypothesis Hrne : reply <> [].
Hypothesis Hans : forall i, (1 <= i <= length bs)%nat ->
  (good i /\ sc_pool_recv pf flags (read_1024 (firstn i bs)) = Ok (Some reply)) \/
  (~ good i /\ sc_pool_recv pf flags (read_1024 (firstn i bs)) = Panic).
Hypothesis Hshow : forall j, (1 <= j <= length reply)%nat -> sc_miner_listen pf (firstn j reply) = shows j.
Let ev := pc_event pf flags m.
Let run (w : pc_world) (r : list event) : pc_world := fold_left (pc_event pf flags m) r w.
Let W0 := mkPcWorld SP_start SM_start None None.
Let some_good := exists i, (1 <= i <= length bs)%nat /\ good i.

Inductive reached : pc_world -> Prop :=
| r_start : reached W0
| r_refused : reached (mkPcWorld SP_start SM_dead None None)
| r_bound : reached (mkPcWorld SP_bound SM_start None None)
| r_conn : forall p, p = SP_bound \/ p = SP_accepted -> reached (mkPcWorld p SM_connected (Some (mkStream [] [] false)) None)
| r_sent : forall p q k, p = SP_bound \/ p = SP_accepted \/ p = SP_dead \/ (exists i, (1 <= i <= length bs)%nat /\ p = SP_read (firstn i bs)) ->
    q = SM_sent \/ q = SM_bound -> reached (mkPcWorld p q (Some (part bs k)) None)
| r_back : forall q k, some_good -> q = SM_bound \/ q = SM_accepted ->
    reached (mkPcWorld (SP_connected reply) q (Some (part bs k)) (Some (mkStream [] [] false)))
| r_replied : forall q k j, some_good -> q = SM_bound \/ q = SM_accepted ->
    reached (mkPcWorld SP_done q (Some (part bs k)) (Some (part reply j)))
| r_end : forall k j i, some_good -> (1 <= j <= length reply)%nat ->
    reached (mkPcWorld SP_done (SM_done (shows j)) (Some (part bs k)) (Some (part reply i))).

Lemma lenpos : forall l : bytes, l <> [] -> (1 <= length l)%nat.
Proof. intros [|b l] H; [contradiction|cbn; lia]. Qed.
Lemma reached_step : forall w e, reached w -> reached (ev w e).
Proof.
  intros w e H. pose proof (lenpos bs Hne) as LB. pose proof (lenpos reply Hrne) as LR. unfold ev, pc_event. destruct H as [| | |p Hp|p q k Hp Hq|q k G Hq|q k j G Hq|k j i G Hj].
  - destruct e; try (apply r_start); [apply r_bound|apply r_refused].
  - apply r_refused.
  - destruct e; try (apply r_bound). apply r_conn. auto.
  - cbn [pc_over pw_miner]. destruct e as [| |n|n]; cbn [pw_pool pw_miner pw_to_pool pw_to_miner option_map].
    + unfold pc_pool_turn. destruct Hp as [-> | ->]; cbn [pw_pool pw_to_pool pw_to_miner pw_miner]; [|rewrite read_open]; apply r_conn; auto.
    + unfold pc_miner_turn. cbn [pw_miner]. rewrite Hsend. cbn [pw_pool pw_to_miner].
      change (mkStream bs [] true) with (part bs 0). apply r_sent; tauto.
    + rewrite arrive_open. apply r_conn. exact Hp.
    + apply r_conn. exact Hp.
  - assert (O : pc_over (mkPcWorld p q (Some (part bs k)) None) = false) by (destruct Hq as [-> | ->]; reflexivity). rewrite O.
    destruct e as [| |n|n]; cbn [pw_pool pw_miner pw_to_pool pw_to_miner option_map].
    + unfold pc_pool_turn. cbn [pw_pool pw_to_pool pw_to_miner pw_miner]. destruct Hp as [-> | [-> | [-> | (i & Hi & ->)]]].
      * apply r_sent; tauto.
      * rewrite read_part by exact Hne. destruct k as [|k]; [apply r_sent; tauto|]. apply r_sent; [|exact Hq]. do 3 right.
        exists (min (S k) (length bs)). rewrite <- firstn_min. split; [lia|reflexivity].
      * apply r_sent; tauto.
      * destruct (Hans i Hi) as [[G E]|[G E]]; rewrite E; [|apply r_sent; tauto].
        destruct Hq as [-> | ->]; [apply r_sent; tauto|]. apply r_back; [exists i; tauto|auto].
    + unfold pc_miner_turn. cbn [pw_pool pw_to_pool pw_to_miner pw_miner]. destruct Hq as [-> | ->]; apply r_sent; tauto.
    + rewrite arrive_part. apply r_sent; assumption.
    + apply r_sent; assumption.
  - assert (O : pc_over (mkPcWorld (SP_connected reply) q (Some (part bs k)) (Some (mkStream [] [] false))) = false) by (destruct Hq as [-> | ->]; reflexivity). rewrite O.
    destruct e as [| |n|n]; cbn [pw_pool pw_miner pw_to_pool pw_to_miner option_map].
    + unfold pc_pool_turn. cbn [pw_pool pw_to_pool pw_to_miner pw_miner]. change (mkStream reply [] true) with (part reply 0). apply r_replied; assumption.
    + unfold pc_miner_turn. cbn [pw_pool pw_to_pool pw_to_miner pw_miner]. destruct Hq as [-> | ->]; [|rewrite read_open]; apply r_back; auto.
    + rewrite arrive_part. apply r_back; assumption.
    + rewrite arrive_open. apply r_back; assumption.
  - assert (O : pc_over (mkPcWorld SP_done q (Some (part bs k)) (Some (part reply j))) = false) by (destruct Hq as [-> | ->]; reflexivity). rewrite O.
    destruct e as [| |n|n]; cbn [pw_pool pw_miner pw_to_pool pw_to_miner option_map].
    + apply r_replied; assumption.
    + unfold pc_miner_turn. cbn [pw_pool pw_to_pool pw_to_miner pw_miner]. destruct Hq as [-> | ->]; [apply r_replied; auto|].
      rewrite read_part by exact Hrne. destruct j as [|j]; [apply r_replied; auto|].
      rewrite firstn_min, Hshow by lia. apply r_end; [exact G|lia].
    + rewrite arrive_part. apply r_replied; assumption.
    + rewrite arrive_part. apply r_replied; assumption.
  - apply r_end; assumption.
Qed.
Lemma reached_run : forall r w, reached w -> reached (run w r).
Proof. unfold run. induction r as [|e r IH]; intros w H; [exact H|]. cbn [fold_left]. apply IH. apply reached_step. exact H. Qed.
Lemma reached_all : forall es, reached (pc_main pf flags m es).
Proof. intro es. apply (reached_run es W0). apply r_start. Qed.
Lemma main_snoc : forall es e, pc_main pf flags m (es ++ [e]) = ev (pc_main pf flags m es) e.
Proof. intros es e. unfold pc_main. rewrite fold_left_app. reflexivity. Qed.
Lemma main_app : forall a b, pc_main pf flags m (a ++ b) = run (pc_main pf flags m a) b.
Proof. intros a b. unfold pc_main. rewrite fold_left_app. reflexivity. Qed.

(** ** What can be shown *)
Lemma shown_only : forall es s, pw_miner (pc_main pf flags m es) = SM_done s ->
  some_good /\ exists j, (1 <= j <= length reply)%nat /\ s = shows j.
Proof.
  intros es s. destruct (reached_all es) as [| | |p Hp|p q k Hp Hq|q k G Hq|q k j G Hq|k j i G Hj]; cbn [pw_miner]; intro H;
    try discriminate H; try (destruct Hq as [-> | ->]; discriminate H).
  injection H as <-. split; [exact G|]. exists j. auto.
Qed.
Lemma read_only : forall es x, pw_pool (pc_main pf flags m es) = SP_read x -> exists i, (1 <= i <= length bs)%nat /\ x = firstn i bs.
Proof.
  intros es x. destruct (reached_all es) as [| | |p Hp|p q k Hp Hq|q k G Hq|q k j G Hq|k j i G Hj]; cbn [pw_pool]; intro H; try discriminate H.
  - destruct Hp as [-> | ->]; discriminate H.
  - destruct Hp as [-> | [-> | [-> | (i & Hi & ->)]]]; try discriminate H. injection H as <-. exists i. auto.
Qed.
Lemma dead_waits : forall es, pw_pool (pc_main pf flags m es) = SP_dead -> pc_over (pc_main pf flags m es) = false.
Proof.
  intros es. destruct (reached_all es) as [| | |p Hp|p q k Hp Hq|q k G Hq|q k j G Hq|k j i G Hj]; cbn [pw_pool]; intro H; try discriminate H.
  - reflexivity.
  - destruct Hq as [-> | ->]; reflexivity.
Qed.
Lemma dead_stays : forall r w, reached w -> pw_pool w = SP_dead -> pw_pool (run w r) = SP_dead.
Proof.
  unfold run. induction r as [|e r IH]; intros w H D; [exact D|]. cbn [fold_left]. apply IH; [apply reached_step; exact H|].
  destruct H as [| | |p Hp|p q k Hp Hq|q k G Hq|q k j G Hq|k j i G Hj]; cbn [pw_pool] in D; try discriminate D.
  - destruct Hp as [-> | ->]; discriminate D.
  - subst p. destruct Hq as [-> | ->]; destruct e; reflexivity.
Qed.
Lemma dies_iff : forall es, pw_pool (pc_main pf flags m es) = SP_dead <->
  exists es1 es2 i, es = es1 ++ PoolGoes :: es2 /\ (1 <= i <= length bs)%nat /\ pw_pool (pc_main pf flags m es1) = SP_read (firstn i bs) /\
    (~ good i \/ pw_miner (pc_main pf flags m es1) <> SM_bound).
Proof.
  intro es. split.
  - induction es as [|e es IH] using rev_ind; [discriminate|]. rewrite main_snoc. intro H.
    assert (C : pw_pool (pc_main pf flags m es) = SP_dead \/ e = PoolGoes /\ exists i, (1 <= i <= length bs)%nat /\
      pw_pool (pc_main pf flags m es) = SP_read (firstn i bs) /\ (~ good i \/ pw_miner (pc_main pf flags m es) <> SM_bound)).
    { revert H. destruct (reached_all es) as [| | |p Hp|p q k Hp Hq|q k G Hq|q k j G Hq|k j i G Hj]; intro H.
      - destruct e; discriminate H.
      - destruct e; discriminate H.
      - destruct e; discriminate H.
      - unfold ev, pc_event in H. cbn [pc_over pw_miner] in H. destruct e; cbn [pw_pool] in H.
        + destruct Hp as [-> | ->]; discriminate H.
        + unfold pc_miner_turn in H. cbn [pw_miner] in H. rewrite Hsend in H. cbn [pw_pool] in H. left. exact H.
        + left. exact H.
        + left. exact H.
      - cbn [pw_pool pw_miner]. unfold ev, pc_event in H.
        assert (O : pc_over (mkPcWorld p q (Some (part bs k)) None) = false) by (destruct Hq as [-> | ->]; reflexivity). rewrite O in H.
        destruct e; cbn [pw_pool] in H; [| |left; exact H|left; exact H].
        + unfold pc_pool_turn in H. cbn [pw_pool pw_to_pool pw_miner] in H. destruct Hp as [-> | [-> | [-> | (i & Hi & ->)]]].
          * discriminate H.
          * rewrite read_part in H by exact Hne. destruct k; discriminate H.
          * left. reflexivity.
          * right. split; [reflexivity|]. exists i. split; [exact Hi|]. split; [reflexivity|].
            destruct (Hans i Hi) as [[G E]|[G E]]; [|left; exact G]. rewrite E in H. destruct Hq as [-> | ->]; [right; discriminate|discriminate H].
        + left. unfold pc_miner_turn in H. cbn [pw_miner] in H. destruct Hq as [-> | ->]; exact H.
      - unfold ev, pc_event in H. destruct Hq as [-> | ->]; destruct e; discriminate H.
      - unfold ev, pc_event in H. destruct Hq as [-> | ->]; destruct e; cbn [pc_over pw_miner pw_pool] in H; try discriminate H.
        unfold pc_miner_turn in H. cbn [pw_miner pw_to_miner] in H. rewrite read_part in H by exact Hrne. destruct j; discriminate H.
      - destruct e; discriminate H. }
    destruct C as [C|(-> & i & Hi & R & C)].
    + destruct (IH C) as (es1 & es2 & i & -> & Hi & R & C'). exists es1, (es2 ++ [e]), i. rewrite <- app_assoc. cbn [app]. tauto.
    + exists es, [], i. tauto.
  - intros (es1 & es2 & i & -> & Hi & R & C). replace (es1 ++ PoolGoes :: es2) with ((es1 ++ [PoolGoes]) ++ es2) by (rewrite <- app_assoc; reflexivity).
    rewrite main_app. apply dead_stays; [apply reached_all|]. rewrite main_snoc. revert R C.
    destruct (reached_all es1) as [| | |p Hp|p q k Hp Hq|q k G Hq|q k j G Hq|k j i' G Hj]; cbn [pw_pool pw_miner]; intros R C; try discriminate R.
    + destruct Hp as [-> | ->]; discriminate R.
    + subst p. unfold ev, pc_event. assert (O : pc_over (mkPcWorld (SP_read (firstn i bs)) q (Some (part bs k)) None) = false) by (destruct Hq as [-> | ->]; reflexivity).
      rewrite O. unfold pc_pool_turn. cbn [pw_pool pw_miner]. destruct (Hans i Hi) as [[G E]|[G E]]; rewrite E; [|reflexivity].
      destruct Hq as [-> | ->]; [reflexivity|]. destruct C as [C|C]; [contradiction|]. destruct C. reflexivity.
Qed.
Lemma refused_iff : forall es, pw_miner (pc_main pf flags m es) = SM_dead <->
  exists es1 es2, es = es1 ++ MinerGoes :: es2 /\ ~ In PoolGoes es1.
Proof.
  intro es. split.
  - intro H. assert (C : forall r w, reached w -> pw_miner (run w r) = SM_dead -> pw_miner w <> SM_dead -> w = W0 /\
      exists es1 es2, r = es1 ++ MinerGoes :: es2 /\ ~ In PoolGoes es1).
    { unfold run. induction r as [|e r IH]; intros w R D N; [contradiction|]. cbn [fold_left] in D.
      assert (R' : reached (pc_event pf flags m w e)) by (apply reached_step; exact R).
      destruct R as [| | |p Hp|p q k Hp Hq|q k G Hq|q k j G Hq|k j i G Hj].
      - split; [reflexivity|]. destruct e as [| |n|n].
        + apply IH in D; [|exact R'|discriminate]. destruct D as [D _]. discriminate D.
        + exists [], r. split; [reflexivity|intros []].
        + apply IH in D; [|exact R'|discriminate]. destruct D as [_ (a & b & -> & D)]. exists (ToPool n :: a), b. split; [reflexivity|].
          intros [X|X]; [discriminate X|exact (D X)].
        + apply IH in D; [|exact R'|discriminate]. destruct D as [_ (a & b & -> & D)]. exists (ToMiner n :: a), b. split; [reflexivity|].
          intros [X|X]; [discriminate X|exact (D X)].
      - destruct N. reflexivity.
      - exfalso. apply IH in D; [|exact R'|destruct e; discriminate]. destruct D as [D _]. destruct e; discriminate D.
      - exfalso. apply IH in D; [|exact R'|].
        + destruct D as [D _]. unfold pc_event in D. cbn [pc_over pw_miner] in D. destruct e; try (destruct Hp as [-> | ->]; discriminate D).
          unfold pc_miner_turn in D. cbn [pw_miner] in D. rewrite Hsend in D. discriminate D.
        + unfold pc_event. cbn [pc_over pw_miner]. destruct e; try (destruct Hp as [-> | ->]; discriminate).
          unfold pc_miner_turn. cbn [pw_miner]. rewrite Hsend. discriminate.
      - exfalso. inversion R'; subst.
        all: try (apply IH in D; [|exact R'|match goal with E : _ = pc_event _ _ _ _ _ |- _ => rewrite <- E end; cbn [pw_miner]; intuition (subst; discriminate)];
          destruct D as [D _]; match goal with E : _ = pc_event _ _ _ _ _ |- _ => rewrite <- E in D end; discriminate D).
        all: exfalso; match goal with E : _ = pc_event _ _ _ _ _ |- _ => unfold pc_event in E; destruct Hq as [-> | ->]; destruct e; cbn in E; try discriminate E end.
        all: match goal with E : _ = pc_pool_turn _ _ _ |- _ => apply (f_equal pw_miner) in E; unfold pc_pool_turn in E; cbn [pw_pool pw_to_pool pw_miner pw_to_miner] in E end.
        all: destruct Hp as [-> | [-> | [-> | (i & Hi & ->)]]]; try discriminate.
        all: try (match goal with E : context [stream_read _] |- _ => rewrite read_part in E by exact Hne; destruct k; discriminate E end).
        all: destruct (Hans i Hi) as [[G E]|[G E]]; rewrite E in *; discriminate.
      - exfalso. inversion R'; subst.
        all: try (apply IH in D; [|exact R'|match goal with E : _ = pc_event _ _ _ _ _ |- _ => rewrite <- E end; cbn [pw_miner]; intuition (subst; discriminate)];
          destruct D as [D _]; match goal with E : _ = pc_event _ _ _ _ _ |- _ => rewrite <- E in D end; discriminate D).
        all: exfalso; match goal with E : _ = pc_event _ _ _ _ _ |- _ => unfold pc_event in E; destruct Hq as [-> | ->]; destruct e; cbn in E; discriminate E end.
      - exfalso. inversion R'; subst.
        all: try (apply IH in D; [|exact R'|match goal with E : _ = pc_event _ _ _ _ _ |- _ => rewrite <- E end; cbn [pw_miner]; intuition (subst; discriminate)];
          destruct D as [D _]; match goal with E : _ = pc_event _ _ _ _ _ |- _ => rewrite <- E in D end; discriminate D).
        all: exfalso; match goal with E : _ = pc_event _ _ _ _ _ |- _ => apply (f_equal pw_miner) in E; unfold pc_event in E; destruct Hq as [-> | ->]; destruct e; cbn [pc_over pw_miner pw_pool pc_pool_turn] in E; try discriminate E end.
        all: match goal with E : _ = pw_miner (pc_miner_turn _ _ _) |- _ => unfold pc_miner_turn in E; cbn [pw_miner pw_to_miner] in E; rewrite read_part in E by exact Hrne; destruct j; discriminate E end.
      - exfalso. change (pc_event pf flags m (mkPcWorld SP_done (SM_done (shows j)) (Some (part bs k)) (Some (part reply i))) e)
          with (mkPcWorld SP_done (SM_done (shows j)) (Some (part bs k)) (Some (part reply i))) in *.
        apply IH in D; [|exact R'|discriminate]. destruct D as [D _]. discriminate D. }
    apply (C es W0); [apply r_start|exact H|discriminate].
  - intros (es1 & es2 & -> & N).
    rewrite main_app.
    assert (A : forall r w, w = W0 \/ w = mkPcWorld SP_start SM_dead None None -> ~ In PoolGoes r ->
      run w r = W0 \/ run w r = mkPcWorld SP_start SM_dead None None).
    { unfold run. induction r as [|e r IH]; intros w Hw Hn; [exact Hw|]. cbn [fold_left]. apply IH; [|intro X; apply Hn; right; exact X].
      destruct Hw as [-> | ->]; destruct e; first [left; reflexivity|right; reflexivity|destruct Hn; left; reflexivity]. }
    assert (B : forall r, run (mkPcWorld SP_start SM_dead None None) r = mkPcWorld SP_start SM_dead None None).
    { unfold run. induction r as [|e r IH]; [reflexivity|exact IH]. }
    destruct (A es1 W0 (or_introl eq_refl) N) as [E|E]; change (run W0 es1) with (pc_main pf flags m es1) in E; rewrite E; unfold run; cbn [fold_left].
    + change (pc_event pf flags m W0 MinerGoes) with (mkPcWorld SP_start SM_dead None None). exact (f_equal pw_miner (B es2)).
    + change (pc_event pf flags m (mkPcWorld SP_start SM_dead None None) MinerGoes) with (mkPcWorld SP_start SM_dead None None). exact (f_equal pw_miner (B es2)).
Qed.

(** ** Turns and arrivals *)
Lemma early_or_late : forall es w, w = pc_main pf flags m es -> pw_miner w = SM_dead \/ (exists s, pw_miner w = SM_done s) \/
  match pw_miner w with
  | SM_start => miner_turns es = 0
  | SM_connected => miner_turns es = 1
  | SM_sent => miner_turns es = 2 /\ pw_to_pool w = Some (part bs (arrived_after 2 es))
  | _ => 3 <= miner_turns es /\ pw_to_pool w = Some (part bs (arrived_after 2 es))
  end%nat.
Proof.
  intros es. induction es as [|e es IH] using rev_ind; intros w E; [subst w; right; right; reflexivity|].
  rewrite main_snoc in E. specialize (IH _ eq_refl). revert E IH.
  destruct (reached_all es) as [| | |p Hp|p q k Hp Hq|q k G Hq|q k j G Hq|k j i G Hj]; intros E IH; subst w.
  - destruct IH as [IH|[[s IH]|IH]]; try discriminate IH. cbn [pw_miner W0] in IH. rewrite miner_turns_snoc, IH. destruct e; [right; right; reflexivity|left; reflexivity| |]; right; right; reflexivity.
  - left. destruct e; reflexivity.
  - destruct IH as [IH|[[s IH]|IH]]; try discriminate IH. cbn [pw_miner] in IH. right. right. destruct e; cbn [ev pc_event pc_over pw_miner pc_pool_turn pc_miner_turn pw_pool]; rewrite miner_turns_snoc, IH; reflexivity.
  - destruct IH as [IH|[[s IH]|IH]]; try discriminate IH. cbn [pw_miner] in IH. right. right. unfold ev, pc_event. cbn [pc_over pw_miner].
    rewrite miner_turns_snoc, arrived_snoc, IH. destruct e; try (destruct Hp as [-> | ->]; reflexivity).
    unfold pc_miner_turn. cbn [pw_miner]. rewrite Hsend. cbn [pw_miner pw_to_pool]. split; [reflexivity|]. rewrite Nat.add_0_r, arrived_early by lia. reflexivity.
  - right. right. destruct IH as [IH|[[s IH]|IH]]; [destruct Hq as [-> | ->]; discriminate IH..|].
    assert (K : arrived_after 2 es = k \/ part bs (arrived_after 2 es) = part bs k) by (right; destruct Hq as [-> | ->]; cbn in IH; destruct IH as [_ IH]; congruence).
    assert (K' : part bs (arrived_after 2 es) = part bs k) by (destruct K as [-> |K]; [reflexivity|exact K]). clear K.
    assert (T : (2 <= miner_turns es)%nat) by (destruct Hq as [-> | ->]; cbn [pw_miner] in IH; lia).
    unfold ev, pc_event. assert (O : pc_over (mkPcWorld p q (Some (part bs k)) None) = false) by (destruct Hq as [-> | ->]; reflexivity). rewrite O.
    rewrite miner_turns_snoc, arrived_snoc. destruct e as [| |n|n].
    + rewrite !Nat.add_0_r, K'. unfold pc_pool_turn. cbn [pw_pool pw_to_pool pw_to_miner pw_miner]. destruct Hp as [-> | [-> | [-> | (i & Hi & ->)]]].
      * destruct Hq as [-> | ->]; cbn [pw_miner pw_to_pool] in *; (split; [exact (proj1 IH)|reflexivity]).
      * rewrite read_part by exact Hne. destruct k; destruct Hq as [-> | ->]; cbn [pw_miner pw_to_pool] in *; (split; [exact (proj1 IH)|reflexivity]).
      * destruct Hq as [-> | ->]; cbn [pw_miner pw_to_pool] in *; (split; [exact (proj1 IH)|reflexivity]).
      * destruct (Hans i Hi) as [[G E]|[G E]]; rewrite E; destruct Hq as [-> | ->]; cbn [pw_miner pw_to_pool] in *; (split; [exact (proj1 IH)|reflexivity]).
    + rewrite Nat.add_0_r, K'. unfold pc_miner_turn. destruct Hq as [-> | ->]; cbn [pw_miner pw_to_pool pw_to_miner] in *; (split; [lia|reflexivity]).
    + rewrite !Nat.add_0_r. replace (Nat.leb 2 (miner_turns es)) with true by (symmetry; apply Nat.leb_le; exact T). rewrite (part_add _ _ _ n K').
      cbn [pw_miner pw_pool pw_to_pool pw_to_miner option_map]. rewrite arrive_part. destruct Hq as [-> | ->]; cbn [pw_miner] in *; (split; [exact (proj1 IH)|reflexivity]).
    + rewrite !Nat.add_0_r, K'. cbn [pw_miner pw_pool pw_to_pool pw_to_miner option_map]. destruct Hq as [-> | ->]; cbn [pw_miner] in *; (split; [exact (proj1 IH)|reflexivity]).
  - right. right. destruct IH as [IH|[[s IH]|IH]]; [destruct Hq as [-> | ->]; discriminate IH..|].
    assert (K' : part bs (arrived_after 2 es) = part bs k) by (destruct Hq as [-> | ->]; cbn in IH; destruct IH as [_ IH]; congruence).
    assert (T : (3 <= miner_turns es)%nat) by (destruct Hq as [-> | ->]; cbn [pw_miner] in IH; lia).
    assert (T2 : Nat.leb 2 (miner_turns es) = true) by (apply Nat.leb_le; lia).
    unfold ev, pc_event. rewrite miner_turns_snoc, arrived_snoc, T2.
    destruct Hq as [-> | ->]; destruct e as [| |n|n]; cbn [pc_over pw_miner pw_pool pw_to_pool pw_to_miner option_map pc_pool_turn pc_miner_turn]; rewrite ?read_open;
      cbn [pw_miner pw_to_pool]; (split; [lia|]); rewrite ?Nat.add_0_r, ?K', ?arrive_part; try reflexivity; rewrite (part_add _ _ _ n K'); reflexivity.
  - destruct IH as [IH|[[s IH]|IH]]; [destruct Hq as [-> | ->]; discriminate IH..|].
    assert (K' : part bs (arrived_after 2 es) = part bs k) by (destruct Hq as [-> | ->]; cbn in IH; destruct IH as [_ IH]; congruence).
    assert (T : (3 <= miner_turns es)%nat) by (destruct Hq as [-> | ->]; cbn [pw_miner] in IH; lia).
    assert (T2 : Nat.leb 2 (miner_turns es) = true) by (apply Nat.leb_le; lia).
    unfold ev, pc_event. rewrite miner_turns_snoc, arrived_snoc, T2. right.
    destruct Hq as [-> | ->]; destruct e as [| |n|n]; cbn [pc_over pw_miner pw_pool pw_to_pool pw_to_miner option_map pc_pool_turn pc_miner_turn];
      try rewrite read_part by exact Hrne; try destruct j; cbn [pw_miner pw_to_pool]; try (left; eexists; reflexivity); right; (split; [lia|]);
      rewrite ?Nat.add_0_r, ?K', ?arrive_part; try reflexivity; rewrite (part_add _ _ _ n K'); reflexivity.
  - right. left. exists (shows j). destruct e; reflexivity.
Qed.
Lemma read_exact : forall es x, pw_pool (pc_main pf flags m es) = SP_read x ->
  exists es1 es2, es = es1 ++ PoolGoes :: es2 /\ (1 <= arrived_after 2 es1)%nat /\ x = firstn (arrived_after 2 es1) bs.
Proof.
  intros es x. induction es as [|e es IH] using rev_ind; [discriminate|]. rewrite main_snoc. intro H.
  assert (C : pw_pool (pc_main pf flags m es) = SP_read x \/ e = PoolGoes /\ (1 <= arrived_after 2 es)%nat /\ x = firstn (arrived_after 2 es) bs).
  { pose proof (early_or_late es _ eq_refl) as T. revert H T.
    destruct (reached_all es) as [| | |p Hp|p q k Hp Hq|q k G Hq|q k j G Hq|k j i G Hj]; intros H T.
    - destruct e; discriminate H.
    - destruct e; discriminate H.
    - destruct e; discriminate H.
    - unfold ev, pc_event in H. cbn [pc_over pw_miner] in H. destruct e; cbn [pw_pool] in H.
      + destruct Hp as [-> | ->]; discriminate H.
      + unfold pc_miner_turn in H. cbn [pw_miner] in H. rewrite Hsend in H. left. exact H.
      + left. exact H.
      + left. exact H.
    - unfold ev, pc_event in H. assert (O : pc_over (mkPcWorld p q (Some (part bs k)) None) = false) by (destruct Hq as [-> | ->]; reflexivity). rewrite O in H.
      destruct e; cbn [pw_pool] in *; [| |left; exact H|left; exact H].
      + unfold pc_pool_turn in H. cbn [pw_pool pw_to_pool pw_miner] in H. destruct Hp as [-> | [-> | [-> | (i & Hi & ->)]]].
        * discriminate H.
        * rewrite read_part in H by exact Hne. destruct k as [|k]; [discriminate H|]. cbn [pw_pool] in H. injection H as <-. right. split; [reflexivity|].
          assert (K : part bs (arrived_after 2 es) = part bs (S k)).
          { destruct T as [T|[[s T]|T]]; [destruct Hq as [-> | ->]; discriminate T..|]. destruct Hq as [-> | ->]; cbn [pw_miner pw_to_pool] in T; destruct T as [_ T]; congruence. }
          pose proof (f_equal t_here K) as K2. cbn [t_here part] in K2. rewrite K2. split; [|reflexivity].
          destruct (arrived_after 2 es); [|lia]. destruct bs; [contradiction|discriminate K2].
        * discriminate H.
        * destruct (Hans i Hi) as [[G E]|[G E]]; rewrite E in H; [|discriminate H]. destruct Hq as [-> | ->]; discriminate H.
      + left. unfold pc_miner_turn in H. cbn [pw_miner] in H. destruct Hq as [-> | ->]; exact H.
    - unfold ev, pc_event in H. destruct Hq as [-> | ->]; destruct e; discriminate H.
    - unfold ev, pc_event in H. destruct Hq as [-> | ->]; destruct e; cbn [pc_over pw_miner pw_pool] in H; try discriminate H.
      unfold pc_miner_turn in H. cbn [pw_miner pw_to_miner] in H. rewrite read_part in H by exact Hrne. destruct j; discriminate H.
    - destruct e; discriminate H. }
  destruct C as [C|(-> & L & C)].
  - destruct (IH C) as (es1 & es2 & -> & L & C'). exists es1, (es2 ++ [e]). rewrite <- app_assoc. cbn [app]. auto.
  - exists es, []. auto.
Qed.
Lemma listens_late : forall es x, pw_pool (pc_main pf flags m es) = SP_read x ->
  (pw_miner (pc_main pf flags m es) <> SM_bound <-> (miner_turns es < 3)%nat).
Proof.
  intros es x H. pose proof (early_or_late es _ eq_refl) as T. revert H T.
  destruct (reached_all es) as [| | |p Hp|p q k Hp Hq|q k G Hq|q k j G Hq|k j i G Hj]; cbn [pw_pool pw_miner pw_to_pool]; intros H T; try discriminate H.
  - destruct Hp as [-> | ->]; discriminate H.
  - destruct T as [T|[[s T]|T]]; [destruct Hq as [-> | ->]; discriminate T..|]. destruct Hq as [-> | ->]; destruct T as [T _]; (split; [intro N|intros N E]); try lia; try discriminate E.
    destruct N. reflexivity.
Qed.

(** ** Explicit runs *)
Lemma run_to_pool : forall ns p q k c, pc_over (mkPcWorld p q None c) = false ->
  run (mkPcWorld p q (Some (part bs k)) c) (map ToPool ns) = mkPcWorld p q (Some (part bs (k + list_sum ns))) c.
Proof.
  unfold run. induction ns as [|n ns IH]; intros p q k c O; cbn [map fold_left list_sum fold_right].
  - rewrite Nat.add_0_r. reflexivity.
  - unfold pc_event at 2. assert (O' : pc_over (mkPcWorld p q (Some (part bs k)) c) = false) by exact O. rewrite O'.
    cbn [pw_pool pw_miner pw_to_pool pw_to_miner option_map]. rewrite arrive_part, IH by exact O. do 3 f_equal. unfold list_sum. lia.
Qed.
Lemma run_to_miner : forall ns p q k c, pc_over (mkPcWorld p q c None) = false ->
  run (mkPcWorld p q c (Some (part reply k))) (map ToMiner ns) = mkPcWorld p q c (Some (part reply (k + list_sum ns))).
Proof.
  unfold run. induction ns as [|n ns IH]; intros p q k c O; cbn [map fold_left list_sum fold_right].
  - rewrite Nat.add_0_r. reflexivity.
  - unfold pc_event at 2. assert (O' : pc_over (mkPcWorld p q c (Some (part reply k))) = false) by exact O. rewrite O'.
    cbn [pw_pool pw_miner pw_to_pool pw_to_miner option_map]. rewrite arrive_part, IH by exact O. do 3 f_equal. unfold list_sum. lia.
Qed.
Lemma run_cat : forall w a b, run w (a ++ b) = run (run w a) b.
Proof. intros. unfold run. apply fold_left_app. Qed.
Lemma reading : forall ns, (1 <= list_sum ns)%nat ->
  pc_main pf flags m (to_reading ns) = mkPcWorld (SP_read (firstn (list_sum ns) bs)) SM_bound (Some (part bs (list_sum ns))) None.
Proof.
  intros ns H. unfold to_reading. rewrite main_app.
  assert (E : pc_main pf flags m [PoolGoes; MinerGoes; MinerGoes; MinerGoes; PoolGoes] = mkPcWorld SP_accepted SM_bound (Some (part bs 0)) None).
  { unfold pc_main. cbn [fold_left]. change (pc_event pf flags m (pc_event pf flags m (mkPcWorld SP_start SM_start None None) PoolGoes) MinerGoes)
      with (mkPcWorld SP_bound SM_connected (Some (mkStream [] [] false)) None).
    unfold pc_event at 3. cbn [pc_over pw_miner]. unfold pc_miner_turn at 1. cbn [pw_miner]. rewrite Hsend. reflexivity. }
  rewrite E, run_cat, run_to_pool by reflexivity. cbn [Nat.add]. unfold run. cbn [fold_left]. unfold pc_event, pc_over, pc_pool_turn.
  cbn [pw_pool pw_miner pw_to_pool pw_to_miner]. rewrite read_part by exact Hne. destruct (list_sum ns) as [|k]; [lia|]. reflexivity.
Qed.
Lemma showing : forall ns js, (1 <= list_sum ns)%nat -> (1 <= list_sum js)%nat -> good (min (list_sum ns) (length bs)) ->
  pw_miner (pc_main pf flags m (to_reading ns ++ to_showing js)) = SM_done (shows (min (list_sum js) (length reply))).
Proof.
  intros ns js H1 H2 G. pose proof (lenpos bs Hne). pose proof (lenpos reply Hrne). rewrite main_app, reading by exact H1. unfold to_showing. rewrite run_cat.
  replace (run _ [PoolGoes; PoolGoes]) with (mkPcWorld SP_done SM_bound (Some (part bs (list_sum ns))) (Some (part reply 0))).
  - rewrite run_cat, run_to_miner by reflexivity. cbn [Nat.add]. unfold run. cbn [fold_left].
    change (pc_event pf flags m (mkPcWorld SP_done SM_bound (Some (part bs (list_sum ns))) (Some (part reply (list_sum js)))) MinerGoes)
      with (mkPcWorld SP_done SM_accepted (Some (part bs (list_sum ns))) (Some (part reply (list_sum js)))).
    unfold pc_event, pc_over, pc_miner_turn. cbn [pw_pool pw_miner pw_to_pool pw_to_miner]. rewrite read_part by exact Hrne.
    destruct (list_sum js) as [|j] eqn:E; [lia|]. cbn [pw_miner]. rewrite firstn_min, Hshow by lia. reflexivity.
  - unfold run. cbn [fold_left]. unfold pc_event at 2, pc_over, pc_pool_turn. cbn [pw_pool pw_miner pw_to_pool pw_to_miner].
    destruct (Hans (min (list_sum ns) (length bs)) ltac:(lia)) as [[_ E]|[N _]]; [|contradiction]. rewrite <- firstn_min in E. rewrite E. reflexivity.
Qed.
Lemma dying : forall ns r, (1 <= list_sum ns)%nat -> ~ good (min (list_sum ns) (length bs)) ->
  pw_pool (pc_main pf flags m (to_reading ns ++ PoolGoes :: r)) = SP_dead.
Proof.
  intros ns r H N. pose proof (lenpos bs Hne). apply dies_iff. exists (to_reading ns), r, (min (list_sum ns) (length bs)).
  split; [reflexivity|]. split; [lia|]. rewrite reading by exact H. rewrite <- firstn_min. cbn [pw_pool]. auto.
Qed.

(** ** It comes to an end *)
Definition pool_stage (p : sc_pool_at) : nat :=
  match p with SP_start => 0 | SP_bound => 1 | SP_accepted => 2 | SP_read _ => 3 | SP_connected _ => 4 | SP_done | SP_dead => 5 end.
Definition miner_stage (q : sc_miner_at) : nat :=
  match q with SM_start => 0 | SM_connected => 1 | SM_sent => 2 | SM_bound => 3 | SM_accepted => 4 | SM_done _ | SM_dead => 5 end.
Definition some_here (s : option stream) : nat := match s with Some s => match t_here s with [] => 0 | _ => 1 end | None => 0 end.
Definition stage (w : pc_world) : nat := pool_stage (pw_pool w) + miner_stage (pw_miner w) + some_here (pw_to_pool w) + some_here (pw_to_miner w).
Definition next_of (a b c d : nat) : kind :=
  match b, a with
  | 0, 0 => K_pool
  | 0, _ | 1, _ | 2, _ => K_miner
  | 3, 2 => if Nat.eqb c 0 then K_to_pool else K_pool
  | 3, 5 => K_miner
  | 4, 5 => if Nat.eqb d 0 then K_to_miner else K_miner
  | _, _ => K_pool
  end%nat.
Definition next (w : pc_world) : kind := next_of (pool_stage (pw_pool w)) (miner_stage (pw_miner w)) (some_here (pw_to_pool w)) (some_here (pw_to_miner w)).
Definition ended (w : pc_world) : Prop := pc_over w = true \/ pw_pool w = SP_dead.
Lemma here_part : forall l k, l <> [] -> some_here (Some (part l k)) = match k with O => 0%nat | _ => 1%nat end.
Proof. intros [|b l] k H; [contradiction|]. destruct k; reflexivity. Qed.
Definition grows (w w' : pc_world) : Prop :=
  (pool_stage (pw_pool w) <= pool_stage (pw_pool w') /\ miner_stage (pw_miner w) <= miner_stage (pw_miner w') /\
   some_here (pw_to_pool w) <= some_here (pw_to_pool w') /\ some_here (pw_to_miner w) <= some_here (pw_to_miner w'))%nat.
Lemma step_grows : forall w e, reached w -> ended w \/ (grows w (ev w e) /\ (is_kind (next w) e -> (stage w < stage (ev w e))%nat)).
Proof.
  intros w e H. pose proof (here_part bs) as HB. pose proof (here_part reply) as HR.
  unfold ended, grows, stage, next, ev, pc_event. destruct H as [| | |p Hp|p q k Hp Hq|q k G Hq|q k j G Hq|k j i G Hj].
  - right. destruct e; cbn; split; intros; try contradiction; lia.
  - left. left. reflexivity.
  - right. destruct e; cbn; split; intros; try contradiction; lia.
  - right. cbn [pc_over pw_miner]. destruct e as [| |n|n]; cbn [pw_pool pw_miner pw_to_pool pw_to_miner option_map].
    + destruct Hp as [-> | ->]; cbn; split; intros; try contradiction; lia.
    + unfold pc_miner_turn. cbn [pw_miner]. rewrite Hsend. destruct Hp as [-> | ->]; cbn; split; intros; try contradiction; lia.
    + rewrite arrive_open. destruct Hp as [-> | ->]; cbn; split; intros; try contradiction; lia.
    + destruct Hp as [-> | ->]; cbn; split; intros; try contradiction; lia.
  - destruct Hp as [-> | [-> | [-> | (i & Hi & ->)]]]; [| |left; right; reflexivity|].
    + right. destruct Hq as [-> | ->]; destruct e as [| |n|n]; cbn [pc_over pw_pool pw_miner pw_to_pool pw_to_miner option_map pc_pool_turn pc_miner_turn];
        try rewrite arrive_part; rewrite !HB by exact Hne; cbn; split; intros; try contradiction; destruct k; cbn; try lia; destruct n; cbn; lia.
    + right. destruct Hq as [-> | ->]; destruct e as [| |n|n]; cbn [pc_over pw_pool pw_miner pw_to_pool pw_to_miner option_map pc_pool_turn pc_miner_turn];
        try rewrite arrive_part; try rewrite read_part by exact Hne; destruct k as [|k]; cbn [pw_pool pw_miner pw_to_pool pw_to_miner];
        rewrite !HB by exact Hne; cbn; split; intros; try contradiction; try lia; destruct n; cbn in *; try contradiction; lia.
    + destruct (Hans i Hi) as [[G E]|[G E]].
      all: right; destruct Hq as [-> | ->]; destruct e as [| |n|n]; cbn [pc_over pw_pool pw_miner pw_to_pool pw_to_miner option_map pc_pool_turn pc_miner_turn];
        try rewrite E; try rewrite arrive_part; cbn [pw_pool pw_miner pw_to_pool pw_to_miner];
        rewrite !HB by exact Hne; cbn; split; intros; try contradiction; destruct k; cbn; try lia; destruct n; cbn; lia.
  - right. destruct Hq as [-> | ->]; destruct e as [| |n|n]; cbn [pc_over pw_pool pw_miner pw_to_pool pw_to_miner option_map pc_pool_turn pc_miner_turn];
        try rewrite arrive_part; try rewrite arrive_open; rewrite ?read_open; cbn [pw_pool pw_miner pw_to_pool pw_to_miner];
        rewrite !HB by exact Hne; cbn; split; intros; try contradiction; destruct k; cbn; try lia; destruct n; cbn; lia.
  - right. clear Hans Hshow G. destruct Hq as [-> | ->]; destruct e as [| |n|n]; cbn [pc_over pw_pool pw_miner pw_to_pool pw_to_miner option_map pc_pool_turn pc_miner_turn];
      try rewrite arrive_part; try rewrite read_part by exact Hrne; destruct j as [|j]; cbn [pw_pool pw_miner pw_to_pool pw_to_miner];
      rewrite !HB by exact Hne; rewrite !HR by exact Hrne; clear HB HR Hne Hrne Hsend; destruct k as [|k];
      cbn [pool_stage miner_stage next_of Nat.eqb is_kind Nat.add]; split; try (intros []); try (clear; lia);
      destruct n as [|n]; cbn [is_kind Nat.add]; try (intros []); try (intros _); clear; lia.
  - left. left. reflexivity.
Qed.
Lemma some_here_le : forall s, (some_here s <= 1)%nat.
Proof. intros [s|]; cbn; [destruct (t_here s); lia|lia]. Qed.
Lemma stage_le : forall w, (stage w <= 12)%nat.
Proof.
  intro w. unfold stage. pose proof (some_here_le (pw_to_pool w)). pose proof (some_here_le (pw_to_miner w)).
  destruct (pw_pool w), (pw_miner w); cbn; lia.
Qed.
Lemma events_S : forall f n, first_events f (S n) = first_events f n ++ [f n].
Proof. intros f n. unfold first_events. rewrite seq_S, map_app. reflexivity. Qed.
Lemma wait_for : forall f d n, is_kind (next (pc_main pf flags m (first_events f n))) (f (n + d)%nat) ->
  exists n', ended (pc_main pf flags m (first_events f n')) \/
    (stage (pc_main pf flags m (first_events f n)) < stage (pc_main pf flags m (first_events f n')))%nat.
Proof.
  intros f. induction d as [|d IH]; intros n K.
  - rewrite Nat.add_0_r in K. destruct (step_grows _ (f n) (reached_all (first_events f n))) as [E|[_ E]]; [exists n; left; exact E|].
    exists (S n). right. rewrite events_S, main_snoc. exact (E K).
  - destruct (step_grows _ (f n) (reached_all (first_events f n))) as [E|[G _]]; [exists n; left; exact E|].
    unfold ev in G. set (w := pc_main pf flags m (first_events f n)) in *.
    assert (ES : pc_main pf flags m (first_events f (S n)) = pc_event pf flags m w (f n)) by (rewrite events_S; apply main_snoc).
    set (w' := pc_event pf flags m w (f n)) in *.
    destruct (Nat.eq_dec (stage w) (stage w')) as [Q|Q].
    + assert (N : next w' = next w) by (unfold next, stage, grows in *; f_equal; lia).
      replace (n + S d)%nat with (S n + d)%nat in K by lia. rewrite <- N, <- ES in K. destruct (IH (S n) K) as [n' H]. exists n'. rewrite ES in H. destruct H; [left; assumption|right; lia].
    + exists (S n). right. rewrite ES. unfold stage, grows in *. lia.
Qed.
Lemma comes_to_end : forall f, fair_events f -> exists n, ended (pc_main pf flags m (first_events f n)).
Proof.
  intros f F. assert (I : forall d n, (12 < stage (pc_main pf flags m (first_events f n)) + d)%nat -> exists n, ended (pc_main pf flags m (first_events f n))).
  { induction d as [|d IH]; intros n H; [pose proof (stage_le (pc_main pf flags m (first_events f n))); lia|].
    destruct (F (next (pc_main pf flags m (first_events f n))) n) as (j & L & K). replace j with (n + (j - n))%nat in K by lia.
    destruct (wait_for f _ n K) as [n' [E|E]]; [exists n'; exact E|]. apply (IH n'). lia. }
  apply (I 13%nat 0%nat). lia.
Qed.
End Cut.

(** ** Put together *)
Lemma enough_dec : forall v i, enough v i \/ ~ enough v i.
Proof.
  intros v i. unfold enough. destruct (N.le_gt_cases (6 + len (layout K_CommonSetupConnection (CSC_Mining v))) 1024); [|right; lia].
  destruct (N.lt_ge_cases (firmware_at v) i); [|right; lia].
  destruct (utf8_text_dec (remains (firmware_at v) i (sc_firmware v))); [|right; tauto].
  destruct (utf8_text_dec (remains (device_at v) i (sc_device_id v))); [left; tauto|right; tauto].
Qed.
Lemma reply_of_frame : forall version flags, exists reply, wire reply = success_frame version flags /\ len reply = 12.
Proof.
  intros version flags. exists ([x00; x00; x01; x06; x00; x00] ++ to_le 2 version ++ to_le 4 flags).
  split; [|reflexivity]. rewrite !wire_app, !wire_to_le. reflexivity.
Qed.
Section Whole.
Variables (pf : profile) (flags : N) (v : setup_connection).
Hypothesis Hv : constructed K_CommonSetupConnection (CSC_Mining v).
Hypothesis Hf : flags_ok MiningSuccessFlags flags.
Let main := pc_main pf flags (CSC_Mining v).
Let whole := 6 + len (layout K_CommonSetupConnection (CSC_Mining v)).
Lemma piece_facts : exists bs reply, sc_miner_send (CSC_Mining v) = Ok bs /\ len bs = whole /\ length reply = 12%nat /\
  (forall i, (1 <= i <= length bs)%nat ->
    (enough v (N.of_nat i) /\ sc_pool_recv pf flags (read_1024 (firstn i bs)) = Ok (Some reply)) \/
    (~ enough v (N.of_nat i) /\ sc_pool_recv pf flags (read_1024 (firstn i bs)) = Panic)) /\
  (forall j, (1 <= j <= length reply)%nat -> sc_miner_listen pf (firstn j reply) = cut_shows (N.of_nat j) flags).
Proof.
  destruct (cut_any v flags Hv Hf) as (bs & Hs & Hc). destruct (setup_flow v flags Hv Hf) as (bs' & Hs' & Hl & _).
  rewrite Hs in Hs'. injection Hs' as <-. destruct (reply_of_frame (sc_min_version v) flags) as (reply & W & L12).
  assert (LR : length reply = 12%nat) by (unfold len in L12; lia).
  exists bs, reply. split; [exact Hs|]. split; [exact Hl|]. split; [exact LR|]. split.
  - intros i Hi. specialize (Hc pf (N.of_nat i) ltac:(unfold len; lia)). cbv zeta in Hc. rewrite Nat2N.id, Hl in Hc. destruct Hc as [A B].
    destruct (enough_dec v (N.of_nat i)) as [E|E]; [left|right]; (split; [exact E|]).
    + destruct (A E) as (reply' & R & W'). rewrite R. do 2 f_equal. apply wire_inj. congruence.
    + exact (B E).
  - intros j Hj. pose proof (answer_cut pf (sc_min_version v) flags reply (N.of_nat j)) as A. rewrite Nat2N.id in A. apply A.
    + apply (mining_min v). apply constructed_iff. exact Hv.
    + apply flags_lt4. exact Hf.
    + exact W.
    + lia.
Qed.
Lemma piece_shown : forall es s, pw_miner (main es) = SM_done s ->
  (exists i, 1 <= i <= whole /\ enough v i) /\ exists j, 1 <= j <= 12 /\ s = cut_shows j flags.
Proof.
  intros es s H. destruct piece_facts as (bs & reply & A & L & LR & B & D).
  assert (Nb : bs <> []) by (intros ->; unfold whole, len in L; cbn in L; lia).
  assert (Nr : reply <> []) by (intros ->; discriminate LR).
  destruct (shown_only pf flags (CSC_Mining v) bs reply (fun i => enough v (N.of_nat i)) (fun j => cut_shows (N.of_nat j) flags) A Nb Nr B D es s H) as [(i & Hi & G) (j & Hj & S)].
  split; [exists (N.of_nat i)|exists (N.of_nat j)]; (split; [|assumption]); unfold len in L; lia.
Qed.
Lemma piece_read : forall es bs x, sc_miner_send (CSC_Mining v) = Ok bs -> pw_pool (main es) = SP_read x ->
  exists es1 es2, es = es1 ++ PoolGoes :: es2 /\ (1 <= arrived_after 2 es1)%nat /\ x = firstn (arrived_after 2 es1) bs.
Proof.
  intros es bs x A' H. destruct piece_facts as (bs' & reply & A & L & LR & B & D). rewrite A in A'. injection A' as ->.
  assert (Nb : bs <> []) by (intros ->; unfold whole, len in L; cbn in L; lia).
  assert (Nr : reply <> []) by (intros ->; discriminate LR).
  exact (read_exact pf flags (CSC_Mining v) bs reply (fun i => enough v (N.of_nat i)) (fun j => cut_shows (N.of_nat j) flags) A Nb Nr B D es x H).
Qed.
Lemma piece_dead : forall es, (pw_pool (main es) = SP_dead <->
  exists es1 es2 bs i, es = es1 ++ PoolGoes :: es2 /\ sc_miner_send (CSC_Mining v) = Ok bs /\ 1 <= i <= whole /\
    pw_pool (main es1) = SP_read (firstn (N.to_nat i) bs) /\ (~ enough v i \/ (miner_turns es1 < 3)%nat)) /\
  (pw_pool (main es) = SP_dead -> pc_over (main es) = false).
Proof.
  intros es. destruct piece_facts as (bs & reply & A & L & LR & B & D).
  assert (Nb : bs <> []) by (intros ->; unfold whole, len in L; cbn in L; lia).
  assert (Nr : reply <> []) by (intros ->; discriminate LR). split.
  - assert (LL : forall es x, pw_pool (main es) = SP_read x -> (pw_miner (main es) <> SM_bound <-> (miner_turns es < 3)%nat)).
    { exact (listens_late pf flags (CSC_Mining v) bs reply (fun i => enough v (N.of_nat i)) (fun j => cut_shows (N.of_nat j) flags) A Nb Nr B D). }
    pose proof (dies_iff pf flags (CSC_Mining v) bs reply (fun i => enough v (N.of_nat i)) (fun j => cut_shows (N.of_nat j) flags) A Nb Nr B D es) as E.
    etransitivity; [exact E|]. split.
    + intros (es1 & es2 & i & X & Hi & R & C). exists es1, es2, bs, (N.of_nat i). rewrite Nat2N.id. unfold len in L.
      split; [exact X|]. split; [exact A|]. split; [lia|]. split; [exact R|]. rewrite <- (LL _ _ R). exact C.
    + intros (es1 & es2 & bs' & i & X & A' & Hi & R & C). rewrite A in A'. injection A' as <-. exists es1, es2, (N.to_nat i). rewrite N2Nat.id. unfold len in L.
      split; [exact X|]. split; [lia|]. split; [exact R|]. rewrite <- (LL _ _ R) in C. exact C.
  - exact (dead_waits pf flags (CSC_Mining v) bs reply (fun i => enough v (N.of_nat i)) (fun j => cut_shows (N.of_nat j) flags) A Nb Nr B D es).
Qed.
Lemma piece_refused : forall es, pw_miner (main es) = SM_dead <-> exists es1 es2, es = es1 ++ MinerGoes :: es2 /\ ~ In PoolGoes es1.
Proof.
  intros es. destruct piece_facts as (bs & reply & A & L & LR & B & D).
  assert (Nb : bs <> []) by (intros ->; unfold whole, len in L; cbn in L; lia).
  assert (Nr : reply <> []) by (intros ->; discriminate LR).
  exact (refused_iff pf flags (CSC_Mining v) bs reply (fun i => enough v (N.of_nat i)) (fun j => cut_shows (N.of_nat j) flags) A Nb Nr B D es).
Qed.
Lemma piece_ends : forall f, fair_events f -> exists n, let w := main (first_events f n) in
  pw_miner w = SM_dead \/ pw_pool w = SP_dead \/ exists j, 1 <= j <= 12 /\ pw_miner w = SM_done (cut_shows j flags).
Proof.
  intros f F. destruct piece_facts as (bs & reply & A & L & LR & B & D).
  assert (Nb : bs <> []) by (intros ->; unfold whole, len in L; cbn in L; lia).
  assert (Nr : reply <> []) by (intros ->; discriminate LR).
  destruct (comes_to_end pf flags (CSC_Mining v) bs reply (fun i => enough v (N.of_nat i)) (fun j => cut_shows (N.of_nat j) flags) A Nb Nr B D f F) as [n [E|E]];
    exists n; cbv zeta; [|auto]. unfold pc_over in E. fold main in E. destruct (pw_miner (main (first_events f n))) eqn:M; try discriminate E; [|auto].
  destruct (piece_shown _ _ M) as [_ (j & Hj & ->)]. right. right. exists j. auto.
Qed.
Lemma cut_shows_12 : forall j f, 12 <= j -> cut_shows j f = cut_shows 12 f.
Proof.
  intros j f H. unfold cut_shows. destruct (N.leb_spec j 2); [lia|]. destruct (N.eqb_spec j 3); [lia|]. destruct (N.leb_spec j 8); [lia|]. reflexivity.
Qed.
Lemma piece_runs : forall ns js r, (1 <= list_sum ns)%nat -> (1 <= list_sum js)%nat -> let i := N.min (N.of_nat (list_sum ns)) whole in
  (enough v i -> pw_miner (main (to_reading ns ++ to_showing js)) = SM_done (cut_shows (N.of_nat (list_sum js)) flags)) /\
  (~ enough v i -> pw_pool (main (to_reading ns ++ PoolGoes :: r)) = SP_dead).
Proof.
  intros ns js r H1 H2 i. destruct piece_facts as (bs & reply & A & L & LR & B & D).
  assert (Nb : bs <> []) by (intros ->; unfold whole, len in L; cbn in L; lia).
  assert (Nr : reply <> []) by (intros ->; discriminate LR).
  assert (I : N.of_nat (min (list_sum ns) (length bs)) = i) by (unfold i, len in *; lia). split; intro E.
  - pose proof (showing pf flags (CSC_Mining v) bs reply (fun i => enough v (N.of_nat i)) (fun j => cut_shows (N.of_nat j) flags) A Nb Nr B D ns js H1 H2) as S.
    cbv beta in S. rewrite I in S. unfold main. rewrite (S E), LR. f_equal. destruct (Nat.le_gt_cases (list_sum js) 12); [rewrite Nat.min_l by lia; reflexivity|].
    rewrite Nat.min_r by lia. symmetry. apply cut_shows_12. lia.
  - pose proof (dying pf flags (CSC_Mining v) bs reply (fun i => enough v (N.of_nat i)) (fun j => cut_shows (N.of_nat j) flags) A Nb Nr B D ns r H1) as S.
    cbv beta in S. rewrite I in S. exact (S E).
Qed.
End Whole.

(** All four kinds in turn. *)
Definition round (first : list event) (n : nat) : event :=
  match nth_error first n with
  | Some e => e
  | None => match Nat.modulo n 4 with 0 => PoolGoes | 1 => MinerGoes | 2 => ToPool 1 | _ => ToMiner 1 end%nat
  end.
Lemma round_fair : forall first, fair_events (round first).
Proof.
  intros first k n. set (d := match k with K_pool => 0 | K_miner => 1 | K_to_pool => 2 | K_to_miner => 3 end%nat).
  exists (d + (n + length first) * 4)%nat. split; [lia|]. unfold round.
  replace (nth_error first (d + (n + length first) * 4)) with (@None event) by (symmetry; apply nth_error_None; lia).
  rewrite Nat.mod_add by lia. destruct k; exact I.
Qed.
Lemma round_start : forall first n, (length first <= n)%nat -> exists r, first_events (round first) n = first ++ r.
Proof.
  intros first n L. replace n with (length first + (n - length first))%nat by lia. unfold first_events. rewrite seq_app, map_app.
  eexists. f_equal.
  assert (G : forall l pre, map (round (pre ++ l)) (seq (length pre) (length l)) = l).
  { induction l as [|x l IH]; intro pre; [reflexivity|]. cbn [length seq map]. f_equal.
    - unfold round. rewrite nth_error_app2, Nat.sub_diag by lia. reflexivity.
    - specialize (IH (pre ++ [x])). rewrite <- app_assoc, app_length in IH. cbn [app length] in IH. rewrite Nat.add_comm in IH. exact IH. }
  exact (G first []).
Qed.
Lemma done_stays : forall pf flags m r w s, pw_miner w = SM_done s -> pw_miner (fold_left (pc_event pf flags m) r w) = SM_done s.
Proof. induction r as [|e r IH]; intros w s H; [exact H|]. cbn [fold_left]. apply IH. unfold pc_event, pc_over. rewrite H. exact H. Qed.
From Verif Require Import Samples.
Lemma sample_enough : enough sample_sc (N.min (N.of_nat (list_sum [99%nat])) (6 + len (layout K_CommonSetupConnection (CSC_Mining sample_sc)))).
Proof.
  split; [vm_compute; discriminate|]. split; [vm_compute; reflexivity|].
  split; apply text_iff; vm_compute; reflexivity.
Qed.
Lemma pieces_refuted : exists pf flags v f, constructed K_CommonSetupConnection (CSC_Mining v) /\ flags_ok MiningSuccessFlags flags /\
  6 + len (layout K_CommonSetupConnection (CSC_Mining v)) <= 1024 /\ fair_events f /\ flags_line flags <> flags_line 0 /\
  exists k, forall n, (k <= n)%nat -> pw_miner (pc_main pf flags (CSC_Mining v) (first_events f n)) = SM_done ([received_line; flags_line 0], false).
Proof.
  destruct sample_facts as (A & B & D). set (es := to_reading [99%nat] ++ to_showing [5%nat; 3%nat]).
  exists Debug, REQUIRES_FIXED_VERSION, sample_sc, (round es).
  split; [exact A|]. split; [exact B|]. split; [exact D|]. split; [apply round_fair|]. split; [vm_compute; discriminate|]. exists (length es). intros n L.
  destruct (round_start es n L) as [r E]. rewrite E. unfold pc_main. rewrite fold_left_app. apply done_stays.
  refine (proj1 (piece_runs Debug REQUIRES_FIXED_VERSION sample_sc A B [99%nat] [5%nat; 3%nat] [] _ _) sample_enough).
  - apply Nat.leb_le. reflexivity.
  - apply Nat.leb_le. reflexivity.
Qed.
Lemma sample_enough_1 : enough sample_sc (firmware_at sample_sc + 1).
Proof.
  split; [vm_compute; discriminate|]. split; [vm_compute; reflexivity|].
  split; apply text_iff; vm_compute; reflexivity.
Qed.
