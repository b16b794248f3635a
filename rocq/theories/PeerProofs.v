(** * PeerProofs: the message queue of a peer under any schedule. *)
From Coq Require Import Arith Lia Permutation.
From Verif Require Import Base Codec Types Messages Frame Noise SpecNoise SpecSession Network SpecNetwork.
Open Scope nat_scope.

Lemma set_thread_length : forall l t x, t < length l -> length (set_thread l t x) = length l.
Proof. intros. unfold set_thread. rewrite app_length. cbn [length]. rewrite firstn_length, skipn_length. lia. Qed.
Lemma set_thread_same : forall l t x, t < length l -> nth_error (set_thread l t x) t = Some x.
Proof.
  intros. unfold set_thread. rewrite nth_error_app2 by (rewrite firstn_length; lia).
  rewrite firstn_length. replace (t - Nat.min t (length l)) with 0 by lia. reflexivity.
Qed.
Lemma set_thread_other : forall l t x u, t < length l -> u <> t -> nth_error (set_thread l t x) u = nth_error l u.
Proof.
  induction l as [|a l IH]; intros t x u H N; [cbn in H; lia|].
  destruct t, u; try (cbn; congruence); try lia.
  apply (IH t x u); [cbn in H; lia|lia].
Qed.
Lemma set_thread_split : forall l t y x, nth_error l t = Some y -> exists a b, l = a ++ y :: b /\ set_thread l t x = a ++ x :: b.
Proof.
  intros l t y x H. apply nth_error_split in H. destruct H as (a & b & -> & <-). exists a, b. split; [reflexivity|].
  unfold set_thread. rewrite firstn_app, Nat.sub_diag, firstn_all. cbn [firstn]. rewrite app_nil_r.
  rewrite skipn_app. replace (S (length a) - length a) with 1 by lia. rewrite skipn_all2 by lia. reflexivity.
Qed.

(** What every reachable state satisfies. *)
Record ok (p : peer) : Prop := {
  ok_holder : forall t th, nth_error (pe_threads p) t = Some th -> (in_section th <-> pe_holder p = Some t);
  ok_exists : forall t, pe_holder p = Some t -> t < length (pe_threads p);
  ok_local : forall t th l, nth_error (pe_threads p) t = Some th -> th_at th = Entered l -> l = [] /\ th_todo th <> [];
  ok_push : forall t th l, nth_error (pe_threads p) t = Some th -> th_at th = Worked l \/ th_at th = Leaving l ->
     (exists m rest, th_todo th = Push m :: rest /\ l = []) \/ (exists rest, th_todo th = GetPending :: rest) }.

Lemma new_ok : forall progs, ok (peer_new progs).
Proof.
  intro progs. assert (A : forall t th, nth_error (pe_threads (peer_new progs)) t = Some th -> th_at th = Idle).
  { intros t th H. cbn in H. rewrite nth_error_map in H. destruct (nth_error progs t); [|discriminate]. injection H as <-. reflexivity. }
  constructor.
  - intros t th H. unfold in_section. rewrite (A _ _ H). cbn. split; [tauto|discriminate].
  - intros t H. discriminate.
  - intros t th l H X. rewrite (A _ _ H) in X. discriminate.
  - intros t th l H X. rewrite (A _ _ H) in X. destruct X; discriminate.
Qed.

(** One step: the moving thread changes, the others do not, and the events tell what it did. *)
Record moved (p : peer) (t : nat) (p' : peer) (ev : list peer_event) (th th' : thread) : Prop := {
  mv_th : nth_error (pe_threads p) t = Some th;
  mv_threads : pe_threads p' = set_thread (pe_threads p) t th';
  mv_own : by_thread t ev = ev;
  mv_ops : outstanding th = map operation ev ++ outstanding th';
  mv_got : th_got th ++ in_flight th ++ drained ev = th_got th' ++ in_flight th';
  mv_buffer : concat (drained ev) ++ pe_buffer p' = pe_buffer p ++ pushed ev;
  mv_empty : forall ms, In (Drained t ms) ev -> pe_buffer p' = [] }.

Lemma step_moved : forall p t p' ev, ok p -> peer_step p t = Some (p', ev) ->
  exists th th', moved p t p' ev th th' /\ ok p'.
Proof.
  intros p t p' ev OK H. unfold peer_step in H. destruct (nth_error (pe_threads p) t) as [th|] eqn:ET; [|discriminate].
  assert (LT : t < length (pe_threads p)) by (apply nth_error_Some; congruence).
  pose proof (ok_holder p OK t th ET) as HH. pose proof (fun l => ok_local p OK t th l ET) as HL. pose proof (fun l => ok_push p OK t th l ET) as HP.
  assert (PRES : forall th' buf holder poisoned,
    (in_section th' <-> holder = Some t) ->
    (forall u, u <> t -> (holder = Some u <-> pe_holder p = Some u)) ->
    (forall l, th_at th' = Entered l -> l = [] /\ th_todo th' <> []) ->
    (forall l, th_at th' = Worked l \/ th_at th' = Leaving l ->
       (exists m rest, th_todo th' = Push m :: rest /\ l = []) \/ (exists rest, th_todo th' = GetPending :: rest)) ->
    ok (mkPeer buf holder poisoned (set_thread (pe_threads p) t th'))).
  { intros th' buf holder poisoned A B D F. constructor; cbn [pe_threads pe_holder].
    - intros u x Hu. destruct (Nat.eq_dec u t) as [->|N].
      + rewrite set_thread_same in Hu by exact LT. injection Hu as <-. exact A.
      + rewrite set_thread_other in Hu by assumption. rewrite (B u N). apply (ok_holder p OK u x Hu).
    - intros u Hu. rewrite set_thread_length by exact LT. destruct (Nat.eq_dec u t) as [->|N]; [exact LT|].
      apply (ok_exists p OK). apply B; assumption.
    - intros u x l Hu Hx. destruct (Nat.eq_dec u t) as [->|N].
      + rewrite set_thread_same in Hu by exact LT. injection Hu as <-. apply D, Hx.
      + rewrite set_thread_other in Hu by assumption. apply (ok_local p OK u x l Hu Hx).
    - intros u x l Hu Hx. destruct (Nat.eq_dec u t) as [->|N].
      + rewrite set_thread_same in Hu by exact LT. injection Hu as <-. apply (F l Hx).
      + rewrite set_thread_other in Hu by assumption. apply (ok_push p OK u x l Hu Hx). }
  destruct th as [todo at_ got]. cbn [th_at th_todo th_got] in *. unfold in_section in HH. cbn [th_at] in HH.
  destruct at_ as [|l|l|l|].
  - (* Idle *) destruct todo as [|o todo]; [discriminate|]. destruct (pe_holder p) as [h|] eqn:EH; [discriminate|].
    destruct (pe_poisoned p); injection H as <- <-.
    + exists (mkThread (o :: todo) Idle got), (mkThread (o :: todo) Dead got). split.
      * constructor; cbn; rewrite ?app_nil_r; auto; contradiction.
      * apply PRES; cbn.
        -- split; [tauto|discriminate].
        -- intros u N. rewrite ?EH. tauto.
        -- intros; discriminate.
        -- intros l [X|X]; discriminate.
    + exists (mkThread (o :: todo) Idle got), (mkThread (o :: todo) (Entered []) got). split.
      * constructor; cbn; rewrite ?app_nil_r; auto; contradiction.
      * apply PRES; cbn.
        -- tauto.
        -- intros u N. rewrite ?EH. split; intro X; [injection X as X; congruence|discriminate].
        -- intros l X. injection X as <-. split; [reflexivity|discriminate].
        -- intros l [X|X]; discriminate.
  - (* Entered *) destruct (HL l eq_refl) as [-> _].
    assert (EH : pe_holder p = Some t) by (apply HH; exact I).
    destruct todo as [|[m| |] todo]; [discriminate| | |]; injection H as <- <-.
    + exists (mkThread (Push m :: todo) (Entered []) got), (mkThread (Push m :: todo) (Worked []) got). split.
      * constructor; cbn; rewrite ?app_nil_r, ?Nat.eqb_refl; auto. intros ms [X|[]]; discriminate.
      * apply PRES; cbn.
        -- tauto.
        -- tauto.
        -- intros; discriminate.
        -- intros l [X|X]; [|discriminate]. injection X as <-. left. eauto.
    + exists (mkThread (GetPending :: todo) (Entered []) got), (mkThread (GetPending :: todo) (Worked (pe_buffer p)) got). split.
      * constructor; cbn; rewrite ?app_nil_r, ?Nat.eqb_refl; auto.
      * apply PRES; cbn.
        -- tauto.
        -- tauto.
        -- intros; discriminate.
        -- intros l [X|X]; [|discriminate]. right. eauto.
    + exists (mkThread (Crash :: todo) (Entered []) got), (mkThread (Crash :: todo) Dead got). split.
      * constructor; cbn; rewrite ?app_nil_r; auto; contradiction.
      * apply PRES; cbn.
        -- split; [tauto|discriminate].
        -- intros u N. rewrite ?EH. split; intro X; [discriminate|injection X as X; congruence].
        -- intros; discriminate.
        -- intros l [X|X]; discriminate.
  - (* Worked *) assert (EH : pe_holder p = Some t) by (apply HH; exact I).
    assert (HW := HP l (or_introl eq_refl)). cbn [th_todo] in HW.
    assert (H' : Some (mkPeer (pe_buffer p) None (pe_poisoned p) (set_thread (pe_threads p) t (mkThread todo (Leaving l) got)), [])
                 = Some (p', ev)) by (destruct todo as [|[m| |] todo]; exact H).
    injection H' as <- <-.
    exists (mkThread todo (Worked l) got), (mkThread todo (Leaving l) got). split.
    + constructor; cbn; rewrite ?app_nil_r; auto; try contradiction.
    + apply PRES; cbn.
      * split; [tauto|discriminate].
      * intros u N. rewrite ?EH. split; intro X; [discriminate|injection X as X; congruence].
      * intros; discriminate.
      * intros l' [X|X]; [discriminate|]. injection X as <-. exact HW.
  - (* Leaving *) assert (HW := HP l (or_intror eq_refl)). cbn [th_todo] in HW.
    destruct HW as [(m & rest & -> & ->)|(rest & ->)]; injection H as <- <-.
    + exists (mkThread (Push m :: rest) (Leaving []) got), (mkThread rest Idle got). split.
      * constructor; cbn; rewrite ?app_nil_r; auto; contradiction.
      * apply PRES; cbn.
        -- exact HH.
        -- tauto.
        -- intros; discriminate.
        -- intros l [X|X]; discriminate.
    + exists (mkThread (GetPending :: rest) (Leaving l) got), (mkThread rest Idle (got ++ [l])). split.
      * constructor; cbn; rewrite ?app_nil_r; auto; contradiction.
      * apply PRES; cbn.
        -- exact HH.
        -- tauto.
        -- intros; discriminate.
        -- intros l' [X|X]; discriminate.
  - destruct todo; discriminate.
Qed.

Lemma by_thread_app : forall t a b, by_thread t (a ++ b) = by_thread t a ++ by_thread t b.
Proof. intros. apply filter_app. Qed.
Lemma drained_app : forall a b, drained (a ++ b) = drained a ++ drained b.
Proof. intros. apply flat_map_app. Qed.
Lemma pushed_app : forall a b, pushed (a ++ b) = pushed a ++ pushed b.
Proof. intros. apply flat_map_app. Qed.
Lemma by_thread_other : forall t u ev, by_thread t ev = ev -> u <> t -> by_thread u ev = [].
Proof.
  intros t u ev H N. induction ev as [|e ev IH]; [reflexivity|]. cbn in H |- *.
  destruct e as [v m|v m]; destruct (Nat.eqb t v) eqn:E.
  - apply Nat.eqb_eq in E. subst v. destruct (Nat.eqb u t) eqn:F; [apply Nat.eqb_eq in F; contradiction|].
    apply IH. injection H. auto.
  - exfalso. assert (L : length (by_thread t ev) <= length ev) by (unfold by_thread; clear; induction ev; cbn; [lia|]; destruct (match a with Pushed u _ => _ | Drained u _ => _ end); cbn; lia).
    unfold by_thread in L. rewrite H in L. cbn in L. lia.
  - apply Nat.eqb_eq in E. subst v. destruct (Nat.eqb u t) eqn:F; [apply Nat.eqb_eq in F; contradiction|].
    apply IH. injection H. auto.
  - exfalso. assert (L : length (by_thread t ev) <= length ev) by (unfold by_thread; clear; induction ev; cbn; [lia|]; destruct (match a with Pushed u _ => _ | Drained u _ => _ end); cbn; lia).
    unfold by_thread in L. rewrite H in L. cbn in L. lia.
Qed.

(** ** Whole runs *)
Lemma run_ok : forall sched p q evs, ok p -> peer_run p sched = (q, evs) ->
  ok q /\ length (pe_threads q) = length (pe_threads p) /\
  concat (drained evs) ++ pe_buffer q = pe_buffer p ++ pushed evs /\
  (forall t th, nth_error (pe_threads p) t = Some th -> exists th', nth_error (pe_threads q) t = Some th' /\
     outstanding th = map operation (by_thread t evs) ++ outstanding th' /\
     th_got th ++ in_flight th ++ drained (by_thread t evs) = th_got th' ++ in_flight th').
Proof.
  induction sched as [|t sched IH]; intros p q evs OK H; cbn [peer_run] in H.
  - injection H as <- <-. split; [exact OK|]. split; [reflexivity|]. split; [cbn; rewrite app_nil_r; reflexivity|].
    intros t th E. exists th. split; [exact E|]. cbn. rewrite !app_nil_r. auto.
  - destruct (peer_step p t) as [[p1 ev]|] eqn:ES; [|exact (IH p q evs OK H)].
    destruct (peer_run p1 sched) as [q' evs'] eqn:ER. injection H as <- <-.
    destruct (step_moved p t p1 ev OK ES) as (th0 & th1 & [M1 M2 M3 M4 M5 M6 M7] & OK1).
    assert (LT : t < length (pe_threads p)) by (apply nth_error_Some; congruence).
    destruct (IH p1 q' evs' OK1 ER) as (OKq & LQ & BQ & TQ).
    split; [exact OKq|]. split; [rewrite LQ, M2; apply set_thread_length; exact LT|]. split.
    + rewrite drained_app, concat_app, pushed_app, <- app_assoc, BQ, !app_assoc. f_equal. exact M6.
    + intros u th E. rewrite by_thread_app. destruct (Nat.eq_dec u t) as [->|N].
      * rewrite M1 in E. injection E as <-.
        destruct (TQ t th1) as (th' & E' & O & G); [rewrite M2; apply set_thread_same; exact LT|].
        exists th'. split; [exact E'|]. rewrite M3, map_app, drained_app, <- app_assoc. split.
        -- rewrite M4, O. reflexivity.
        -- rewrite <- G. rewrite 2!app_assoc. rewrite <- (app_assoc (th_got th0)), M5, <- app_assoc. reflexivity.
      * rewrite (by_thread_other t u ev M3 N). cbn [app]. apply TQ. rewrite M2, set_thread_other by assumption. exact E.
Qed.

Lemma init_nth : forall progs t prog, nth_error progs t = Some prog ->
  nth_error (pe_threads (peer_new progs)) t = Some (mkThread prog Idle []).
Proof. intros. cbn. rewrite nth_error_map, H. reflexivity. Qed.

Theorem queue_order : forall progs sched q evs, peer_run (peer_new progs) sched = (q, evs) ->
  concat (drained evs) ++ pe_buffer q = pushed evs.
Proof. intros * H. exact (proj1 (proj2 (proj2 (run_ok _ _ _ _ (new_ok progs) H)))). Qed.

Theorem queue_threads : forall progs sched q evs t prog, peer_run (peer_new progs) sched = (q, evs) ->
  nth_error progs t = Some prog -> exists th, nth_error (pe_threads q) t = Some th /\
    prog = map operation (by_thread t evs) ++ outstanding th /\
    drained (by_thread t evs) = th_got th ++ in_flight th.
Proof.
  intros * H E. destruct (run_ok _ _ _ _ (new_ok progs) H) as (_ & _ & _ & T).
  destruct (T t _ (init_nth _ _ _ E)) as (th & A & B & D). exists th. auto.
Qed.

(** A drain takes everything pushed so far. *)
Lemma run_app : forall a b p q1 e1 q2 e2, peer_run p a = (q1, e1) -> peer_run q1 b = (q2, e2) ->
  peer_run p (a ++ b) = (q2, e1 ++ e2).
Proof.
  induction a as [|t a IH]; intros b p q1 e1 q2 e2 H1 H2; cbn [peer_run app] in *.
  - injection H1 as <- <-. exact H2.
  - destruct (peer_step p t) as [[p1 ev]|]; [|eapply IH; eassumption].
    destruct (peer_run p1 a) as [q' e'] eqn:ER. injection H1 as <- <-.
    rewrite (IH b p1 _ _ _ _ ER H2), app_assoc. reflexivity.
Qed.
Lemma step_one_event : forall p t p' ev, peer_step p t = Some (p', ev) -> length ev <= 1.
Proof.
  intros p t p' ev H. unfold peer_step in H.
  repeat match type of H with
  | (match ?x with _ => _ end) = Some _ => destruct x; try discriminate
  | Some (_, _) = Some (_, _) => injection H as _ <-; cbn; lia
  end.
Qed.
Lemma run_cut : forall sched p q a e b, peer_run p sched = (q, a ++ e :: b) ->
  exists s1 t s2 p1 p2 , sched = s1 ++ t :: s2 /\ peer_run p s1 = (p1, a) /\ peer_step p1 t = Some (p2, [e]).
Proof.
  induction sched as [|t sched IH]; intros p q a e b H; cbn [peer_run] in H.
  - destruct a; discriminate.
  - destruct (peer_step p t) as [[p1 ev]|] eqn:ES.
    + destruct (peer_run p1 sched) as [q' evs'] eqn:ER. injection H as <- H.
      pose proof (step_one_event _ _ _ _ ES) as L.
      destruct ev as [|x ev].
      * cbn in H. subst evs'. destruct (IH _ _ _ _ _ ER) as (s1 & u & s2 & p2 & p3 & -> & R & S).
        exists (t :: s1), u, s2, p2, p3. split; [reflexivity|]. split; [|exact S]. cbn [peer_run]. rewrite ES, R. reflexivity.
      * destruct ev as [|y ev]; [|cbn in L; lia]. cbn in H. destruct a as [|x' a].
        -- injection H as -> _. exists [], t, sched, p, p1. auto.
        -- injection H as <- H. subst evs'. destruct (IH _ _ _ _ _ ER) as (s1 & u & s2 & p2 & p3 & -> & R & S).
           exists (t :: s1), u, s2, p2, p3. split; [reflexivity|]. split; [|exact S]. cbn [peer_run]. rewrite ES, R. reflexivity.
    + destruct (IH _ _ _ _ _ H) as (s1 & u & s2 & p2 & p3 & -> & R & S).
      exists (t :: s1), u, s2, p2, p3. split; [reflexivity|]. split; [|exact S]. cbn [peer_run]. rewrite ES, R. reflexivity.
Qed.
Theorem drain_takes_all : forall progs sched q a t ms b, peer_run (peer_new progs) sched = (q, a ++ Drained t ms :: b) ->
  concat (drained a) ++ ms = pushed a.
Proof.
  intros * H. destruct (run_cut _ _ _ _ _ _ H) as (s1 & u & s2 & p1 & p2 & _ & R & S).
  rewrite <- (queue_order _ _ _ _ R). f_equal.
  destruct (run_ok _ _ _ _ (new_ok progs) R) as (OK1 & _).
  destruct (step_moved _ _ _ _ OK1 S) as (th & th' & [M1 M2 M3 M4 M5 M6 M7] & _).
  assert (E : u = t). { cbn in M3. destruct (Nat.eqb u t) eqn:E; [apply Nat.eqb_eq; exact E|discriminate]. } subst u.
  rewrite (M7 ms (or_introl eq_refl)) in M6. cbn in M6. rewrite !app_nil_r in M6. exact M6.
Qed.

(** ** Exactly once *)
Definition held (th : thread) : list message := concat (th_got th ++ in_flight th).
Definition to_push (th : thread) : list message := program_pushes (outstanding th).
Lemma program_pushes_ops : forall ev ops, program_pushes (map operation ev ++ ops) = pushed ev ++ program_pushes ops.
Proof.
  intros ev ops. unfold program_pushes. rewrite flat_map_app. f_equal. induction ev as [|[t m|t m] ev IH]; [reflexivity|exact (f_equal (cons m) IH)|exact IH].
Qed.
Lemma total_step : forall p t p' ev, ok p -> peer_step p t = Some (p', ev) ->
  Permutation (concat (map held (pe_threads p')) ++ pe_buffer p' ++ concat (map to_push (pe_threads p')))
              (concat (map held (pe_threads p)) ++ pe_buffer p ++ concat (map to_push (pe_threads p))).
Proof.
  intros p t p' ev OK S. destruct (step_moved _ _ _ _ OK S) as (th & th' & [M1 M2 M3 M4 M5 M6 M7] & _).
  destruct (set_thread_split _ _ _ th' M1) as (a & b & E1 & E2). rewrite M2, E2, E1.
  rewrite !map_app, !concat_app. cbn [map concat].
  assert (HH : held th' = held th ++ concat (drained ev)) by (unfold held; rewrite <- M5, app_assoc, concat_app; reflexivity).
  assert (HT : to_push th = pushed ev ++ to_push th') by (unfold to_push; rewrite M4, program_pushes_ops; reflexivity).
  rewrite HH, HT.
  set (A := concat (map held a)). set (B := concat (map held b)). set (X := concat (map to_push a)). set (Y := concat (map to_push b)).
  transitivity (A ++ held th ++ B ++ (concat (drained ev) ++ pe_buffer p') ++ X ++ to_push th' ++ Y).
  { rewrite <- !app_assoc. apply Permutation_app_head, Permutation_app_head.
    rewrite (app_assoc (concat (drained ev)) B), (app_assoc B (concat (drained ev))).
    apply Permutation_app_tail, Permutation_app_comm. }
  rewrite M6. rewrite <- !app_assoc. do 4 apply Permutation_app_head.
  rewrite !app_assoc. do 2 apply Permutation_app_tail. apply Permutation_app_comm.
Qed.
Lemma step_moved_ok : forall p t p' ev, ok p -> peer_step p t = Some (p', ev) -> ok p'.
Proof. intros * OK S. destruct (step_moved _ _ _ _ OK S) as (? & ? & _ & K). exact K. Qed.
Lemma total_run : forall sched p q evs, ok p -> peer_run p sched = (q, evs) ->
  Permutation (concat (map held (pe_threads q)) ++ pe_buffer q ++ concat (map to_push (pe_threads q)))
              (concat (map held (pe_threads p)) ++ pe_buffer p ++ concat (map to_push (pe_threads p))).
Proof.
  induction sched as [|t sched IH]; intros p q evs OK H; cbn [peer_run] in H.
  - injection H as <- _. reflexivity.
  - destruct (peer_step p t) as [[p1 ev]|] eqn:ES; [|exact (IH p q evs OK H)].
    destruct (peer_run p1 sched) as [q' evs'] eqn:ER. injection H as <- <-.
    rewrite (IH p1 q' evs'); [apply (total_step _ _ _ _ OK ES)|exact (step_moved_ok _ _ _ _ OK ES)|exact ER].
Qed.

Theorem exactly_once : forall progs sched q evs, peer_run (peer_new progs) sched = (q, evs) ->
  Permutation (concat (map (fun th => concat (th_got th ++ in_flight th)) (pe_threads q)) ++ pe_buffer q ++
               concat (map (fun th => program_pushes (outstanding th)) (pe_threads q)))
              (concat (map program_pushes progs)).
Proof.
  intros * H. etransitivity; [exact (total_run _ _ _ _ (new_ok progs) H)|].
  cbn [peer_new pe_threads pe_buffer]. rewrite !map_map. cbn [held to_push in_flight outstanding th_got th_at th_todo].
  unfold held, to_push. cbn. 
  replace (concat (map (fun _ : list peer_op => @nil message) progs)) with (@nil message); [reflexivity|].
  clear. induction progs; [reflexivity|exact IHprogs].
Qed.
Theorem all_finished : forall progs sched q evs, peer_run (peer_new progs) sched = (q, evs) ->
  Forall finished (pe_threads q) ->
  Permutation (concat (concat (map th_got (pe_threads q))) ++ pe_buffer q) (concat (map program_pushes progs)).
Proof.
  intros * H F. rewrite <- (exactly_once _ _ _ _ H). clear H.
  assert (A : concat (map (fun th => program_pushes (outstanding th)) (pe_threads q)) = []).
  { induction F as [|th l [Ht Ha] F IH]; [reflexivity|]. cbn [map concat]. rewrite IH. unfold outstanding. rewrite Ha, Ht. reflexivity. }
  rewrite A, app_nil_r. apply Permutation_app_tail.
  assert (B : concat (map (fun th => concat (th_got th ++ in_flight th)) (pe_threads q)) = concat (concat (map th_got (pe_threads q)))).
  { clear A. induction F as [|th l [Ht Ha] F IH]; [reflexivity|]. cbn [map concat]. rewrite IH.
    unfold in_flight. rewrite Ha, app_nil_r, <- concat_app. reflexivity. }
  rewrite B. reflexivity.
Qed.

(** ** Mutual exclusion, progress, panics *)
Theorem exclusion : forall progs sched q evs t u th uh, peer_run (peer_new progs) sched = (q, evs) ->
  nth_error (pe_threads q) t = Some th -> nth_error (pe_threads q) u = Some uh -> in_section th -> in_section uh -> t = u.
Proof.
  intros * H Et Eu It Iu. destruct (run_ok _ _ _ _ (new_ok progs) H) as (OKq & _).
  apply (ok_holder q OKq t th Et) in It. apply (ok_holder q OKq u uh Eu) in Iu. congruence.
Qed.
Theorem progress : forall progs sched q evs t th, peer_run (peer_new progs) sched = (q, evs) ->
  nth_error (pe_threads q) t = Some th -> th_todo th <> [] -> th_at th <> Dead ->
  exists u q' ev, peer_step q u = Some (q', ev).
Proof.
  intros * H Et Ht Hd. destruct (run_ok _ _ _ _ (new_ok progs) H) as (OKq & _).
  assert (A : forall u uh, nth_error (pe_threads q) u = Some uh -> in_section uh -> exists q' ev, peer_step q u = Some (q', ev)).
  { intros u uh Eu Iu. unfold peer_step. rewrite Eu. unfold in_section in Iu. destruct (th_at uh) as [|l|l|l|] eqn:EA; try contradiction.
    - destruct (ok_local q OKq u uh l Eu EA) as [_ NE]. destruct (th_todo uh) as [|[m| |] r]; [contradiction| | |]; eauto.
    - destruct (th_todo uh) as [|[m| |] r]; eauto. }
  destruct (pe_holder q) as [h|] eqn:EH.
  - pose proof (ok_exists q OKq h EH) as L. destruct (nth_error (pe_threads q) h) as [hh|] eqn:E; [|apply nth_error_None in E; lia].
    exists h. apply (A h hh E). apply (ok_holder q OKq h hh E). exact EH.
  - destruct (th_at th) as [|l|l|l|] eqn:EA.
    + exists t. unfold peer_step. rewrite Et, EA, EH. destruct (th_todo th); [contradiction|]. destruct (pe_poisoned q); eauto.
    + exists t. apply (A t th Et). unfold in_section. rewrite EA. exact I.
    + exists t. apply (A t th Et). unfold in_section. rewrite EA. exact I.
    + exists t. unfold peer_step. rewrite Et, EA. destruct (th_todo th) as [|[m| |] r]; [contradiction| | |]; eauto.
    + contradiction.
Qed.

(** A thread only dies of a [Crash], its own or an earlier one. *)
Definition calm (p : peer) : Prop := pe_poisoned p = false /\ Forall (fun th => ~ In Crash (th_todo th) /\ th_at th <> Dead) (pe_threads p).
Lemma calm_step : forall p t p' ev, calm p -> peer_step p t = Some (p', ev) -> calm p'.
Proof.
  intros p t p' ev [NP F] H. unfold peer_step in H. destruct (nth_error (pe_threads p) t) as [th|] eqn:ET; [|discriminate].
  assert (U : forall x, ~ In Crash (th_todo x) /\ th_at x <> Dead ->
     Forall (fun th => ~ In Crash (th_todo th) /\ th_at th <> Dead) (set_thread (pe_threads p) t x)).
  { intros x Hx. destruct (set_thread_split _ _ _ x ET) as (a & b & E1 & ->). rewrite E1 in F.
    apply Forall_app in F. destruct F as [Fa Fb]. inversion Fb; subst. apply Forall_app. split; [assumption|]. constructor; assumption. }
  assert (HT : ~ In Crash (th_todo th) /\ th_at th <> Dead).
  { rewrite Forall_forall in F. apply F. eapply nth_error_In; exact ET. }
  destruct HT as [HC HD]. rewrite NP in H.
  destruct (th_at th) as [|l|l|l|] eqn:EA; destruct (th_todo th) as [|[m| |] r] eqn:EO; try discriminate;
    try (exfalso; apply HC; left; reflexivity);
    try (destruct (pe_holder p); [discriminate|]); injection H as <- _; split; try reflexivity; try exact NP; cbn [pe_threads];
    apply U; cbn [th_todo th_at]; split; try discriminate; try exact HC; intro X; apply HC; right; exact X.
Qed.
Theorem no_panic : forall progs sched q evs, Forall (fun prog => ~ In Crash prog) progs ->
  peer_run (peer_new progs) sched = (q, evs) -> pe_poisoned q = false /\ Forall (fun th => th_at th <> Dead) (pe_threads q).
Proof.
  intros progs sched q evs F H.
  assert (K : calm (peer_new progs)).
  { split; [reflexivity|]. cbn. apply Forall_map. eapply Forall_impl; [|exact F]. cbn. intros a Ha. split; [exact Ha|discriminate]. }
  revert K H. generalize (peer_new progs). clear. revert q evs.
  induction sched as [|t sched IH]; intros q evs p K H; cbn [peer_run] in H.
  - injection H as <- _. destruct K as [A B]. split; [exact A|]. eapply Forall_impl; [|exact B]. cbn. tauto.
  - destruct (peer_step p t) as [[p1 ev]|] eqn:ES; [|exact (IH q evs p K H)].
    destruct (peer_run p1 sched) as [q' evs'] eqn:ER. injection H as <- <-.
    apply (IH q' evs' p1); [exact (calm_step _ _ _ _ K ES)|exact ER].
Qed.

(** ** After a crash *)
Definition wrecked (p : peer) : Prop := pe_poisoned p = true /\ pe_holder p = None.

Lemma forall_set : forall (P : thread -> Prop) l t x, t < length l -> Forall P l -> P x -> Forall P (set_thread l t x).
Proof.
  intros P l t x L H Hx. destruct (nth_error l t) as [y|] eqn:E; [|apply nth_error_None in E; lia].
  destruct (set_thread_split l t y x E) as (a & b & -> & ->). apply Forall_app in H as [Ha Hb].
  inversion Hb; subst. apply Forall_app. split; [assumption|]. constructor; assumption.
Qed.

Lemma wrecked_step : forall p t p' ev, ok p -> wrecked p -> peer_step p t = Some (p', ev) ->
  wrecked p' /\ ev = [] /\ pe_buffer p' = pe_buffer p.
Proof.
  intros p t p' ev OK [W1 W2] H. unfold peer_step in H. destruct (nth_error (pe_threads p) t) as [th|] eqn:ET; [|discriminate].
  pose proof (ok_holder p OK t th ET) as HH. unfold in_section in HH. rewrite W2 in HH. rewrite W1, W2 in H.
  destruct (th_at th) as [|l|l|l|], (th_todo th) as [|[m| |] todo]; try discriminate H;
    try (destruct (proj1 HH I); fail); try (specialize (proj1 HH I); discriminate); injection H as <- <-; repeat split.
Qed.
Lemma wrecked_run : forall sched p q evs, ok p -> wrecked p -> peer_run p sched = (q, evs) ->
  wrecked q /\ evs = [] /\ pe_buffer q = pe_buffer p.
Proof.
  induction sched as [|t sched IH]; intros p q evs OK W H; cbn [peer_run] in H.
  - injection H as <- <-. auto.
  - destruct (peer_step p t) as [[p' ev]|] eqn:E; [|apply (IH p); assumption].
    destruct (peer_run p' sched) as [q' evs'] eqn:R. injection H as <- <-.
    destruct (wrecked_step p t p' ev OK W E) as (W' & -> & B).
    destruct (IH p' q' evs' (step_moved_ok _ _ _ _ OK E) W' R) as (W'' & -> & B'). split; [exact W''|]. split; [reflexivity|congruence].
Qed.

Definition safe (p : peer) : Prop := Forall (fun th => th_at th <> Dead) (pe_threads p) \/ wrecked p.
Lemma safe_step : forall p t p' ev, ok p -> safe p -> peer_step p t = Some (p', ev) -> safe p'.
Proof.
  intros p t p' ev OK [S|W] H; [|right; apply (wrecked_step p t p' ev OK W H)].
  unfold peer_step in H. destruct (nth_error (pe_threads p) t) as [th|] eqn:ET; [|discriminate].
  assert (LT : t < length (pe_threads p)) by (apply nth_error_Some; congruence).
  destruct (th_at th) as [|l|l|l|], (th_todo th) as [|[m| |] todo]; try discriminate H;
    try (destruct (pe_holder p) as [h|]; [discriminate H|]; destruct (pe_poisoned p));
    injection H as <- <-; try (right; split; reflexivity);
    left; cbn [pe_threads]; apply forall_set; try assumption; cbn [th_at]; discriminate.
Qed.
Lemma safe_run : forall sched p q evs, ok p -> safe p -> peer_run p sched = (q, evs) -> ok q /\ safe q.
Proof.
  induction sched as [|t sched IH]; intros p q evs OK S H; cbn [peer_run] in H.
  - injection H as <- <-. auto.
  - destruct (peer_step p t) as [[p' ev]|] eqn:E; [|apply (IH p q evs); assumption].
    destruct (peer_run p' sched) as [q' evs'] eqn:R. injection H as <- <-.
    apply (IH p' q' evs'); [exact (step_moved_ok _ _ _ _ OK E)|exact (safe_step _ _ _ _ OK S E)|exact R].
Qed.
Lemma dead_wrecked : forall progs sched q evs t th, peer_run (peer_new progs) sched = (q, evs) ->
  nth_error (pe_threads q) t = Some th -> th_at th = Dead -> ok q /\ wrecked q.
Proof.
  intros progs sched q evs t th H HT HD. destruct (safe_run _ _ _ _ (new_ok progs) ltac:(left; cbn; apply Forall_map, Forall_forall; discriminate) H) as [OK [S|W]].
  - rewrite Forall_forall in S. destruct (S th (nth_error_In _ _ HT) HD).
  - auto.
Qed.

Theorem after_crash : forall progs a q1 e1 t th b q2 e2, peer_run (peer_new progs) a = (q1, e1) ->
  nth_error (pe_threads q1) t = Some th -> th_at th = Dead -> peer_run q1 b = (q2, e2) ->
  e2 = [] /\ pe_buffer q2 = pe_buffer q1.
Proof.
  intros progs a q1 e1 t th b q2 e2 H HT HD R. destruct (dead_wrecked _ _ _ _ _ _ H HT HD) as [OK W].
  destruct (wrecked_run _ _ _ _ OK W R) as (_ & A & B). auto.
Qed.
Theorem crash_spreads : forall progs a q1 e1 t th u uh, peer_run (peer_new progs) a = (q1, e1) ->
  nth_error (pe_threads q1) t = Some th -> th_at th = Dead ->
  nth_error (pe_threads q1) u = Some uh -> th_at uh = Idle -> th_todo uh <> [] ->
  exists q2 uh', peer_step q1 u = Some (q2, []) /\ nth_error (pe_threads q2) u = Some uh' /\ th_at uh' = Dead /\
    th_got uh' = th_got uh.
Proof.
  intros progs a q1 e1 t th u uh H HT HD HU HI HN. destruct (dead_wrecked _ _ _ _ _ _ H HT HD) as [OK [W1 W2]].
  unfold peer_step. rewrite HU, HI, W1, W2. destruct (th_todo uh) as [|o todo]; [contradiction|].
  do 2 eexists. split; [reflexivity|]. cbn [pe_threads].
  rewrite set_thread_same by (apply nth_error_Some; congruence). repeat split.
Qed.
