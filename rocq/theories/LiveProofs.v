(** * LiveProofs: every fair schedule of the queue comes to an end. *)
From Coq Require Import Arith Lia.
From Verif Require Import Base Codec Types Messages Frame Noise Network SpecNetwork SpecLive PeerProofs.
Open Scope nat_scope.

Definition weight (th : thread) : nat :=
  match th_at th with
  | Dead => 0
  | Idle => 4 * length (th_todo th)
  | Entered _ => 4 * length (th_todo th) - 1
  | Worked _ => 4 * length (th_todo th) - 2
  | Leaving _ => 4 * length (th_todo th) - 3
  end.
Definition load (p : peer) : nat := list_sum (map weight (pe_threads p)).

Lemma load_set : forall p t th th', nth_error (pe_threads p) t = Some th -> weight th' < weight th ->
  list_sum (map weight (set_thread (pe_threads p) t th')) < load p.
Proof.
  intros * E W. unfold load. destruct (set_thread_split _ _ _ th' E) as (a & b & -> & ->).
  rewrite !map_app, !list_sum_app. cbn [map list_sum fold_right]. unfold list_sum. cbn. lia.
Qed.
Lemma step_load : forall p t p' ev, ok p -> peer_step p t = Some (p', ev) ->
  load p' < load p /\ length (pe_threads p') = length (pe_threads p).
Proof.
  intros p t p' ev OK H. unfold peer_step in H. destruct (nth_error (pe_threads p) t) as [th|] eqn:ET; [|discriminate].
  assert (LT : t < length (pe_threads p)) by (apply nth_error_Some; congruence).
  pose proof (fun l => ok_local p OK t th l ET) as HL. pose proof (fun l => ok_push p OK t th l ET) as HP.
  destruct (th_at th) as [|l|l|l|] eqn:EA; destruct (th_todo th) as [|[m| |] r] eqn:EO; try discriminate H;
    try (destruct (pe_holder p); [discriminate H|]; destruct (pe_poisoned p));
    try (exfalso; destruct (HP l (or_introl eq_refl)) as [(? & ? & X & _)|(? & X)]; discriminate X);
    injection H as <- <-; unfold load at 1; cbn [pe_threads]; (split; [apply (load_set p t th _ ET)|apply set_thread_length; exact LT]);
    unfold weight; cbn [th_at th_todo]; rewrite EA, EO; cbn [length]; lia.
Qed.
Lemma run_load : forall sched p q evs, ok p -> peer_run p sched = (q, evs) ->
  ok q /\ load q + moves p sched <= load p /\ length (pe_threads q) = length (pe_threads p).
Proof.
  induction sched as [|t sched IH]; intros p q evs OK H; cbn [peer_run moves] in *.
  - injection H as <- _. split; [exact OK|]. split; [lia|reflexivity].
  - destruct (peer_step p t) as [[p1 ev]|] eqn:ES; [|exact (IH p q evs OK H)].
    destruct (peer_run p1 sched) as [q' evs'] eqn:ER. injection H as <- <-.
    destruct (step_load p t p1 ev OK ES) as [L1 L2]. destruct (IH p1 q' evs' (step_moved_ok _ _ _ _ OK ES) ER) as (A & B & D).
    split; [exact A|]. split; [lia|congruence].
Qed.
Lemma can_move : forall p t th, ok p -> nth_error (pe_threads p) t = Some th -> ~ ended th ->
  exists u, u < length (pe_threads p) /\ peer_step p u <> None.
Proof.
  intros q t th OKq Et NE.
  assert (A : forall u uh, nth_error (pe_threads q) u = Some uh -> in_section uh -> peer_step q u <> None).
  { intros u uh Eu Iu. unfold peer_step. rewrite Eu. unfold in_section in Iu. destruct (th_at uh) as [|l|l|l|] eqn:EA; try contradiction.
    - destruct (ok_local q OKq u uh l Eu EA) as [_ N]. destruct (th_todo uh) as [|[m| |] r]; [contradiction| | |]; discriminate.
    - destruct (th_todo uh) as [|[m| |] r]; discriminate. }
  assert (Lt : t < length (pe_threads q)) by (apply nth_error_Some; congruence).
  destruct (pe_holder q) as [h|] eqn:EH.
  - pose proof (ok_exists q OKq h EH) as L. destruct (nth_error (pe_threads q) h) as [hh|] eqn:E; [|apply nth_error_None in E; lia].
    exists h. split; [exact L|]. apply (A h hh E). apply (ok_holder q OKq h hh E). exact EH.
  - exists t. split; [exact Lt|]. destruct (th_at th) as [|l|l|l|] eqn:EA.
    + unfold peer_step. rewrite Et, EA, EH. destruct (th_todo th) as [|o r] eqn:EO.
      * destruct NE. left. split; assumption.
      * destruct (pe_poisoned q); discriminate.
    + apply (A t th Et). unfold in_section. rewrite EA. exact I.
    + apply (A t th Et). unfold in_section. rewrite EA. exact I.
    + unfold peer_step. rewrite Et, EA. destruct (ok_push q OKq t th l Et (or_intror EA)) as [(m & r & -> & _)|(r & ->)]; discriminate.
    + destruct NE. right. exact EA.
Qed.
Lemma round_moves : forall r p u, In u r -> peer_step p u <> None -> 0 < moves p r.
Proof.
  induction r as [|t r IH]; intros p u I N; [contradiction|]. cbn [moves].
  destruct (peer_step p t) as [[p' ev]|] eqn:E; [lia|]. destruct I as [->|I]; [contradiction|]. exact (IH p u I N).
Qed.
Lemma ended_dec : forall th, ended th \/ ~ ended th.
Proof.
  intros [todo at_ got]. unfold ended, finished. cbn. destruct at_; try (right; intros [[_ X]|X]; discriminate); [|left; right; reflexivity].
  destruct todo; [left; left; split; reflexivity|right; intros [[X _]|X]; discriminate].
Qed.
Lemma all_ended_or : forall l, Forall ended l \/ exists t th, nth_error l t = Some th /\ ~ ended th.
Proof.
  induction l as [|th l [F|(t & x & E & N)]]; [left; constructor| |right; exists (S t), x; split; assumption].
  destruct (ended_dec th) as [D|N]; [left; constructor; assumption|right; exists 0, th; split; [reflexivity|assumption]].
Qed.
Lemma load_zero : forall p, ok p -> load p = 0 -> Forall ended (pe_threads p).
Proof.
  intros p OK L. destruct (all_ended_or (pe_threads p)) as [F|(t & th & E & N)]; [exact F|exfalso].
  destruct (can_move p t th OK E N) as (u & _ & M). destruct (peer_step p u) as [[p' ev]|] eqn:S; [|contradiction].
  destruct (step_load p u p' ev OK S). lia.
Qed.
Lemma ended_still : forall p t, Forall ended (pe_threads p) -> peer_step p t = None.
Proof.
  intros p t F. unfold peer_step. destruct (nth_error (pe_threads p) t) as [th|] eqn:E; [|reflexivity].
  rewrite Forall_forall in F. destruct (F th (nth_error_In _ _ E)) as [[T A]|A].
  - rewrite A, T. reflexivity.
  - rewrite A. destruct (th_todo th); reflexivity.
Qed.
Lemma ended_run : forall sched p, Forall ended (pe_threads p) -> peer_run p sched = (p, []).
Proof.
  induction sched as [|t sched IH]; intros p F; [reflexivity|]. cbn [peer_run]. rewrite (ended_still p t F). apply IH, F.
Qed.

Lemma rounds_end : forall rounds p q evs, ok p -> Forall (full_round (length (pe_threads p))) rounds ->
  load p <= length rounds -> peer_run p (concat rounds) = (q, evs) -> Forall ended (pe_threads q).
Proof.
  induction rounds as [|r rounds IH]; intros p q evs OK F L H.
  - cbn in H. injection H as <- _. apply load_zero; [exact OK|cbn in L; lia].
  - inversion F as [|? ? Fr F']; subst. cbn [concat length] in *.
    destruct (peer_run p r) as [p1 e1] eqn:E1. destruct (peer_run p1 (concat rounds)) as [q2 e2] eqn:E2.
    pose proof (run_app _ _ _ _ _ _ _ E1 E2) as E. rewrite H in E. injection E as -> _.
    destruct (run_load r p p1 e1 OK E1) as (OK1 & L1 & N1).
    destruct (all_ended_or (pe_threads p)) as [A|(t & th & Et & NE)].
    + rewrite (ended_run r p A) in E1. injection E1 as <- _. rewrite (ended_run _ p A) in E2. injection E2 as <- _. exact A.
    + destruct (can_move p t th OK Et NE) as (u & Lu & M). pose proof (round_moves r p u (Fr u Lu) M) as P.
      apply (IH p1 q2 e2 OK1); [rewrite N1; exact F'|lia|exact E2].
Qed.

Lemma load_new : forall progs, load (peer_new progs) = 4 * length (concat progs).
Proof.
  intro progs. unfold load. cbn [peer_new pe_threads]. rewrite map_map. cbn [weight th_at th_todo].
  induction progs as [|a l IH]; [reflexivity|]. cbn [map concat]. rewrite app_length. unfold list_sum in *. cbn [fold_right]. rewrite IH. cbn. lia.
Qed.
Lemma new_threads : forall progs, length (pe_threads (peer_new progs)) = length progs.
Proof. intro. cbn. apply map_length. Qed.

Theorem rounds_finish : forall progs rounds q evs, Forall (full_round (length progs)) rounds ->
  4 * length (concat progs) <= length rounds -> peer_run (peer_new progs) (concat rounds) = (q, evs) ->
  Forall ended (pe_threads q).
Proof.
  intros * F L H. apply (rounds_end rounds (peer_new progs) q evs (new_ok progs)); [rewrite new_threads; exact F|rewrite load_new; exact L|exact H].
Qed.
Theorem few_moves : forall progs sched, moves (peer_new progs) sched <= 4 * length (concat progs).
Proof.
  intros. destruct (peer_run (peer_new progs) sched) as [q evs] eqn:E.
  destruct (run_load _ _ _ _ (new_ok progs) E) as (_ & A & _). rewrite load_new in A. lia.
Qed.

(** A fair schedule contains any number of full rounds. *)
Lemma fair_round : forall n f k, fair n f -> exists j, full_round n (map f (seq k j)).
Proof.
  intros n f k F. assert (A : forall m, m <= n -> exists j, forall t, t < m -> In t (map f (seq k j))).
  { induction m as [|m IH]; intro L; [exists 0; intros; lia|]. destruct IH as [j J]; [lia|].
    destruct (F m k) as (x & X1 & X2); [lia|]. exists (j + S (x - k)). intros t T.
    rewrite seq_app, map_app, in_app_iff. destruct (Nat.eq_dec t m) as [->|D]; [|left; apply J; lia].
    destruct (le_lt_dec (k + j) x) as [G|G].
    - right. apply in_map_iff. exists x. split; [exact X2|]. apply in_seq. lia.
    - left. apply in_map_iff. exists x. split; [exact X2|]. apply in_seq. lia. }
  exact (A n (le_n n)).
Qed.
Lemma fair_rounds : forall n f c k, fair n f -> exists j rounds, map f (seq k j) = concat rounds /\ length rounds = c /\ Forall (full_round n) rounds.
Proof.
  intros n f c. induction c as [|c IH]; intros k F; [exists 0, []; repeat split; constructor|].
  destruct (fair_round n f k F) as [j1 R1]. destruct (IH (k + j1) F) as (j2 & rounds & E & L & A).
  exists (j1 + j2), (map f (seq k j1) :: rounds). rewrite seq_app, map_app, E. cbn [concat length]. repeat split; [congruence|constructor; assumption].
Qed.
Theorem fair_finish : forall progs f, fair (length progs) f ->
  exists k q evs, Forall ended (pe_threads q) /\ forall k', k <= k' -> peer_run (peer_new progs) (upto f k') = (q, evs).
Proof.
  intros progs f F. destruct (fair_rounds (length progs) f (4 * length (concat progs)) 0 F) as (k & rounds & E & L & A).
  destruct (peer_run (peer_new progs) (upto f k)) as [q evs] eqn:R. exists k, q, evs.
  assert (D : Forall ended (pe_threads q)).
  { unfold upto in R. rewrite E in R. apply (rounds_finish progs rounds q evs A); [lia|exact R]. }
  split; [exact D|]. intros k' L'. unfold upto. replace k' with (k + (k' - k)) by lia. rewrite seq_app, map_app. cbn [plus].
  pose proof (run_app _ _ _ _ _ _ _ R (ended_run (map f (seq k (k' - k))) q D)) as X. rewrite app_nil_r in X. exact X.
Qed.
(** Without crashes: everything is handed out or still waiting. *)
Theorem fair_all : forall progs f, fair (length progs) f -> Forall (fun prog => ~ In Crash prog) progs ->
  exists k q evs, Forall finished (pe_threads q) /\ forall k', k <= k' -> peer_run (peer_new progs) (upto f k') = (q, evs).
Proof.
  intros progs f F NC. destruct (fair_finish progs f F) as (k & q & evs & D & A). exists k, q, evs. split; [|exact A].
  destruct (no_panic progs (upto f k) q evs NC (A k (le_n k))) as [_ ND].
  rewrite Forall_forall in *. intros th I. destruct (D th I) as [X|X]; [exact X|]. destruct (ND th I X).
Qed.
