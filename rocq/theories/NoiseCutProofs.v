(** * NoiseCutProofs: lemmas for C145. *)
From Coq Require Import Arith Lia ZArith ZifyBool ZifyNat ZifyN.
From Verif Require Import Base Codec Types Certs SpecWire Noise SpecNoise SpecCerts SpecSession Network SpecNetwork Base58Facts CertProofs NoiseSamples NetworkProofs Apps AppProofs SpecMiner MinerProofs Mains SpecMains MainProofs NoiseMainProofs Cuts CutRunProofs NoiseCuts SpecNoiseCuts.
Local Open Scope N_scope.
Local Open Scope list_scope.

(** ** Connections *)
Lemma read_here : forall b k bs, stream_read (part b k) = Some bs -> a_part b bs.
Proof.
  intros b k bs H. destruct b as [|x b].
  - unfold part in H. rewrite skipn_nil, firstn_nil in H. cbn in H. injection H as <-. left. split; reflexivity.
  - rewrite read_part in H by discriminate. destruct k as [|k]; [discriminate H|]. injection H as <-. right. exists (S k).
    split; [lia|]. split; [discriminate|reflexivity].
Qed.
Lemma last_snoc : forall l s t, last_stream (l ++ [s]) t = l ++ [t].
Proof. intros l s t. unfold last_stream. rewrite removelast_last. reflexivity. Qed.

(** What was written on a connection and when; [None]: nothing yet. *)
Definition written := option (bytes * nat).
Definition shows (o : written) (s : stream) : Prop :=
  match o with None => s = opened | Some (b, _) => exists k, s = part b k end.
Lemma same_length : forall A B (R : A -> B -> Prop) l l', Forall2 R l l' -> length l = length l'.
Proof. intros A B R l l' H. induction H; cbn; congruence. Qed.
Lemma shows_arrive : forall wr l, Forall2 shows wr l -> forall k n, Forall2 shows wr (arrive_on k n l).
Proof.
  intros wr l H. unfold arrive_on. induction H as [|o s wr l A H IH]; intros k n.
  - rewrite firstn_nil, skipn_nil. constructor.
  - destruct k as [|k]; cbn [firstn skipn app].
    + constructor; [|exact H]. destruct o as [[b t]|]; cbn [shows] in *.
      * destruct A as [j ->]. exists (j + n)%nat. apply arrive_part.
      * subst s. unfold opened. apply arrive_open.
    + constructor; [exact A|apply IH].
Qed.
Lemma shows_nth : forall wr l, Forall2 shows wr l -> forall k s, nth_error l k = Some s -> exists o, nth_error wr k = Some o /\ shows o s.
Proof.
  intros wr l H. induction H as [|o s0 wr l A H IH]; intros [|k] s N; cbn [nth_error] in N; try discriminate N.
  - injection N as <-. exists o. split; [reflexivity|exact A].
  - exact (IH k s N).
Qed.
Lemma firstn_snoc : forall A (l : list A) k x, nth_error l k = Some x -> firstn (S k) l = firstn k l ++ [x].
Proof. intros A l. induction l as [|a l IH]; intros [|k] x H; cbn [nth_error] in H; try discriminate H; [injection H as ->; reflexivity|]. cbn [firstn app]. f_equal. apply IH. exact H. Qed.

Section Run.
Variables (C : crypto) (E : ed_ops) (pf : profile).
Variables (rsi rnd rnd1 rnd2 rsr : bytes) (static : keypair) (authority : ed_keypair) (text : bytes).
Variables clock clock' : nat -> system_time.
Let zs : bytes := repeat x00 1024.
Variables (sm : session) (m1 : bytes).
Hypothesis Hm1 : nh_send C rnd (new_outbound C rsi) zs = (sm, Ok m1).
Hypothesis Nm1 : m1 <> [].
Let ev := nc_happens C E pf rsi rnd rnd1 rnd2 rsr static authority text clock clock'.
Let main := nc_main C E pf rsi rnd rnd1 rnd2 rsr static authority text clock clock'.

(** The pool has read the first [k] bytes and is in [s1] with the buffer [b1]; and then has sent [m2]. *)
Definition began (k : nat) (s1 : session) (b1 : bytes) : Prop :=
  (1 <= k)%nat /\ exists u, recv_message C (new_inbound C (Some static) rsr) (read_into zs (firstn k m1)) = (s1, b1, Ok u).
Definition replied (k : nat) (s2 : session) (m2 : bytes) : Prop := exists s1 b1, began k s1 b1 /\ nh_send C rnd1 s1 b1 = (s2, Ok m2).
Definition certified (i : nat) (buf : bytes) : Prop := nh_certificate E static authority (clock i) (clock' i) = Some buf.
Inductive pool_inv (now : nat) : nh_pool_at -> list written -> Prop :=
| PI_start : pool_inv now NP_start []
| PI_bound : pool_inv now NP_bound []
| PI_accepted : pool_inv now NP_accepted []
| PI_read : forall k, (1 <= k)%nat -> pool_inv now (NP_read (read_into zs (firstn k m1))) []
| PI_first : forall k s1 b1, began k s1 b1 -> pool_inv now (NP_first s1 b1) [None]
| PI_replied : forall k s2 m2 t, (t < now)%nat -> replied k s2 m2 -> pool_inv now (NP_replied s2) [Some (m2, t)]
| PI_second : forall k s2 m2 t i buf, (t < now)%nat -> replied k s2 m2 -> certified i buf -> (i < now)%nat -> pool_inv now (NP_second s2 buf) [Some (m2, t); None]
| PI_done : forall k s2 m2 t i buf s3 m3 t', (t < now)%nat -> replied k s2 m2 -> certified i buf -> nh_send C rnd2 s2 buf = (s3, Ok m3) -> (i < t' < now)%nat ->
    pool_inv now NP_done [Some (m2, t); Some (m3, t')]
| PI_dead0 : pool_inv now NP_dead []
| PI_dead1 : forall k s1 b1 t, (t < now)%nat -> began k s1 b1 -> (forall s2 m2, nh_send C rnd1 s1 b1 <> (s2, Ok m2)) -> pool_inv now NP_dead [Some ([], t)]
| PI_dead2 : forall k s2 m2 t, (t < now)%nat -> replied k s2 m2 -> pool_inv now NP_dead [Some (m2, t)]
| PI_dead3 : forall k s2 m2 t i buf t', (t < now)%nat -> replied k s2 m2 -> certified i buf -> (forall s3 m3, nh_send C rnd2 s2 buf <> (s3, Ok m3)) ->
    (i < t' < now)%nat -> pool_inv now NP_dead [Some (m2, t); Some ([], t')].
Lemma pool_inv_later : forall now now' p wr, pool_inv now p wr -> (now <= now')%nat -> pool_inv now' p wr.
Proof. intros now now' p wr H L. destruct H; econstructor; eauto; lia. Qed.
Lemma written_past : forall now p wr b t, pool_inv now p wr -> In (Some (b, t)) wr -> (t < now)%nat.
Proof. intros now p wr b t H I. inversion H; subst; cbn [In] in I; repeat (destruct I as [I|I]; [inversion I; subst; lia|]); contradiction. Qed.

Definition took (now : nat) (o : written) (c : bytes * Z) : Prop :=
  match o with Some (b, t) => exists j, (t < j < now)%nat /\ snd c = clock j /\ a_part b (fst c) | None => False end.
Lemma took_later : forall now now' wr cs, Forall2 (took now) wr cs -> (now <= now')%nat -> Forall2 (took now') wr cs.
Proof.
  intros now now' wr cs H L. induction H as [|o c wr cs A H IH]; constructor; [|exact IH]. destruct o as [[b t]|]; [|exact A].
  destruct A as (j & J & A). exists j. split; [lia|exact A].
Qed.
(** What [conns] lead to. *)
Definition leads (conns : list (bytes * Z)) (s : session) (b : bytes) (vs : list bool) : Prop :=
  forall rest, nh_miner_listen C E pf text sm zs (conns ++ rest) =
    let '(vs', dead) := nh_miner_listen C E pf text s b rest in (vs ++ vs', dead).
Inductive miner_inv (now : nat) (wr : list written) : nh_miner_at -> option stream -> Prop :=
| MI_start : miner_inv now wr NM_start None
| MI_refused : miner_inv now wr (NM_dead []) None
| MI_connected : miner_inv now wr NM_connected (Some opened)
| MI_sent : forall k, miner_inv now wr (NM_sent sm) (Some (part m1 k))
| MI_listen : forall k conns s b vs, Forall2 (took now) (firstn (length conns) wr) conns -> leads conns s b vs ->
    miner_inv now wr (NM_listen s b (length conns) vs) (Some (part m1 k))
| MI_accepted : forall k conns s b vs, Forall2 (took now) (firstn (length conns) wr) conns -> leads conns s b vs -> (length conns < length wr)%nat ->
    miner_inv now wr (NM_accepted s b (length conns) vs) (Some (part m1 k))
| MI_dead : forall k conns vs, Forall2 (took now) (firstn (length conns) wr) conns -> conns <> [] ->
    nh_miner_listen C E pf text sm zs conns = (vs, true) -> miner_inv now wr (NM_dead vs) (Some (part m1 k)).
(** Wherever nothing was read, more can be written. *)
Definition extends (wr wr' : list written) : Prop := (length wr <= length wr')%nat /\ forall k o, nth_error wr k = Some (Some o) -> nth_error wr' k = Some (Some o).
Lemma took_extends : forall now wr wr' conns, extends wr wr' -> Forall2 (took now) (firstn (length conns) wr) conns ->
  Forall2 (took now) (firstn (length conns) wr') conns.
Proof.
  intros now wr wr' conns. revert wr wr'. induction conns as [|c conns IH]; intros wr wr' X H; [constructor|].
  cbn [length] in *. destruct wr as [|o wr]; [inversion H|]. cbn [firstn] in H. inversion H as [|? ? ? ? A B]; subst.
  destruct o as [[b t]|]; [|contradiction A]. pose proof (proj2 X 0%nat _ eq_refl) as X0. destruct wr' as [|o' wr']; [discriminate X0|].
  cbn in X0. injection X0 as ->. cbn [firstn]. constructor; [exact A|]. apply (IH wr); [|exact B].
  split; [exact (le_S_n _ _ (proj1 X))|]. intros k o K. exact (proj2 X (S k) o K).
Qed.
Lemma miner_extends : forall now now' wr wr' m s, miner_inv now wr m s -> extends wr wr' -> (now <= now')%nat -> miner_inv now' wr' m s.
Proof.
  intros now now' wr wr' m s H X L. pose proof (proj1 X) as XL. destruct H; econstructor; eauto using took_extends, took_later; lia.
Qed.
Lemma extends_refl : forall wr, extends wr wr. Proof. intros wr. split; [lia|]. intros k o H. exact H. Qed.
Lemma extends_snoc : forall wr o, extends wr (wr ++ [o]).
Proof. intros wr o. split; [rewrite app_length; lia|]. intros k x H. rewrite nth_error_app1; [exact H|]. apply nth_error_Some. congruence. Qed.
Lemma extends_last : forall wr o, extends (wr ++ [None]) (wr ++ [o]).
Proof.
  intros wr o. split; [rewrite !app_length; cbn; lia|]. intros k x H. destruct (Nat.lt_ge_cases k (length wr)) as [L|L].
  - rewrite nth_error_app1 in * by lia. exact H.
  - rewrite nth_error_app2 in * by lia. destruct (k - length wr)%nat as [|[|d]]; discriminate H.
Qed.

Definition inv (w : nc_world) : Prop := exists wr, pool_inv (cw_now w) (cw_pool w) wr /\ Forall2 shows wr (cw_to_miner w) /\
  miner_inv (cw_now w) wr (cw_miner w) (cw_to_pool w) /\ (cw_to_pool w = None -> cw_pool w = NP_start \/ cw_pool w = NP_bound).
Lemma leads_step : forall conns s b vs bs t s' v, leads conns s b vs ->
  nh_miner_recv C E pf text t s (read_into b bs) = (s', Ok v) ->
  leads (conns ++ [(bs, t)]) s' (snd (fst (recv_message C s (read_into b bs)))) (vs ++ match v with Some x => [x] | None => [] end).
Proof.
  intros conns s b vs bs t s' v H R rest. rewrite <- app_assoc. rewrite H. cbn [app nh_miner_listen]. cbv zeta.
  destruct (recv_message C s (read_into b bs)) as [[x b'] r]. cbn [fst snd]. rewrite R.
  destruct (nh_miner_listen C E pf text s' b' rest) as [vs' dead]. destruct v; rewrite <- ?app_assoc; reflexivity.
Qed.
Lemma leads_dead : forall conns s b vs bs t s' r, leads conns s b vs ->
  nh_miner_recv C E pf text t s (read_into b bs) = (s', r) -> (forall v, r <> Ok v) ->
  nh_miner_listen C E pf text sm zs (conns ++ [(bs, t)]) = (vs, true).
Proof.
  intros conns s b vs bs t s' r H R N. rewrite H. cbn [nh_miner_listen]. cbv zeta.
  destruct (recv_message C s (read_into b bs)) as [[x b'] r0]. rewrite R. destruct r as [v| |]; [contradiction (N v eq_refl)|rewrite app_nil_r; reflexivity|rewrite app_nil_r; reflexivity].
Qed.
Lemma part0 : forall b, part b 0 = mkStream b [] true. Proof. reflexivity. Qed.

Lemma inv_pool : forall w, inv w -> nc_over w = false -> inv (nc_pool_turn C E rnd1 rnd2 rsr static authority clock clock' w).
Proof.
  intros [p m tp l now] (wr & PI & SH & MI & EA) OV. cbn [cw_pool cw_miner cw_to_pool cw_to_miner cw_now] in *.
  assert (stay : forall p', (pool_inv (S now) p' wr) -> (tp = None -> p' = NP_start \/ p' = NP_bound) -> inv (mkNcWorld p' m tp l (S now))).
  { intros p' H EA'. exists wr. cbn [cw_pool cw_miner cw_to_pool cw_to_miner cw_now]. split; [exact H|]. split; [exact SH|]. split; [|exact EA'].
    apply (miner_extends now _ wr); [exact MI|apply extends_refl|lia]. }
  assert (grow : forall p', pool_inv (S now) p' (wr ++ [None]) -> tp <> None -> inv (mkNcWorld p' m tp (l ++ [opened]) (S now))).
  { intros p' H EA'. exists (wr ++ [None]). cbn [cw_pool cw_miner cw_to_pool cw_to_miner cw_now]. split; [exact H|].
    split; [apply Forall2_app; [exact SH|constructor; [reflexivity|constructor]]|]. split; [|contradiction].
    apply (miner_extends now _ wr); [exact MI|apply extends_snoc|lia]. }
  assert (fill : forall p' wr0 b, wr = wr0 ++ [None] -> pool_inv (S now) p' (wr0 ++ [Some (b, now)]) -> tp <> None ->
            inv (mkNcWorld p' m tp (last_stream l (mkStream b [] true)) (S now))).
  { intros p' wr0 b -> H EA'. exists (wr0 ++ [Some (b, now)]). cbn [cw_pool cw_miner cw_to_pool cw_to_miner cw_now]. split; [exact H|].
    apply Forall2_app_inv_l in SH. destruct SH as (l1 & l2 & S1 & S2 & ->).
    inversion S2 as [|? s ? l3 _ S3]; subst. inversion S3; subst. rewrite last_snoc.
    split; [apply Forall2_app; [exact S1|constructor; [exists 0%nat; reflexivity|constructor]]|]. split; [|contradiction].
    apply (miner_extends now _ (wr0 ++ [None])); [exact MI|apply extends_last|lia]. }
  assert (Later : p <> NP_start -> p <> NP_bound -> tp <> None) by (intros Q1 Q2 Q; destruct (EA Q); contradiction).
  unfold nc_pool_turn. cbn [cw_pool cw_miner cw_to_pool cw_to_miner cw_now].
  inversion PI; subst; try (pose proof (Later ltac:(discriminate) ltac:(discriminate)) as NT; assert (NT' : forall p', tp = None -> p' = NP_start \/ p' = NP_bound) by (intros; contradiction)).
  - apply stay; [constructor|auto].
  - destruct tp; apply stay; [constructor|discriminate|constructor|auto].
  - destruct tp as [s|]; [|contradiction]. destruct (stream_read s) as [bs|] eqn:RD; [|apply stay; [constructor|discriminate]].
    apply stay; [|discriminate]. inversion MI; subst.
    + discriminate RD.
    + rewrite read_part in RD by exact Nm1. destruct k; [discriminate RD|]. injection RD as <-. apply (PI_read _ (S k)). lia.
    + rewrite read_part in RD by exact Nm1. destruct k; [discriminate RD|]. injection RD as <-. apply (PI_read _ (S k)). lia.
    + rewrite read_part in RD by exact Nm1. destruct k; [discriminate RD|]. injection RD as <-. apply (PI_read _ (S k)). lia.
    + discriminate OV.
  - destruct (recv_message C (new_inbound C (Some static) rsr) (read_into zs (firstn k m1))) as [[s1 b1] r1] eqn:RV.
    destruct r1 as [u| |]; [|apply stay; [constructor|apply NT']|apply stay; [constructor|apply NT']].
    destruct (nh_listening m); [|apply stay; [constructor|apply NT']]. apply grow; [|exact NT]. cbn [app]. apply (PI_first _ k). split; [assumption|]. exists u. exact RV.
  - destruct (nh_send C rnd1 s1 b1) as [s2 r2] eqn:SD. destruct r2 as [m2| |].
    + apply (fill _ []); [reflexivity| |exact NT]. cbn [app]. apply (PI_replied _ k); [lia|]. exists s1, b1. split; assumption.
    + apply (fill _ []); [reflexivity| |exact NT]. cbn [app]. apply (PI_dead1 _ k s1 b1); [lia|assumption|]. intros ? ?. congruence.
    + apply (fill _ []); [reflexivity| |exact NT]. cbn [app]. apply (PI_dead1 _ k s1 b1); [lia|assumption|]. intros ? ?. congruence.
  - destruct (nh_certificate E static authority (clock now) (clock' now)) as [buf|] eqn:CE; [|apply stay; [eapply PI_dead2; [|eassumption]; lia|apply NT']].
    destruct (nh_listening m); [|apply stay; [eapply PI_dead2; [|eassumption]; lia|apply NT']].
    apply grow; [|exact NT]. cbn [app]. eapply PI_second; [|eassumption|exact CE|]; lia.
  - destruct (nh_send C rnd2 s2 buf) as [s3 r3] eqn:SD. destruct r3 as [m3| |].
    + apply (fill _ [Some (m2, t)]); [reflexivity| |exact NT]. cbn [app]. eapply PI_done; [|eassumption|eassumption|exact SD|]; lia.
    + apply (fill _ [Some (m2, t)]); [reflexivity| |exact NT]. cbn [app]. eapply PI_dead3; [|eassumption|eassumption|intros ? ?; congruence|]; lia.
    + apply (fill _ [Some (m2, t)]); [reflexivity| |exact NT]. cbn [app]. eapply PI_dead3; [|eassumption|eassumption|intros ? ?; congruence|]; lia.
  - apply stay; [eapply pool_inv_later; [exact PI|lia]|apply NT'].
  - apply stay; [eapply pool_inv_later; [exact PI|lia]|apply NT'].
  - apply stay; [eapply pool_inv_later; [exact PI|lia]|apply NT'].
  - apply stay; [eapply pool_inv_later; [exact PI|lia]|apply NT'].
  - apply stay; [eapply pool_inv_later; [exact PI|lia]|apply NT'].
Qed.
Lemma leads_none : leads [] sm zs [].
Proof. intro rest. cbn [app]. destruct (nh_miner_listen C E pf text sm zs rest). reflexivity. Qed.
Lemma inv_miner : forall w, inv w -> inv (nc_miner_turn C E pf rsi rnd text clock w).
Proof.
  intros [p m tp l now] (wr & PI & SH & MI & EA). cbn [cw_pool cw_miner cw_to_pool cw_to_miner cw_now] in *.
  assert (to : forall m' tp', miner_inv (S now) wr m' tp' -> (tp' = None -> tp = None) -> inv (mkNcWorld p m' tp' l (S now))).
  { intros m' tp' H EA'. exists wr. cbn [cw_pool cw_miner cw_to_pool cw_to_miner cw_now]. split; [eapply pool_inv_later; [exact PI|lia]|].
    split; [exact SH|]. split; [exact H|auto]. }
  assert (later : miner_inv (S now) wr m tp).
  { apply (miner_extends now _ wr); [exact MI|apply extends_refl|lia]. }
  unfold nc_miner_turn. cbn [cw_pool cw_miner cw_to_pool cw_to_miner cw_now]. inversion MI; subst.
  - destruct p; apply to; try (apply MI_refused); try apply MI_connected; try discriminate; auto.
  - apply to; [exact later|auto].
  - fold zs. rewrite Hm1. apply to; [|discriminate]. rewrite <- part0. apply MI_sent.
  - apply to; [|discriminate]. fold zs. apply (MI_listen _ _ k [] sm zs []); [constructor|exact leads_none].
  - destruct (Nat.ltb (length conns) (length l)) eqn:LT; apply to; try discriminate; econstructor; eauto using took_later.
    rewrite (same_length _ _ _ _ _ SH). apply Nat.ltb_lt. exact LT.
  - destruct (nth_error l (length conns)) as [c|] eqn:NE; [|apply to; [exact later|discriminate]].
    destruct (stream_read c) as [bs|] eqn:RD; [|apply to; [exact later|discriminate]].
    destruct (shows_nth wr l SH _ _ NE) as (o & NW & SO).
    assert (T : Forall2 (took (S now)) (firstn (length (conns ++ [(bs, clock now)])) wr) (conns ++ [(bs, clock now)])).
    { rewrite app_length. cbn [length]. rewrite Nat.add_1_r, (firstn_snoc _ _ _ _ NW). apply Forall2_app; [eapply took_later; [eassumption|lia]|].
      constructor; [|constructor]. destruct o as [[b0 t]|]; cbn [shows] in SO.
      - destruct SO as [j ->]. exists now. split; [|split; [reflexivity|exact (read_here _ _ _ RD)]].
        split; [|lia]. apply nth_error_In in NW. exact (written_past _ _ _ _ _ PI NW).
      - subst c. discriminate RD. }
    cbv zeta.
    destruct (recv_message C s (read_into b bs)) as [[x b'] r0] eqn:RV.
    destruct (nh_miner_recv C E pf text (clock now) s (read_into b bs)) as [s' r] eqn:MR. destruct r as [v| |].
    + apply to; [|discriminate]. pose proof (leads_step _ _ _ _ _ _ _ _ H0 MR) as LS. rewrite RV in LS. cbn [fst snd] in LS.
      pose proof (MI_listen (S now) wr k _ _ _ _ T LS) as Q. rewrite app_length in Q. cbn [length] in Q. rewrite Nat.add_1_r in Q. exact Q.
    + apply to; [|discriminate]. eapply MI_dead; [exact T|destruct conns; discriminate|eapply leads_dead; [exact H0|exact MR|discriminate]].
    + apply to; [|discriminate]. eapply MI_dead; [exact T|destruct conns; discriminate|eapply leads_dead; [exact H0|exact MR|discriminate]].
  - apply to; [exact later|discriminate].
Qed.
Lemma inv_ev : forall w e, inv w -> inv (ev w e).
Proof.
  intros w e H. unfold ev, nc_happens. destruct (nc_over w) eqn:OV; [exact H|]. destruct e as [| |n|k n].
  - apply inv_pool; assumption.
  - apply inv_miner. exact H.
  - destruct w as [p m tp l now]. destruct H as (wr & PI & SH & MI & EA). cbn [cw_pool cw_miner cw_to_pool cw_to_miner cw_now] in *.
    exists wr. cbn [cw_pool cw_miner cw_to_pool cw_to_miner cw_now]. split; [eapply pool_inv_later; [exact PI|lia]|]. split; [exact SH|].
    split; [|intro Q; apply EA; destruct tp; [discriminate Q|reflexivity]].
    apply (miner_extends _ (S now) wr wr) in MI; [|apply extends_refl|lia]. inversion MI; subst; cbn [option_map]; rewrite ?arrive_part;
      try (econstructor; eassumption). unfold opened. rewrite arrive_open. constructor.
  - destruct w as [p m tp l now]. destruct H as (wr & PI & SH & MI & EA). cbn [cw_pool cw_miner cw_to_pool cw_to_miner cw_now] in *.
    exists wr. cbn [cw_pool cw_miner cw_to_pool cw_to_miner cw_now]. split; [eapply pool_inv_later; [exact PI|lia]|].
    split; [apply shows_arrive; exact SH|]. split; [|exact EA]. apply (miner_extends now _ wr); [exact MI|apply extends_refl|lia].
Qed.
Lemma inv_start : inv nc_start.
Proof. exists []. cbn [nc_start cw_pool cw_miner cw_to_pool cw_to_miner cw_now]. split; [constructor|]. split; [constructor|]. split; [constructor|auto]. Qed.
Lemma inv_from : forall es w, inv w -> inv (fold_left ev es w).
Proof. induction es as [|e es IH]; intros w H; [exact H|]. cbn [fold_left]. apply IH. apply inv_ev. exact H. Qed.
Lemma inv_main : forall es, inv (main es).
Proof. intro es. apply inv_from. exact inv_start. Qed.

(** What the pool sends, in terms of the program. *)
Inductive sends (i k : nat) : list bytes -> Prop :=
| SE_all : forall s2 m2 buf s3 m3, replied k s2 m2 -> certified i buf -> nh_send C rnd2 s2 buf = (s3, Ok m3) -> sends i k [m2; m3]
| SE_half : forall s2 m2 buf, replied k s2 m2 -> certified i buf -> (forall s3 m3, nh_send C rnd2 s2 buf <> (s3, Ok m3)) -> sends i k [m2; []]
| SE_none : forall s1 b1, began k s1 b1 -> (forall s2 m2, nh_send C rnd1 s1 b1 <> (s2, Ok m2)) -> sends i k [[]].
Hypothesis Hcert : forall i, exists buf, certified i buf.
Lemma sends_first : forall i k s2 m2, replied k s2 m2 -> exists x, sends i k [m2; x].
Proof.
  intros i k s2 m2 H. destruct (Hcert i) as [buf B]. destruct (nh_send C rnd2 s2 buf) as [s3 [m3| |]] eqn:S.
  - exists m3. eapply SE_all; eassumption.
  - exists []. eapply SE_half; [eassumption|eassumption|intros ? ?; congruence].
  - exists []. eapply SE_half; [eassumption|eassumption|intros ? ?; congruence].
Qed.
Lemma delivered_inv : forall now p wr conns, pool_inv now p wr -> Forall2 (took now) (firstn (length conns) wr) conns -> conns <> [] ->
  exists i k l, (1 <= k)%nat /\ sends i k l /\ delivered clock i l conns.
Proof.
  intros now p wr conns PI T N.
  assert (R : forall k s2 m2, replied k s2 m2 -> (1 <= k)%nat) by (intros k s2 m2 (s1 & b1 & (K & _) & _); exact K).
  assert (one : forall k s2 m2 t c, replied k s2 m2 -> took now (Some (m2, t)) c -> exists i k l, (1 <= k)%nat /\ sends i k l /\ delivered clock i l [c]).
  { intros k s2 m2 t [b z] H (j & _ & Z & A). cbn [fst snd] in *. subst z. destruct (sends_first 0 k s2 m2 H) as [x S]. exists 0%nat, k, [m2; x].
    split; [eapply R; exact H|]. split; [exact S|]. constructor. exact A. }
  destruct conns as [|c1 [|c2 [|c3 conns]]]; [contradiction| | |].
  - cbn [length] in T. inversion PI; subst; cbn [firstn] in T; inversion T as [|? ? ? ? T1 _]; subst; try contradiction T1; eauto.
    exists 0%nat, k, [[]]. split; [exact (proj1 H0)|]. split; [eapply SE_none; eassumption|].
    destruct c1 as [b z]. destruct T1 as (j & _ & Z & A). cbn [fst snd] in *. subst z. constructor. exact A.
  - cbn [length] in T. inversion PI; subst; cbn [firstn] in T; inversion T as [|? ? ? ? T1 T']; subst; inversion T' as [|? ? ? ? T2 _]; subst; try contradiction T2.
    + exists i, k, [m2; m3]. split; [eapply R; eassumption|]. split; [eapply SE_all; eassumption|].
      destruct c1 as [b z]. destruct T1 as (j & _ & Z & A). destruct c2 as [b' z']. destruct T2 as (j' & J' & Z' & A'). cbn [fst snd] in *. subst z z'.
      constructor; [exact A|exact A'|lia].
    + exists i, k, [m2; []]. split; [eapply R; eassumption|]. split; [eapply SE_half; eassumption|].
      destruct c1 as [b z]. destruct T1 as (j & _ & Z & A). destruct c2 as [b' z']. destruct T2 as (j' & J' & Z' & A'). cbn [fst snd] in *. subst z z'.
      constructor; [exact A|exact A'|lia].
  - exfalso. cbn [length] in T. inversion PI; subst; cbn [firstn] in T; inversion T as [|? ? ? ? _ T']; subst; inversion T' as [|? ? ? ? _ T'']; subst; inversion T''.
Qed.
Lemma any_run : forall es, let w := main es in
  (printed (cw_miner w) = [] /\ nc_over w = false) \/ (cw_miner w = NM_dead [] /\ cw_to_pool w = None) \/
  exists i k l conns, (1 <= k)%nat /\ sends i k l /\ delivered clock i l conns /\
    nh_miner_listen C E pf text sm zs conns = (printed (cw_miner w), nc_over w).
Proof.
  intros es w. subst w. destruct (inv_main es) as (wr & PI & SH & MI & EA). set (w := main es) in *.
  assert (G : forall conns vs s b, Forall2 (took (cw_now w)) (firstn (length conns) wr) conns -> leads conns s b vs ->
    vs = [] \/ exists i k l conns, (1 <= k)%nat /\ sends i k l /\ delivered clock i l conns /\ nh_miner_listen C E pf text sm zs conns = (vs, false)).
  { intros conns vs s b T L. specialize (L []). rewrite app_nil_r in L. cbn [nh_miner_listen] in L. rewrite app_nil_r in L.
    destruct conns as [|c conns]; [left; cbn [nh_miner_listen] in L; congruence|right].
    destruct (delivered_inv _ _ _ (c :: conns) PI T) as (i & k & l & A & B & D); [discriminate|].
    exists i, k, l, (c :: conns). split; [exact A|]. split; [exact B|]. split; [exact D|exact L]. }
  unfold nc_over. inversion MI; cbn [printed]; auto.
  - destruct (G conns vs s b H1 H2) as [->|Q]; [left; auto|right; right; exact Q].
  - destruct (G conns vs s b H1 H2) as [->|Q]; [left; auto|right; right; exact Q].
  - right. right. destruct (delivered_inv _ _ _ conns PI H1 H2) as (i & k' & l & A & B & D).
    exists i, k', l, conns. split; [exact A|]. split; [exact B|]. split; [exact D|exact H3].
Qed.

(** ** The straight course *)
Lemma main_cat : forall a b, main (a ++ b) = fold_left ev b (main a).
Proof. intros a b. unfold main, nc_main, ev. apply fold_left_app. Qed.
Lemma ev_cons : forall e r w, fold_left ev (e :: r) w = fold_left ev r (ev w e). Proof. reflexivity. Qed.
Lemma pool_gets : forall ns p m k l n, nc_over (mkNcWorld p m None l n) = false ->
  fold_left ev (map PoolGets ns) (mkNcWorld p m (Some (part m1 k)) l n) = mkNcWorld p m (Some (part m1 (k + list_sum ns))) l (n + length ns).
Proof.
  induction ns as [|x ns IH]; intros p m k l n OV; [cbn; rewrite !Nat.add_0_r; reflexivity|].
  cbn [map]. rewrite ev_cons. unfold ev at 2, nc_happens. unfold nc_over in *. cbn [cw_miner] in *. rewrite OV.
  cbn [cw_pool cw_miner cw_to_pool cw_to_miner cw_now option_map]. rewrite arrive_part, IH by exact OV. cbn [length list_sum fold_right].
  replace (k + x + list_sum ns)%nat with (k + (x + fold_right Nat.add 0 ns))%nat by (unfold list_sum; lia).
  replace (S n + length ns)%nat with (n + S (length ns))%nat by lia. reflexivity.
Qed.
Lemma miner_gets : forall js p m tp l1 b k l2 n, nc_over (mkNcWorld p m tp [] n) = false ->
  fold_left ev (map (MinerGets (length l1)) js) (mkNcWorld p m tp (l1 ++ part b k :: l2) n) =
  mkNcWorld p m tp (l1 ++ part b (k + list_sum js) :: l2) (n + length js).
Proof.
  induction js as [|x js IH]; intros p m tp l1 b k l2 n OV; [cbn; rewrite !Nat.add_0_r; reflexivity|].
  cbn [map]. rewrite ev_cons. unfold ev at 2, nc_happens. unfold nc_over in *. cbn [cw_miner] in *. rewrite OV.
  cbn [cw_pool cw_miner cw_to_pool cw_to_miner cw_now option_map]. unfold arrive_on.
  rewrite firstn_app, firstn_all, Nat.sub_diag, skipn_app, skipn_all, Nat.sub_diag. cbn [firstn skipn app]. rewrite app_nil_r, arrive_part, IH by exact OV.
  cbn [length list_sum fold_right].
  replace (k + x + list_sum js)%nat with (k + (x + fold_right Nat.add 0 js))%nat by (unfold list_sum; lia).
  replace (S n + length js)%nat with (n + S (length js))%nat by lia. reflexivity.
Qed.
Lemma answers_run : forall ns s2 m2 buf s3 m3, (1 <= list_sum ns)%nat -> replied (list_sum ns) s2 m2 -> certified (made_at ns) buf ->
  nh_send C rnd2 s2 buf = (s3, Ok m3) ->
  main (to_answers ns) = mkNcWorld NP_done (NM_listen sm zs 0 []) (Some (part m1 (list_sum ns))) [part m2 0; part m3 0] (10 + length ns).
Proof.
  intros ns s2 m2 buf s3 m3 L (s1 & b1 & (_ & u & RV) & S2) CE S3. unfold to_answers. rewrite main_cat.
  replace (main [PoolDoes; MinerDoes; MinerDoes; MinerDoes; PoolDoes]) with (mkNcWorld NP_accepted (NM_listen sm zs 0 []) (Some (part m1 0)) [] 5).
  2:{ symmetry. change (main _) with (fold_left ev [MinerDoes; MinerDoes; PoolDoes] (mkNcWorld NP_bound NM_connected (Some opened) [] 2)).
      rewrite ev_cons.
      replace (ev _ MinerDoes) with (mkNcWorld NP_bound (NM_sent sm) (Some (part m1 0)) [] 3); [reflexivity|].
      unfold ev, nc_happens, nc_over, nc_miner_turn. cbn [cw_pool cw_miner cw_to_pool cw_to_miner cw_now]. fold zs. rewrite Hm1. reflexivity. }
  rewrite fold_left_app. rewrite pool_gets by reflexivity. cbn [repeat]. cbn [Nat.add].
  rewrite ev_cons.
  replace (ev (mkNcWorld NP_accepted (NM_listen sm zs 0 []) (Some (part m1 (list_sum ns))) [] (S (S (S (S (S (length ns)))))))  PoolDoes)
    with (mkNcWorld (NP_read (read_into zs (firstn (list_sum ns) m1))) (NM_listen sm zs 0 []) (Some (part m1 (list_sum ns))) [] (6 + length ns)).
  2:{ unfold ev, nc_happens, nc_over, nc_pool_turn. cbn [cw_pool cw_miner cw_to_pool cw_to_miner cw_now]. rewrite read_part by exact Nm1.
      destruct (list_sum ns); [lia|]. reflexivity. }
  rewrite ev_cons.
  replace (ev _ PoolDoes) with (mkNcWorld (NP_first s1 b1) (NM_listen sm zs 0 []) (Some (part m1 (list_sum ns))) [opened] (7 + length ns)).
  2:{ unfold ev, nc_happens, nc_over, nc_pool_turn. cbn [cw_pool cw_miner cw_to_pool cw_to_miner cw_now]. rewrite RV. reflexivity. }
  rewrite ev_cons.
  replace (ev _ PoolDoes) with (mkNcWorld (NP_replied s2) (NM_listen sm zs 0 []) (Some (part m1 (list_sum ns))) [part m2 0] (8 + length ns)).
  2:{ unfold ev, nc_happens, nc_over, nc_pool_turn. cbn [cw_pool cw_miner cw_to_pool cw_to_miner cw_now]. rewrite S2. reflexivity. }
  rewrite ev_cons.
  replace (ev _ PoolDoes) with (mkNcWorld (NP_second s2 buf) (NM_listen sm zs 0 []) (Some (part m1 (list_sum ns))) [part m2 0; opened] (9 + length ns)).
  2:{ unfold ev, nc_happens, nc_over, nc_pool_turn. cbn [cw_pool cw_miner cw_to_pool cw_to_miner cw_now]. unfold certified, made_at in CE. rewrite CE. reflexivity. }
  rewrite ev_cons. cbn [fold_left]. unfold ev, nc_happens, nc_over, nc_pool_turn. cbn [cw_pool cw_miner cw_to_pool cw_to_miner cw_now]. rewrite S3. reflexivity.
Qed.
(** The miner with a connection takes the step of its loop. *)
Lemma over_stays : forall r w, nc_over w = true -> fold_left ev r w = w.
Proof. induction r as [|e r IH]; intros w H; [reflexivity|]. rewrite ev_cons. unfold ev at 2, nc_happens. rewrite H. apply IH. exact H. Qed.
Lemma verdict_run : forall ns js ks s2 m2 buf s3 m3, (1 <= list_sum ns)%nat -> (1 <= list_sum js)%nat -> (1 <= list_sum ks)%nat ->
  m2 <> [] -> m3 <> [] -> replied (list_sum ns) s2 m2 -> certified (made_at ns) buf -> nh_send C rnd2 s2 buf = (s3, Ok m3) ->
  let w := main (to_answers ns ++ to_verdict js ks) in
  nh_miner_listen C E pf text sm zs [(firstn (list_sum js) m2, clock (heard_at ns js)); (firstn (list_sum ks) m3, clock (read_at ns js ks))] =
    (printed (cw_miner w), nc_over w).
Proof.
  intros ns js ks s2 m2 buf s3 m3 L1 L2 L3 N2 N3 R CE S3. unfold heard_at. cbv zeta.
  rewrite main_cat, (answers_run ns s2 m2 buf s3 m3 L1 R CE S3). unfold to_verdict. rewrite ev_cons.
  set (tp := Some (part m1 (list_sum ns))).
  change (ev _ MinerDoes) with (mkNcWorld NP_done (NM_accepted sm zs 0 []) tp ([] ++ part m2 0 :: [part m3 0]) (11 + length ns)).
  rewrite fold_left_app, (miner_gets js NP_done _ tp []) by reflexivity. cbn [app Nat.add].
  rewrite ev_cons. cbn [nh_miner_listen]. cbv zeta. 
  match goal with |- context [fold_left ev ?r (ev ?w MinerDoes)] => replace (ev w MinerDoes) with (nc_miner_turn C E pf rsi rnd text clock w) by reflexivity end.
  unfold nc_miner_turn. cbn [cw_pool cw_miner cw_to_pool cw_to_miner cw_now nth_error]. rewrite read_part by exact N2.
  destruct (list_sum js) as [|nj] eqn:EJ; [lia|]. cbv iota.
  destruct (recv_message C sm (read_into zs (firstn (S nj) m2))) as [[x b'] r0].
  change (S (S (S (S (S (S (S (S (S (S (S (length ns + length js)))))))))))) with (11 + length ns + length js)%nat.
  destruct (nh_miner_recv C E pf text (clock (11 + length ns + length js)%nat) sm (read_into zs (firstn (S nj) m2))) as [s' [v| |]] eqn:MR.
  2:{ cbn [app]. match goal with |- context [fold_left ev ?r ?w] => rewrite (over_stays r w eq_refl) end. reflexivity. }
  2:{ cbn [app]. match goal with |- context [fold_left ev ?r ?w] => rewrite (over_stays r w eq_refl) end. reflexivity. }
  rewrite ev_cons.
  change (ev _ MinerDoes) with (mkNcWorld NP_done (NM_accepted s' b' 1 ([] ++ match v with Some x => [x] | None => [] end)) tp ([part m2 (S nj)] ++ part m3 0 :: []) (13 + length ns + length js)).
  rewrite fold_left_app, (miner_gets ks NP_done _ tp [part m2 (S nj)]) by reflexivity. cbn [app Nat.add].
  rewrite ev_cons. cbn [fold_left].
  match goal with |- context [ev ?w MinerDoes] => replace (ev w MinerDoes) with (nc_miner_turn C E pf rsi rnd text clock w) by reflexivity end.
  unfold nc_over, nc_miner_turn. cbn [cw_pool cw_miner cw_to_pool cw_to_miner cw_now nth_error]. rewrite read_part by exact N3.
  destruct (list_sum ks) as [|nk] eqn:EK; [lia|]. cbv iota. cbv zeta.
  destruct (recv_message C s' (read_into b' (firstn (S nk) m3))) as [[y b''] r1].
  unfold read_at.
  change (S (S (S (S (S (S (S (S (S (S (S (S (S (length ns + length js + length ks)))))))))))))) with (13 + length ns + length js + length ks)%nat.
  destruct (nh_miner_recv C E pf text (clock (13 + length ns + length js + length ks)%nat) s' (read_into b' (firstn (S nk) m3))) as [s'' [v'| |]]; cbn [cw_miner printed]; destruct v as [v|]; try destruct v' as [v'|]; reflexivity.
Qed.

(** ** Refused *)
Ltac cases_in := repeat match goal with |- context [match ?x with _ => _ end] => destruct x end.
Lemma pool_turn_fields : forall w, let w' := nc_pool_turn C E rnd1 rnd2 rsr static authority clock clock' w in
  cw_miner w' = cw_miner w /\ cw_to_pool w' = cw_to_pool w /\ cw_now w' = S (cw_now w) /\ cw_pool w' <> NP_start.
Proof.
  intros [p m tp l now]. unfold nc_pool_turn. cbn [cw_pool cw_miner cw_to_pool cw_to_miner cw_now].
  cases_in; cbn [cw_pool cw_miner cw_to_pool cw_to_miner cw_now]; repeat (split; [reflexivity|]); discriminate.
Qed.
Lemma miner_turn_fields : forall w, let w' := nc_miner_turn C E pf rsi rnd text clock w in
  cw_pool w' = cw_pool w /\ cw_to_miner w' = cw_to_miner w /\ (cw_to_pool w' = None -> cw_to_pool w = None).
Proof.
  intros [p m tp l now]. unfold nc_miner_turn. cbn [cw_pool cw_miner cw_to_pool cw_to_miner cw_now].
  cases_in; cbn [cw_pool cw_miner cw_to_pool cw_to_miner cw_now]; repeat (split; [reflexivity|]); try discriminate; auto.
Qed.
Lemma main_snoc : forall es e, main (es ++ [e]) = ev (main es) e.
Proof. intros es e. rewrite main_cat. reflexivity. Qed.
Definition turned_away (w : nc_world) : Prop := cw_miner w = NM_dead [] /\ cw_to_pool w = None.
Lemma quiet : forall es, ~ In PoolDoes es -> (exists n, main es = mkNcWorld NP_start NM_start None [] n) \/ turned_away (main es).
Proof.
  induction es as [|e es IH] using rev_ind; intro N; [left; exists 0%nat; reflexivity|]. rewrite main_snoc.
  destruct IH as [[n ->]|[A B]]; [intro I; apply N; apply in_or_app; left; exact I| |].
  - destruct e as [| |k|k j].
    + contradiction N. apply in_or_app. right. left. reflexivity.
    + right. split; reflexivity.
    + left. eexists. reflexivity.
    + left. exists (S n). unfold ev, nc_happens, arrive_on. cbn [nc_over cw_pool cw_miner cw_to_pool cw_to_miner cw_now]. rewrite firstn_nil, skipn_nil. reflexivity.
  - right. unfold ev, nc_happens, nc_over. rewrite A. split; assumption.
Qed.
Lemma away_stays : forall r w, turned_away w -> turned_away (fold_left ev r w).
Proof. intros r w [A B]. rewrite over_stays; [split; assumption|]. unfold nc_over. rewrite A. reflexivity. Qed.
Lemma quiet_iff : forall es, cw_pool (main es) = NP_start -> ~ In PoolDoes es \/ nc_over (main es) = true.
Proof.
  induction es as [|e es IH] using rev_ind; [left; intros []|]. rewrite main_snoc. unfold ev, nc_happens.
  destruct (nc_over (main es)) eqn:OV; [right; exact OV|]. intro P. left. intro I. apply in_app_or in I. destruct I as [I|[->|[]]].
  - destruct e as [| |k|k j].
    + destruct (pool_turn_fields (main es)) as (_ & _ & _ & X). exact (X P).
    + assert (Q : cw_pool (main es) = NP_start).
      { rewrite <- P. symmetry. apply miner_turn_fields. }
      destruct (IH Q) as [X|X]; [exact (X I)|discriminate X].
    + destruct (IH P) as [X|X]; [exact (X I)|discriminate X].
    + destruct (IH P) as [X|X]; [exact (X I)|discriminate X].
  - destruct (pool_turn_fields (main es)) as (_ & _ & _ & X). exact (X P).
Qed.
Lemma refused_iff : forall es, turned_away (main es) <-> exists es1 es2, es = es1 ++ MinerDoes :: es2 /\ ~ In PoolDoes es1.
Proof.
  intro es. split.
  - induction es as [|e es IH] using rev_ind; intros [A B]; [discriminate A|]. rewrite main_snoc in A, B.
    unfold ev, nc_happens in A, B. destruct (nc_over (main es)) eqn:OV.
    { destruct (IH (conj A B)) as (e1 & e2 & -> & N). exists e1, (e2 ++ [e]). split; [rewrite <- app_assoc; reflexivity|exact N]. }
    destruct (inv_main es) as (wr & PI & SH & MI & EA).
    destruct e as [| |k|k j].
    + exfalso. assert (Q : cw_miner (main es) = NM_dead []).
      { rewrite <- A. symmetry. apply pool_turn_fields. }
      unfold nc_over in OV. rewrite Q in OV. discriminate OV.
    + assert (T : cw_to_pool (main es) = None).
      { apply (miner_turn_fields (main es)). exact B. }
      rewrite T in MI. inversion MI as [M|M| | | | |]; [|unfold nc_over in OV; rewrite <- M in OV; discriminate OV].
      unfold nc_miner_turn in A, B. rewrite <- M in A, B. destruct (EA T) as [Q|Q]; rewrite Q in A, B; [|discriminate B].
      exists es, []. split; [reflexivity|]. destruct (quiet_iff es Q) as [X|X]; [exact X|congruence].
    + exfalso. cbn [cw_miner] in A. unfold nc_over in OV. rewrite A in OV. discriminate OV.
    + exfalso. cbn [cw_miner] in A. unfold nc_over in OV. rewrite A in OV. discriminate OV.
  - intros (es1 & es2 & -> & N). rewrite main_cat, ev_cons. apply away_stays.
    destruct (quiet es1 N) as [[n ->]|H]; [split; reflexivity|]. exact (away_stays [MinerDoes] _ H).
Qed.

(** ** To the end *)
Hypothesis Hfull2 : forall k s2 m2, replied k s2 m2 -> m2 <> [].
Hypothesis Hfull3 : forall k s2 m2 i buf s3 m3, replied k s2 m2 -> certified i buf -> nh_send C rnd2 s2 buf = (s3, Ok m3) -> m3 <> [].
Definition pstage (p : nh_pool_at) : nat :=
  match p with NP_start => 0 | NP_bound => 1 | NP_accepted => 2 | NP_read _ => 3 | NP_first _ _ => 4 | NP_replied _ => 5 | NP_second _ _ => 6 | NP_done | NP_dead => 7 end.
Definition mstage (m : nh_miner_at) : nat :=
  match m with NM_start => 0 | NM_connected => 1 | NM_sent _ => 2 | NM_listen _ _ k _ => 3 + 2 * k | NM_accepted _ _ k _ => 4 + 2 * k | NM_dead _ => 0 end.
Definition here (s : option stream) : nat := match s with Some s => match t_here s with [] => 0 | _ => 1 end | None => 0 end.
Definition h0 (w : nc_world) := here (cw_to_pool w).
Definition h1 (w : nc_world) := here (nth_error (cw_to_miner w) 0).
Definition h2 (w : nc_world) := here (nth_error (cw_to_miner w) 1).
Definition at_end (w : nc_world) : Prop := nc_over w = true \/ cw_pool w = NP_dead \/ exists s b vs, cw_miner w = NM_listen s b 2 vs.
Definition next_kind (p m a b c : nat) : nkind :=
  if Nat.eqb p 0 then Pool_turn
  else if Nat.ltb m 3 then Miner_turn
  else if Nat.eqb p 2 then (if Nat.eqb a 0 then At_pool else Pool_turn)
  else if Nat.eqb p 7 then
    (if Nat.eqb m 4 then (if Nat.eqb b 0 then At_miner_first else Miner_turn)
     else if Nat.eqb m 6 then (if Nat.eqb c 0 then At_miner_second else Miner_turn) else Miner_turn)
  else Pool_turn.
Definition nnext (w : nc_world) : nkind := next_kind (pstage (cw_pool w)) (mstage (cw_miner w)) (h0 w) (h1 w) (h2 w).
Definition nstage (w : nc_world) : nat := pstage (cw_pool w) + mstage (cw_miner w) + h0 w + h1 w + h2 w.
Definition ngrows (w w' : nc_world) : Prop :=
  (pstage (cw_pool w) <= pstage (cw_pool w') /\ mstage (cw_miner w) <= mstage (cw_miner w') /\
   h0 w <= h0 w' /\ h1 w <= h1 w' /\ h2 w <= h2 w')%nat.
Lemma here_part' : forall l k, l <> [] -> here (Some (part l k)) = match k with O => 0%nat | _ => 1%nat end.
Proof. intros [|b l] k H; [contradiction|]. destruct k; reflexivity. Qed.
Lemma here_arrive : forall s n, (here (Some s) <= here (Some (arrive n s)))%nat.
Proof. intros [w h e] n. unfold here, arrive. cbn [t_here]. destruct h; [lia|]. cbn [app]. lia. Qed.
Lemma nth_arrive_on : forall l k n i, nth_error (arrive_on k n l) i = if Nat.eqb i k then option_map (arrive n) (nth_error l i) else nth_error l i.
Proof.
  unfold arrive_on. induction l as [|s l IH]; intros k n i.
  - rewrite firstn_nil, skipn_nil. cbn [app]. destruct i; destruct (Nat.eqb _ _); reflexivity.
  - destruct k as [|k]; cbn [firstn skipn app]; [destruct i; reflexivity|]. destruct i as [|i]; [reflexivity|]. cbn [nth_error Nat.eqb]. apply IH.
Qed.
Lemma here_arrive_on : forall l k n i, (here (nth_error l i) <= here (nth_error (arrive_on k n l) i))%nat.
Proof.
  intros l k n i. rewrite nth_arrive_on. destruct (Nat.eqb i k); [|lia]. destruct (nth_error l i); [apply here_arrive|cbn; lia].
Qed.

Lemma pool_grows : forall w, inv w -> nc_over w = false -> let w' := nc_pool_turn C E rnd1 rnd2 rsr static authority clock clock' w in
  cw_pool w' = NP_dead \/ (ngrows w w' /\ (nnext w = Pool_turn -> (nstage w < nstage w')%nat)).
Proof.
  intros [p m tp l now] (wr & PI & SH & MI & EA) OV. cbn [cw_pool cw_miner cw_to_pool cw_to_miner cw_now] in *.
  unfold ngrows, nstage, nnext, h0, h1, h2, nc_pool_turn. cbn [cw_pool cw_miner cw_to_pool cw_to_miner cw_now].
  inversion PI; subst.
  - right. cbn [cw_pool cw_miner cw_to_pool cw_to_miner cw_now pstage]. split; [lia|intros _; lia].
  - right. destruct tp as [s|]; cbn [cw_pool cw_miner cw_to_pool cw_to_miner cw_now pstage]; [split; [lia|intros _; lia]|].
    split; [lia|]. inversion MI; subst; [|discriminate OV]. intro X. discriminate X.
  - right. destruct tp as [s|]; cbn [cw_pool cw_miner cw_to_pool cw_to_miner cw_now pstage].
    + destruct (stream_read s) as [bs|] eqn:RD; cbn [cw_pool cw_miner cw_to_pool cw_to_miner cw_now pstage]; [split; [lia|intros _; lia]|].
      split; [lia|]. intro X. exfalso. unfold next_kind in X. cbn [Nat.eqb] in X. destruct (Nat.ltb (mstage m) 3); [discriminate X|].
      unfold stream_read in RD. unfold here in X. destruct (t_here s) as [|x y]; [discriminate X|]. destruct (t_way s); discriminate RD.
    + split; [lia|]. destruct (EA eq_refl); discriminate.
  - destruct (recv_message C (new_inbound C (Some static) rsr) (read_into zs (firstn k m1))) as [[s1 b1] [u| |]]; [|left; reflexivity|left; reflexivity].
    destruct (nh_listening m); [|left; reflexivity]. right. inversion SH; subst.
    cbn [cw_pool cw_miner cw_to_pool cw_to_miner cw_now pstage app nth_error here opened t_here]. split; [lia|intros _; lia].
  - destruct (nh_send C rnd1 s1 b1) as [s2 [m2| |]]; [|left; reflexivity|left; reflexivity]. right.
    inversion SH as [|? s ? l' S0 S1]; subst. inversion S1; subst. cbn [shows] in S0. subst s.
    change (last_stream [opened] (mkStream m2 [] true)) with [mkStream m2 [] true].
    cbn [cw_pool cw_miner cw_to_pool cw_to_miner cw_now pstage nth_error here opened t_here]. split; [lia|intros _; lia].
  - destruct (nh_certificate E static authority (clock now) (clock' now)); [|left; reflexivity]. destruct (nh_listening m); [|left; reflexivity]. right.
    inversion SH as [|? s ? l' S0 S1]; subst. inversion S1; subst.
    cbn [cw_pool cw_miner cw_to_pool cw_to_miner cw_now pstage app nth_error here opened t_here]. split; [lia|intros _; lia].
  - destruct (nh_send C rnd2 s2 buf) as [s3 [m3| |]]; [|left; reflexivity|left; reflexivity]. right.
    inversion SH as [|? s ? l' S0 S1]; subst. inversion S1 as [|? s' ? l'' S2 S3]; subst. inversion S3; subst. cbn [shows] in S2. subst s'.
    change (last_stream [s; opened] (mkStream m3 [] true)) with [s; mkStream m3 [] true].
    cbn [cw_pool cw_miner cw_to_pool cw_to_miner cw_now pstage nth_error]. cbn [here opened t_here]. split; [lia|intros _; lia].
  - right. cbn [cw_pool cw_miner cw_to_pool cw_to_miner cw_now pstage]. split; [lia|]. intro X. exfalso. revert X. unfold next_kind. cbn [Nat.eqb].
    repeat match goal with |- context [if ?x then _ else _] => destruct x end; discriminate.
  - left. reflexivity.
  - left. reflexivity.
  - left. reflexivity.
  - left. reflexivity.
Qed.
Lemma took_length : forall now wr conns, Forall2 (took now) (firstn (length conns) wr) conns -> (length conns <= length wr)%nat.
Proof. intros now wr conns H. apply same_length in H. rewrite firstn_length in H. lia. Qed.
Lemma pool_wrote : forall now p wr, pool_inv now p wr -> (length wr <= 2)%nat /\ (pstage p = 7%nat -> p <> NP_dead -> exists m2 t m3 t', wr = [Some (m2, t); Some (m3, t')] /\ m2 <> [] /\ m3 <> []).
Proof.
  intros now p wr H. split; [destruct H; cbn; lia|]. intros Q N. destruct H; try discriminate Q; try contradiction.
  exists m2, t, m3, t'. split; [reflexivity|]. split; [eapply Hfull2; eassumption|eapply Hfull3; eassumption].
Qed.
Lemma miner_grows : forall w, inv w -> ~ at_end w -> let w' := nc_miner_turn C E pf rsi rnd text clock w in
  nc_over w' = true \/ (ngrows w w' /\ (nnext w = Miner_turn -> (nstage w < nstage w')%nat)).
Proof.
  intros [p m tp l now] (wr & PI & SH & MI & EA) NE. unfold at_end, nc_over in NE. cbn [cw_pool cw_miner cw_to_pool cw_to_miner cw_now] in *.
  unfold ngrows, nstage, nnext, h0, h1, h2, nc_miner_turn. cbn [cw_pool cw_miner cw_to_pool cw_to_miner cw_now].
  destruct (pool_wrote _ _ _ PI) as [LW FW]. pose proof (same_length _ _ _ _ _ SH) as LL.
  inversion MI; subst.
  - destruct (EA eq_refl) as [-> | ->]; [left; reflexivity|right]. cbn [cw_pool cw_miner cw_to_pool cw_to_miner cw_now mstage here opened t_here]. split; [lia|intros _; lia].
  - exfalso. apply NE. left. reflexivity.
  - fold zs. rewrite Hm1. right. cbn [cw_pool cw_miner cw_to_pool cw_to_miner cw_now mstage here opened t_here]. split; [lia|intros _; lia].
  - right. cbn [cw_pool cw_miner cw_to_pool cw_to_miner cw_now mstage]. split; [lia|intros _; lia].
  - right. pose proof (took_length _ _ _ H) as LC.
    assert (L2 : length conns <> 2%nat) by (intro Q; apply NE; right; right; rewrite Q; eauto).
    destruct (Nat.ltb (length conns) (length l)) eqn:LT; cbn [cw_pool cw_miner cw_to_pool cw_to_miner cw_now mstage]; [split; [lia|intros _; lia]|].
    split; [lia|]. intro X. exfalso. apply Nat.ltb_ge in LT. unfold next_kind in X.
    replace (Nat.ltb (3 + 2 * length conns) 3) with false in X by (symmetry; apply Nat.ltb_ge; lia).
    destruct (Nat.eqb (pstage p) 0); [discriminate X|]. destruct (Nat.eqb (pstage p) 2).
    { destruct (Nat.eqb (here (Some (part m1 k))) 0); discriminate X. }
    destruct (Nat.eqb (pstage p) 7) eqn:P7; [|discriminate X]. apply Nat.eqb_eq in P7.
    destruct (FW P7) as (m2 & t & m3 & t' & W & _); [intro Q; apply NE; right; left; exact Q|]. rewrite <- LL, W in LT. cbn [length] in LT. rewrite W in LC. cbn [length] in LC. lia.
  - destruct (nth_error l (length conns)) as [c|] eqn:NT.
    2:{ apply nth_error_None in NT. lia. }
    destruct (stream_read c) as [bs|] eqn:RD.
    + cbv zeta. destruct (recv_message C s (read_into b bs)) as [[x b'] r0].
      destruct (nh_miner_recv C E pf text (clock now) s (read_into b bs)) as [s' [v| |]]; [right|left; reflexivity|left; reflexivity].
      cbn [cw_pool cw_miner cw_to_pool cw_to_miner cw_now mstage]. split; [lia|intros _; lia].
    + right. cbn [cw_pool cw_miner cw_to_pool cw_to_miner cw_now mstage]. split; [lia|]. intro X. exfalso. unfold next_kind in X.
      replace (Nat.ltb (4 + 2 * length conns) 3) with false in X by (symmetry; apply Nat.ltb_ge; lia).
      destruct (Nat.eqb (pstage p) 0); [discriminate X|]. destruct (Nat.eqb (pstage p) 2).
      { destruct (Nat.eqb (here (Some (part m1 k))) 0); discriminate X. }
      destruct (Nat.eqb (pstage p) 7) eqn:P7; [|discriminate X].
      assert (HC : here (Some c) = 0%nat).
      { unfold stream_read in RD. unfold here. destruct (t_here c); [reflexivity|]. destruct (t_way c); discriminate RD. }
      assert (K2 : length conns = 0%nat \/ length conns = 1%nat) by lia.
      destruct K2 as [K2|K2]; rewrite K2 in X, NT; rewrite NT, HC in X; discriminate X.
  - exfalso. apply NE. left. reflexivity.
Qed.
Lemma gets_grows : forall w e, inv w -> ~ at_end w -> e <> PoolDoes -> e <> MinerDoes ->
  ngrows w (ev w e) /\ (of_kind (nnext w) e -> (nstage w < nstage (ev w e))%nat).
Proof.
  intros [p m tp l now] e (wr & PI & SH & MI & EA) NE N1 N2. unfold at_end in NE.
  unfold ev, nc_happens. destruct (nc_over (mkNcWorld p m tp l now)) eqn:OV; [exfalso; apply NE; left; reflexivity|].
  cbn [cw_pool cw_miner cw_to_pool cw_to_miner cw_now] in *.
  destruct (pool_wrote _ _ _ PI) as [LW FW]. unfold ngrows, nstage, nnext, h0, h1, h2.
  destruct e as [| |n|k n]; [contradiction|contradiction| |]; cbn [cw_pool cw_miner cw_to_pool cw_to_miner cw_now].
  - assert (G : (here tp <= here (option_map (arrive n) tp))%nat) by (destruct tp; [apply here_arrive|cbn; lia]).
    split; [lia|]. intro X. enough (here tp < here (option_map (arrive n) tp))%nat by lia. clear G.
    unfold next_kind in X. destruct (Nat.eqb (pstage p) 0); [destruct X|]. destruct (Nat.ltb (mstage m) 3) eqn:M3; [destruct X|].
    destruct (Nat.eqb (pstage p) 2) eqn:P2.
    2:{ exfalso. revert X. repeat match goal with |- context [if ?x then _ else _] => destruct x end; intros []. }
    destruct (Nat.eqb (here tp) 0) eqn:H0; [|destruct X]. apply Nat.eqb_eq in H0. destruct n as [|n]; [destruct X|].
    apply Nat.ltb_ge in M3.
    assert (T : exists j, tp = Some (part m1 j)) by (inversion MI; subst; cbn [mstage] in M3; try lia; eauto).
    destruct T as [j ->]. cbn [option_map]. rewrite arrive_part. rewrite here_part' in H0 by exact Nm1. rewrite !here_part' by exact Nm1. destruct j; [cbn; lia|discriminate H0].
  - pose proof (here_arrive_on l k n 0) as G0. pose proof (here_arrive_on l k n 1) as G1.
    split; [lia|]. intro X. unfold next_kind in X. destruct (Nat.eqb (pstage p) 0); [destruct X|]. destruct (Nat.ltb (mstage m) 3); [destruct X|].
    destruct (Nat.eqb (pstage p) 2); [destruct (Nat.eqb (here tp) 0); destruct X|]. destruct (Nat.eqb (pstage p) 7) eqn:P7; [|destruct X].
    apply Nat.eqb_eq in P7. destruct (FW P7) as (m2 & t & m3 & t' & W & F2 & F3); [intro Q; apply NE; right; left; exact Q|]. subst wr.
    inversion SH as [|? sa ? l' SA SB]; subst. inversion SB as [|? sb ? l'' SB' SC]; subst. inversion SC; subst.
    cbn [shows] in SA, SB'. destruct SA as [ja ->]. destruct SB' as [jb ->].
    destruct (Nat.eqb (mstage m) 4).
    + destruct (Nat.eqb (here (nth_error [part m2 ja; part m3 jb] 0)) 0) eqn:H0; [|destruct X]. apply Nat.eqb_eq in H0.
      destruct k as [|k]; [|destruct k; destruct X]. destruct n as [|n]; [destruct X|].
      enough (here (nth_error [part m2 ja; part m3 jb] 0) < here (nth_error (arrive_on 0 (S n) [part m2 ja; part m3 jb]) 0))%nat by lia.
      rewrite nth_arrive_on. cbn [Nat.eqb nth_error option_map] in *. rewrite arrive_part. rewrite here_part' in H0 by exact F2. rewrite !here_part' by exact F2. destruct ja; [cbn; lia|discriminate H0].
    + destruct (Nat.eqb (mstage m) 6); [|destruct X].
      destruct (Nat.eqb (here (nth_error [part m2 ja; part m3 jb] 1)) 0) eqn:H0; [|destruct X]. apply Nat.eqb_eq in H0.
      destruct k as [|[|k]]; [destruct X| |destruct X]. destruct n as [|n]; [destruct X|].
      enough (here (nth_error [part m2 ja; part m3 jb] 1) < here (nth_error (arrive_on 1 (S n) [part m2 ja; part m3 jb]) 1))%nat by lia.
      rewrite nth_arrive_on. cbn [Nat.eqb nth_error option_map] in *. rewrite arrive_part. rewrite here_part' in H0 by exact F3. rewrite !here_part' by exact F3. destruct jb; [cbn; lia|discriminate H0].
Qed.
Lemma at_end_dec : forall w, at_end w \/ ~ at_end w.
Proof.
  intro w. unfold at_end. destruct (nc_over w); [auto|].
  assert (P : cw_pool w = NP_dead \/ cw_pool w <> NP_dead) by (destruct (cw_pool w); auto; right; discriminate).
  assert (M : (exists s b vs, cw_miner w = NM_listen s b 2 vs) \/ ~ exists s b vs, cw_miner w = NM_listen s b 2 vs).
  { destruct (cw_miner w) as [| | |ms mb [|[|[|k]]] mv| |]; try (right; intros (s' & b' & vs' & X); discriminate X). left. eauto. }
  destruct P; [auto|]. destruct M; [auto|]. right. intros [X|[X|X]]; [discriminate X|contradiction|contradiction].
Qed.
Lemma step_ends : forall w e, inv w -> at_end w \/ at_end (ev w e) \/ (ngrows w (ev w e) /\ (of_kind (nnext w) e -> (nstage w < nstage (ev w e))%nat)).
Proof.
  intros w e H. destruct (at_end_dec w) as [A|A]; [left; exact A|right].
  assert (OV : nc_over w = false) by (destruct (nc_over w) eqn:O; [exfalso; apply A; left; exact O|reflexivity]).
  destruct e as [| |n|k n].
  - unfold ev, nc_happens. rewrite OV. destruct (pool_grows w H OV) as [D|[G S]]; [left; right; left; exact D|right]. split; [exact G|].
    intro X. apply S. destruct (nnext w); try contradiction X. reflexivity.
  - unfold ev, nc_happens. rewrite OV. destruct (miner_grows w H A) as [D|[G S]]; [left; left; exact D|right]. split; [exact G|].
    intro X. apply S. destruct (nnext w); try contradiction X. reflexivity.
  - right. apply gets_grows; [exact H|exact A|discriminate|discriminate].
  - right. apply gets_grows; [exact H|exact A|discriminate|discriminate].
Qed.
Lemma nstage_le : forall w, inv w -> nc_over w = false -> (nstage w <= 7 + 7 + 3)%nat.
Proof.
  intros w (wr & PI & SH & MI & EA) OV.
  assert (A : forall s, (here s <= 1)%nat) by (intros [s|]; cbn; [destruct (t_here s); lia|lia]).
  unfold nstage, h0, h1, h2. pose proof (A (cw_to_pool w)). pose proof (A (nth_error (cw_to_miner w) 0)). pose proof (A (nth_error (cw_to_miner w) 1)).
  destruct (pool_wrote _ _ _ PI) as [LW _].
  assert (P : (pstage (cw_pool w) <= 7)%nat) by (destruct (cw_pool w); cbn; lia).
  assert (M : (mstage (cw_miner w) <= 7)%nat); [|lia].
  unfold nc_over in OV. inversion MI; cbn [mstage]; try lia.
  match goal with X : Forall2 (took _) _ _ |- _ => apply took_length in X end. lia.
Qed.
Lemma happenings_S : forall f n, first_happenings f (S n) = first_happenings f n ++ [f n].
Proof. intros f n. unfold first_happenings. rewrite seq_S, map_app. reflexivity. Qed.
Lemma wait_for' : forall f d n, of_kind (nnext (main (first_happenings f n))) (f (n + d)%nat) ->
  exists n', at_end (main (first_happenings f n')) \/ (nstage (main (first_happenings f n)) < nstage (main (first_happenings f n')))%nat.
Proof.
  intros f. induction d as [|d IH]; intros n K.
  - rewrite Nat.add_0_r in K. destruct (step_ends _ (f n) (inv_main (first_happenings f n))) as [X|[X|[_ X]]]; [exists n; left; exact X| |].
    + exists (S n). left. rewrite happenings_S, main_snoc. exact X.
    + exists (S n). right. rewrite happenings_S, main_snoc. exact (X K).
  - destruct (step_ends _ (f n) (inv_main (first_happenings f n))) as [X|[X|[G _]]]; [exists n; left; exact X| |].
    + exists (S n). left. rewrite happenings_S, main_snoc. exact X.
    + set (w := main (first_happenings f n)) in *.
      assert (ES : main (first_happenings f (S n)) = ev w (f n)) by (rewrite happenings_S; apply main_snoc).
      set (w' := ev w (f n)) in *. destruct (Nat.eq_dec (nstage w) (nstage w')) as [Q|Q].
      * assert (N : nnext w' = nnext w) by (unfold nnext, nstage, ngrows in *; f_equal; lia).
        replace (n + S d)%nat with (S n + d)%nat in K by lia. rewrite <- N, <- ES in K. destruct (IH (S n) K) as [n' H]. exists n'. rewrite ES in H. destruct H; [left; assumption|right; lia].
      * exists (S n). right. rewrite ES. unfold nstage, ngrows in *. lia.
Qed.
Lemma comes_to_end' : forall f, fair_happenings f -> exists n, at_end (main (first_happenings f n)).
Proof.
  intros f F. assert (I : forall d n, (17 < nstage (main (first_happenings f n)) + d)%nat -> exists n, at_end (main (first_happenings f n))).
  { induction d as [|d IH]; intros n H.
    - destruct (nc_over (main (first_happenings f n))) eqn:OV; [exists n; left; exact OV|].
      pose proof (nstage_le _ (inv_main (first_happenings f n)) OV). lia.
    - destruct (F (nnext (main (first_happenings f n))) n) as (j & L & K). replace j with (n + (j - n))%nat in K by lia.
      destruct (wait_for' f _ n K) as [n' [X|X]]; [exists n'; exact X|]. apply (IH n'). lia. }
  apply (I 18%nat 0%nat). lia.
Qed.
(** At the end with two messages heard, [conns] has two elements. *)
Lemma heard_two : forall es s b vs, cw_miner (main es) = NM_listen s b 2 vs ->
  exists i k l conns, (1 <= k)%nat /\ sends i k l /\ delivered clock i l conns /\ length conns = 2%nat /\
    nh_miner_listen C E pf text sm zs conns = (vs, false).
Proof.
  intros es s b vs H. destruct (inv_main es) as (wr & PI & SH & MI & EA). rewrite H in MI. inversion MI; subst.
  destruct (delivered_inv _ _ _ conns PI) as (i & k' & l & A & B & D); [assumption|intros ->; discriminate|].
  exists i, k', l, conns. split; [exact A|]. split; [exact B|]. split; [exact D|]. split; [first [assumption | symmetry; assumption | lia]|].
  match goal with X : leads _ _ _ _ |- _ => specialize (X []); rewrite app_nil_r in X; rewrite X end. cbn [nh_miner_listen]. rewrite app_nil_r. reflexivity.
Qed.

(** ** When the pool gets less far *)
Lemma read_part1 : forall b k, (1 <= k)%nat -> stream_read (part b k) = Some (firstn k b).
Proof.
  intros b k L. destruct b as [|x b]; [|rewrite read_part by discriminate; destruct k; [lia|reflexivity]].
  destruct k; reflexivity.
Qed.
Lemma reading_run : forall ns r, (1 <= list_sum ns)%nat ->
  main (to_answers ns ++ r) = fold_left ev (repeat PoolDoes 4 ++ r)
    (mkNcWorld (NP_read (read_into zs (firstn (list_sum ns) m1))) (NM_listen sm zs 0 []) (Some (part m1 (list_sum ns))) [] (6 + length ns)).
Proof.
  intros ns r L. rewrite main_cat. unfold to_answers. rewrite main_cat.
  replace (main [PoolDoes; MinerDoes; MinerDoes; MinerDoes; PoolDoes]) with (mkNcWorld NP_accepted (NM_listen sm zs 0 []) (Some (part m1 0)) [] 5).
  2:{ symmetry. change (main _) with (fold_left ev [MinerDoes; MinerDoes; PoolDoes] (mkNcWorld NP_bound NM_connected (Some opened) [] 2)).
      rewrite ev_cons.
      replace (ev _ MinerDoes) with (mkNcWorld NP_bound (NM_sent sm) (Some (part m1 0)) [] 3); [reflexivity|].
      unfold ev, nc_happens, nc_over, nc_miner_turn. cbn [cw_pool cw_miner cw_to_pool cw_to_miner cw_now]. fold zs. rewrite Hm1. reflexivity. }
  rewrite (fold_left_app ev (map PoolGets ns)), (fold_left_app ev (repeat PoolDoes 4)). rewrite pool_gets by reflexivity. f_equal.
  change (repeat PoolDoes 5) with (PoolDoes :: repeat PoolDoes 4). cbn [Nat.add].
  rewrite ev_cons.
  replace (ev (mkNcWorld NP_accepted (NM_listen sm zs 0 []) (Some (part m1 (list_sum ns))) [] (S (S (S (S (S (length ns)))))))  PoolDoes)
    with (mkNcWorld (NP_read (read_into zs (firstn (list_sum ns) m1))) (NM_listen sm zs 0 []) (Some (part m1 (list_sum ns))) [] (6 + length ns)); [reflexivity|].
  unfold ev, nc_happens, nc_over, nc_pool_turn. cbn [cw_pool cw_miner cw_to_pool cw_to_miner cw_now]. rewrite read_part by exact Nm1.
  destruct (list_sum ns); [lia|]. reflexivity.
Qed.
(** Refused by the pool: nobody hears of anything. *)
Lemma stuck : forall r tp n, exists tp' n', fold_left ev r (mkNcWorld NP_dead (NM_listen sm zs 0 []) tp [] n) = mkNcWorld NP_dead (NM_listen sm zs 0 []) tp' [] n'.
Proof.
  induction r as [|e r IH]; intros tp n; [exists tp, n; reflexivity|]. rewrite ev_cons. destruct e as [| |x|k x].
  - apply IH.
  - apply IH.
  - apply IH.
  - replace (ev (mkNcWorld NP_dead (NM_listen sm zs 0 []) tp [] n) (MinerGets k x)) with (mkNcWorld NP_dead (NM_listen sm zs 0 []) tp [] (S n)); [apply IH|].
    unfold ev, nc_happens, arrive_on. cbn [cw_pool cw_miner cw_to_pool cw_to_miner cw_now nc_over]. rewrite firstn_nil, skipn_nil. reflexivity.
Qed.
Lemma turned_down : forall ns r, (1 <= list_sum ns)%nat ->
  (forall s1 b1 u, recv_message C (new_inbound C (Some static) rsr) (read_into zs (firstn (list_sum ns) m1)) <> (s1, b1, Ok u)) ->
  let w := main (to_answers ns ++ r) in cw_pool w = NP_dead /\ printed (cw_miner w) = [] /\ nc_over w = false.
Proof.
  intros ns r L N. rewrite reading_run by exact L. change (repeat PoolDoes 4 ++ r) with (PoolDoes :: repeat PoolDoes 3 ++ r). rewrite ev_cons.
  match goal with |- context [ev ?w PoolDoes] => replace (ev w PoolDoes) with (mkNcWorld NP_dead (NM_listen sm zs 0 []) (Some (part m1 (list_sum ns))) [] (7 + length ns)) end.
  - destruct (stuck (repeat PoolDoes 3 ++ r) (Some (part m1 (list_sum ns))) (7 + length ns)) as (tp & n & Q). rewrite Q. repeat split.
  - unfold ev, nc_happens, nc_over, nc_pool_turn. cbn [cw_pool cw_miner cw_to_pool cw_to_miner cw_now].
    destruct (recv_message C (new_inbound C (Some static) rsr) (read_into zs (firstn (list_sum ns) m1))) as [[s1 b1] r1] eqn:Q.
    destruct r1 as [u| |]; [contradiction (N s1 b1 u eq_refl)|reflexivity|reflexivity].
Qed.
(** The pool connects before the miner listens. *)
Lemma stuck_sent : forall r tp n, exists m tp' n', fold_left ev r (mkNcWorld NP_dead (NM_sent sm) tp [] n) = mkNcWorld NP_dead m tp' [] n' /\
  (m = NM_sent sm \/ m = NM_listen sm zs 0 []).
Proof.
  induction r as [|e r IH]; intros tp n; [exists (NM_sent sm), tp, n; split; [reflexivity|left; reflexivity]|]. rewrite ev_cons. destruct e as [| |x|k x].
  - apply IH.
  - destruct (stuck r tp (S n)) as (tp' & n' & Q). exists (NM_listen sm zs 0 []), tp', n'. split; [exact Q|right; reflexivity].
  - apply IH.
  - replace (ev (mkNcWorld NP_dead (NM_sent sm) tp [] n) (MinerGets k x)) with (mkNcWorld NP_dead (NM_sent sm) tp [] (S n)); [apply IH|].
    unfold ev, nc_happens, arrive_on. cbn [cw_pool cw_miner cw_to_pool cw_to_miner cw_now nc_over]. rewrite firstn_nil, skipn_nil. reflexivity.
Qed.
Lemma early_run : forall ns r, (1 <= list_sum ns)%nat ->
  let w := main (([PoolDoes; MinerDoes; MinerDoes; PoolDoes] ++ map PoolGets ns ++ [PoolDoes; PoolDoes]) ++ r) in
  cw_pool w = NP_dead /\ printed (cw_miner w) = [] /\ nc_over w = false.
Proof.
  intros ns r L. cbv zeta. rewrite main_cat. rewrite main_cat.
  replace (main [PoolDoes; MinerDoes; MinerDoes; PoolDoes]) with (mkNcWorld NP_accepted (NM_sent sm) (Some (part m1 0)) [] 4).
  2:{ symmetry. change (main _) with (fold_left ev [MinerDoes; PoolDoes] (mkNcWorld NP_bound NM_connected (Some opened) [] 2)).
      rewrite ev_cons.
      replace (ev _ MinerDoes) with (mkNcWorld NP_bound (NM_sent sm) (Some (part m1 0)) [] 3); [reflexivity|].
      unfold ev, nc_happens, nc_over, nc_miner_turn. cbn [cw_pool cw_miner cw_to_pool cw_to_miner cw_now]. fold zs. rewrite Hm1. reflexivity. }
  rewrite (fold_left_app ev (map PoolGets ns)). rewrite pool_gets by reflexivity. cbn [Nat.add].
  rewrite ev_cons.
  match goal with |- context [ev ?w PoolDoes] => replace (ev w PoolDoes)
    with (mkNcWorld (NP_read (read_into zs (firstn (list_sum ns) m1))) (NM_sent sm) (Some (part m1 (list_sum ns))) [] (5 + length ns)) end.
  2:{ unfold ev, nc_happens, nc_over, nc_pool_turn. cbn [cw_pool cw_miner cw_to_pool cw_to_miner cw_now]. rewrite read_part by exact Nm1.
      destruct (list_sum ns); [inversion L|]. reflexivity. }
  rewrite ev_cons.
  match goal with |- context [ev ?w PoolDoes] => replace (ev w PoolDoes) with (mkNcWorld NP_dead (NM_sent sm) (Some (part m1 (list_sum ns))) [] (6 + length ns)) end.
  2:{ unfold ev, nc_happens, nc_over, nc_pool_turn. cbn [cw_pool cw_miner cw_to_pool cw_to_miner cw_now nh_listening].
      destruct (recv_message C (new_inbound C (Some static) rsr) (read_into zs (firstn (list_sum ns) m1))) as [[s1 b1] [u| |]]; reflexivity. }
  cbn [fold_left]. destruct (stuck_sent r (Some (part m1 (list_sum ns))) (6 + length ns)) as (m & tp & n & Q & [-> | ->]); rewrite Q; repeat split.
Qed.
(** The pool panics after it has connected: the connection is closed with nothing on it. *)
Lemma none_run : forall ns js ks s1 b1, (1 <= list_sum js)%nat -> began (list_sum ns) s1 b1 -> (forall s2 m2, nh_send C rnd1 s1 b1 <> (s2, Ok m2)) ->
  (forall t, snd (nh_miner_listen C E pf text sm zs [([], t)]) = true) ->
  let w := main (to_answers ns ++ to_verdict js ks) in
  nh_miner_listen C E pf text sm zs [([], clock (heard_at ns js))] = (printed (cw_miner w), nc_over w).
Proof.
  intros ns js ks s1 b1 L2 (L1 & u & RV) S2 DIE. cbv zeta. rewrite reading_run by exact L1. change (repeat PoolDoes 4 ++ ?r) with (PoolDoes :: PoolDoes :: PoolDoes :: PoolDoes :: r).
  set (tp := Some (part m1 (list_sum ns))).
  rewrite ev_cons.
  match goal with |- context [ev ?w PoolDoes] => replace (ev w PoolDoes) with (mkNcWorld (NP_first s1 b1) (NM_listen sm zs 0 []) tp [opened] (7 + length ns)) end.
  2:{ unfold ev, nc_happens, nc_over, nc_pool_turn. cbn [cw_pool cw_miner cw_to_pool cw_to_miner cw_now]. rewrite RV. reflexivity. }
  rewrite ev_cons.
  match goal with |- context [ev ?w PoolDoes] => replace (ev w PoolDoes) with (mkNcWorld NP_dead (NM_listen sm zs 0 []) tp [part [] 0] (8 + length ns)) end.
  2:{ unfold ev, nc_happens, nc_over, nc_pool_turn. cbn [cw_pool cw_miner cw_to_pool cw_to_miner cw_now].
      destruct (nh_send C rnd1 s1 b1) as [s2 [m2| |]]; [contradiction (S2 s2 m2 eq_refl)|reflexivity|reflexivity]. }
  rewrite ev_cons. change (ev _ PoolDoes) with (mkNcWorld NP_dead (NM_listen sm zs 0 []) tp [part [] 0] (9 + length ns)).
  rewrite ev_cons. change (ev _ PoolDoes) with (mkNcWorld NP_dead (NM_listen sm zs 0 []) tp [part [] 0] (10 + length ns)).
  unfold to_verdict. rewrite ev_cons. change (ev _ MinerDoes) with (mkNcWorld NP_dead (NM_accepted sm zs 0 []) tp ([] ++ part [] 0 :: []) (11 + length ns)).
  rewrite fold_left_app, (miner_gets js NP_dead _ tp []) by reflexivity. cbn [app Nat.add]. rewrite ev_cons.
  specialize (DIE (clock (heard_at ns js))). unfold heard_at in *. cbn [nh_miner_listen] in *. cbv zeta in *.
  match goal with |- context [fold_left ev ?r (ev ?w MinerDoes)] => replace (ev w MinerDoes) with (nc_miner_turn C E pf rsi rnd text clock w) by reflexivity end.
  unfold nc_miner_turn. cbn [cw_pool cw_miner cw_to_pool cw_to_miner cw_now nth_error]. rewrite read_part1 by exact L2. rewrite firstn_nil.
  destruct (recv_message C sm (read_into zs [])) as [[x b'] r0].
  change (S (S (S (S (S (S (S (S (S (S (S (length ns + length js)))))))))))) with (11 + length ns + length js)%nat.
  destruct (nh_miner_recv C E pf text (clock (11 + length ns + length js)%nat) sm (read_into zs [])) as [s' [v| |]] eqn:MR.
  - destruct v; discriminate DIE.
  - match goal with |- context [fold_left ev ?r ?w] => rewrite (over_stays r w eq_refl) end. reflexivity.
  - match goal with |- context [fold_left ev ?r ?w] => rewrite (over_stays r w eq_refl) end. reflexivity.
Qed.
Lemma half_run : forall ns js ks s2 m2 buf, (1 <= list_sum js)%nat -> (1 <= list_sum ks)%nat -> replied (list_sum ns) s2 m2 -> certified (made_at ns) buf ->
  (forall s3 m3, nh_send C rnd2 s2 buf <> (s3, Ok m3)) ->
  let w := main (to_answers ns ++ to_verdict js ks) in
  nh_miner_listen C E pf text sm zs [(firstn (list_sum js) m2, clock (heard_at ns js)); ([], clock (read_at ns js ks))] = (printed (cw_miner w), nc_over w).
Proof.
  intros ns js ks s2 m2 buf L2 L3 (s1 & b1 & (L1 & u & RV) & S2) CE S3. cbv zeta. rewrite reading_run by exact L1.
  change (repeat PoolDoes 4 ++ ?r) with (PoolDoes :: PoolDoes :: PoolDoes :: PoolDoes :: r).
  set (tp := Some (part m1 (list_sum ns))).
  rewrite ev_cons.
  match goal with |- context [ev ?w PoolDoes] => replace (ev w PoolDoes) with (mkNcWorld (NP_first s1 b1) (NM_listen sm zs 0 []) tp [opened] (7 + length ns)) end.
  2:{ unfold ev, nc_happens, nc_over, nc_pool_turn. cbn [cw_pool cw_miner cw_to_pool cw_to_miner cw_now]. rewrite RV. reflexivity. }
  rewrite ev_cons.
  match goal with |- context [ev ?w PoolDoes] => replace (ev w PoolDoes) with (mkNcWorld (NP_replied s2) (NM_listen sm zs 0 []) tp [part m2 0] (8 + length ns)) end.
  2:{ unfold ev, nc_happens, nc_over, nc_pool_turn. cbn [cw_pool cw_miner cw_to_pool cw_to_miner cw_now]. rewrite S2. reflexivity. }
  rewrite ev_cons.
  match goal with |- context [ev ?w PoolDoes] => replace (ev w PoolDoes) with (mkNcWorld (NP_second s2 buf) (NM_listen sm zs 0 []) tp [part m2 0; opened] (9 + length ns)) end.
  2:{ unfold ev, nc_happens, nc_over, nc_pool_turn. cbn [cw_pool cw_miner cw_to_pool cw_to_miner cw_now]. unfold certified, made_at in CE. rewrite CE. reflexivity. }
  rewrite ev_cons.
  match goal with |- context [ev ?w PoolDoes] => replace (ev w PoolDoes) with (mkNcWorld NP_dead (NM_listen sm zs 0 []) tp [part m2 0; part [] 0] (10 + length ns)) end.
  2:{ unfold ev, nc_happens, nc_over, nc_pool_turn. cbn [cw_pool cw_miner cw_to_pool cw_to_miner cw_now].
      destruct (nh_send C rnd2 s2 buf) as [s3 [m3| |]]; [contradiction (S3 s3 m3 eq_refl)|reflexivity|reflexivity]. }
  unfold to_verdict. rewrite ev_cons.
  change (ev _ MinerDoes) with (mkNcWorld NP_dead (NM_accepted sm zs 0 []) tp ([] ++ part m2 0 :: [part [] 0]) (11 + length ns)).
  rewrite fold_left_app, (miner_gets js NP_dead _ tp []) by reflexivity. cbn [app Nat.add].
  rewrite ev_cons. unfold heard_at. cbn [nh_miner_listen]. cbv zeta. 
  match goal with |- context [fold_left ev ?r (ev ?w MinerDoes)] => replace (ev w MinerDoes) with (nc_miner_turn C E pf rsi rnd text clock w) by reflexivity end.
  unfold nc_miner_turn. cbn [cw_pool cw_miner cw_to_pool cw_to_miner cw_now nth_error]. rewrite read_part1 by exact L2.
  destruct (recv_message C sm (read_into zs (firstn (list_sum js) m2))) as [[x b'] r0].
  change (S (S (S (S (S (S (S (S (S (S (S (length ns + length js)))))))))))) with (11 + length ns + length js)%nat.
  destruct (nh_miner_recv C E pf text (clock (11 + length ns + length js)%nat) sm (read_into zs (firstn (list_sum js) m2))) as [s' [v| |]] eqn:MR.
  2:{ cbn [app]. match goal with |- context [fold_left ev ?r ?w] => rewrite (over_stays r w eq_refl) end. reflexivity. }
  2:{ cbn [app]. match goal with |- context [fold_left ev ?r ?w] => rewrite (over_stays r w eq_refl) end. reflexivity. }
  rewrite ev_cons.
  change (ev _ MinerDoes) with (mkNcWorld NP_dead (NM_accepted s' b' 1 ([] ++ match v with Some x => [x] | None => [] end)) tp ([part m2 (list_sum js)] ++ part [] 0 :: []) (13 + length ns + length js)).
  rewrite fold_left_app, (miner_gets ks NP_dead _ tp [part m2 (list_sum js)]) by reflexivity. cbn [app Nat.add].
  rewrite ev_cons. cbn [fold_left].
  match goal with |- context [ev ?w MinerDoes] => replace (ev w MinerDoes) with (nc_miner_turn C E pf rsi rnd text clock w) by reflexivity end.
  unfold nc_over, nc_miner_turn. cbn [cw_pool cw_miner cw_to_pool cw_to_miner cw_now nth_error]. rewrite read_part1 by exact L3. rewrite firstn_nil.
  destruct (recv_message C s' (read_into b' [])) as [[y b''] r1].
  unfold read_at.
  change (S (S (S (S (S (S (S (S (S (S (S (S (S (length ns + length js + length ks)))))))))))))) with (13 + length ns + length js + length ks)%nat.
  destruct (nh_miner_recv C E pf text (clock (13 + length ns + length js + length ks)%nat) s' (read_into b' [])) as [s'' [v'| |]]; cbn [cw_miner printed]; destruct v as [v|]; try destruct v' as [v'|]; reflexivity.
Qed.
(** ** Before anything arrives *)
Definition waiting (w : nc_world) : Prop :=
  (cw_pool w = NP_start \/ cw_pool w = NP_bound \/ cw_pool w = NP_accepted) /\
  (cw_to_pool w = None \/ cw_to_pool w = Some opened \/ cw_to_pool w = Some (mkStream m1 [] true)) /\
  cw_to_miner w = [] /\
  (cw_miner w = NM_start \/ cw_miner w = NM_dead [] \/ cw_miner w = NM_connected \/ cw_miner w = NM_sent sm \/ cw_miner w = NM_listen sm zs 0 []).
Lemma waiting_ev : forall w e, waiting w -> (forall n, e = PoolGets n -> n = 0%nat) -> waiting (ev w e).
Proof.
  intros [p m tp tm now] e (P & T & M & A) G. cbn [cw_pool cw_to_pool cw_to_miner cw_miner] in P, T, M, A. subst tm.
  assert (R0 : stream_read opened = None) by reflexivity.
  assert (R1 : stream_read (mkStream m1 [] true) = None) by (unfold stream_read; cbn [t_here t_way]; destruct m1; [contradiction Nm1; reflexivity|reflexivity]).
  unfold ev, nc_happens. destruct (nc_over _) eqn:O; [repeat split; cbn; tauto|].
  destruct e as [| |n|k n].
  - unfold nc_pool_turn. cbn [cw_pool cw_to_pool cw_to_miner cw_miner cw_now].
    destruct P as [->|[->| ->]]; destruct T as [->|[->| ->]]; try rewrite R0; try rewrite R1; repeat split; cbn; tauto.
  - unfold nc_miner_turn. cbn [cw_pool cw_to_pool cw_to_miner cw_miner cw_now].
    destruct A as [->|[->|[->|[->| ->]]]].
    + destruct P as [->|[->| ->]]; repeat split; cbn; tauto.
    + discriminate O.
    + fold zs. rewrite Hm1. repeat split; cbn; tauto.
    + repeat split; cbn; tauto.
    + cbn [length Nat.ltb Nat.leb]. repeat split; cbn; tauto.
  - rewrite (G n eq_refl). repeat split; cbn [cw_pool cw_to_pool cw_to_miner cw_miner]; try tauto.
    destruct T as [->|[->| ->]]; cbn [option_map]; [left; reflexivity|right; left; reflexivity|right; right; reflexivity].
  - repeat split; cbn [cw_pool cw_to_pool cw_to_miner cw_miner]; try tauto. unfold arrive_on. destruct k; reflexivity.
Qed.
Theorem waits : forall es, (forall n, In (PoolGets n) es -> n = 0%nat) -> waiting (main es).
Proof.
  intro es. unfold main, nc_main.
  assert (X : forall w, waiting w -> (forall n, In (PoolGets n) es -> n = 0%nat) ->
    waiting (fold_left (nc_happens C E pf rsi rnd rnd1 rnd2 rsr static authority text clock clock') es w)).
  { induction es as [|e es IH]; intros w W G; [exact W|]. cbn [fold_left]. apply IH; [|intros n I; apply G; right; exact I].
    apply waiting_ev; [exact W|]. intros n ->. apply G. left. reflexivity. }
  intro G. apply X; [|exact G]. repeat split; cbn; tauto.
Qed.
End Run.
