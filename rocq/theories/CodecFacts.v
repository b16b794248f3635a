(** * CodecFacts: compositional reasoning about deserializers and serializers. *)
From Verif Require Import Base Codec SpecWire BaseFacts.
Ltac Zify.zify_post_hook ::= Z.div_mod_to_equations.

(** A parser in front of [rest] after having consumed [pre]. *)
Definition P (pre rest : bytes) : parser := mkParser (pre ++ rest) (len pre).

Lemma P_app : forall pre c rest, P (pre ++ c) rest = mkParser (pre ++ c ++ rest) (len pre + len c).
Proof. intros. unfold P. rewrite len_app, <- app_assoc. reflexivity. Qed.

Lemma next_by_raw : forall step pf bs start,
  start + step < 2 ^ 64 ->
  next_by step pf (mkParser bs start) =
    if start + step <=? len bs
    then (mkParser bs (start + step), Ok (firstn (N.to_nat step) (skipn (N.to_nat start) bs)))
    else (mkParser bs start, Err ParseError).
Proof.
  intros step pf bs start H. unfold next_by, usize_add, slice_get, USIZE_MOD. cbn [p_start p_bytes].
  assert (E : (start + step <? 2 ^ 64) = true) by (apply N.ltb_lt; exact H). rewrite E.
  assert (E2 : (start <=? start + step) = true) by lia. rewrite E2. simpl andb.
  destruct (start + step <=? len bs) eqn:E3; [|reflexivity].
  replace (start + step - start) with step by lia. reflexivity.
Qed.

Lemma next_by_ok : forall c pf pre rest,
  rust_slice (pre ++ c ++ rest) ->
  next_by (len c) pf (P pre (c ++ rest)) = (P (pre ++ c) rest, Ok c).
Proof.
  intros c pf pre rest H. unfold rust_slice in H. unfold P at 1.
  rewrite next_by_raw by (rewrite !len_app in H; lia).
  assert (E : (len pre + len c <=? len (pre ++ c ++ rest)) = true) by (rewrite !len_app; lia).
  rewrite E, P_app, skipn_len_app, firstn_len_app. reflexivity.
Qed.

Lemma next_by_short : forall step pf pre rest,
  rust_slice (pre ++ rest) -> step <= 2 ^ 63 -> len rest < step ->
  next_by step pf (P pre rest) = (P pre rest, Err ParseError).
Proof.
  intros step pf pre rest H H1 H2. unfold rust_slice in H. unfold P.
  rewrite next_by_raw by (rewrite !len_app in H; lia).
  assert (E : (len pre + step <=? len (pre ++ rest)) = false) by (rewrite !len_app; lia).
  rewrite E. reflexivity.
Qed.

(** ** Forward reading: [d] reads exactly [c] and returns [a], whatever surrounds [c]. *)
Definition reads {A} (d : De A) (c : bytes) (a : A) : Prop :=
  forall pf pre rest, rust_slice (pre ++ c ++ rest) -> d pf (P pre (c ++ rest)) = (P (pre ++ c) rest, Ok a).

Lemma reads_ret : forall A (a : A), reads (de_ret a) [] a.
Proof. intros A a pf pre rest _. unfold de_ret. rewrite app_nil_r. reflexivity. Qed.

Lemma reads_lift : forall A (a : A) o, o = Ok a -> reads (de_lift o) [] a.
Proof. intros A a o -> pf pre rest _. unfold de_lift. rewrite app_nil_r. reflexivity. Qed.

Lemma reads_next_by : forall n c, len c = n -> reads (next_by n) c c.
Proof. intros n c <- pf pre rest H. apply next_by_ok, H. Qed.

Lemma reads_bind : forall A B (m : De A) (f : A -> De B) c1 c2 a b,
  reads m c1 a -> reads (f a) c2 b -> reads (de_bind m f) (c1 ++ c2) b.
Proof.
  intros A B m f c1 c2 a b H1 H2 pf pre rest Hs. unfold de_bind.
  rewrite <- app_assoc, H1 by (rewrite <- app_assoc in Hs; exact Hs).
  rewrite H2, <- app_assoc by (rewrite <- !app_assoc in *; exact Hs). reflexivity.
Qed.

Lemma reads_bind_last : forall A B (m : De A) (f : A -> De B) c a b,
  reads m c a -> reads (f a) [] b -> reads (de_bind m f) c b.
Proof. intros. rewrite <- (app_nil_r c). eapply reads_bind; eauto. Qed.

(** ** Backward reading: total, in bounds, local, with a relation [Q] between result and bytes read. *)
Definition good {A} (d : De A) (Q : A -> bytes -> Prop) : Prop :=
  forall pf pre rest, rust_slice (pre ++ rest) ->
  exists c rest' r,
    rest = c ++ rest' /\ d pf (P pre rest) = (P (pre ++ c) rest', r) /\ r <> Panic /\
    (r <> Err ParseError ->
      (forall pf2 pre2 rest2, rust_slice (pre2 ++ c ++ rest2) ->
         d pf2 (P pre2 (c ++ rest2)) = (P (pre2 ++ c) rest2, r)) /\
      (forall pf2 pre2 c1 c2, c = c1 ++ c2 -> c2 <> [] -> rust_slice (pre2 ++ c1) ->
         exists p', d pf2 (P pre2 c1) = (p', Err ParseError))) /\
    (forall a, r = Ok a -> Q a c).

Lemma good_weaken : forall A (d : De A) (Q Q' : A -> bytes -> Prop),
  good d Q -> (forall a c, Q a c -> Q' a c) -> good d Q'.
Proof.
  intros A d Q Q' H HQ pf pre rest Hs.
  destruct (H pf pre rest Hs) as (c & rest' & r & E1 & E2 & E3 & E4 & E5).
  exists c, rest', r. repeat (split; auto).
Qed.

Lemma good_lift : forall A (o : Result A) (Q : A -> bytes -> Prop),
  o <> Panic -> (forall a, o = Ok a -> Q a []) -> good (de_lift o) Q.
Proof.
  intros A o Q H HQ pf pre rest Hs. exists [], rest, o.
  unfold de_lift. rewrite app_nil_r. repeat (split; auto).
  - intros. cbn. rewrite app_nil_r. reflexivity.
  - intros pf2 pre2 c1 c2 E Hc. destruct c1; [simpl in E; congruence|discriminate].
Qed.

Lemma good_ret : forall A (a : A) (Q : A -> bytes -> Prop), Q a [] -> good (de_ret a) Q.
Proof.
  intros A a Q H. apply (good_lift A (Ok a) Q); [discriminate|].
  intros a' E; injection E as <-; exact H.
Qed.

Lemma good_next_by : forall n, n <= 2 ^ 63 -> good (next_by n) (fun a c => a = c /\ len c = n).
Proof.
  intros n Hn pf pre rest Hs.
  destruct (N.le_gt_cases n (len rest)) as [H|H].
  - destruct (split_at _ n rest H) as (c & rest' & -> & Hc).
    exists c, rest', (Ok c). split; [reflexivity|]. subst n.
    rewrite next_by_ok by exact Hs.
    split; [reflexivity|]. split; [discriminate|]. split.
    + intros _. split.
      * intros. apply next_by_ok; assumption.
      * intros pf2 pre2 c1 c2 -> Hc2 Hs2. eexists. apply next_by_short; auto.
        rewrite len_app. destruct c2; [congruence|]. rewrite len_cons. lia.
    + intros a E; injection E as <-; auto.
  - exists [], rest, (Err ParseError). rewrite next_by_short by auto.
    rewrite app_nil_r. repeat (split; auto); try discriminate; congruence.
Qed.

Lemma good_bind : forall A B (m : De A) (f : A -> De B) (Qm : A -> bytes -> Prop) (Q : B -> bytes -> Prop),
  good m Qm ->
  (forall a ca, Qm a ca -> good (f a) (fun b cb => Q b (ca ++ cb))) ->
  good (de_bind m f) Q.
Proof.
  intros A B m f Qm Q Hm Hf pf pre rest Hs.
  destruct (Hm pf pre rest Hs) as (ca & rest' & r & -> & E & Np & Loc & HQ).
  destruct r as [a|e|]; [|exists ca, rest', (Err e)|congruence].
  - destruct (Loc ltac:(discriminate)) as [Loc1 Tr1].
    destruct (Hf a ca (HQ a eq_refl) pf (pre ++ ca) rest') as (cb & rest'' & r2 & -> & E2 & Np2 & Loc2 & HQ2).
    { rewrite <- app_assoc. exact Hs. }
    exists (ca ++ cb), rest'', r2.
    split; [rewrite app_assoc; reflexivity|].
    split. { unfold de_bind. rewrite E, E2, app_assoc. reflexivity. }
    split; [assumption|]. split.
    + intros Hr. destruct (Loc2 Hr) as [L2 T2]. split.
      * intros pf2 pre2 rest2 Hs2. unfold de_bind.
        rewrite <- app_assoc, Loc1 by (rewrite <- app_assoc in Hs2; exact Hs2).
        rewrite L2, <- app_assoc by (rewrite <- !app_assoc in *; exact Hs2). reflexivity.
      * intros pf2 pre2 c1 c2 Ec Hc Hs2. unfold de_bind.
        destruct (N.lt_ge_cases (len c1) (len ca)) as [Hlt|Hge].
        -- (* cut inside the first part *)
           destruct (split_at _ (len c1) ca) as (ca1 & ca2 & -> & Hl); [lia|].
           rewrite <- app_assoc in Ec.
           apply app_inj_len in Ec as [-> _]; [|lia].
           destruct (Tr1 pf2 pre2 c1 ca2 eq_refl) as [p' Hp']; auto.
           { intros ->. rewrite app_nil_r in Hlt. lia. }
           rewrite Hp'. eauto.
        -- destruct (split_at _ (len ca) c1 Hge) as (d1 & d2 & -> & Hl).
           rewrite <- app_assoc in Ec. apply app_inj_len in Ec as [E1 Ec]; [|lia]. subst d1.
           rewrite Loc1 by exact Hs2.
           destruct (T2 pf2 (pre2 ++ ca) d2 c2 Ec Hc) as [p' Hp'].
           { rewrite <- app_assoc. exact Hs2. }
           eauto.
    + intros b ->. apply HQ2. reflexivity.
  - split; [reflexivity|]. unfold de_bind at 1. rewrite E.
    split; [reflexivity|]. split; [discriminate|]. split; [|discriminate].
    intros Hr. destruct (Loc ltac:(congruence)) as [L T]. split.
    + intros. unfold de_bind. rewrite L by assumption. reflexivity.
    + intros pf2 pre2 c1 c2 Ec Hc Hs2. unfold de_bind.
      destruct (T pf2 pre2 c1 c2 Ec Hc Hs2) as [p' ->]. eauto.
Qed.

(** ** Serializers: with a writer that takes whole buffers, [m] performs the writes [cs] and returns [a]. *)
Inductive emits {A} : wprog A -> list bytes -> A -> Prop :=
| emits_ret : forall a, emits (WRet (Ok a)) [] a
| emits_write : forall buf k cs a, emits (k (len buf)) cs a -> emits (WWrite buf k) (buf :: cs) a.

Lemma emits_bind : forall A B (m : wprog A) (f : A -> wprog B) cs1 cs2 a b,
  emits m cs1 a -> emits (f a) cs2 b -> emits (wbind m f) (cs1 ++ cs2) b.
Proof.
  intros A B m f cs1 cs2 a b H. induction H; intros Hf; simpl.
  - exact Hf.
  - constructor. apply IHemits; exact Hf.
Qed.

Lemma emits_run_vec : forall A (m : wprog A) cs a w,
  emits m cs a -> run vec_writer m w = (w ++ concat cs, Ok a).
Proof.
  intros A m cs a w H. revert w. induction H; intros w; simpl.
  - rewrite app_nil_r. reflexivity.
  - rewrite IHemits, app_assoc. reflexivity.
Qed.

Lemma emits_serialize : forall m cs n, emits m cs n -> serialize m = Ok (concat cs).
Proof. intros m cs n H. unfold serialize. rewrite (emits_run_vec _ _ _ _ _ H). reflexivity. Qed.
