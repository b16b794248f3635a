(** * SumProofs: the counts reported by serializers on a 32-bit or 64-bit machine. *)
From Coq Require Import Lia ZifyBool ZifyNat ZifyN.
From Verif Require Import Base Codec Types Messages Frame Catalog Macro Nest Word SpecWord SpecWire SpecTypes SpecNest Sum SpecSum
  BaseFacts CodecFacts TypesFacts FrameFacts MsgProofs WriterProofs MacroProofs NestProofs.
Open Scope N_scope.

Section Near.
Variable w : width.
Variable pf : profile.
Local Notation M := (usize_end w).

Lemma M_pos : 4294967296 <= M.
Proof. destruct w; cbn; lia. Qed.
Lemma M_mod : usize_mod w = M.
Proof. destruct w; reflexivity. Qed.

(** Every end of the program without an error satisfies [P]. *)
Inductive ends {A} (P : A -> Prop) : wprog A -> Prop :=
| ends_ok : forall a, P a -> ends P (WRet (Ok a))
| ends_err : forall e, ends P (WRet (Err e))
| ends_write : forall buf k, (forall n, n < M -> ends P (k n)) -> ends P (WWrite buf k).

(** [near R P m' m]: the same calls and errors, results related by [R]; or a panic where all results satisfy [P]. *)
Inductive near {A B} (R : A -> B -> Prop) (P : B -> Prop) : wprog A -> wprog B -> Prop :=
| near_ok : forall a b, R a b -> near R P (WRet (Ok a)) (WRet (Ok b))
| near_err : forall e, near R P (WRet (Err e)) (WRet (Err e))
| near_panic : forall m, pf = Debug -> ends P m -> near R P (WRet Panic) m
| near_write : forall buf k k', (forall n, n < M -> near R P (k' n) (k n)) -> near R P (WWrite buf k') (WWrite buf k).

Lemma ends_bind : forall A B (P : A -> Prop) (Q : B -> Prop) m f, ends P m -> (forall a, P a -> ends Q (f a)) -> ends Q (wbind m f).
Proof. intros A B P Q m f H F. induction H; cbn [wbind]; [auto|constructor|constructor; auto]. Qed.
Lemma near_bind : forall A B A' B' (R : A -> B -> Prop) P (R' : A' -> B' -> Prop) P' m' m f g,
  near R P m' m -> (forall a b, R a b -> near R' P' (f a) (g b)) -> (forall b, P b -> ends P' (g b)) ->
  near R' P' (wbind m' f) (wbind m g).
Proof.
  intros A B A' B' R P R' P' m' m f g H F G. induction H; cbn [wbind]; [auto|constructor| |constructor; auto].
  apply near_panic; [assumption|]. eapply ends_bind; eauto.
Qed.

(** One count, and the counts of an array. *)
Definition same1 (a n : N) : Prop := a < M /\ a = n mod M /\ (pf = Debug -> a = n).
Definition big1 (n : N) : Prop := M <= n.
Definition sums (ns : list N) : N := fold_left N.add ns 0.
Definition same (l ns : list N) : Prop := Forall2 same1 l ns.
Definition big (ns : list N) : Prop := M <= sums ns.

Lemma fold_add : forall ns a, fold_left N.add ns a = a + sums ns.
Proof.
  unfold sums. induction ns as [|n ns IH]; intros a; cbn [fold_left]; [lia|]. rewrite IH, (IH (0 + n)). lia.
Qed.
Lemma sums_cons : forall n ns, sums (n :: ns) = n + sums ns.
Proof. intros. unfold sums at 1. cbn [fold_left]. rewrite fold_add. lia. Qed.

Lemma small_same : forall n, n < M -> same1 n n.
Proof. intros n H. split; [exact H|]. rewrite N.mod_small by exact H. auto. Qed.
Lemma wadd_near : forall a n b m, same1 a n -> (b = m \/ same1 b m) -> near same1 big1 (wadd w pf a b) (wok (n + m)).
Proof.
  intros a n b m (La & Ea & Da) Hb. pose proof M_pos as HM. unfold wadd, usize_add_w. rewrite M_mod.
  assert (Eb : (a + b) mod M = (n + m) mod M).
  { assert (B : b mod M = m mod M) by (destruct Hb as [->|(_ & -> & _)]; [reflexivity|apply N.mod_mod; lia]).
    rewrite N.add_mod, (N.add_mod n) by lia. rewrite B, Ea, N.mod_mod by lia. reflexivity. }
  assert (Db : pf = Debug -> b = m) by (intros D; destruct Hb as [->|(_ & _ & X)]; auto).
  destruct (a + b <? M) eqn:L; [apply N.ltb_lt in L|apply N.ltb_ge in L].
  - constructor. split; [exact L|]. split; [rewrite <- Eb, N.mod_small by exact L; reflexivity|].
    intros D. rewrite (Da D), (Db D). reflexivity.
  - destruct pf eqn:Ep.
    + apply near_panic; [exact Ep|]. constructor. unfold big1. rewrite <- (Da eq_refl), <- (Db eq_refl). exact L.
    + constructor. split; [apply N.mod_lt; lia|]. split; [exact Eb|congruence].
Qed.
Lemma wsum_near : forall l ns a n, same1 a n -> same l ns -> near same1 big1 (wsum_from w pf a l) (wok (n + sums ns)).
Proof.
  induction l as [|x l IH]; intros ns a n Ha H; inversion H as [|? y ? ns' Hx Hl]; subst; cbn [wsum_from].
  - constructor. unfold sums. cbn [fold_left]. rewrite N.add_0_r. exact Ha.
  - rewrite sums_cons, N.add_assoc. change (wok (n + y + sums ns')) with (wbind (wok (n + y)) (fun z => wok (z + sums ns'))).
    apply (near_bind _ _ _ _ same1 big1).
    + apply wadd_near; [exact Ha|right; exact Hx].
    + intros a' n' Hn. apply IH; assumption.
    + intros b Hb. constructor. unfold big1 in *. lia.
Qed.
Lemma near_ends : forall A B (R : A -> B -> Prop) P m' m, near R P m' m -> ends (fun _ => True) m.
Proof.
  intros A B R P m' m H. induction H; try (constructor; auto; fail).
  match goal with E : ends _ _ |- _ => clear - E; induction E; constructor; auto end.
Qed.
Lemma cons_near : forall (p m : wprog N) (q q' : wprog (list N)), near same1 big1 p m -> near same big q q' ->
  near same big (n <- p ;; ns <- q ;; wok (n :: ns))%ser (n <- m ;; ns <- q' ;; wok (n :: ns))%ser.
Proof.
  intros p m q q' Hp Hq. apply (near_bind _ _ _ _ same1 big1); [exact Hp| |].
  - intros a n Ha. apply (near_bind _ _ _ _ same big); [exact Hq| |].
    + intros l ns Hl. constructor. constructor; assumption.
    + intros ns Hn. constructor. unfold big in *. rewrite sums_cons. lia.
  - intros n Hn. eapply ends_bind; [exact (near_ends _ _ _ _ _ _ Hq)|]. intros ns _. constructor.
    unfold big, big1 in *. rewrite sums_cons. lia.
Qed.
Lemma counts_near : forall ps ms, Forall2 (near same1 big1) ps ms -> near same big (counts ps) (counts ms).
Proof.
  induction ps as [|p ps IH]; intros ms H; inversion H as [|? m ? ms' Hp Hl]; subst; cbn [counts].
  - constructor. constructor.
  - apply cons_near; [exact Hp|]. apply IH, Hl.
Qed.
Lemma total_near : forall q q', near same big q q' ->
  near same1 big1 (ns <- q ;; wsum_from w pf 0 ns)%ser (ns <- q' ;; wok (fold_left N.add ns 0))%ser.
Proof.
  intros q q' H. apply (near_bind _ _ _ _ same big); [exact H| |].
  - intros l ns Hl. rewrite fold_add. apply wsum_near; [|exact Hl]. apply small_same. pose proof M_pos. lia.
  - intros ns Hn. constructor. exact Hn.
Qed.
Lemma array_near : forall ps ms, Forall2 (near same1 big1) ps ms ->
  near same1 big1 (array_sum w pf ps) (ns <- counts ms ;; wok (fold_left N.add ns 0))%ser.
Proof. intros ps ms H. apply total_near, counts_near, H. Qed.

(** The counts that are constants or lengths of buffers on the stack. *)
Lemma const_near : forall buf n, n < M -> near same1 big1 (_ <- wwrite buf ;; wok n)%ser (_ <- wwrite buf ;; wok n)%ser.
Proof. intros buf n H. unfold wwrite, wok. cbn [wbind]. constructor. intros _ _. constructor. apply small_same, H. Qed.
Lemma uint_near : forall k v, (k <= 4)%nat -> near same1 big1 (ser_uint k v) (ser_uint k v).
Proof. intros k v H. unfold ser_uint. apply const_near. rewrite len_to_le. pose proof M_pos. lia. Qed.
Lemma bool_near : forall v, near same1 big1 (ser_bool v) (ser_bool v).
Proof. intros v. unfold ser_bool. apply const_near. pose proof M_pos. destruct v; cbn; lia. Qed.
Lemma u24_near : forall v, near same1 big1 (ser_u24 v) (ser_u24 v).
Proof. intros v. apply const_near. pose proof M_pos. lia. Qed.
Lemma u256_near : forall v, near same1 big1 (ser_u256 v) (ser_u256 v).
Proof. intros v. apply const_near. pose proof M_pos. lia. Qed.
Lemma u8_near : forall v, near same1 big1 (ser_u8 v) (ser_u8 v).
Proof. intros v. apply uint_near. lia. Qed.
Lemma u16_near : forall v, near same1 big1 (ser_u16 v) (ser_u16 v).
Proof. intros v. apply uint_near. lia. Qed.
Lemma u32_near : forall v, near same1 big1 (ser_u32 v) (ser_u32 v).
Proof. intros v. apply uint_near. lia. Qed.
Lemma data_near : forall (h : wprog N) buf n, near same1 big1 h h ->
  near same1 big1 (a <- h ;; _ <- wwrite buf ;; wadd w pf a n)%ser (a <- h ;; _ <- wwrite buf ;; wok (a + n))%ser.
Proof.
  intros h buf n H. apply (near_bind _ _ _ _ same1 big1); [exact H| |].
  - intros a b Ha. unfold wwrite, wok. cbn [wbind]. constructor. intros _ _. apply wadd_near; [exact Ha|left; reflexivity].
  - intros b Hb. unfold wwrite, wok. cbn [wbind]. constructor. intros _ _. constructor. unfold big1 in *. lia.
Qed.
Lemma b0_near : forall t v, near same1 big1 (ser_b0_x w pf t v) (ser_b0 t v).
Proof. intros t v. apply data_near. destruct t; cbn [b0_lentype ser_len]; first [apply u8_near|apply u16_near|apply u24_near]. Qed.
Lemma str0_near : forall v, near same1 big1 (ser_str0_x w pf v) (ser_str0 v).
Proof. intros v. apply data_near, u8_near. Qed.

(** Programs that make the same calls with the same results. *)
Inductive same_calls {A} : wprog A -> wprog A -> Prop :=
| sc_ret : forall r, same_calls (WRet r) (WRet r)
| sc_write : forall buf k k', (forall n, same_calls (k n) (k' n)) -> same_calls (WWrite buf k) (WWrite buf k').
Lemma same_refl : forall A (m : wprog A), same_calls m m.
Proof. induction m; constructor; auto. Qed.
Lemma same_bind : forall A B (m m' : wprog A) (f g : A -> wprog B), same_calls m m' -> (forall a, same_calls (f a) (g a)) ->
  same_calls (wbind m f) (wbind m' g).
Proof. intros A B m m' f g H F. induction H as [r|buf k k' _ IH]; cbn [wbind]; [destruct r; auto; constructor|constructor; auto]. Qed.
Lemma same_assoc : forall A B C (m : wprog A) (f : A -> wprog B) (g : B -> wprog C),
  same_calls (wbind (wbind m f) g) (wbind m (fun a => wbind (f a) g)).
Proof. intros. induction m as [r|buf k IH]; cbn [wbind]; [destruct r; cbn [wbind]; [apply same_refl|constructor|constructor]|constructor; auto]. Qed.
Lemma same_trans : forall A (a b c : wprog A), same_calls a b -> same_calls b c -> same_calls a c.
Proof. intros A a b c H. revert c. induction H; intros c K; [exact K|]. inversion K; subst. constructor. auto. Qed.
Lemma near_same : forall A B (R : A -> B -> Prop) P m' m1 m2, near R P m' m1 -> same_calls m1 m2 -> near R P m' m2.
Proof.
  intros A B R P m' m1 m2 H. revert m2. induction H as [a b Hr|e|m D E|buf k k' _ IH]; intros m2 S.
  - inversion S; subst. constructor; assumption.
  - inversion S; subst. constructor.
  - apply near_panic; [exact D|]. clear - E S. revert m2 S. induction E; intros m2 S; inversion S; subst; constructor; eauto.
  - inversion S; subst. constructor. auto.
Qed.
Lemma same_counts : forall B p ps (F : list N -> wprog B),
  same_calls (wbind (counts (p :: ps)) F) (wbind p (fun n => wbind (counts ps) (fun ns => F (n :: ns)))).
Proof.
  intros B p ps F. cbn [counts]. eapply same_trans; [apply same_assoc|]. apply same_bind; [apply same_refl|]. intros n.
  eapply same_trans; [apply same_assoc|]. apply same_refl.
Qed.
Ltac unroll := repeat (eapply same_trans; [apply same_counts|]; apply same_bind; [apply same_refl|intros ?]);
  cbn [counts wbind wok fold_left]; rewrite ?N.add_0_l; apply same_refl.
Ltac leaf := first [apply u8_near|apply u16_near|apply u32_near|apply u24_near|apply u256_near|apply bool_near|apply b0_near|apply str0_near].
Ltac leaves := apply array_near; repeat (apply Forall2_cons; [leaf|]); apply Forall2_nil.
Lemma sc_near : forall m, near same1 big1 (ser_sc_x w pf m) (ser_sc m).
Proof. intros m. eapply near_same; [unfold ser_sc_x; leaves|]. unfold ser_sc. unroll. Qed.
Lemma kind_near : forall k m, near same1 big1 (ser_kind_x w pf k m) (fr_ser (frameable_of k) m).
Proof.
  destruct k; cbn [ser_kind_x frameable_of fr_ser msg_of]; intros m; try apply sc_near;
    try (eapply near_same; [unfold ser_scs_x, ser_sce_x, ser_omce_x; leaves|];
         unfold ser_scs, ser_sce, ser_cec, ser_osmc, ser_osmcs, ser_oemc, ser_oemcs, ser_omce, ser_uc; unroll).
  destruct m as [v|v]; cbn [ser_csc_x ser_csc]; (apply (near_bind _ _ _ _ same1 big1); [apply u8_near| |]).
  1, 3: intros a n Ha; apply (near_bind _ _ _ _ same1 big1); [apply sc_near| |];
    [intros b m Hb; apply wadd_near; [exact Ha|right; exact Hb]|intros b Hb; constructor; unfold big1 in *; lia].
  all: intros n Hn; eapply ends_bind; [exact (near_ends _ _ _ _ _ _ (sc_near v))|]; intros b _; constructor; unfold big1 in *; lia.
Qed.
Lemma message_near : forall m, near same1 big1 (ser_message_x w pf m) (ser_message m).
Proof.
  intros m. unfold ser_message_x, ser_message. cbv zeta.
  destruct (u24_new (len (m_payload m) mod 2 ^ 32)) as [l|e|] eqn:E; cbn [wbind]; [|constructor|].
  - eapply near_same.
    + apply array_near. repeat (apply Forall2_cons; [leaf|]). apply Forall2_cons; [|apply Forall2_nil].
      instantiate (1 := wwrite (m_payload m)). unfold wwrite, wok. constructor. intros n Hn. constructor. apply small_same, Hn.
    + unroll.
  - unfold u24_new, u24_try_from_usize in E. destruct (2 ^ 24 - 1 <? _); discriminate E.
Qed.
Lemma of_near : forall t v, near same1 big1 (ser_of_x w pf t v) (ser_of t v).
Proof.
  destruct t; cbn [ser_of_x ser_of val]; intros v; first [apply kind_near|apply message_near|leaf].
Qed.
Lemma shape_near :
  (forall A (s : shape A) v, near same1 big1 (shape_ser_x w pf s v) (shape_ser s v)) /\
  (forall F (fs : shapes F) v, near same big (shapes_ser_x w pf fs v) (shapes_ser fs v)).
Proof.
  apply shape_both; cbn [shape_ser_x shapes_ser_x shape_ser shapes_ser].
  - exact of_near.
  - intros F M0 fs IH open new m. apply total_near, IH.
  - intros v. constructor. constructor.
  - intros A F s IHs fs IHf v. apply cons_near; [apply IHs|apply IHf].
Qed.

(** ** Running *)
Lemma ends_run : forall A (P : A -> Prop) m, ends P m -> forall W (wr : writer W) st st' r, usize_counts w wr ->
  run wr m st = (st', r) -> match r with Ok a => P a | Err _ => True | Panic => False end.
Proof.
  intros A P m H W wr. induction H as [a Ha|e|buf k H IH]; intros st st' r U E; cbn [run] in E.
  - inversion E; subst. exact Ha.
  - inversion E; subst. exact I.
  - destruct (wr st buf) as [s1 [n|]] eqn:Ew; [|inversion E; subst; exact I]. eapply IH; eauto.
Qed.
Lemma near_run : forall A B (R : A -> B -> Prop) P m' m, near R P m' m -> forall W (wr : writer W) st st' r, usize_counts w wr ->
  run wr m st = (st', r) ->
  match run wr m' st with
  | (st1, Ok a) => st1 = st' /\ exists b, r = Ok b /\ R a b
  | (st1, Err e) => st1 = st' /\ r = Err e
  | (_, Panic) => pf = Debug /\ match r with Ok b => P b | Err _ => True | Panic => False end
  end.
Proof.
  intros A B R P m' m H W wr. induction H as [a b Hr|e|m D He|buf k k' H IH]; intros st st' r U E.
  - cbn [run] in *. inversion E; subst. eauto.
  - cbn [run] in *. inversion E; subst. auto.
  - cbn [run]. split; [exact D|]. eapply ends_run; eauto.
  - cbn [run] in *. destruct (wr st buf) as [s1 [n|]] eqn:Ew; [|inversion E; subst; auto]. apply IH; eauto.
Qed.
End Near.

Theorem reported : forall w pf A (s : shape A) v W (wr : writer W) st st' r, usize_counts w wr -> run wr (shape_ser s v) st = (st', r) ->
  match r with
  | Ok n => snd (run wr (shape_ser_x w pf s v) st) = shown w pf n /\
            (shown w pf n <> Panic -> fst (run wr (shape_ser_x w pf s v) st) = st')
  | Err e => run wr (shape_ser_x w pf s v) st = (st', Err e) \/ pf = Debug /\ snd (run wr (shape_ser_x w pf s v) st) = Panic
  | Panic => False
  end.
Proof.
  intros w pf A s v W wr st st' r U E.
  pose proof (near_run w pf _ _ _ _ _ _ (proj1 (shape_near w pf) A s v) W wr st st' r U E) as H.
  pose proof (ends_run w _ _ _ (near_ends w pf _ _ _ _ _ _ (proj1 (shape_near w pf) A s v)) W wr st st' r U E) as H0.
  destruct (run wr (shape_ser_x w pf s v) st) as [s1 [a|e|]]; cbn [fst snd].
  - destruct H as (-> & n & -> & L & Ea & Da). split; [|reflexivity]. unfold shown.
    destruct (n <? usize_end w) eqn:B; [apply N.ltb_lt in B; rewrite N.mod_small in Ea by exact B; subst; reflexivity|].
    apply N.ltb_ge in B. destruct pf; [specialize (Da eq_refl); lia|rewrite Ea; reflexivity].
  - destruct H as (-> & ->). left. reflexivity.
  - destruct H as (D & H). destruct r as [n|e|]; [|right; auto|exact H0]. unfold big1 in H. unfold shown.
    rewrite (proj2 (N.ltb_ge _ _) H). subst pf. split; [reflexivity|]. intros X. contradiction (X eq_refl).
Qed.

(** ** Writers that keep the contract *)
Inductive hon {A} (P : A -> Prop) : wprog A -> Prop :=
| hon_ok : forall a, P a -> hon P (WRet (Ok a))
| hon_write : forall buf k, (forall n, n <= len buf -> hon P (k n)) -> hon P (WWrite buf k).
Lemma hon_bind : forall A B (P : A -> Prop) (Q : B -> Prop) m f, hon P m -> (forall a, P a -> hon Q (f a)) -> hon Q (wbind m f).
Proof. intros A B P Q m f H F. induction H; cbn [wbind]; [auto|constructor; auto]. Qed.
Lemma hon_weaken : forall A (P Q : A -> Prop) m, hon P m -> (forall a, P a -> Q a) -> hon Q m.
Proof. intros A P Q m H F. induction H; constructor; auto. Qed.
Lemma hon_blind : forall A (m : wprog A) cs a, emits m cs a -> blind m -> hon (eq a) m.
Proof.
  intros A m cs a H. induction H as [a|buf k cs a H IH]; intros B; [constructor; reflexivity|].
  inversion B as [|? ? E B']; subst. constructor. intros n _. rewrite E. apply IH, B'.
Qed.
Lemma hon_of : forall t v, ok t v -> hon (fun n => n <= len (lay t v)) (ser_of t v).
Proof.
  intros t v H. assert (D : t = T_frame \/ t <> T_frame) by (destruct t; (left; reflexivity) || (right; discriminate)).
  destruct D as [->|D].
  - cbn [ok val] in v, H. cbn [ser_of lay]. destruct v as [t p]. cbn [m_payload] in H. unfold ser_message. cbn [m_type m_payload].
    rewrite N.mod_small by lia. rewrite u24_new_ok by lia.
    unfold ser_u16, ser_u8, ser_u24, ser_uint, wwrite, wok. cbn [wbind]. rewrite !len_to_le.
    constructor. intros _ _. constructor. intros _ _. constructor. intros _ _. constructor. intros n Hn. constructor.
    unfold frame_layout. cbn [m_type m_payload]. destruct (spec_code t) as [code chan].
    rewrite !len_app, len_spec_le, len_wire. cbn [len length]. unfold len in *. cbn [length]. lia.
  - destruct (ty_encodes t) as (E & _ & _). destruct (E v H) as (cs & He & Hw).
    eapply hon_weaken; [exact (hon_blind _ _ _ _ He (blind_of t v D))|]. intros a <-. rewrite <- Hw, len_wire. apply N.le_refl.
Qed.
Lemma hon_shape :
  (forall A (s : shape A) v, shape_ok s v -> hon (fun n => n <= len (shape_lay s v)) (shape_ser s v)) /\
  (forall F (fs : shapes F) v, shapes_ok fs v -> hon (fun ns => sums ns <= len (shapes_lay fs v)) (shapes_ser fs v)).
Proof.
  apply shape_both; cbn [shape_ok shapes_ok shape_lay shapes_lay shape_ser shapes_ser].
  - exact hon_of.
  - intros F M0 fs IH open new m (H & _). eapply hon_bind; [exact (IH _ H)|]. cbn beta. intros ns Hn. constructor. exact Hn.
  - intros v _. constructor. apply N.le_refl.
  - intros A F s IHs fs IHf v (H1 & H2). eapply hon_bind; [exact (IHs _ H1)|]. cbn beta. intros n Hn.
    eapply hon_bind; [exact (IHf _ H2)|]. cbn beta. intros ns Hs. constructor. rewrite sums_cons, len_app. lia.
Qed.
Lemma hon_big : forall w B m, B < usize_end w -> ends w (big1 w) m -> hon (fun n => n <= B) m -> False.
Proof.
  intros w B m L E. induction E as [a Ha|e|buf k H IH]; intros Hh; inversion Hh; subst.
  - unfold big1 in Ha. lia.
  - eapply (IH 0); [lia|]. match goal with X : forall n, _ -> hon _ _ |- _ => apply X end. lia.
Qed.
Lemma near_honest : forall w pf B m' m, B < usize_end w -> near w pf (same1 w pf) (big1 w) m' m -> hon (fun n => n <= B) m ->
  forall W (wr : writer W), honest wr -> usize_counts w wr -> forall st, run wr m' st = run wr m st.
Proof.
  intros w pf B m' m L H. induction H as [a b (La & Ea & Da)|e|m D E|buf k k' H IH]; intros Hh W wr Hw U st; inversion Hh as [? Hb|? ? Hk]; subst.
  - cbn [run]. rewrite N.mod_small by lia. reflexivity.
  - contradiction (hon_big w B _ L E Hh).
  - contradiction (hon_big w B _ L E Hh).
  - cbn [run]. destruct (wr st buf) as [s1 [n|]] eqn:Ew; [|reflexivity]. apply IH; eauto.
Qed.
Theorem contract : forall w pf A (s : shape A) v, shape_ok s v -> len (shape_lay s v) < usize_end w ->
  forall W (wr : writer W), honest wr -> usize_counts w wr ->
  forall st, run wr (shape_ser_x w pf s v) st = run wr (shape_ser s v) st.
Proof.
  intros w pf A s v H L W wr Hw U st.
  exact (near_honest w pf _ _ _ L (proj1 (shape_near w pf) A s v) (proj1 hon_shape A s v H) W wr Hw U st).
Qed.

(** ** The types of the crate *)
Lemma lay_small : forall t v, ok t v -> len (lay t v) < 4294967296.
Proof.
  destruct t; cbn [ok lay val]; intros v H; try (rewrite len_spec_le; lia); try (rewrite len_wire; unfold u256_ok in H; lia).
  - destruct v; cbn; lia.
  - rewrite len_wire. unfold u256_ok, len in *. lia.
  - destruct H as [L _]. rewrite len_lay_b0. destruct t; cbn [spec_b0_limit spec_b0_hdr] in *; lia.
  - destruct H as (_ & L & _). rewrite len_lay_str. destruct t; cbn [spec_str_limit] in *; lia.
  - destruct v; cbn; lia.
  - destruct v; cbn; lia.
  - cbn. lia.
  - pose proof (layout_size k v H). lia.
  - unfold frame_layout. destruct (spec_code (m_type v)) as [code chan]. rewrite !len_app, len_spec_le, len_wire.
    unfold len in *. cbn [length]. lia.
Qed.
Lemma near_blind : forall w pf a m cs, emits m cs a -> blind m -> a < usize_end w -> forall m', near w pf (same1 w pf) (big1 w) m' m ->
  forall W (wr : writer W), usize_counts w wr -> forall st, run wr m' st = run wr m st.
Proof.
  intros w pf a m cs H. induction H as [a|buf k cs a H IH]; intros B L m' Hn W wr U st; inversion Hn as [x y (La & Ea & Da)|e|? D E|? ? k' Hk]; subst.
  - cbn [run]. rewrite N.mod_small by exact L. reflexivity.
  - inversion E; subst. unfold big1 in *. lia.
  - exfalso. apply (hon_big w a (WWrite buf k) L E). eapply hon_weaken; [apply (hon_blind _ _ (buf :: cs) a); [constructor; exact H|exact B]|].
    intros z <-. apply N.le_refl.
  - inversion B as [|? ? Ek B']; subst. cbn [run]. destruct (wr st buf) as [s1 [n|]] eqn:Ew; [|reflexivity].
    specialize (Hk n (U _ _ _ _ Ew)). rewrite Ek in Hk |- *. exact (IH B' L _ Hk W wr U s1).
Qed.
Lemma add_fits : forall w pf a b, a + b < 4294967296 -> usize_add_w w pf a b = Some (a + b).
Proof.
  intros w pf a b H. unfold usize_add_w. rewrite M_mod. pose proof (M_pos w). rewrite (proj2 (N.ltb_lt _ _)) by lia. reflexivity.
Qed.
Lemma wsum_frame : forall w pf n, n < usize_end w -> wsum_from w pf 0 [2; 1; 3; n] = WRet (shown w pf (6 + n)).
Proof.
  intros w pf n Hn. cbn [wsum_from]. unfold wadd. rewrite (add_fits w pf 0 2) by lia. cbn [wbind wok].
  change (0 + 2) with 2. rewrite (add_fits w pf 2 1) by lia. cbn [wbind wok]. change (2 + 1) with 3.
  rewrite (add_fits w pf 3 3) by lia. cbn [wbind wok]. change (3 + 3) with 6.
  unfold usize_add_w, shown. rewrite M_mod. destruct (6 + n <? usize_end w); [reflexivity|]. destruct pf; reflexivity.
Qed.
Lemma frame_reported : forall w pf m, len (m_payload m) < 16777216 -> forall W (wr : writer W) st, usize_counts w wr ->
  run wr (ser_message_x w pf m) st =
    match run wr (ser_message m) st with (st', Ok n) => (st', shown w pf n) | (st', r) => (st', r) end.
Proof.
  intros w pf [t p] H W wr st U. cbn [m_payload] in H. unfold ser_message_x, ser_message, array_sum. cbn [m_type m_payload counts].
  rewrite N.mod_small by lia. rewrite u24_new_ok by lia.
  unfold ser_u16, ser_u8, ser_u24, ser_uint, wwrite, wok. cbn [wbind run]. rewrite !len_to_le.
  destruct (wr st _) as [s1 [n1|]]; [|reflexivity]. destruct (wr s1 _) as [s2 [n2|]]; [|reflexivity].
  destruct (wr s2 _) as [s3 [n3|]]; [|reflexivity]. destruct (wr s3 _) as [s4 [n4|]] eqn:E4; [|reflexivity].
  change (N.of_nat 2) with 2. change (N.of_nat 1) with 1. rewrite (wsum_frame w pf n4 (U _ _ _ _ E4)).
  reflexivity.
Qed.
Theorem types_reported : forall w pf t v, ok t v -> exists cs, wire (concat cs) = lay t v /\
  forall W (wr : writer W) st, usize_counts w wr ->
    run wr (ser_of_x w pf t v) st =
      match offer wr cs st with
      | (st', None) => (st', Err IOError)
      | (st', Some counts) => (st', match t with T_frame => shown w pf (6 + last counts 0) | _ => Ok (len (lay t v)) end)
      end.
Proof.
  intros w pf t v H. destruct (any_writer t v H) as (cs & Hw & Hr). exists cs. split; [exact Hw|].
  intros W wr st U. assert (D : t = T_frame \/ t <> T_frame) by (destruct t; (left; reflexivity) || (right; discriminate)).
  destruct D as [->|D].
  - change (ser_of_x w pf T_frame v) with (ser_message_x w pf v). rewrite (frame_reported w pf v H W wr st U).
    change (ser_message v) with (ser_of T_frame v). rewrite Hr. destruct (offer wr cs st) as [st' [ns|]]; reflexivity.
  - destruct (ty_encodes t) as (E & _ & _). destruct (E v H) as (cs' & He & Hw').
    rewrite (near_blind w pf _ _ _ He (blind_of t v D)) with (m' := ser_of_x w pf t v) (wr := wr);
      [|rewrite <- len_wire, Hw'; pose proof (lay_small t v H); pose proof (M_pos w); lia|apply of_near|exact U].
    rewrite Hr. rewrite <- Hw, len_wire. destruct (offer wr cs st) as [st' [ns|]]; [|reflexivity]. destruct t; try reflexivity. contradiction (D eq_refl).
Qed.
Lemma one_byte : forall buf : bytes, len (firstn 1 buf) <= len buf /\ len (firstn 1 buf) <= 1.
Proof. intros [|b bs]; unfold len; cbn [firstn length]; lia. Qed.
