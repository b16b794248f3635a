(** * ChannelProofs: lemmas for C139. *)
From Coq Require Import Arith Lia ZifyBool ZifyNat ZifyN.
From Verif Require Import Base Network Channels SpecChannels NetworkProofs.
Local Open Scope N_scope.

Lemma sample_left_same : forall low range zone draws,
  option_map fst (sample_left low range zone draws) = sample_single low range zone draws.
Proof.
  intros low range zone. induction draws as [|v d IH]; [reflexivity|]. cbn [sample_left sample_single]. cbv zeta.
  destruct (_ <=? zone); [reflexivity|exact IH].
Qed.
Lemma left_cons : forall v draws, v < 2 ^ 32 ->
  new_channel_id_left (v :: draws) = if v =? 1 then new_channel_id_left draws else Ok (Some (v - 1, draws)).
Proof.
  intros v draws H. unfold new_channel_id_left, gen_range_left. change (0 <? 2 ^ 32 - 1) with true. cbv iota.
  change ((N.shiftl (2 ^ 32 - 1 - 0) (32 - N.size (2 ^ 32 - 1 - 0)) mod 2 ^ 32 + 2 ^ 32 - 1) mod 2 ^ 32) with (2 ^ 32 - 2).
  change (2 ^ 32 - 1 - 0) with (2 ^ 32 - 1). cbv zeta. cbn [sample_left].
  destruct (N.eq_dec v 0) as [->|N0]; [reflexivity|].
  destruct (range_split v ltac:(lia)) as [-> ->].
  destruct (v =? 1) eqn:E1.
  - assert (E : (2 ^ 32 - v <=? 2 ^ 32 - 2) = false) by lia. rewrite E. reflexivity.
  - assert (E : (2 ^ 32 - v <=? 2 ^ 32 - 2) = true) by lia. rewrite E. rewrite N.add_0_l, N.mod_small by lia. reflexivity.
Qed.
Lemma ids_exact : forall draws, Forall (fun v => v < 2 ^ 32) draws -> forall n,
  channel_ids n draws = Ok (if Nat.leb n (length (used draws)) then Some (map id_of (firstn n (used draws))) else None).
Proof.
  induction 1 as [|v draws Hv F IH]; intros [|n]; try reflexivity.
  unfold used. cbn [channel_ids filter]. rewrite left_cons by exact Hv. destruct (v =? 1) eqn:E; cbn [negb].
  - specialize (IH (S n)). cbn [channel_ids] in IH. exact IH.
  - rewrite IH. fold (used draws). cbn [length firstn map]. change (Nat.leb (S n) (S (length (used draws)))) with (Nat.leb n (length (used draws))).
    destruct (Nat.leb n (length (used draws))); reflexivity.
Qed.
Lemma one_id : forall draws, new_channel_id draws =
  match channel_ids 1 draws with Ok (Some [id]) => Ok (Some id) | Ok _ => Ok None | Err e => Err e | Panic => Panic end.
Proof.
  intro draws. cbn [channel_ids]. unfold new_channel_id_left, gen_range_left, new_channel_id, gen_range.
  change (0 <? 2 ^ 32 - 1) with true. cbv iota zeta. rewrite <- sample_left_same.
  destruct (sample_left _ _ _ draws) as [[id d]|]; reflexivity.
Qed.

Lemma id_of_inj : forall v w, v <> 1 -> w <> 1 -> id_of v = id_of w -> v = w.
Proof. unfold id_of. intros. lia. Qed.
Lemma used_not1 : forall draws, Forall (fun v => v <> 1) (used draws).
Proof. intro d. apply Forall_forall. intros v H. apply filter_In in H. lia. Qed.
Lemma firstn_in : forall A n (l : list A) x, In x (firstn n l) -> In x l.
Proof. intros A n l x H. rewrite <- (firstn_skipn n l). apply in_or_app. left. exact H. Qed.
Lemma map_nodup : forall l, Forall (fun v => v <> 1) l -> (NoDup (map id_of l) <-> NoDup l).
Proof.
  intros l F. split; [apply NoDup_map_inv|]. induction F as [|v l Hv F IH]; intro D; [constructor|].
  inversion D as [|? ? Hn D']; subst. cbn [map]. constructor; [|exact (IH D')].
  intro I. apply in_map_iff in I. destruct I as [w [E I]]. rewrite Forall_forall in F.
  rewrite (id_of_inj w v (F w I) Hv E) in I. exact (Hn I).
Qed.
Lemma ids_len : forall n draws ids, Forall (fun v => v < 2 ^ 32) draws -> channel_ids n draws = Ok (Some ids) ->
  ids = map id_of (firstn n (used draws)) /\ length ids = n /\ (n <= length (used draws))%nat.
Proof.
  intros n draws ids F H. rewrite ids_exact in H by exact F. destruct (Nat.leb n (length (used draws))) eqn:E; [|discriminate].
  apply Nat.leb_le in E. injection H as <-. split; [reflexivity|]. split; [|exact E]. rewrite map_length. apply firstn_length_le. exact E.
Qed.
Lemma differ_exactly : forall n draws ids, Forall (fun v => v < 2 ^ 32) draws -> channel_ids n draws = Ok (Some ids) ->
  (NoDup ids <-> NoDup (firstn n (used draws))).
Proof.
  intros n draws ids F H. destruct (ids_len n draws ids F H) as [-> _]. apply map_nodup.
  apply Forall_forall. intros v I. pose proof (used_not1 draws) as U. rewrite Forall_forall in U. exact (U v (firstn_in _ _ _ _ I)).
Qed.

(** ** Counting *)
Lemma below : forall k, exists D, NoDup D /\ (forall v, In v D <-> v < k) /\ N.of_nat (length D) = k.
Proof.
  intro k. induction k as [|k IH] using N.peano_ind.
  - exists []. split; [constructor|]. split; [|reflexivity]. intro v. split; [intros []|lia].
  - destruct IH as [D [ND [I L]]]. exists (k :: D). split; [constructor; [rewrite I; lia|exact ND]|]. split.
    + intro v. cbn [In]. rewrite I. lia.
    + cbn [length]. lia.
Qed.
Lemma filter_out : forall (D : list N) l, NoDup D -> NoDup l -> incl l D ->
  length (filter (fun x => negb (existsb (N.eqb x) l)) D) = (length D - length l)%nat.
Proof.
  intros D l. revert D. induction l as [|x l IH]; intros D HD Hl I.
  - rewrite Nat.sub_0_r. f_equal. clear. induction D as [|d D IH]; [reflexivity|]. cbn [filter existsb negb]. f_equal. exact IH.
  - inversion Hl as [|? ? Hn Hl']; subst. destruct (in_split x D (I x (or_introl eq_refl))) as [D1 [D2 ->]].
    assert (HD' : NoDup (D1 ++ D2)) by (apply NoDup_remove_1 with x; exact HD).
    assert (Hx : ~ In x (D1 ++ D2)) by (apply NoDup_remove_2; exact HD).
    assert (I' : incl l (D1 ++ D2)).
    { intros y Hy. assert (In y (D1 ++ x :: D2)) by (apply I; right; exact Hy).
      apply in_app_or in H. apply in_or_app. destruct H as [H|[H|H]]; [left; exact H| |right; exact H]. subst y. contradiction. }
    specialize (IH (D1 ++ D2) HD' Hl' I'). rewrite app_length in *. cbn [length]. rewrite filter_app in *. cbn [filter existsb].
    rewrite N.eqb_refl. cbn [orb negb]. rewrite app_length in *.
    assert (S : forall D', (forall y, In y D' -> y <> x) ->
      filter (fun y => negb (existsb (N.eqb y) (x :: l))) D' = filter (fun y => negb (existsb (N.eqb y) l)) D').
    { intros D' H. apply filter_ext_in. intros y Hy. cbn [existsb]. destruct (y =? x) eqn:E; [apply N.eqb_eq in E; exfalso; exact (H y Hy E)|reflexivity]. }
    cbn [existsb] in S.
    rewrite !S.
    + rewrite IH. lia.
    + intros y Hy ->. apply Hx. apply in_or_app. right. exact Hy.
    + intros y Hy ->. apply Hx. apply in_or_app. left. exact Hy.
Qed.
(** Putting one element in front of each list, chosen from [g l]. *)
Definition grow (g : list N -> list N) (L : list (list N)) : list (list N) :=
  flat_map (fun l => map (fun x => x :: l) (g l)) L.
Lemma grow_in : forall g L l, In l (grow g L) <-> exists x l', l = x :: l' /\ In l' L /\ In x (g l').
Proof.
  intros g L l. unfold grow. rewrite in_flat_map. split.
  - intros [l' [H1 H2]]. apply in_map_iff in H2. destruct H2 as [x [<- H2]]. exists x, l'. auto.
  - intros [x [l' [-> [H1 H2]]]]. exists l'. split; [exact H1|]. apply in_map_iff. exists x. auto.
Qed.
Lemma nodup_app : forall A (a b : list A), NoDup a -> NoDup b -> (forall x, In x a -> ~ In x b) -> NoDup (a ++ b).
Proof.
  intros A a b Ha Hb H. induction Ha as [|x a Hx Ha IH]; [exact Hb|]. cbn [app]. constructor.
  - intro I. apply in_app_or in I. destruct I as [I|I]; [exact (Hx I)|exact (H x (or_introl eq_refl) I)].
  - apply IH. intros y Hy. apply H. right. exact Hy.
Qed.
Lemma grow_nodup : forall g L, NoDup L -> (forall l, In l L -> NoDup (g l)) -> NoDup (grow g L).
Proof.
  intros g L H. induction H as [|l L Hl H IH]; intro G; [constructor|]. cbn [grow flat_map]. apply nodup_app.
  - assert (X : NoDup (g l)) by (apply G; left; reflexivity). clear -X. induction X as [|x xs Hx X IH]; [constructor|].
    cbn [map]. constructor; [|exact IH]. intro I. apply in_map_iff in I. destruct I as [y [E I]]. injection E as ->. exact (Hx I).
  - apply IH. intros l' I. apply G. right. exact I.
  - intros y I J. apply in_map_iff in I. destruct I as [x [<- I]]. apply grow_in in J. destruct J as [x' [l' [E [J _]]]].
    injection E as _ <-. exact (Hl J).
Qed.
Lemma grow_len : forall g L k, (forall l, In l L -> length (g l) = k) -> length (grow g L) = (length L * k)%nat.
Proof.
  intros g L k. induction L as [|l L IH]; intro H; [reflexivity|]. cbn [grow flat_map length Nat.mul].
  rewrite app_length, map_length, (H l (or_introl eq_refl)). f_equal. apply IH. intros l' I. apply H. right. exact I.
Qed.

Section Over.
Variable D : list N.
Hypothesis HD : NoDup D.
Lemma count_all : forall n, exists L, NoDup L /\ (forall l, In l L <-> length l = n /\ incl l D) /\
  N.of_nat (length L) = N.of_nat (length D) ^ N.of_nat n.
Proof.
  induction n as [|n [L [A [B E]]]].
  - exists [[]]. split; [constructor; [intros []|constructor]|]. split; [|reflexivity].
    intro l. split; [intros [<-|[]]; split; [reflexivity|intros x []]|].
    intros [H _]. destruct l; [left; reflexivity|discriminate].
  - exists (grow (fun _ => D) L). split; [apply grow_nodup; auto|]. split.
    + intro l. rewrite grow_in. split.
      * intros [x [l' [-> [H1 H2]]]]. apply B in H1. destruct H1 as [H1 H3]. split; [cbn; lia|].
        intros y [<-|Hy]; [exact H2|exact (H3 y Hy)].
      * intros [H I]. destruct l as [|x l']; [discriminate|]. exists x, l'. split; [reflexivity|]. split.
        -- apply B. split; [cbn in H; lia|]. intros y Hy. apply I. right. exact Hy.
        -- apply I. left. reflexivity.
    + rewrite (grow_len (fun _ => D) L (length D)) by reflexivity. rewrite Nat2N.inj_mul, E, Nat2N.inj_succ, N.pow_succ_r'. lia.
Qed.
Lemma count_distinct : forall n, exists L, NoDup L /\ (forall l, In l L <-> length l = n /\ incl l D /\ NoDup l) /\
  N.of_nat (length L) = falling (N.of_nat (length D)) n.
Proof.
  induction n as [|n [L [A [B E]]]].
  - exists [[]]. split; [constructor; [intros []|constructor]|]. split; [|reflexivity].
    intro l. split; [intros [<-|[]]; split; [reflexivity|split; [intros x []|constructor]]|].
    intros [H _]. destruct l; [left; reflexivity|discriminate].
  - set (g := fun l => filter (fun x => negb (existsb (N.eqb x) l)) D).
    assert (G : forall x l, In x (g l) <-> In x D /\ ~ In x l).
    { intros x l. unfold g. rewrite filter_In. destruct (existsb (N.eqb x) l) eqn:X; cbn [negb].
      - apply existsb_exists in X. destruct X as [y [Hy Ey]]. apply N.eqb_eq in Ey. subst y. split; [intros [_ X]; discriminate|intros [_ X]; contradiction].
      - split; [|intros [P _]; split; [exact P|reflexivity]]. intros [H _]. split; [exact H|]. intro I. assert (Y : existsb (N.eqb x) l = true) by (apply existsb_exists; exists x; split; [exact I|apply N.eqb_refl]).
        rewrite Y in X. discriminate. }
    exists (grow g L). split; [apply grow_nodup; [exact A|]; intros l _; apply NoDup_filter; exact HD|]. split.
    + intro l. rewrite grow_in. split.
      * intros [x [l' [-> [H1 H2]]]]. apply B in H1. destruct H1 as [H1 [H3 H4]]. apply G in H2. split; [cbn; lia|]. split.
        -- intros y [<-|Hy]; [exact (proj1 H2)|exact (H3 y Hy)].
        -- constructor; [exact (proj2 H2)|exact H4].
      * intros [H [I J]]. destruct l as [|x l']; [discriminate|]. inversion J as [|? ? Jn J']; subst. exists x, l'. split; [reflexivity|]. split.
        -- apply B. split; [cbn in H; lia|]. split; [|exact J']. intros y Hy. apply I. right. exact Hy.
        -- apply G. split; [apply I; left; reflexivity|exact Jn].
    + rewrite (grow_len g L (length D - n)).
      * rewrite Nat2N.inj_mul, E. cbn [falling]. rewrite Nat2N.inj_sub. reflexivity.
      * intros l I. apply B in I. destruct I as [Hl [Hi Hn]]. unfold g. rewrite filter_out by assumption. rewrite Hl. reflexivity.
Qed.
End Over.

Lemma all_words : exists D, NoDup D /\ (forall v, In v D <-> v < 2 ^ 32 /\ v <> 1) /\ N.of_nat (length D) = 2 ^ 32 - 1.
Proof.
  destruct (below (2 ^ 32)) as [D [A [B E]]]. exists (filter (fun x => negb (existsb (N.eqb x) [1])) D).
  split; [apply NoDup_filter; exact A|]. split.
  - intro v. rewrite filter_In, B. cbn [existsb]. lia.
  - rewrite filter_out.
    + rewrite Nat2N.inj_sub, E. reflexivity.
    + exact A.
    + constructor; [intros []|constructor].
    + intros y [<-|[]]. apply B. reflexivity.
Qed.
Lemma words_incl : forall D n l, (forall v, In v D <-> v < 2 ^ 32 /\ v <> 1) -> (words n l <-> length l = n /\ incl l D).
Proof.
  intros D n l H. unfold words, incl. rewrite Forall_forall. split; intros [A B]; (split; [exact A|]); intros v I; apply H; apply B; exact I.
Qed.
Lemma words_used : forall n l, words n l -> used l = l /\ Forall (fun v => v < 2 ^ 32) l.
Proof.
  intros n l [_ F]. induction F as [|v l [Hv H1] F [IH IF]]; [split; [reflexivity|constructor]|]. split; [|constructor; assumption].
  unfold used. cbn [filter]. destruct (v =? 1) eqn:E; [lia|]. cbn [negb]. f_equal. exact IH.
Qed.
Lemma words_ids : forall n l, words n l -> channel_ids n l = Ok (Some (map id_of l)).
Proof.
  intros n l W. destruct (words_used n l W) as [U F]. rewrite ids_exact by exact F. rewrite U.
  destruct W as [<- _]. rewrite Nat.leb_refl, firstn_all. reflexivity.
Qed.
Lemma ids_counted : forall n,
  counted (words n) ((2 ^ 32 - 1) ^ N.of_nat n) /\
  counted (fun draws => words n draws /\ exists ids, channel_ids n draws = Ok (Some ids) /\ NoDup ids) (falling (2 ^ 32 - 1) n).
Proof.
  intro n. destruct all_words as [D [A [B E]]]. split.
  - destruct (count_all D A n) as [L [X [Y Z]]]. exists L. split; [exact X|]. split; [|rewrite E in Z; exact Z].
    intro l. rewrite Y. symmetry. apply words_incl. exact B.
  - destruct (count_distinct D A n) as [L [X [Y Z]]]. exists L. split; [exact X|]. split; [|rewrite E in Z; exact Z].
    intro l. rewrite Y. split.
    + intros [P [Q R]]. assert (W : words n l) by (apply (words_incl D n l B); auto). split; [exact W|].
      exists (map id_of l). split; [apply words_ids; exact W|]. apply map_nodup; [|exact R].
      destruct W as [_ W]. revert W. apply Forall_impl. intros v [_ H]. exact H.
    + intros [W [ids [H R]]]. rewrite (words_ids n l W) in H. injection H as <-. apply (words_incl D n l B) in W. destruct W as [P Q].
      split; [exact P|]. split; [exact Q|]. apply NoDup_map_inv in R. exact R.
Qed.
Lemma too_many : forall n draws ids, Forall (fun v => v < 2 ^ 32) draws -> channel_ids n draws = Ok (Some ids) ->
  2 ^ 32 - 1 < N.of_nat n -> ~ NoDup ids.
Proof.
  intros n draws ids F H G N. destruct (ids_len n draws ids F H) as [_ [L _]].
  pose proof (proj1 (differ_exactly n draws ids F H) N) as N'. destruct all_words as [D [A [B E]]].
  assert (I : incl (firstn n (used draws)) D).
  { intros v Hv. apply B. apply firstn_in in Hv. apply filter_In in Hv. rewrite Forall_forall in F. destruct Hv as [Hv X]. split; [exact (F v Hv)|lia]. }
  pose proof (NoDup_incl_length N' I) as Q. destruct (ids_len n draws ids F H) as [_ [_ L2]].
  rewrite firstn_length_le in Q by exact L2. lia.
Qed.
Lemma twice : exists n draws ids, Forall (fun v => v < 2 ^ 32) draws /\ channel_ids n draws = Ok (Some ids) /\ ~ NoDup ids.
Proof.
  exists 2%nat, [5; 5], [4; 4]. split; [repeat constructor|]. split; [reflexivity|].
  intro N. inversion N as [|? ? X _]. apply X. left. reflexivity.
Qed.
(** Any id can be drawn again, whatever was drawn before. *)
Lemma again : forall n draws ids id, Forall (fun v => v < 2 ^ 32) draws -> channel_ids n draws = Ok (Some ids) -> In id ids ->
  exists v, v < 2 ^ 32 /\ channel_ids (S n) (firstn n (used draws) ++ [v]) = Ok (Some (ids ++ [id])).
Proof.
  intros n draws ids id F H I. destruct (ids_len n draws ids F H) as [-> [_ L]].
  apply in_map_iff in I. destruct I as [v [<- I]]. exists v.
  assert (W : Forall (fun v => v < 2 ^ 32 /\ v <> 1) (firstn n (used draws))).
  { apply Forall_forall. intros w Hw. apply firstn_in in Hw. apply filter_In in Hw. rewrite Forall_forall in F. destruct Hw as [Hw X]. split; [exact (F w Hw)|lia]. }
  pose proof W as W'. rewrite Forall_forall in W'. split; [exact (proj1 (W' v I))|].
  rewrite (words_ids (S n)).
  - rewrite map_app. reflexivity.
  - split; [rewrite app_length, firstn_length_le by exact L; cbn; lia|]. apply Forall_app. split; [exact W|]. constructor; [exact (W' v I)|constructor].
Qed.
Lemma falling_bound : forall m n,
  2 * m * m ^ N.of_nat n <= 2 * m * falling m n + N.of_nat n * (N.of_nat n - 1) * m ^ N.of_nat n.
Proof.
  intros m n. induction n as [|n IH]; [cbn [falling N.of_nat N.pow]; lia|].
  cbn [falling]. rewrite Nat2N.inj_succ, N.pow_succ_r'. set (k := N.of_nat n) in *. set (p := m ^ k) in *. set (f := falling m n) in *.
  assert (F : f <= p).
  { subst f p k. clear. induction n as [|n IH]; [reflexivity|]. cbn [falling]. rewrite Nat2N.inj_succ, N.pow_succ_r'.
    rewrite (N.mul_comm m). apply N.mul_le_mono; [exact IH|lia]. }
  replace (N.succ k - 1) with k by lia.
  assert (S : f * m <= f * (m - k) + k * p).
  { destruct (N.le_gt_cases k m) as [L|L].
    - replace (f * m) with (f * (m - k) + f * k) by (rewrite <- N.mul_add_distr_l; f_equal; lia). nia.
    - nia. }
  assert (K : k * (k - 1) + 2 * k = N.succ k * k) by (destruct (N.eq_dec k 0) as [->|]; [reflexivity|nia]).
  assert (M : m * (2 * m * p) <= m * (2 * m * f + k * (k - 1) * p)) by (apply N.mul_le_mono_l; exact IH).
  assert (T : 2 * m * (f * m) <= 2 * m * (f * (m - k) + k * p)) by (apply N.mul_le_mono_l; exact S).
  rewrite <- K. 
  replace (m * (2 * m * f + k * (k - 1) * p)) with (2 * m * (f * m) + k * (k - 1) * p * m) in M by ring.
  replace (2 * m * (f * (m - k) + k * p)) with (2 * m * (f * (m - k)) + 2 * k * p * m) in T by ring.
  replace (2 * m * (m * p)) with (m * (2 * m * p)) by ring.
  replace ((k * (k - 1) + 2 * k) * (m * p)) with (k * (k - 1) * p * m + 2 * k * p * m) by ring. lia.
Qed.
Lemma split_length : forall A (f : A -> bool) l, (length (filter f l) + length (filter (fun x => negb (f x)) l) = length l)%nat.
Proof. intros A f l. induction l as [|x l IH]; [reflexivity|]. cbn [filter]. destruct (f x); cbn [negb length]; lia. Qed.
Lemma counted_without : forall (P Q : list N -> Prop) a b, (forall l, Q l -> P l) -> counted P a -> counted Q b ->
  counted (fun l => P l /\ ~ Q l) (a - b).
Proof.
  intros P Q a b H [A [NA [IA EA]]] [B [NB [IB EB]]].
  set (f := fun l => if in_dec (list_eq_dec N.eq_dec) l B then true else false).
  assert (Hf : forall l, f l = true <-> In l B) by (intro l; unfold f; destruct (in_dec _ l B); split; intro X; try reflexivity; try discriminate; try assumption; contradiction).
  exists (filter (fun l => negb (f l)) A). split; [apply NoDup_filter; exact NA|]. split.
  - intro l. rewrite filter_In, IA, <- IB, <- Hf. destruct (f l); cbn [negb]; split; intros [X Y]; split; try exact X; try discriminate; try reflexivity; contradiction Y; reflexivity.
  - pose proof (split_length _ f A) as L. assert (E : length (filter f A) = length B).
    { apply Nat.le_antisymm; (apply NoDup_incl_length; [first [apply NoDup_filter; exact NA|exact NB]|]); intros l X.
      - apply filter_In in X. apply Hf. exact (proj2 X).
      - apply filter_In. split; [apply IA, H, IB, X|apply Hf, X]. }
    lia.
Qed.
Lemma counted_ext : forall (P Q : list N -> Prop) k, (forall l, P l <-> Q l) -> counted P k -> counted Q k.
Proof. intros P Q k H [L [A [B E]]]. exists L. split; [exact A|]. split; [|exact E]. intro l. rewrite B. apply H. Qed.
Lemma ids_rare : forall n,
  let all := (2 ^ 32 - 1) ^ N.of_nat n in
  let bad := all - falling (2 ^ 32 - 1) n in
  counted (fun draws => words n draws /\ exists ids, channel_ids n draws = Ok (Some ids) /\ ~ NoDup ids) bad /\
  2 * (2 ^ 32 - 1) * bad <= N.of_nat n * (N.of_nat n - 1) * all.
Proof.
  intros n all bad. split.
  - destruct (ids_counted n) as [CA CG]. eapply counted_ext; [|exact (counted_without _ _ _ _ (fun l X => proj1 X) CA CG)].
    intro l. cbv beta. split.
    + intros [W X]. split; [exact W|]. exists (map id_of l). split; [apply words_ids; exact W|]. intro N. apply X. split; [exact W|].
      exists (map id_of l). split; [apply words_ids; exact W|exact N].
    + intros [W [ids [E X]]]. split; [exact W|]. intros [_ [ids' [E' N]]]. rewrite E in E'. injection E' as <-. exact (X N).
  - pose proof (falling_bound (2 ^ 32 - 1) n) as R. fold all in R. subst bad. lia.
Qed.
