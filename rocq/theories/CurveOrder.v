(** * CurveOrder: the number of points of edwards25519 and of its twist. *)
From Coq Require Import ZArith Znumtheory List Permutation Lia ZifyBool ZifyNat ZifyN Ring Field.
From Verif Require Import Base Noise SpecNoise Crypto X25519Facts NumberTheory GroupOrder Edwards Field25519 LadderProofs EdCurve KeyProofs EdProofs
  FiniteGroup Squares.
Import ListNotations.
Open Scope N_scope.
Add Field FE : fe_field.
Local Opaque fmul fadd fsub finv fpow_pos Edwards.smul Edwards.add.

Lemma nodup_flat_map : forall (A B : Type) (f : A -> list B) l, NoDup l -> (forall a, NoDup (f a)) ->
  (forall a b x, In x (f a) -> In x (f b) -> a = b) -> NoDup (flat_map f l).
Proof.
  intros A B f l ND NF D. induction ND as [|a l NI ND IH]; [constructor|]. cbn [flat_map].
  assert (X : forall x, In x (f a) -> ~ In x (flat_map f l)).
  { intros x I J. apply in_flat_map in J. destruct J as (b & BL & XB). apply NI. rewrite (D a b x I XB). exact BL. }
  pose proof (NF a) as NA. revert X. induction (f a) as [|x r IHr]; intro X; [exact IH|].
  cbn [app]. apply NoDup_cons_iff in NA. destruct NA as [NX NR]. constructor.
  - intro I. apply in_app_or in I. destruct I as [I|I]; [exact (NX I)|]. apply (X x); [left; reflexivity|exact I].
  - apply IHr; [exact NR|]. intros y I. apply X. right. exact I.
Qed.
Lemma list_sum_perm : forall l l', Permutation l l' -> list_sum l = list_sum l'.
Proof. induction 1; unfold list_sum in *; cbn [fold_right]; lia. Qed.
Lemma length_flat_map : forall (A B : Type) (f : A -> list B) l, length (flat_map f l) = list_sum (map (fun a => length (f a)) l).
Proof.
  intros A B f l. induction l as [|a l IH]; [reflexivity|]. cbn [flat_map map list_sum fold_right]. rewrite app_length, IH. reflexivity.
Qed.
Lemma sum_const : forall (h : fe -> nat) l, NoDup l -> (forall y, y <> f0 -> h y = 2%nat) -> h f0 = 4%nat ->
  list_sum (map h l) = (2 * length l + (if in_dec fe_dec f0 l then 2 else 0))%nat.
Proof.
  intros h l ND H2 H4. induction ND as [|a l NI ND IH]; [reflexivity|]. unfold list_sum in *. cbn [map fold_right length]. rewrite IH.
  destruct (fe_dec a f0) as [->|NA].
  - rewrite H4. destruct (in_dec fe_dec f0 l); [contradiction|]. destruct (in_dec fe_dec f0 (f0 :: l)) as [_|N]; [lia|].
    exfalso. apply N. left. reflexivity.
  - rewrite (H2 a NA). destruct (in_dec fe_dec f0 l) as [I|I]; destruct (in_dec fe_dec f0 (a :: l)) as [J|J]; try lia.
    + exfalso. apply J. right. exact I.
    + exfalso. destruct J as [J|J]; contradiction.
Qed.

(** ** The twist *)
Definition tc : fe := inv cc.
Lemma cc_tc : mul cc tc = f1.
Proof. unfold tc. field. exact cc_nz. Qed.
Lemma tc_nonsquare : forall s, mul s s <> tc.
Proof.
  intros s H. apply (cc_nonsquare (mul cc s)). transitivity (mul cc (mul cc (mul s s))); [ring|]. rewrite H, cc_tc. ring.
Qed.
Lemma tc_nz : tc <> f0.
Proof. intro Z. apply (tc_nonsquare f0). rewrite Z. ring. Qed.
Notation con c := (Edwards.on fe f1 add mul sub c).

(** x^2 for the points of ordinate y *)
Definition xx (c y : fe) : fe := div (mul c (sub f1 (mul y y))) (sub c (mul y y)).
Lemma den_nz : forall c y, (forall s, mul s s <> c) -> sub c (mul y y) <> f0.
Proof. intros c y N Z. apply (N y). symmetry. apply g_sub_zero. exact Z. Qed.
Lemma con_xx : forall c x y, (forall s, mul s s <> c) -> (con c (x, y) <-> mul x x = xx c y).
Proof.
  intros c x y N. pose proof (den_nz c y N) as D. unfold Edwards.on, xx. cbn [fst snd]. split; intro H.
  - transitivity (div (mul (mul x x) (sub c (mul y y))) (sub c (mul y y))); [field; exact D|]. f_equal.
    transitivity (sub (mul c (mul x x)) (mul (mul x x) (mul y y))); [ring|]. rewrite H. ring.
  - rewrite H. field. exact D.
Qed.

Section Points.
Variable fes : list fe.
Hypothesis fes_nodup : NoDup fes.
Hypothesis fes_all : forall x, In x fes.
Hypothesis fes_length : N.of_nat (length fes) = p.
Definition pts (c : fe) : list (fe * fe) := flat_map (fun y => map (fun x => (x, y)) (roots fes (xx c y))) fes.
Lemma pts_in : forall c P, (forall s, mul s s <> c) -> (In P (pts c) <-> con c P).
Proof.
  intros c [x y] N. rewrite (con_xx c x y N). unfold pts. rewrite in_flat_map. split.
  - intros (z & _ & I). apply in_map_iff in I. destruct I as (w & E & I). apply pair_equal_spec in E. destruct E as [-> ->].
    apply (roots_in fes fes_all). exact I.
  - intro H. exists y. split; [apply fes_all|]. apply in_map_iff. exists x. split; [reflexivity|]. apply (roots_in fes fes_all). exact H.
Qed.
Lemma pts_nodup : forall c, NoDup (pts c).
Proof.
  intro c. apply nodup_flat_map; [exact fes_nodup| |].
  - intro y. apply nodup_map_in; [apply roots_nodup, fes_nodup|]. intros x x' _ _ E. apply pair_equal_spec in E. apply E.
  - intros y y' P I J. apply in_map_iff in I. apply in_map_iff in J. destruct I as (x & E & _). destruct J as (x' & E' & _).
    rewrite <- E' in E. apply pair_equal_spec in E. apply E.
Qed.
Definition order (c : fe) : N := N.of_nat (length (pts c)).
Definition count (c y : fe) : nat := length (roots fes (xx c y)).
Lemma order_sum : forall c, order c = N.of_nat (list_sum (map (count c) fes)).
Proof.
  intro c. unfold order, pts. f_equal. rewrite length_flat_map. f_equal. apply map_ext. intro y. rewrite map_length. reflexivity.
Qed.
Lemma inv_nz : forall y, y <> f0 -> inv y <> f0.
Proof.
  intros y N Z. apply two_nz. assert (Q : mul y (inv y) = f1) by (field; exact N). rewrite Z in Q. rewrite <- Q. ring.
Qed.
Lemma inv_inv : forall y, inv (inv y) = y.
Proof.
  intro y. destruct (fe_dec y f0) as [->|N]; [rewrite !inv_f0; reflexivity|].
  pose proof (inv_nz y N) as I. assert (Q : mul y (inv y) = f1) by (field; exact N).
  set (i := inv y) in *. clearbody i. assert (Q2 : mul i (inv i) = f1) by (field; exact I).
  transitivity (mul (mul y i) (inv i)); [rewrite Q; ring|]. transitivity (mul y (mul i (inv i))); [ring|]. rewrite Q2. ring.
Qed.
Lemma xx_twist : forall y, y <> f0 -> xx cc y = mul cc (xx tc (inv y)).
Proof.
  intros y N. pose proof (den_nz cc y cc_nonsquare) as D. pose proof (den_nz tc (inv y) tc_nonsquare) as D'.
  assert (Q : mul (mul y y) (mul cc (sub tc (mul (inv y) (inv y)))) = opp (sub cc (mul y y))).
  { transitivity (sub (mul (mul y y) (mul cc tc)) (mul cc (mul (mul y (inv y)) (mul y (inv y))))); [ring|].
    rewrite cc_tc. assert (I : mul y (inv y) = f1) by (field; exact N). rewrite I. ring. }
  unfold xx. set (d := sub cc (mul y y)) in *. set (d' := sub tc (mul (inv y) (inv y))) in *.
  replace (mul cc (div (mul tc (sub f1 (mul (inv y) (inv y)))) d')) with
    (div (mul (mul cc (mul cc tc)) (sub (mul y y) (mul (mul y (inv y)) (mul y (inv y))))) (mul (mul y y) (mul cc d'))).
  - rewrite Q, cc_tc. assert (I : mul y (inv y) = f1) by (field; exact N). rewrite I. clearbody d d'.
    assert (OD : opp d <> f0) by (intro Z; apply D; transitivity (opp (opp d)); [ring|rewrite Z; ring]).
    field. first [exact D|exact OD|split; assumption].
  - clearbody d d'. field. repeat split; try assumption. exact cc_nz.
Qed.
Lemma xx_0 : forall c, (forall s, mul s s <> c) -> xx c f0 = mul f1 f1.
Proof.
  intros c N. assert (c <> f0) by (intro Z; apply (N f0); rewrite Z; ring). unfold xx.
  replace (sub c (mul f0 f0)) with c by ring. field. assumption.
Qed.
Lemma f1_nz : f1 <> f0.
Proof. intro H. apply (f_equal fv) in H. discriminate H. Qed.
Theorem orders : order cc + order tc = 2 * p + 2.
Proof.
  rewrite !order_sum. rewrite <- Nat2N.inj_add.
  assert (P : Permutation (map inv fes) fes).
  { apply NoDup_Permutation_bis.
    - apply nodup_map_in; [exact fes_nodup|]. intros x y _ _ E. rewrite <- (inv_inv x), <- (inv_inv y), E. reflexivity.
    - rewrite map_length. apply le_n.
    - intros x _. apply fes_all. }
  rewrite <- (list_sum_perm _ _ (Permutation_map (count tc) P)), map_map.
  assert (A : forall (f g : fe -> nat) l, (list_sum (map f l) + list_sum (map g l) = list_sum (map (fun y => f y + g y) l))%nat).
  { intros f g l. induction l as [|a l IH]; [reflexivity|]. unfold list_sum in *. cbn [map fold_right]. lia. }
  rewrite A, (sum_const (fun y => count cc y + count tc (inv y))%nat fes fes_nodup).
  - destruct (in_dec fe_dec f0 fes) as [_|N]; [|destruct (N (fes_all f0))].
    rewrite Nat2N.inj_add, Nat2N.inj_mul, fes_length. reflexivity.
  - intros y N. unfold count. rewrite (xx_twist y N). rewrite Nat.add_comm. apply roots_pair; [exact fes_nodup|exact fes_all|exact cc_nonsquare].
  - unfold count. rewrite inv_f0, (xx_0 cc cc_nonsquare), (xx_0 tc tc_nonsquare).
    rewrite (roots_square fes fes_nodup fes_all f1 f1_nz). reflexivity.
Qed.

Section Curve.
Variable c : fe.
Hypothesis nonsquare : forall s, mul s s <> c.
Theorem curve_order : forall P, con c P -> Edwards.smul fe f0 f1 add mul sub div c (order c) P = pzero.
Proof.
  intros P HP. unfold order.
  apply (order_kills (fe * fe) (Edwards.add fe add mul sub div c) pzero popp (Edwards.smul fe f0 f1 add mul sub div c) (pts c)).
  - apply pts_nodup.
  - apply pts_in; [exact nonsquare|]. exact (Edwards.on_zero fe _ _ _ _ _ _ _ _ fe_field c).
  - intros a b A B. apply (pts_in c _ nonsquare) in A. apply (pts_in c _ nonsquare) in B. apply (pts_in c _ nonsquare).
    exact (Edwards.on_add fe _ _ _ _ _ _ _ _ fe_field fe_dec c nonsquare two_nz a b A B).
  - intros a A. apply (pts_in c _ nonsquare) in A. apply (pts_in c _ nonsquare).
    exact (Edwards.on_opp fe _ _ _ _ _ _ _ _ fe_field c a A).
  - intros a b d A B D. apply (pts_in c _ nonsquare) in A. apply (pts_in c _ nonsquare) in B. apply (pts_in c _ nonsquare) in D.
    exact (Edwards.add_assoc fe _ _ _ _ _ _ _ _ fe_field fe_dec c nonsquare two_nz a b d A B D).
  - exact (Edwards.add_comm fe _ _ _ _ _ _ _ _ fe_field c).
  - intros a A. apply (pts_in c _ nonsquare) in A.
    exact (Edwards.add_opp_r fe _ _ _ _ _ _ _ _ fe_field fe_dec c nonsquare two_nz a A).
  - exact (Edwards.add_zero_l fe _ _ _ _ _ _ _ _ fe_field c nonsquare).
  - apply Edwards.smul_0.
  - apply Edwards.smul_succ.
  - apply (pts_in c _ nonsquare). exact HP.
Qed.
End Curve.
End Points.

(** ** The orders *)
Definition y8 : fe := mkfe 55188659117513257062467267217118295137698188065244968500265048394206261417927 eq_refl.
Definition point8 : point := (y8, y8).
Local Transparent fmul fadd fsub finv fpow_pos.
Lemma on_point8 : on point8.
Proof. apply fe_eq. vm_compute. reflexivity. Qed.
Lemma enc_point8 : fv (enc point8) = order8_a.
Proof. vm_compute. reflexivity. Qed.
Lemma quad_a : snd (dbl (dbl (mkfe order8_a eq_refl, f1))) <> f0.
Proof. intro H. apply (f_equal fv) in H. revert H. vm_compute. discriminate. Qed.
Local Opaque fmul fadd fsub finv fpow_pos.
Lemma point8_8 : smul 8 point8 = pzero.
Proof. apply low_u_small; [exact on_point8|]. rewrite enc_point8. right. right. left. reflexivity. Qed.
Lemma point8_4 : smul 4 point8 <> pzero.
Proof.
  intro H. assert (E : enc point8 = mkfe order8_a eq_refl) by (apply fe_eq; exact enc_point8).
  assert (Z : enc point8 <> f0) by (rewrite E; intro Z; apply (f_equal fv) in Z; discriminate Z).
  pose proof (enc_rep point8 Z) as R. rewrite E in R.
  apply (dbl_rep (_, _) _ on_point8) in R. assert (O2 : on (padd point8 point8)) by (apply g_on_add; exact on_point8).
  apply (dbl_rep _ _ O2) in R. replace 4 with (1 + 1 + (1 + 1)) in H by lia. rewrite !g_smul_add, g_smul_1 in H by exact on_point8.
  rewrite H in R. destruct R as [R _]. cbn [snd Edwards.zero] in R.
  assert (W : mul (snd (dbl (dbl (mkfe order8_a eq_refl, f1)))) (add f1 f1) = f0) by (rewrite <- R; ring).
  destruct (g_mul_zero _ _ W) as [W'|W']; [exact (quad_a W')|exact (two_nz W')].
Qed.

Definition l2_25519 : N := 2 ^ 253 - 55484635554744707071703875581767296995.
Lemma base_divides : forall n, smul n basept = pzero -> (Z.of_N n mod L = 0)%Z.
Proof.
  intros n H. destruct (Z.eq_dec (Z.of_N n mod L) 0) as [E|E]; [exact E|exfalso]. destruct (l_inverse n E) as (u & w & Q).
  apply base_2. pose proof (smul_multiple n basept (u * 4) on_base H) as K. replace (u * 4 * n) with (w * l25519 + 1) in K by lia.
  rewrite g_smul_add, (smul_multiple l25519 basept w on_base base_l), g_smul_1, g_zero_l in K by exact on_base.
  rewrite K. apply Edwards.smul_zero_point with (1 := fe_field). exact cc_nonsquare.
Qed.
Lemma point8_divides : forall n, smul n point8 = pzero -> n mod 8 = 0.
Proof.
  intros n H. assert (M : forall k, smul (k * (n mod 8)) point8 = pzero).
  { intro k. apply smul_multiple; [exact on_point8|]. rewrite (N.div_mod n 8) in H by discriminate.
    rewrite N.mul_comm in H. rewrite g_smul_add, (smul_multiple 8 point8 _ on_point8 point8_8), g_zero_l in H by exact on_point8. exact H. }
  assert (B : n mod 8 < 8) by (apply N.mod_lt; discriminate). set (r := n mod 8) in *. clearbody r.
  assert (X : forall k q, k * r = q * 8 + 4 -> False).
  { intros k q E. apply point8_4. rewrite <- (M k), E. rewrite g_smul_add, (smul_multiple 8 point8 _ on_point8 point8_8), g_zero_l by exact on_point8. reflexivity. }
  assert (C : r = 0 \/ r = 1 \/ r = 2 \/ r = 3 \/ r = 4 \/ r = 5 \/ r = 6 \/ r = 7) by lia.
  destruct C as [E|[E|[E|[E|[E|[E|[E|E]]]]]]]; [exact E|exfalso..].
  - apply (X 4 0). lia. - apply (X 2 0). lia. - apply (X 4 1). lia. - apply (X 1 0). lia.
  - apply (X 4 2). lia. - apply (X 2 1). lia. - apply (X 4 3). lia.
Qed.
Lemma order_value : forall n m, (Z.of_N n mod L = 0)%Z -> n mod 8 = 0 -> n <> 0 -> n + m = 2 * p + 2 -> n = 8 * l25519 /\ m = 4 * l2_25519.
Proof.
  intros n m H8 HL NZ S. apply Z.mod_divide in H8; [|discriminate]. destruct H8 as [q Q].
  assert (D8 : (8 | q * L)%Z).
  { rewrite <- Q. apply Z.mod_divide; [discriminate|]. lia. }
  rewrite Z.mul_comm in D8. apply Gauss in D8.
  - destruct D8 as [q' ->]. change L with (Z.of_N l25519) in Q. unfold l25519, l2_25519, p25519 in *. lia.
  - apply rel_prime_sym, prime_rel_prime; [exact prime_L|]. intro D. apply Z.divide_pos_le in D; [|lia]. unfold L in D. lia.
Qed.
Notation tsmul := (Edwards.smul fe f0 f1 add mul sub div tc).
Theorem orders_kill : (forall P, on P -> smul (8 * l25519) P = pzero) /\ (forall P, con tc P -> tsmul (4 * l2_25519) P = pzero).
Proof.
  destruct enumerate as (fes & ND & ALL & LEN).
  pose proof (orders fes ND ALL LEN) as S.
  pose proof (curve_order fes ND ALL cc cc_nonsquare) as K. pose proof (curve_order fes ND ALL tc tc_nonsquare) as KT.
  assert (NZ : order fes cc <> 0).
  { intro Z. assert (I : In pzero (pts fes cc)) by (apply (pts_in fes ALL cc _ cc_nonsquare); exact (g_on_zero)).
    unfold order in Z. destruct (pts fes cc); [destruct I|cbn [length] in Z; lia]. }
  destruct (order_value _ _ (base_divides _ (K _ on_base)) (point8_divides _ (K _ on_point8)) NZ S) as [E E'].
  rewrite E in K. rewrite E' in KT. split; assumption.
Qed.
