(** * Edwards: the group law of a complete Edwards curve over any field where c is not a square.

    The curve x^2 + y^2 = 1 + d x^2 y^2 is written with c = 1/d: x^2 y^2 = c (x^2 + y^2 - 1). *)
From Coq Require Import NArith Setoid Ring_theory Ring Field_theory Field.

Section Edwards.
Variable F : Type.
Variables (f0 f1 : F) (fadd fmul fsub : F -> F -> F) (fopp : F -> F) (fdiv : F -> F -> F) (finv : F -> F).
Hypothesis FT : field_theory f0 f1 fadd fmul fsub fopp fdiv finv (@eq F).
Hypothesis eq_dec : forall a b : F, {a = b} + {a <> b}.
Add Field FF : FT.
Notation "0" := f0. Notation "1" := f1.
Infix "+" := fadd. Infix "*" := fmul. Infix "-" := fsub. Infix "/" := fdiv. Notation "- x" := (fopp x).
Notation "2" := (1 + 1).

Variable c : F.
Hypothesis c_nonsquare : forall s, s * s <> c.
Hypothesis two_nonzero : 2 <> 0.

Lemma c_nonzero : c <> 0.
Proof. intro H. apply (c_nonsquare 0). rewrite H. ring. Qed.
Lemma mul_zero : forall a b, a * b = 0 -> a = 0 \/ b = 0.
Proof.
  intros a b H. destruct (eq_dec a 0) as [E|N]; [left; exact E|right].
  replace b with (a * b / a) by (field; exact N). rewrite H. field. exact N.
Qed.
Lemma mul_nonzero : forall a b, a <> 0 -> b <> 0 -> a * b <> 0.
Proof. intros a b A B H. destruct (mul_zero a b H); contradiction. Qed.
Lemma sub_zero : forall a b, a - b = 0 -> a = b.
Proof. intros a b H. replace a with (a - b + b) by ring. rewrite H. ring. Qed.
Lemma add_zero : forall a b, a + b = 0 -> a = - b.
Proof. intros a b H. apply sub_zero. rewrite <- H. ring. Qed.

Definition on (P : F * F) : Prop :=
  fst P * fst P * (snd P * snd P) = c * (fst P * fst P + snd P * snd P - 1).

(** ** Completeness *)
Lemma complete_sign : forall x1 y1 x2 y2 e, on (x1, y1) -> on (x2, y2) -> e * e = 1 -> x1 * x2 * y1 * y2 <> e * c.
Proof.
  unfold on. cbn. intros x1 y1 x2 y2 e H1 H2 E T.
  assert (EN : e <> 0) by (intro Z; rewrite Z in E; assert (0 * 0 = 0) as Q by ring; rewrite Q in E;
    apply two_nonzero; rewrite <- E; ring).
  assert (TN : x1 * x2 * y1 * y2 <> 0) by (rewrite T; apply mul_nonzero; [exact EN|exact c_nonzero]).
  assert (X1 : x1 * y1 <> 0) by (intro Z; apply TN; replace (x1 * x2 * y1 * y2) with (x1 * y1 * (x2 * y2)) by ring; rewrite Z; ring).
  assert (X2 : x2 * y2 <> 0) by (intro Z; apply TN; replace (x1 * x2 * y1 * y2) with (x1 * y1 * (x2 * y2)) by ring; rewrite Z; ring).
  assert (T2 : (x1 * x1 * (y1 * y1)) * (x2 * x2 * (y2 * y2)) = c * c).
  { replace ((x1 * x1 * (y1 * y1)) * (x2 * x2 * (y2 * y2))) with ((x1 * x2 * y1 * y2) * (x1 * x2 * y1 * y2)) by ring.
    rewrite T. replace (e * c * (e * c)) with (e * e * (c * c)) by ring. rewrite E. ring. }
  (* c (x1 + e y1)^2 = (x1 y1 (x2 + y2))^2 and the same with minus *)
  assert (K : x1 * x1 * (y1 * y1) * (x2 * x2 + y2 * y2) = c * (x1 * x1 + y1 * y1)).
  { assert (Q : c * (x1 * x1 * (y1 * y1) * (x2 * x2 + y2 * y2)) = c * (c * (x1 * x1 + y1 * y1))).
    { replace (c * (x1 * x1 * (y1 * y1) * (x2 * x2 + y2 * y2)))
        with (x1 * x1 * (y1 * y1) * (c * (x2 * x2 + y2 * y2 - 1)) + c * (x1 * x1 * (y1 * y1))) by ring.
      rewrite <- H2, T2, H1. ring. }
    apply sub_zero. destruct (mul_zero c (x1 * x1 * (y1 * y1) * (x2 * x2 + y2 * y2) - c * (x1 * x1 + y1 * y1))) as [Z|Z].
    - replace (c * (x1 * x1 * (y1 * y1) * (x2 * x2 + y2 * y2) - c * (x1 * x1 + y1 * y1)))
        with (c * (x1 * x1 * (y1 * y1) * (x2 * x2 + y2 * y2)) - c * (c * (x1 * x1 + y1 * y1))) by ring.
      rewrite Q. ring.
    - destruct (c_nonzero Z).
    - exact Z. }
  assert (S : forall g, g * g = 1 -> c * ((x1 + g * e * y1) * (x1 + g * e * y1)) = (x1 * y1 * (x2 + g * y2)) * (x1 * y1 * (x2 + g * y2))).
  { intros g G.
    replace ((x1 * y1 * (x2 + g * y2)) * (x1 * y1 * (x2 + g * y2)))
      with (x1 * x1 * (y1 * y1) * (x2 * x2 + (g * g) * (y2 * y2)) + 2 * g * (x1 * y1) * (x1 * x2 * y1 * y2)) by ring.
    rewrite G. replace (1 * (y2 * y2)) with (y2 * y2) by ring. rewrite K, T.
    replace ((x1 + g * e * y1) * (x1 + g * e * y1)) with (x1 * x1 + (g * g) * (e * e) * (y1 * y1) + 2 * g * e * (x1 * y1)) by ring.
    rewrite G, E. ring. }
  assert (N : forall g, g * g = 1 -> x2 + g * y2 = 0).
  { intros g G. destruct (eq_dec (x2 + g * y2) 0) as [Z|Z]; [exact Z|exfalso].
    pose proof (S g G) as SG. set (w := x1 * y1 * (x2 + g * y2)) in *. set (v := x1 + g * e * y1) in *.
    assert (W : w <> 0) by (apply mul_nonzero; assumption).
    assert (V : v <> 0) by (intro Q; apply (mul_nonzero w w W W); rewrite <- SG, Q; ring).
    apply (c_nonsquare (w / v)). replace (w / v * (w / v)) with (w * w / (v * v)) by (field; exact V).
    rewrite <- SG. field. exact V. }
  pose proof (N 1 ltac:(ring)) as A. pose proof (N (fopp 1) ltac:(ring)) as B.
  apply X2. assert (x2 = 0).
  { destruct (mul_zero 2 x2) as [Z|Z]; [|contradiction|exact Z].
    replace (2 * x2) with ((x2 + 1 * y2) + (x2 + fopp 1 * y2)) by ring. rewrite A, B. ring. }
  rewrite H. ring.
Qed.
Lemma complete_plus : forall x1 y1 x2 y2, on (x1, y1) -> on (x2, y2) -> c + x1 * x2 * y1 * y2 <> 0.
Proof.
  intros x1 y1 x2 y2 H1 H2 Z. apply (complete_sign x1 y1 x2 y2 (fopp 1) H1 H2); [ring|].
  apply sub_zero. rewrite <- Z. ring.
Qed.
Lemma complete_minus : forall x1 y1 x2 y2, on (x1, y1) -> on (x2, y2) -> c - x1 * x2 * y1 * y2 <> 0.
Proof.
  intros x1 y1 x2 y2 H1 H2 Z. apply (complete_sign x1 y1 x2 y2 1 H1 H2); [ring|].
  apply sub_zero in Z. rewrite <- Z. ring.
Qed.

(** ** Addition *)
Definition add (P Q : F * F) : F * F :=
  let t := fst P * fst Q * snd P * snd Q in
  (c * (fst P * snd Q + fst Q * snd P) / (c + t), c * (snd P * snd Q - fst P * fst Q) / (c - t)).
Definition zero : F * F := (0, 1).
Definition opp (P : F * F) : F * F := (- fst P, snd P).

Lemma on_zero : on zero.
Proof. unfold on, zero. cbn. ring. Qed.
Lemma on_opp : forall P, on P -> on (opp P).
Proof. unfold on, opp. cbn. intros P H. transitivity (fst P * fst P * (snd P * snd P)); [ring|]. rewrite H. ring. Qed.

Lemma on_add : forall P Q, on P -> on Q -> on (add P Q).
Proof.
  intros [x1 y1] [x2 y2] H1 H2. pose proof (complete_plus _ _ _ _ H1 H2) as D. pose proof (complete_minus _ _ _ _ H1 H2) as E.
  unfold on, add in *. cbn in *.
  set (t := x1 * x2 * y1 * y2) in *. set (X := c * (x1 * y2 + x2 * y1)). set (Y := c * (y1 * y2 - x1 * x2)).
  assert (K : X * X * (Y * Y) = c * (X * X * ((c - t) * (c - t)) + Y * Y * ((c + t) * (c + t)) - (c + t) * (c + t) * ((c - t) * (c - t)))).
  { unfold X, Y, t. ring [H1 H2]. }
  replace (X / (c + t) * (X / (c + t)) * (Y / (c - t) * (Y / (c - t)))) with (X * X * (Y * Y) / ((c + t) * (c + t) * ((c - t) * (c - t))))
    by (field; split; assumption).
  rewrite K. field. split; assumption.
Qed.
Lemma add_comm : forall P Q, add P Q = add Q P.
Proof.
  intros [x1 y1] [x2 y2]. unfold add. cbn.
  replace (x2 * x1 * y2 * y1) with (x1 * x2 * y1 * y2) by ring.
  replace (x2 * y1 + x1 * y2) with (x1 * y2 + x2 * y1) by ring.
  replace (y2 * y1 - x2 * x1) with (y1 * y2 - x1 * x2) by ring. reflexivity.
Qed.
Lemma add_zero_r : forall P, add P zero = P.
Proof.
  intros [x y]. unfold add, zero. cbn. f_equal; field; pose proof c_nonzero as N.
  - intro H. apply N. rewrite <- H. ring.
  - intro H. apply N. rewrite <- H. ring.
Qed.
Lemma add_opp_r : forall P, on P -> add P (opp P) = zero.
Proof.
  intros [x y] H. pose proof (complete_plus _ _ _ _ H (on_opp _ H)) as D. pose proof (complete_minus _ _ _ _ H (on_opp _ H)) as E.
  unfold on, add, zero, opp in *. cbn in *. f_equal.
  - field. exact D.
  - assert (K : c * (y * y - x * - x) = c - x * - x * y * y) by ring [H]. rewrite K. field. exact E.
Qed.

Lemma add_assoc : forall P Q R, on P -> on Q -> on R -> add (add P Q) R = add P (add Q R).
Proof.
  intros [x1 y1] [x2 y2] [x3 y3] H1 H2 H3.
  pose proof (complete_plus _ _ _ _ H1 H2) as D12. pose proof (complete_minus _ _ _ _ H1 H2) as E12.
  pose proof (complete_plus _ _ _ _ H2 H3) as D23. pose proof (complete_minus _ _ _ _ H2 H3) as E23.
  pose proof (on_add _ _ H1 H2) as H12. pose proof (on_add _ _ H2 H3) as H23.
  pose proof (complete_plus _ _ _ _ H12 H3) as DL. pose proof (complete_minus _ _ _ _ H12 H3) as EL.
  pose proof (complete_plus _ _ _ _ H1 H23) as DR. pose proof (complete_minus _ _ _ _ H1 H23) as ER.
  clear H12 H23. unfold on, add in *. cbn [fst snd] in *.
  set (X12 := c * (x1 * y2 + x2 * y1)) in *. set (Y12 := c * (y1 * y2 - x1 * x2)) in *.
  set (X23 := c * (x2 * y3 + x3 * y2)) in *. set (Y23 := c * (y2 * y3 - x2 * x3)) in *.
  set (d12 := c + x1 * x2 * y1 * y2) in *. set (e12 := c - x1 * x2 * y1 * y2) in *.
  set (d23 := c + x2 * x3 * y2 * y3) in *. set (e23 := c - x2 * x3 * y2 * y3) in *.
  assert (dl : c * d12 * e12 + X12 * x3 * Y12 * y3 <> 0).
  { replace (c * d12 * e12 + X12 * x3 * Y12 * y3) with ((c + X12 / d12 * x3 * (Y12 / e12) * y3) * (d12 * e12)) by (field; split; assumption).
    repeat apply mul_nonzero; assumption. }
  assert (el : c * d12 * e12 - X12 * x3 * Y12 * y3 <> 0).
  { replace (c * d12 * e12 - X12 * x3 * Y12 * y3) with ((c - X12 / d12 * x3 * (Y12 / e12) * y3) * (d12 * e12)) by (field; split; assumption).
    repeat apply mul_nonzero; assumption. }
  assert (dr : c * d23 * e23 + x1 * X23 * y1 * Y23 <> 0).
  { replace (c * d23 * e23 + x1 * X23 * y1 * Y23) with ((c + x1 * (X23 / d23) * y1 * (Y23 / e23)) * (d23 * e23)) by (field; split; assumption).
    repeat apply mul_nonzero; assumption. }
  assert (er : c * d23 * e23 - x1 * X23 * y1 * Y23 <> 0).
  { replace (c * d23 * e23 - x1 * X23 * y1 * Y23) with ((c - x1 * (X23 / d23) * y1 * (Y23 / e23)) * (d23 * e23)) by (field; split; assumption).
    repeat apply mul_nonzero; assumption. }
  f_equal.
  - transitivity (c * (X12 * e12 * y3 + x3 * Y12 * d12) / (c * d12 * e12 + X12 * x3 * Y12 * y3)).
    { field. repeat split; assumption. }
    transitivity (c * (x1 * Y23 * d23 + X23 * e23 * y1) / (c * d23 * e23 + x1 * X23 * y1 * Y23)).
    2:{ field. repeat split; first [assumption|intro Z; apply dr; rewrite <- Z; ring|intro Z; apply er; rewrite <- Z; ring]. }
    assert (K : (X12 * e12 * y3 + x3 * Y12 * d12) * (c * d23 * e23 + x1 * X23 * y1 * Y23) =
                (x1 * Y23 * d23 + X23 * e23 * y1) * (c * d12 * e12 + X12 * x3 * Y12 * y3)).
    { unfold X12, Y12, X23, Y23, d12, e12, d23, e23. ring [H1 H2 H3]. }
    apply sub_zero.
    transitivity (c * ((X12 * e12 * y3 + x3 * Y12 * d12) * (c * d23 * e23 + x1 * X23 * y1 * Y23) -
                  (x1 * Y23 * d23 + X23 * e23 * y1) * (c * d12 * e12 + X12 * x3 * Y12 * y3)) /
                  ((c * d12 * e12 + X12 * x3 * Y12 * y3) * (c * d23 * e23 + x1 * X23 * y1 * Y23))).
    { field. split; assumption. }
    rewrite K. field. split; assumption.
  - transitivity (c * (Y12 * d12 * y3 - X12 * e12 * x3) / (c * d12 * e12 - X12 * x3 * Y12 * y3)).
    { field. repeat split; assumption. }
    transitivity (c * (y1 * Y23 * d23 - x1 * X23 * e23) / (c * d23 * e23 - x1 * X23 * y1 * Y23)).
    2:{ field. repeat split; first [assumption|intro Z; apply dr; rewrite <- Z; ring|intro Z; apply er; rewrite <- Z; ring]. }
    assert (K : (Y12 * d12 * y3 - X12 * e12 * x3) * (c * d23 * e23 - x1 * X23 * y1 * Y23) =
                (y1 * Y23 * d23 - x1 * X23 * e23) * (c * d12 * e12 - X12 * x3 * Y12 * y3)).
    { unfold X12, Y12, X23, Y23, d12, e12, d23, e23. ring [H1 H2 H3]. }
    apply sub_zero.
    transitivity (c * ((Y12 * d12 * y3 - X12 * e12 * x3) * (c * d23 * e23 - x1 * X23 * y1 * Y23) -
                  (y1 * Y23 * d23 - x1 * X23 * e23) * (c * d12 * e12 - X12 * x3 * Y12 * y3)) /
                  ((c * d12 * e12 - X12 * x3 * Y12 * y3) * (c * d23 * e23 - x1 * X23 * y1 * Y23))).
    { field. split; assumption. }
    rewrite K. field. split; assumption.
Qed.

(** ** Multiples *)
Definition smul (n : N) (P : F * F) : F * F := N.iter n (add P) zero.
Lemma smul_0 : forall P, smul 0 P = zero.
Proof. reflexivity. Qed.
Lemma smul_succ : forall n P, smul (N.succ n) P = add P (smul n P).
Proof. intros. apply N.iter_succ. Qed.
Lemma on_smul : forall n P, on P -> on (smul n P).
Proof.
  intros n P H. induction n as [|n IH] using N.peano_ind; [exact on_zero|].
  rewrite smul_succ. apply on_add; assumption.
Qed.
Lemma add_zero_l : forall P, add zero P = P.
Proof. intro P. rewrite add_comm. apply add_zero_r. Qed.
Lemma smul_add : forall n m P, on P -> smul (n + m) P = add (smul n P) (smul m P).
Proof.
  intros n m P H. induction n as [|n IH] using N.peano_ind.
  - rewrite N.add_0_l, smul_0, add_zero_l. reflexivity.
  - rewrite N.add_succ_l, !smul_succ, IH. symmetry. apply add_assoc; try apply on_smul; exact H.
Qed.
Lemma smul_zero_point : forall n, smul n zero = zero.
Proof.
  intro n. induction n as [|n IH] using N.peano_ind; [reflexivity|]. rewrite smul_succ, IH. apply add_zero_r.
Qed.
Lemma smul_mul : forall n m P, on P -> smul (n * m) P = smul n (smul m P).
Proof.
  intros n m P H. induction n as [|n IH] using N.peano_ind; [reflexivity|].
  rewrite N.mul_succ_l, N.add_comm, smul_add, smul_succ, IH by exact H. reflexivity.
Qed.
Lemma smul_1 : forall P, smul 1 P = P.
Proof. intro P. change (smul 1 P) with (add P zero). apply add_zero_r. Qed.
Lemma smul_opp : forall n P, on P -> smul n (opp P) = opp (smul n P).
Proof.
  intros n P H. induction n as [|n IH] using N.peano_ind.
  - unfold smul, opp, zero. cbn. f_equal. ring.
  - rewrite !smul_succ, IH. destruct P as [x1 y1]. pose proof (on_smul n _ H) as H2. destruct (smul n (x1, y1)) as [x2 y2].
    pose proof (complete_plus _ _ _ _ H H2) as D. pose proof (complete_minus _ _ _ _ H H2) as E.
    unfold add, opp. cbn. f_equal.
    + field. repeat split; first [exact D|intro Z; apply D; rewrite <- Z; ring|intro Z; apply E; rewrite <- Z; ring].
    + field. repeat split; first [exact E|intro Z; apply D; rewrite <- Z; ring|intro Z; apply E; rewrite <- Z; ring].
Qed.

(** ** The Montgomery ladder, in terms of the y coordinate: u = (1 + y) / (1 - y) *)
Definition rep (X Z : F) (P : F * F) : Prop := X * (1 - snd P) = Z * (1 + snd P) /\ ~ (X = 0 /\ Z = 0).

Lemma rep_scaled : forall X Z P, rep X Z P -> exists l, l <> 0 /\ X = l * (1 + snd P) /\ Z = l * (1 - snd P).
Proof.
  intros X Z [x y] [H N]. cbn in *. exists ((X + Z) / 2).
  assert (D : X - Z = y * (X + Z)).
  { apply sub_zero. transitivity (X * (1 - y) - Z * (1 + y)); [ring|]. rewrite H. ring. }
  split; [|split].
  - intro E. assert (S : X + Z = 0) by (replace (X + Z) with ((X + Z) / 2 * 2) by (field; exact two_nonzero); rewrite E; ring).
    rewrite S in D. assert (D0 : X - Z = 0) by (rewrite D; ring).
    apply N. split.
    + destruct (mul_zero 2 X) as [Q|Q]; [|contradiction|exact Q].
      transitivity ((X + Z) + (X - Z)); [ring|]. rewrite S, D0. ring.
    + destruct (mul_zero 2 Z) as [Q|Q]; [|contradiction|exact Q].
      transitivity ((X + Z) - (X - Z)); [ring|]. rewrite S, D0. ring.
  - transitivity ((X + Z + (X - Z)) / 2); [field; exact two_nonzero|]. rewrite D. field. exact two_nonzero.
  - transitivity ((X + Z - (X - Z)) / 2); [field; exact two_nonzero|]. rewrite D. field. exact two_nonzero.
Qed.
Lemma scaled_rep : forall X Z P l, l <> 0 -> X = l * (1 + snd P) -> Z = l * (1 - snd P) -> rep X Z P.
Proof.
  intros X Z [x y] l N -> ->. unfold rep. cbn. split; [ring|]. intros [A B].
  apply (mul_nonzero 2 l two_nonzero N). transitivity (l * (1 + y) + l * (1 - y)); [ring|]. rewrite A, B. ring.
Qed.

Variable a24 : F.
Hypothesis a24_c : a24 * (c - 1) = 1.
Lemma a24_nonzero : a24 <> 0.
Proof. intro H. rewrite H in a24_c. apply two_nonzero. rewrite <- a24_c. ring. Qed.

Lemma double_rep : forall P X Z, on P -> rep X Z P ->
  rep ((X + Z) * (X + Z) * ((X - Z) * (X - Z)))
      (((X + Z) * (X + Z) - (X - Z) * (X - Z)) *
       ((X + Z) * (X + Z) + a24 * ((X + Z) * (X + Z) - (X - Z) * (X - Z))))
      (add P P).
Proof.
  intros [x y] X Z H R. destruct (rep_scaled _ _ _ R) as [l [L [EX EZ]]]. cbn in EX, EZ.
  pose proof (complete_minus _ _ _ _ H H) as E. pose proof c_nonzero as CN.
  assert (CY : c - y * y <> 0) by (intro Q; apply (c_nonsquare y); symmetry; apply sub_zero; exact Q).
  unfold on in H. cbn in H.
  apply (scaled_rep _ _ _ (2 * 2 * 2 * (l * l * l * l) * a24 * (c - y * y) * (c - x * x * y * y) / c)).
  - replace (2 * 2 * 2 * (l * l * l * l) * a24 * (c - y * y) * (c - x * x * y * y) / c)
      with (2 * 2 * 2 * (l * l * l * l) * a24 * (c - y * y) * (c - x * x * y * y) * (1 / c)) by (field; exact CN).
    assert (1 / c <> 0).
    { intro Q. apply two_nonzero. replace 2 with (2 * (1 / c * c)) by (field; exact CN). rewrite Q. ring. }
    repeat apply mul_nonzero; first [assumption|exact two_nonzero|exact a24_nonzero].
  - rewrite EX, EZ. unfold add. cbn.
    assert (K : y * y = a24 * (c - y * y) * (1 - x * x)).
    { apply sub_zero. transitivity (y * y - (a24 * (c * (1 - x * x) - y * y + x * x * (y * y)))); [ring|]. rewrite H.
      transitivity (y * y - (a24 * (c - 1)) * (y * y)); [ring|]. rewrite a24_c. ring. }
    transitivity (2 * 2 * 2 * 2 * (l * l * l * l) * (y * y)); [ring|]. rewrite K at 1.
    transitivity (2 * 2 * 2 * (l * l * l * l) * a24 * (c - y * y) / c * (c - x * x * y * y + c * (y * y - x * x))); [|field; split; assumption].
    replace (c - x * x * y * y + c * (y * y - x * x)) with (2 * c * (1 - x * x)) by ring [H].
    field. exact CN.
  - rewrite EX, EZ. unfold add. cbn.
    transitivity (2 * 2 * 2 * (l * l * l * l) * a24 * (c - y * y) / c * (c - x * x * y * y - c * (y * y - x * x))); [|field; split; assumption].
    replace (c - x * x * y * y - c * (y * y - x * x)) with (2 * c * (1 - y * y)) by ring [H].
    transitivity (2 * 2 * 2 * 2 * (l * l * l * l) * ((1 - y * y) * (1 + a24 * (1 - y * y)))); [ring|].
    replace (1 + a24 * (1 - y * y)) with (a24 * (c - 1) + a24 * (1 - y * y)) by (rewrite a24_c; reflexivity).
    field. exact CN.
Qed.

Lemma diff_rep : forall Q D X2 Z2 X3 Z3 u, on Q -> on D -> rep X2 Z2 Q -> rep X3 Z3 (add Q D) ->
  u * (1 - snd D) = 1 + snd D -> u <> 0 ->
  let da := (X3 - Z3) * (X2 + Z2) in
  let cb := (X3 + Z3) * (X2 - Z2) in
  rep ((da + cb) * (da + cb)) (u * ((da - cb) * (da - cb))) (add Q (add Q D)).
Proof.
  intros Q D X2 Z2 X3 Z3 u HQ HD R2 R3 U UN da cb.
  pose proof (on_add _ _ HQ HD) as HR. set (R := add Q D) in *.
  assert (DE : D = add R (opp Q)).
  { unfold R. rewrite (add_comm Q D), add_assoc, add_opp_r, add_zero_r; try assumption; [reflexivity|apply on_opp; exact HQ]. }
  clearbody R. pose proof (complete_plus _ _ _ _ HQ HR) as DP.
  destruct (rep_scaled _ _ _ R2) as [l [L [EX2 EZ2]]]. destruct (rep_scaled _ _ _ R3) as [m [M [EX3 EZ3]]].
  destruct Q as [x2 y2]. destruct R as [x3 y3]. cbn [snd fst] in *.
  pose proof (complete_plus _ _ _ _ HQ HR) as CP. pose proof (complete_minus _ _ _ _ HQ HR) as CM.
  assert (YD : snd D = c * (y3 * y2 + x3 * x2) / (c + x2 * x3 * y2 * y3)).
  { rewrite DE. unfold add, opp. cbn. field. repeat split; first [exact CP|intro Z; apply CP; rewrite <- Z; ring]. }
  assert (DAP : da + cb = 2 * 2 * (l * m) * (y3 + y2)) by (unfold da, cb; rewrite EX2, EZ2, EX3, EZ3; ring).
  assert (DAM : da - cb = 2 * 2 * (l * m) * (y3 - y2)) by (unfold da, cb; rewrite EX2, EZ2, EX3, EZ3; ring).
  rewrite DAP, DAM. set (w := 2 * 2 * (l * m)) in *.
  assert (W : w <> 0) by (unfold w; repeat apply mul_nonzero; first [assumption|exact two_nonzero]).
  assert (YR : snd (add (x2, y2) (x3, y3)) = c * (y2 * y3 - x2 * x3) / (c - x2 * x3 * y2 * y3)) by reflexivity.
  unfold on in HQ, HR. cbn in HQ, HR.
  set (t := x2 * x3 * y2 * y3) in *.
  assert (K : (y3 + y2) * (y3 + y2) * ((c - t - c * (y2 * y3 - x2 * x3)) * (c + t - c * (y3 * y2 + x3 * x2))) =
              (y3 - y2) * (y3 - y2) * ((c - t + c * (y2 * y3 - x2 * x3)) * (c + t + c * (y3 * y2 + x3 * x2)))).
  { unfold t. ring [HQ HR]. }
  assert (ND : 1 - snd D <> 0).
  { intro Z. assert (P : 1 + snd D = 0) by (rewrite <- U, Z; ring). apply two_nonzero.
    transitivity ((1 - snd D) + (1 + snd D)); [ring|]. rewrite Z, P. ring. }
  split.
  - rewrite YR.
    assert (KK : (y3 + y2) * (y3 + y2) * (1 - snd D) * (1 - c * (y2 * y3 - x2 * x3) / (c - t)) =
                 (y3 - y2) * (y3 - y2) * (1 + snd D) * (1 + c * (y2 * y3 - x2 * x3) / (c - t))).
    { rewrite YD.
      transitivity ((y3 + y2) * (y3 + y2) * ((c - t - c * (y2 * y3 - x2 * x3)) * (c + t - c * (y3 * y2 + x3 * x2))) / ((c + t) * (c - t))).
      { field. split; assumption. }
      rewrite K. field. split; assumption. }
    apply sub_zero. destruct (mul_zero (1 - snd D) (w * (y3 + y2) * (w * (y3 + y2)) * (1 - c * (y2 * y3 - x2 * x3) / (c - t)) -
      u * (w * (y3 - y2) * (w * (y3 - y2))) * (1 + c * (y2 * y3 - x2 * x3) / (c - t)))) as [Z|Z]; [|contradiction|exact Z].
    transitivity (w * w * ((y3 + y2) * (y3 + y2) * (1 - snd D) * (1 - c * (y2 * y3 - x2 * x3) / (c - t))) -
      w * w * ((y3 - y2) * (y3 - y2) * (u * (1 - snd D)) * (1 + c * (y2 * y3 - x2 * x3) / (c - t)))).
    { field. exact CM. }
    rewrite U, KK. ring.
  - intros [A B].
    assert (A1 : y3 + y2 = 0).
    { destruct (mul_zero _ _ A) as [Z|Z]; destruct (mul_zero _ _ Z) as [Z1|Z1]; contradiction || exact Z1. }
    assert (B1 : y3 - y2 = 0).
    { destruct (mul_zero _ _ B) as [Z|Z]; [contradiction|]. destruct (mul_zero _ _ Z) as [Z0|Z0]; destruct (mul_zero _ _ Z0) as [Z1|Z1]; contradiction || exact Z1. }
    assert (Y2 : y2 = 0).
    { destruct (mul_zero 2 y2) as [Z|Z]; [|contradiction|exact Z]. transitivity ((y3 + y2) - (y3 - y2)); [ring|]. rewrite A1, B1. ring. }
    assert (Y3 : y3 = 0).
    { apply sub_zero in B1. rewrite B1. exact Y2. }
    assert (SX2 : x2 * x2 = 1).
    { apply sub_zero. destruct (mul_zero c (x2 * x2 - 1)) as [Z|Z]; [|destruct (c_nonzero Z)|exact Z].
      transitivity (c * (x2 * x2 + y2 * y2 - 1)); [rewrite Y2; ring|]. rewrite <- HQ, Y2. ring. }
    assert (SX3 : x3 * x3 = 1).
    { apply sub_zero. destruct (mul_zero c (x3 * x3 - 1)) as [Z|Z]; [|destruct (c_nonzero Z)|exact Z].
      transitivity (c * (x3 * x3 + y3 * y3 - 1)); [rewrite Y3; ring|]. rewrite <- HR, Y3. ring. }
    assert (SD : snd D = x3 * x2).
    { rewrite YD. unfold t. rewrite Y2, Y3. field. intro Z. apply c_nonzero. rewrite <- Z. ring. }
    assert (S2 : (1 - x3 * x2) * (1 + x3 * x2) = 0).
    { transitivity (1 - (x3 * x3) * (x2 * x2)); [ring|]. rewrite SX2, SX3. ring. }
    rewrite <- SD in S2. destruct (mul_zero _ _ S2) as [Z|Z]; [contradiction|].
    apply UN. destruct (mul_zero u (1 - snd D)) as [Q|Q]; [rewrite U; exact Z|exact Q|contradiction].
Qed.

(** Points with y = 1 or -1 stay such. *)
Definition tiny (P : F * F) : Prop := fst P = 0 /\ snd P * snd P = 1.
Lemma tiny_of_y : forall P, on P -> snd P * snd P = 1 -> tiny P.
Proof.
  intros [x y] H Y. split; [|exact Y]. unfold on in H. cbn in *.
  assert (Q : x * x * (c - 1) = 0).
  { apply sub_zero. transitivity (c * (x * x + y * y - 1) - x * x * (y * y)); [rewrite Y; ring|]. rewrite H. ring. }
  destruct (mul_zero _ _ Q) as [Z|Z]; [destruct (mul_zero _ _ Z); assumption|].
  exfalso. rewrite Z in a24_c. apply two_nonzero. rewrite <- a24_c. ring.
Qed.
Lemma tiny_add : forall P Q, tiny P -> tiny Q -> tiny (add P Q).
Proof.
  intros [x1 y1] [x2 y2] [A1 A2] [B1 B2]. cbn in *. pose proof c_nonzero as N. unfold tiny, add. cbn. rewrite A1, B1.
  assert (N1 : c + 0 * 0 * y1 * y2 <> 0) by (intro Z; apply N; rewrite <- Z; ring).
  assert (N2 : c - 0 * 0 * y1 * y2 <> 0) by (intro Z; apply N; rewrite <- Z; ring).
  split; [field; first [exact N|intro Z; apply N1; rewrite <- Z; ring]|].
  transitivity (y1 * y1 * (y2 * y2)); [field; first [exact N|intro Z; apply N2; rewrite <- Z; ring]|]. rewrite A2, B2. ring.
Qed.
Lemma tiny_smul : forall n P, tiny P -> tiny (smul n P).
Proof.
  intros n P H. induction n as [|n IH] using N.peano_ind.
  - split; [reflexivity|]. unfold smul, zero. cbn. ring.
  - rewrite smul_succ. apply tiny_add; assumption.
Qed.
End Edwards.
