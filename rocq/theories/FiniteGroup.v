(** * FiniteGroup: multiplying by the number of elements of a finite commutative group gives the neutral element. *)
From Coq Require Import NArith List Permutation Lia ZifyNat ZifyN.
Import ListNotations.
Open Scope N_scope.

Lemma nodup_map_in : forall (A B : Type) (f : A -> B) l, NoDup l ->
  (forall x y, In x l -> In y l -> f x = f y -> x = y) -> NoDup (map f l).
Proof.
  intros A B f l ND. induction ND as [|a l NI ND IH]; intro INJ; [constructor|]. cbn [map]. constructor.
  - intro I. apply in_map_iff in I. destruct I as (y & E & Y). apply NI.
    rewrite <- (INJ y a); [exact Y|right; exact Y|left; reflexivity|exact E].
  - apply IH. intros x y X Y E. apply INJ; [right; exact X|right; exact Y|exact E].
Qed.

Section Finite.
Variables (G : Type) (op : G -> G -> G) (e : G) (neg : G -> G) (smul : N -> G -> G) (pts : list G).
Hypothesis nodup : NoDup pts.
Hypothesis in_e : In e pts.
Hypothesis in_op : forall a b, In a pts -> In b pts -> In (op a b) pts.
Hypothesis in_neg : forall a, In a pts -> In (neg a) pts.
Hypothesis assoc : forall a b c, In a pts -> In b pts -> In c pts -> op (op a b) c = op a (op b c).
Hypothesis comm : forall a b, op a b = op b a.
Hypothesis neg_r : forall a, In a pts -> op a (neg a) = e.
Hypothesis e_l : forall a, op e a = a.
Hypothesis smul_0 : forall a, smul 0 a = e.
Hypothesis smul_succ : forall n a, smul (N.succ n) a = op a (smul n a).

Definition sum (l : list G) : G := fold_right op e l.
Definition members (l : list G) : Prop := forall x, In x l -> In x pts.
Lemma members_cons : forall a l, members (a :: l) -> In a pts /\ members l.
Proof. intros a l H. split; [apply H; left; reflexivity|intros x I; apply H; right; exact I]. Qed.
Lemma sum_in : forall l, members l -> In (sum l) pts.
Proof.
  induction l as [|a l IH]; intro M; [exact in_e|]. destruct (members_cons _ _ M). apply in_op; auto.
Qed.
Lemma sum_perm : forall l l', Permutation l l' -> members l -> sum l = sum l'.
Proof.
  induction 1 as [|a l l' P IH|a b l|l l' l'' P1 IH1 P2 IH2]; intro M.
  - reflexivity.
  - destruct (members_cons _ _ M). unfold sum in *. cbn [fold_right]. f_equal. auto.
  - destruct (members_cons _ _ M) as [A M']. destruct (members_cons _ _ M') as [B M'']. pose proof (sum_in _ M'') as S.
    unfold sum in *. cbn [fold_right]. rewrite <- !assoc by assumption. f_equal. apply comm.
  - rewrite IH1 by exact M. apply IH2. intros x I. apply M. apply Permutation_sym in P1. exact (Permutation_in x P1 I).
Qed.
Lemma smul_in : forall n a, In a pts -> In (smul n a) pts.
Proof.
  intros n a A. induction n as [|n IH] using N.peano_ind; [rewrite smul_0; exact in_e|]. rewrite smul_succ. apply in_op; assumption.
Qed.
Lemma sum_shift : forall a l, In a pts -> members l -> sum (map (op a) l) = op (smul (N.of_nat (length l)) a) (sum l).
Proof.
  intros a l A. induction l as [|b l IH]; intro M.
  - cbn [map sum fold_right length]. rewrite smul_0. symmetry. apply e_l.
  - destruct (members_cons _ _ M) as [B M']. pose proof (sum_in _ M') as S. pose proof (smul_in (N.of_nat (length l)) a A) as W.
    specialize (IH M'). replace (N.of_nat (length (b :: l))) with (N.succ (N.of_nat (length l))) by (cbn [length]; lia).
    rewrite smul_succ. unfold sum in *. cbn [map fold_right]. rewrite IH. set (w := smul _ a) in *. set (s := fold_right op e l) in *.
    rewrite (assoc a w) by auto. rewrite (assoc a b) by auto. f_equal. rewrite <- !assoc by assumption. f_equal. apply comm.
Qed.
Lemma cancel_l : forall a b c, In a pts -> In b pts -> In c pts -> op a b = op a c -> b = c.
Proof.
  intros a b c A B C E. rewrite <- (e_l b), <- (e_l c), <- (neg_r a A), (comm a (neg a)).
  rewrite !assoc by auto. f_equal. exact E.
Qed.
Theorem order_kills : forall a, In a pts -> smul (N.of_nat (length pts)) a = e.
Proof.
  intros a A. assert (M : members pts) by (intros x I; exact I).
  assert (P : Permutation (map (op a) pts) pts).
  { apply NoDup_Permutation_bis.
    - apply nodup_map_in; [exact nodup|]. intros x y X Y E. exact (cancel_l a x y A X Y E).
    - rewrite map_length. apply le_n.
    - intros x I. apply in_map_iff in I. destruct I as (y & <- & Y). apply in_op; assumption. }
  pose proof (sum_shift a pts A M) as S. pose proof (sum_in pts M) as SI.
  assert (M' : members (map (op a) pts)) by (intros x I; exact (Permutation_in x P I)).
  rewrite (sum_perm _ _ P M') in S. pose proof (smul_in (N.of_nat (length pts)) a A) as W.
  apply (cancel_l (sum pts)); try assumption. rewrite (comm _ e), e_l. rewrite comm. symmetry. exact S.
Qed.
End Finite.
