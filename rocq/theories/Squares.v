(** * Squares: Euler's criterion in the field of 2^255 - 19; counting square roots. *)
From Coq Require Import ZArith List Permutation Lia ZifyBool ZifyNat ZifyN Ring Field.
From Verif Require Import Base Noise Crypto X25519Facts Edwards Field25519 LadderProofs EdCurve EdProofs FiniteGroup.
Import ListNotations.
Open Scope N_scope.
Add Field FE : fe_field.
Local Opaque fmul fadd fsub finv fpow_pos.

Notation half := 28948022309329048855892746252171976963317496166410141009864396001978282409974%positive.
Notation eighth := 7237005577332262213973186563042994240829374041602535252466099000494570602493%positive.
Lemma fpw_O : forall a e, fpw a e~0 = mul (fpw a e) (fpw a e).
Proof. intros. apply fe_eq. cbn [fpw fv mul]. apply fpow_O. Qed.
Lemma fpw_I : forall a e, fpw a e~1 = mul a (mul (fpw a e) (fpw a e)).
Proof. intros. apply fe_eq. cbn [fpw fv mul]. apply fpow_I. Qed.
Lemma fpw_mul : forall e a b, fpw (mul a b) e = mul (fpw a e) (fpw b e).
Proof.
  induction e as [e IH|e IH|]; intros a b.
  - rewrite !fpw_I, IH. ring.
  - rewrite !fpw_O, IH. ring.
  - apply fe_eq. reflexivity.
Qed.
Lemma half_sign : forall w, w <> f0 -> fpw w half = f1 \/ fpw w half = opp f1.
Proof.
  intros w NW. apply square_one. rewrite <- fpw_O. apply fe_eq. cbn [fpw fv f1]. apply fermat_p.
  pose proof (fe_lt w). assert (fv w <> 0) by (intro Z; apply NW, fe_eq; exact Z). lia.
Qed.
(** (p - 1) / 2 = 4 * eighth + 2 *)
Lemma euler_square : forall w, fpw w half = f1 -> exists s, mul s s = w.
Proof.
  intros w H. set (q := fpw w eighth).
  assert (E : mul (mul (mul w w) (mul (mul q q) (mul q q))) f1 = f1).
  { rewrite <- H at 2. change half with (eighth~1~0)%positive. rewrite fpw_O, fpw_I. fold q. ring. }
  set (t := mul w q).
  assert (T : mul (mul t t) (mul t t) = mul w w).
  { transitivity (mul (mul w w) (mul (mul (mul w w) (mul (mul q q) (mul q q))) f1)); [unfold t; ring|]. rewrite E. ring. }
  assert (Z : mul (sub (mul t t) w) (add (mul t t) w) = f0) by (transitivity (sub (mul (mul t t) (mul t t)) (mul w w)); [ring|rewrite T; ring]).
  destruct (g_mul_zero _ _ Z) as [W|W].
  - exists t. apply g_sub_zero, W.
  - exists (mul im t). transitivity (mul (mul im im) (mul t t)); [ring|]. rewrite im_im.
    apply g_sub_zero. transitivity (opp (add (mul t t) w)); [ring|]. rewrite W. ring.
Qed.
Lemma one_minus_one : f1 <> opp f1.
Proof. intro H. apply two_nz. rewrite H at 1. ring. Qed.
Lemma square_class : forall k w, (forall s, mul s s <> k) -> w <> f0 -> (exists s, mul s s = w) \/ (exists s, mul s s = mul k w).
Proof.
  intros k w NK NW. assert (K0 : k <> f0) by (intro Z; apply (NK f0); rewrite Z; ring).
  destruct (half_sign w NW) as [H|H]; [left; exact (euler_square w H)|right].
  apply euler_square. rewrite fpw_mul, H. destruct (half_sign k K0) as [Q|Q].
  - destruct (euler_square k Q) as [s S]. destruct (NK s S).
  - rewrite Q. ring.
Qed.

(** ** Counting *)
Lemma enumerate : exists l : list fe, NoDup l /\ (forall x, In x l) /\ N.of_nat (length l) = p.
Proof.
  assert (G : forall m, N.of_nat m <= p -> exists l : list fe, NoDup l /\ (forall x, In x l <-> fv x < N.of_nat m) /\ length l = m).
  { induction m as [|m IH]; intro M.
    - exists []. split; [constructor|]. split; [|reflexivity]. intro x. split; [intros []|lia].
    - destruct IH as (l & ND & I & E); [lia|]. assert (B : (N.of_nat m <? p) = true) by (apply N.ltb_lt; lia).
      exists (mkfe (N.of_nat m) B :: l). split; [|split].
      + constructor; [|exact ND]. rewrite I. cbn [fv]. lia.
      + intro x. cbn [In]. rewrite I. split.
        * intros [<-|H]; [cbn [fv]; lia|lia].
        * intro H. destruct (N.eq_dec (fv x) (N.of_nat m)) as [Q|Q]; [left; apply fe_eq; symmetry; exact Q|right; lia].
      + cbn [length]. rewrite E. reflexivity. }
  destruct (G (N.to_nat p)) as (l & ND & I & E); [rewrite N2Nat.id; apply N.le_refl|].
  exists l. split; [exact ND|]. split; [|rewrite E; apply N2Nat.id].
  intro x. apply I. rewrite N2Nat.id. apply fe_lt.
Qed.

Definition eqf (a b : fe) : bool := if fe_dec a b then true else false.
Lemma eqf_iff : forall a b, eqf a b = true <-> a = b.
Proof. intros a b. unfold eqf. destruct (fe_dec a b); split; intro; try assumption; try reflexivity; try contradiction; discriminate. Qed.

Section Count.
Variable fes : list fe.
Hypothesis fes_nodup : NoDup fes.
Hypothesis fes_all : forall x, In x fes.
Definition roots (w : fe) : list fe := filter (fun x => eqf (mul x x) w) fes.
Lemma roots_in : forall w x, In x (roots w) <-> mul x x = w.
Proof. intros w x. unfold roots. rewrite filter_In, eqf_iff. split; [intros [_ H]; exact H|intro H; split; [apply fes_all|exact H]]. Qed.
Lemma roots_nodup : forall w, NoDup (roots w).
Proof. intro w. apply NoDup_filter. exact fes_nodup. Qed.
Lemma same_length : forall (l l' : list fe), NoDup l -> NoDup l' -> (forall x, In x l <-> In x l') -> length l = length l'.
Proof. intros l l' A B E. apply Permutation_length, NoDup_Permutation; assumption. Qed.
Lemma roots_zero : length (roots f0) = 1%nat.
Proof.
  apply (same_length _ [f0]); [apply roots_nodup|constructor; [intros []|constructor]|].
  intro x. rewrite roots_in. cbn [In]. split.
  - intro H. left. destruct (g_mul_zero _ _ H); congruence.
  - intros [<-|[]]. ring.
Qed.
Lemma roots_square : forall s, s <> f0 -> length (roots (mul s s)) = 2%nat.
Proof.
  intros s NS. apply (same_length _ [s; opp s]); [apply roots_nodup| |].
  - constructor; [|constructor; [intros []|constructor]]. intros [E|[]]. exact (opp_nz s NS E).
  - intro x. rewrite roots_in. cbn [In]. split.
    + intro H. assert (Z : mul (sub x s) (add x s) = f0) by (transitivity (sub (mul x x) (mul s s)); [ring|rewrite H; ring]).
      destruct (g_mul_zero _ _ Z) as [W|W]; [left; symmetry; apply g_sub_zero, W|right; left]. symmetry. apply g_sub_zero. rewrite <- W. ring.
    + intros [<-|[<-|[]]]; ring.
Qed.
Lemma roots_none : forall w, (forall s, mul s s <> w) -> length (roots w) = 0%nat.
Proof.
  intros w N. destruct (roots w) as [|x l] eqn:E; [reflexivity|]. exfalso. apply (N x). apply roots_in. rewrite E. left. reflexivity.
Qed.
Lemma roots_pair : forall k w, (forall s, mul s s <> k) -> (length (roots w) + length (roots (mul k w)) = 2)%nat.
Proof.
  intros k w NK. destruct (fe_dec w f0) as [->|NW].
  - replace (mul k f0) with f0 by ring. rewrite roots_zero. reflexivity.
  - assert (K0 : k <> f0) by (intro Z; apply (NK f0); rewrite Z; ring).
    assert (X : forall s t, mul s s = w -> mul t t = mul k w -> False).
    { intros s t S T. assert (S0 : s <> f0) by (intro Z; apply NW; rewrite <- S, Z; ring).
      apply (NK (div t s)). transitivity (div (mul t t) (mul s s)); [field; exact S0|]. rewrite T, S. field. exact NW. }
    destruct (square_class k w NK NW) as [[s S]|[s S]].
    + rewrite (roots_none (mul k w)) by (intros t T; exact (X s t S T)). rewrite <- S. rewrite roots_square; [reflexivity|].
      intro Z. apply NW. rewrite <- S, Z. ring.
    + rewrite (roots_none w) by (intros t T; exact (X t s T S)). rewrite <- S. rewrite roots_square; [reflexivity|].
      intro Z. apply (mul_nz k w K0 NW). rewrite <- S, Z. ring.
Qed.
End Count.
