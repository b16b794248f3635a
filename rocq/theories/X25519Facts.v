(** * X25519Facts: field arithmetic of the reference X25519; keys of order two. *)
From Coq Require Import Lia ZifyBool ZifyNat ZifyN.
From Verif Require Import Base SpecWire BaseFacts Noise SpecNoise Crypto.
Open Scope N_scope.
Notation p := Crypto.p25519.

Lemma ones_split : forall x, x = N.land x (N.ones 255) + 2 ^ 255 * N.shiftr x 255 /\ N.land x (N.ones 255) < 2 ^ 255.
Proof.
  intro x. rewrite N.land_ones, N.shiftr_div_pow2. split.
  - pose proof (N.div_mod' x (2 ^ 255)). lia.
  - apply N.mod_lt. discriminate.
Qed.

Lemma fold_bound : forall x B, x < 2 ^ 255 * B ->
  N.land x (N.ones 255) + 19 * N.shiftr x 255 < 2 ^ 255 + 19 * B /\
  (N.land x (N.ones 255) + 19 * N.shiftr x 255) mod p = x mod p.
Proof.
  intros x B H. destruct (ones_split x) as [E L].
  set (lo := N.land x (N.ones 255)) in *. set (hi := N.shiftr x 255) in *. clearbody lo hi.
  assert (hi < B) by nia. split; [lia|].
  subst x. replace (lo + 2 ^ 255 * hi) with (lo + 19 * hi + hi * p) by (unfold p; lia).
  symmetry. apply N.mod_add. discriminate.
Qed.

Lemma redc_mod : forall x, x < 2 ^ 510 -> redc x = x mod p.
Proof.
  intros x H. unfold redc.
  destruct (fold_bound x (2 ^ 255) ltac:(lia)) as [B1 M1].
  set (y := N.land x (N.ones 255) + 19 * N.shiftr x 255) in *. clearbody y.
  destruct (fold_bound y 32 ltac:(lia)) as [B2 M2].
  set (z := N.land y (N.ones 255) + 19 * N.shiftr y 255) in *. clearbody z.
  rewrite <- M1, <- M2. destruct (p <=? z) eqn:E.
  - replace z with (z - p + 1 * p) at 2 by lia. rewrite N.mod_add by discriminate.
    symmetry. apply N.mod_small. clear - B2 E. unfold p in *. lia.
  - symmetry. apply N.mod_small. clear - E. lia.
Qed.

Lemma redc_lt : forall x, x < 2 ^ 510 -> redc x < p.
Proof. intros x H. rewrite redc_mod by exact H. apply N.mod_lt. discriminate. Qed.
Lemma prod_bound : forall a b, a < p -> b < p -> a * b < 2 ^ 510.
Proof. intros a b Ha Hb. assert (a * b < p * p) by nia. assert (p * p < 2 ^ 510) by reflexivity. lia. Qed.
Lemma fmul_mod : forall a b, a < p -> b < p -> fmul a b = (a * b) mod p.
Proof. intros. apply redc_mod, prod_bound; assumption. Qed.
Lemma fadd_mod : forall a b, a < p -> b < p -> fadd a b = (a + b) mod p.
Proof. intros a b Ha Hb. apply redc_mod. unfold p in *. lia. Qed.
Lemma fsub_mod : forall a b, a < p -> b < p -> fsub a b = (a + p - b) mod p.
Proof. intros a b Ha Hb. apply redc_mod. unfold p in *. lia. Qed.
Lemma fmul_lt : forall a b, a < p -> b < p -> fmul a b < p.
Proof. intros. rewrite fmul_mod by assumption. apply N.mod_lt. discriminate. Qed.
Lemma fadd_lt : forall a b, a < p -> b < p -> fadd a b < p.
Proof. intros. rewrite fadd_mod by assumption. apply N.mod_lt. discriminate. Qed.
Lemma fsub_lt : forall a b, a < p -> b < p -> fsub a b < p.
Proof. intros. rewrite fsub_mod by assumption. apply N.mod_lt. discriminate. Qed.

Lemma fsub_same : forall a, a < p -> fsub a a = 0.
Proof. intros a H. rewrite fsub_mod by assumption. replace (a + p - a) with p by lia. reflexivity. Qed.
Lemma fmul_0_l : forall a, fmul 0 a = 0. Proof. reflexivity. Qed.
Lemma fmul_0_r : forall a, fmul a 0 = 0. Proof. intro a. unfold fmul. rewrite N.mul_0_r. reflexivity. Qed.

(** ** The ladder on the point of order two *)
Definition small (x z : N) : Prop := z = 0 \/ (x = 0 /\ z = 1).

Lemma small_square : forall x z, x < p -> small x z ->
  fmul (fadd x z) (fadd x z) = fmul (fsub x z) (fsub x z) /\ fmul (fadd x z) (fadd x z) < p.
Proof.
  intros x z Hx [->|[-> ->]].
  - rewrite fadd_mod, fsub_mod by (try assumption; reflexivity).
    rewrite N.add_0_r, N.sub_0_r. replace (x + p) with (x + 1 * p) by lia. rewrite N.mod_add by discriminate.
    split; [reflexivity|]. apply fmul_lt; apply N.mod_lt; discriminate.
  - split; vm_compute; reflexivity.
Qed.

Definition small_state (st : N * N * N * N * bool) : Prop :=
  let '(x2, z2, x3, z3, swap) := st in x2 < p /\ x3 < p /\ small x2 z2 /\ small x3 z3.

Lemma small_z : forall x z, small x z -> z < p.
Proof. intros x z [->|[_ ->]]; reflexivity. Qed.

Lemma small_step : forall k st t, small_state st ->
  let '(x2, z2, x3, z3, _) := ladder_step 0 k st t in x2 < p /\ x3 < p /\ z2 = 0 /\ z3 = 0.
Proof.
  intros k [[[[x2 z2] x3] z3] sw] t (A & B & S2 & S3). unfold ladder_step.
  assert (H : forall x2 z2 x3 z3, x2 < p -> x3 < p -> small x2 z2 -> small x3 z3 ->
    let a := fadd x2 z2 in let aa := fmul a a in let b := fsub x2 z2 in let bb := fmul b b in
    let e := fsub aa bb in let c := fadd x3 z3 in let d := fsub x3 z3 in let da := fmul d a in
    let cb := fmul c b in let s := fadd da cb in let m := fsub da cb in
    fmul aa bb < p /\ fmul s s < p /\ fmul e (fadd aa (fmul 121665 e)) = 0 /\ fmul 0 (fmul m m) = 0).
  { clear. intros x2 z2 x3 z3 A B S2 S3 a aa b bb e c d da cb s m.
    pose proof (small_z _ _ S2). pose proof (small_z _ _ S3).
    destruct (small_square x2 z2 A S2) as [E L].
    assert (Lb : b < p) by (apply fsub_lt; assumption).
    assert (La : a < p) by (apply fadd_lt; assumption).
    assert (Lc : c < p) by (apply fadd_lt; assumption).
    assert (Ld : d < p) by (apply fsub_lt; assumption).
    assert (Ls : s < p) by (apply fadd_lt; apply fmul_lt; assumption).
    assert (E0 : e = 0) by (unfold e, aa, bb; fold a in E; fold b in E; rewrite <- E; apply fsub_same; apply fmul_lt; assumption).
    rewrite E0. repeat split; try apply fmul_lt; try assumption; try apply fmul_lt; try assumption. }
  destruct (xorb sw (N.testbit k t)).
  - apply (H x3 z3 x2 z2); assumption.
  - apply (H x2 z2 x3 z3); assumption.
Qed.

Lemma small_fold : forall k ts st, small_state st -> ts <> [] ->
  let '(x2, z2, x3, z3, _) := fold_left (ladder_step 0 k) ts st in z2 = 0 /\ z3 = 0.
Proof.
  intros k ts. induction ts as [|t ts IH]; intros st S NE; [contradiction|].
  cbn [fold_left]. pose proof (small_step k st t S) as P.
  destruct (ladder_step 0 k st t) as [[[[x2 z2] x3] z3] sw]. destruct P as (A & B & -> & ->).
  destruct ts as [|t' ts].
  - cbn [fold_left]. auto.
  - apply IH; [|discriminate]. unfold small_state, small. auto.
Qed.

Lemma finv_0 : finv 0 = 0.
Proof. vm_compute. reflexivity. Qed.

Theorem x25519_order_two : forall sk pk,
  N.land (of_le (firstn 32 pk)) (N.ones 255) = 0 \/ N.land (of_le (firstn 32 pk)) (N.ones 255) = p ->
  x25519 sk pk = zeros32.
Proof.
  intros sk pk H. unfold x25519.
  assert (U : redc (N.land (of_le (firstn 32 pk)) (N.ones 255)) = 0).
  { destruct H as [->| ->]; vm_compute; reflexivity. }
  rewrite U.
  pose proof (small_fold (clamp (of_le (firstn 32 sk))) (map N.of_nat (rev (seq 0 255))) (1, 0, 0, 1, false)) as P.
  destruct (fold_left _ _ _) as [[[[x2 z2] x3] z3] sw].
  destruct P as [-> ->].
  { unfold small_state, small. repeat split; auto. }
  { vm_compute. discriminate. }
  destruct sw; rewrite finv_0, fmul_0_r; reflexivity.
Qed.
