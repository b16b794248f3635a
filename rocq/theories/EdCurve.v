(** * EdCurve: the extended coordinates of [Ed25519.v] compute in the group of [LadderProofs]; the base point has order L. *)
From Coq Require Import ZArith Lia ZifyBool ZifyNat ZifyN Ring Field.
From Verif Require Import Base Noise Crypto X25519Facts Edwards Field25519 LadderProofs Ed25519.
Open Scope N_scope.
Add Field FE : fe_field.

(** (x, y) on -x^2 + y^2 = 1 + d x^2 y^2 stands for the point (ix, y). *)
Definition im : fe := mkfe sqrt_m1 eq_refl.
Definition dd : fe := mkfe ed_d eq_refl.
Lemma im_im : mul im im = opp f1.
Proof. apply fe_eq. vm_compute. reflexivity. Qed.
Lemma cc_dd : mul cc dd = opp f1.
Proof. apply fe_eq. vm_compute. reflexivity. Qed.
Lemma cc_nz : cc <> f0.
Proof. exact (Edwards.c_nonzero fe _ _ _ _ _ _ _ _ fe_field cc cc_nonsquare). Qed.
Lemma mul_nz : forall a b, a <> f0 -> b <> f0 -> mul a b <> f0.
Proof. exact (Edwards.mul_nonzero fe _ _ _ _ _ _ _ _ fe_field fe_dec). Qed.
Definition g_plus := Edwards.complete_plus fe _ _ _ _ _ _ _ _ fe_field fe_dec cc cc_nonsquare two_nz.
Definition g_minus := Edwards.complete_minus fe _ _ _ _ _ _ _ _ fe_field fe_dec cc cc_nonsquare two_nz.
Definition g_on_zero := Edwards.on_zero fe _ _ _ _ _ _ _ _ fe_field cc.

Definition ebase : point := (mul im (mkfe base_x eq_refl), mkfe base_y eq_refl).
Lemma ebase_opp : ebase = popp basept.
Proof. unfold ebase, Edwards.opp, basept. cbn [fst snd]. f_equal; apply fe_eq; vm_compute; reflexivity. Qed.
Lemma on_ebase : on ebase.
Proof. rewrite ebase_opp. apply g_on_opp, on_base. Qed.

Definition erep (e : ext) (P : point) : Prop := exists X Y Z T,
  e = mkExt (fv X) (fv Y) (fv Z) (fv T) /\ Z <> f0 /\
  mul im X = mul (fst P) Z /\ Y = mul (snd P) Z /\ mul T Z = mul X Y.

Lemma erep_zero : erep ext_zero pzero.
Proof.
  exists f0, f1, f1, f0. split; [reflexivity|]. split; [intro H; apply (f_equal fv) in H; discriminate H|].
  cbn [fst snd Edwards.zero]. repeat split; ring.
Qed.
Lemma erep_affine : forall x y, erep (mkExt (fv x) (fv y) 1 (fmul (fv x) (fv y))) (mul im x, y).
Proof.
  intros x y. exists x, y, f1, (mul x y). split; [reflexivity|]. split; [intro H; apply (f_equal fv) in H; discriminate H|].
  cbn [fst snd]. repeat split; ring.
Qed.
Lemma erep_base : erep ed_base ebase.
Proof. exact (erep_affine (mkfe base_x eq_refl) (mkfe base_y eq_refl)). Qed.

Local Opaque fmul fadd fsub finv Edwards.smul.
Lemma erep_neg : forall e P, erep e P -> erep (ext_neg e) (popp P).
Proof.
  intros e P (X & Y & Z & T & -> & NZ & HX & HY & HT). exists (opp X), Y, Z, (opp T).
  split; [reflexivity|]. split; [exact NZ|]. cbn [fst snd Edwards.opp].
  split; [|split; [exact HY|]].
  - transitivity (opp (mul im X)); [ring|]. rewrite HX. ring.
  - transitivity (opp (mul T Z)); [ring|]. rewrite HT. ring.
Qed.

Lemma erep_coords : forall X Y Z T x y, Z <> f0 -> mul im X = mul x Z -> Y = mul y Z -> mul T Z = mul X Y ->
  X = mul (opp im) (mul x Z) /\ T = mul (opp im) (mul (mul x y) Z).
Proof.
  intros X Y Z T x y NZ HX HY HT. assert (EX : X = mul (opp im) (mul x Z)).
  { rewrite <- HX. transitivity (mul (opp (mul im im)) X); [rewrite im_im; ring|ring]. }
  split; [exact EX|]. replace T with (div (mul T Z) Z) by (field; exact NZ). rewrite HT, HY, EX. field. exact NZ.
Qed.

Lemma erep_add : forall e1 e2 P Q, on P -> on Q -> erep e1 P -> erep e2 Q -> erep (ext_add e1 e2) (padd P Q).
Proof.
  intros e1 e2 [x1 y1] [x2 y2] O1 O2 (X1 & Y1 & Z1 & T1 & -> & N1 & HX1 & HY1 & HT1) (X2 & Y2 & Z2 & T2 & -> & N2 & HX2 & HY2 & HT2).
  cbn [fst snd] in *.
  destruct (erep_coords _ _ _ _ _ _ N1 HX1 HY1 HT1) as [EX1 ET1]. destruct (erep_coords _ _ _ _ _ _ N2 HX2 HY2 HT2) as [EX2 ET2].
  pose proof (g_plus _ _ _ _ O1 O2) as NP. pose proof (g_minus _ _ _ _ O1 O2) as NM.
  set (t := mul (mul (mul x1 x2) y1) y2) in *.
  set (l := div (mul (mul (add f1 f1) Z1) Z2) cc).
  assert (NL : l <> f0).
  { unfold l, div. apply mul_nz; [apply mul_nz; [apply mul_nz; [exact two_nz|exact N1]|exact N2]|].
    intro H. apply (f_equal (mul cc)) in H. replace (mul cc (inv cc)) with f1 in H by (field; exact cc_nz).
    apply two_nz. replace f1 with (mul cc f0) by (symmetry; exact H). ring. }
  set (A := mul (sub Y1 X1) (sub Y2 X2)). set (B := mul (add Y1 X1) (add Y2 X2)).
  set (C := mul (mul (add T1 T1) dd) T2). set (D := mul (add Z1 Z1) Z2).
  assert (EF : sub D C = mul l (sub cc t)).
  { unfold D, C, l, t. rewrite ET1, ET2.
    replace (sub (mul (add Z1 Z1) Z2) _) with (sub (mul (add Z1 Z1) Z2) (mul (mul (mul im im) dd) (mul (mul (add Z1 Z1) Z2) (mul (mul x1 y1) (mul x2 y2))))) by ring.
    rewrite im_im. replace dd with (div (opp f1) cc) by (rewrite <- cc_dd; field; exact cc_nz). field. exact cc_nz. }
  assert (EG : add D C = mul l (add cc t)).
  { unfold D, C, l, t. rewrite ET1, ET2.
    replace (add (mul (add Z1 Z1) Z2) _) with (add (mul (add Z1 Z1) Z2) (mul (mul (mul im im) dd) (mul (mul (add Z1 Z1) Z2) (mul (mul x1 y1) (mul x2 y2))))) by ring.
    rewrite im_im. replace dd with (div (opp f1) cc) by (rewrite <- cc_dd; field; exact cc_nz). field. exact cc_nz. }
  assert (EE : mul im (sub B A) = mul (mul l cc) (add (mul x1 y2) (mul x2 y1))).
  { unfold A, B, l. rewrite EX1, EX2, HY1, HY2.
    transitivity (mul (opp (mul im im)) (mul (mul (mul (add f1 f1) Z1) Z2) (add (mul x1 y2) (mul x2 y1)))); [ring|].
    rewrite im_im. field. exact cc_nz. }
  assert (EH : add B A = mul (mul l cc) (sub (mul y1 y2) (mul x1 x2))).
  { unfold A, B, l. rewrite EX1, EX2, HY1, HY2.
    transitivity (mul (mul (mul (add f1 f1) Z1) Z2) (add (mul y1 y2) (mul (mul im im) (mul x1 x2)))); [ring|].
    rewrite im_im. field. exact cc_nz. }
  exists (mul (sub B A) (sub D C)), (mul (add D C) (add B A)), (mul (sub D C) (add D C)), (mul (sub B A) (add B A)).
  split; [reflexivity|]. clearbody A B C D.
  unfold Edwards.add. cbn [fst snd]. fold t. clearbody l t.
  split; [rewrite EF, EG; repeat apply mul_nz; assumption|]. split; [|split].
  - transitivity (mul (mul im (sub B A)) (sub D C)); [ring|]. rewrite EE, EF, EG. field. exact NP.
  - rewrite EH, EF, EG. field. exact NM.
  - ring.
Qed.

Lemma erep_mul_pos : forall n e P, on P -> erep e P -> erep (ext_mul_pos n e) (smul (Npos n) P).
Proof.
  induction n as [n IH|n IH|]; intros e P HP R; cbn [ext_mul_pos].
  - replace (Npos n~1) with (1 + (Npos n + Npos n)) by lia. rewrite !g_smul_add, g_smul_1 by exact HP.
    apply erep_add; [exact HP| |exact R|].
    + rewrite <- g_smul_add by exact HP. apply g_on_smul, HP.
    + apply erep_add; try (apply g_on_smul, HP); apply IH; assumption.
  - replace (Npos n~0) with (Npos n + Npos n) by lia. rewrite g_smul_add by exact HP.
    apply erep_add; try (apply g_on_smul, HP); apply IH; assumption.
  - rewrite g_smul_1. exact R.
Qed.
Lemma erep_mul : forall n e P, on P -> erep e P -> erep (ext_mul n e) (smul n P).
Proof. intros [|n] e P HP R; [exact erep_zero|apply erep_mul_pos; assumption]. Qed.

(** ** The order of the base point *)
Local Transparent fmul fadd fsub finv.
Lemma ed_order_mul : exists z, ext_mul ed_order ed_base = mkExt 0 z z 0.
Proof. eexists. vm_compute. reflexivity. Qed.
Theorem ebase_order : smul ed_order ebase = pzero.
Proof.
  destruct ed_order_mul as [z E]. pose proof (erep_mul ed_order _ _ on_ebase erep_base) as R.
  rewrite E in R. clear E. destruct R as (X & Y & Z & T & E & NZ & HX & HY & _).
  injection E as EX EY EZ ET. destruct (smul ed_order ebase) as [x y]. cbn [fst snd] in *.
  replace X with f0 in HX by (apply fe_eq; exact EX). replace Y with Z in HY by (apply fe_eq; congruence).
  unfold Edwards.zero. f_equal.
  - replace x with (div (mul x Z) Z) by (field; exact NZ). rewrite <- HX. field. exact NZ.
  - replace y with (div (mul y Z) Z) by (field; exact NZ). rewrite <- HY. field. exact NZ.
Qed.
Theorem base_order : smul ed_order basept = pzero.
Proof.
  pose proof ebase_order as E. rewrite ebase_opp in E.
  rewrite (Edwards.smul_opp fe _ _ _ _ _ _ _ _ fe_field fe_dec cc cc_nonsquare two_nz) in E by exact on_base.
  destruct (smul ed_order basept) as [x y]. unfold Edwards.opp, Edwards.zero in *. cbn [fst snd] in E.
  apply pair_equal_spec in E. destruct E as [H1 H2]. f_equal; [|exact H2]. replace x with (opp (opp x)) by ring. rewrite H1. ring.
Qed.
