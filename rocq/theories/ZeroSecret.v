(** * ZeroSecret: exactly which public keys give an X25519 shared secret of zero. *)
From Coq Require Import ZArith Znumtheory List Lia ZifyBool ZifyNat ZifyN Ring Field.
From Verif Require Import Base SpecWire BaseFacts Noise SpecNoise Crypto CryptoFacts X25519Facts NumberTheory GroupOrder Edwards Field25519 LadderProofs
  EdCurve KeyProofs EdProofs FiniteGroup Squares CurveOrder TwistProofs SessionClaims.
Import ListNotations.
Open Scope N_scope.
Add Field FE : fe_field.
Local Opaque fmul fadd fsub finv fpow_pos Edwards.smul Edwards.add.

(** ** Scalars *)
Lemma clamp_value : forall k, exists m, clamp k = 8 * m /\ 0 < m < 2 ^ 252.
Proof.
  intro k. assert (B : clamp k < 2 ^ 255).
  { destruct (clamp k) as [|q] eqn:E; [reflexivity|]. rewrite <- E. apply N.log2_lt_pow2; [lia|].
    apply N.nle_gt. intro G. pose proof (clamp_small k) as S. rewrite N.shiftr_div_pow2 in S.
    apply N.div_small_iff in S; [|discriminate]. apply N.log2_lt_pow2 in S; lia. }
  assert (P : 0 < clamp k).
  { assert (N.testbit (clamp k) 254 = true) by (unfold clamp; rewrite N.lor_spec, N.pow2_bits_true, orb_true_r; reflexivity).
    destruct (clamp k); [discriminate|lia]. }
  assert (M : clamp k mod 2 ^ 3 = 0).
  { apply N.bits_inj_0. intro i. destruct (N.lt_ge_cases i 3) as [I|I]; [|apply N.mod_pow2_bits_high; exact I].
    rewrite N.mod_pow2_bits_low by exact I. unfold clamp. rewrite N.lor_spec, N.ldiff_spec, N.pow2_bits_eqb.
    change 7 with (N.ones 3). rewrite N.ones_spec_low by exact I. cbn [negb].
    rewrite andb_false_r. apply N.eqb_neq. lia. }
  change (2 ^ 3) with 8 in M. exists (clamp k / 8). split; [lia|]. lia.
Qed.
Lemma prime_inverse : forall l n, prime (Z.of_N l) -> 2 < l -> 0 < n < l -> exists u w, u * (4 * n) = 1 + w * l.
Proof.
  intros l n P B R. assert (C : rel_prime (4 * Z.of_N n) (Z.of_N l)).
  { apply rel_prime_sym, prime_rel_prime; [exact P|]. intro D. apply prime_mult in D; [|exact P]. destruct D as [D|D].
    - replace 4%Z with (2 * 2)%Z in D by reflexivity. apply prime_mult in D; [|exact P].
      destruct D as [D|D]; apply Z.divide_pos_le in D; lia.
    - apply Z.divide_pos_le in D; lia. }
  destruct (rel_prime_bezout _ _ C) as [a b E]. set (L := Z.of_N l) in *.
  set (x := (a mod L)%Z). assert (X : (0 <= x)%Z) by (apply Z.mod_pos_bound; unfold L; lia).
  assert (Q : (x * (4 * Z.of_N n) = 1 + (- b - a / L * (4 * Z.of_N n)) * L)%Z).
  { unfold x. rewrite Z.mod_eq by (unfold L; lia). lia. }
  set (w := (- b - a / L * (4 * Z.of_N n))%Z) in *. clearbody x w.
  assert (W : (0 <= w)%Z).
  { assert (0 <= 1 + w * L)%Z by (rewrite <- Q; lia). assert (2 < L)%Z by (unfold L; lia). nia. }
  exists (Z.to_N x), (Z.to_N w). unfold L in Q. lia.
Qed.

(** ** Points of small order, on any complete curve *)
Section Small.
Variable c : fe.
Hypothesis nonsquare : forall s, mul s s <> c.
Notation cadd := (Edwards.add fe add mul sub div c).
Lemma nz : c <> f0.
Proof. intro Z. apply (nonsquare f0). rewrite Z. ring. Qed.
Lemma double_y : forall x y, con c (x, y) -> mul (snd (cadd (x, y) (x, y))) (sub c (mul (mul x x) (mul y y))) = mul c (sub (mul y y) (mul x x)) /\
  sub c (mul (mul x x) (mul y y)) <> f0.
Proof.
  intros x y H. pose proof (Edwards.complete_minus fe _ _ _ _ _ _ _ _ fe_field fe_dec c nonsquare two_nz _ _ _ _ H H) as D.
  assert (E : sub c (mul (mul (mul x x) y) y) = sub c (mul (mul x x) (mul y y))) by ring. rewrite E in D. split; [|exact D].
  Local Transparent Edwards.add. unfold Edwards.add. cbn [fst snd]. Local Opaque Edwards.add. rewrite E. field. exact D.
Qed.
Lemma two_cancel : forall a, add a a = f0 -> a = f0.
Proof.
  intros a H. assert (Z : mul (add f1 f1) a = f0) by (rewrite <- H; ring). destruct (g_mul_zero _ _ Z) as [W|W]; [destruct (two_nz W)|exact W].
Qed.
(** y(2P) = 1 only for y(P) = 1 or -1; y(2P) = -1 only for y(P) = 0, or x(P) = 0 *)
Lemma half_one : forall P, con c P -> snd (cadd P P) = f1 -> mul (snd P) (snd P) = f1.
Proof.
  intros [x y] H E. destruct (double_y x y H) as [Q _]. rewrite E in Q. unfold Edwards.on in H. cbn [fst snd] in *.
  rewrite H in Q. apply g_sub_zero. apply two_cancel.
  assert (Z : mul c (add (sub (mul y y) f1) (sub (mul y y) f1)) = f0).
  { transitivity (sub (mul c (sub (mul y y) (mul x x))) (mul f1 (sub c (mul c (sub (add (mul x x) (mul y y)) f1))))); [ring|]. rewrite Q. ring. }
  destruct (g_mul_zero _ _ Z) as [W|W]; [destruct (nz W)|exact W].
Qed.
Lemma half_minus : forall P, con c P -> snd (cadd P P) = opp f1 -> mul (fst P) (fst P) = f1.
Proof.
  intros [x y] H E. destruct (double_y x y H) as [Q _]. rewrite E in Q. unfold Edwards.on in H. cbn [fst snd] in *.
  rewrite H in Q. apply g_sub_zero. apply two_cancel.
  assert (Z : mul c (add (sub (mul x x) f1) (sub (mul x x) f1)) = f0).
  { transitivity (sub (mul (opp f1) (sub c (mul c (sub (add (mul x x) (mul y y)) f1)))) (mul c (sub (mul y y) (mul x x)))); [ring|]. rewrite Q. ring. }
  destruct (g_mul_zero _ _ Z) as [W|W]; [destruct (nz W)|exact W].
Qed.
Lemma on_x_one : forall P, con c P -> mul (fst P) (fst P) = f1 -> c <> f1 -> snd P = f0.
Proof.
  intros [x y] H X N. unfold Edwards.on in H. cbn [fst snd] in *. rewrite X in H.
  assert (Z : mul (sub c f1) (mul y y) = f0).
  { transitivity (sub (mul c (sub (add f1 (mul y y)) f1)) (mul f1 (mul y y))); [ring|]. rewrite H. ring. }
  destruct (g_mul_zero _ _ Z) as [W|W]; [destruct (N (g_sub_zero _ _ W))|]. destruct (g_mul_zero _ _ W); assumption.
Qed.
Lemma half_tiny : forall P, con c P -> c <> f1 -> mul (snd (cadd P P)) (snd (cadd P P)) = f1 -> mul (snd P) (snd P) = f1 \/ snd P = f0.
Proof.
  intros P H N E. destruct (square_one _ E) as [E1|E1].
  - left. apply half_one; assumption.
  - right. apply on_x_one; [exact H| |exact N]. apply half_minus; assumption.
Qed.
Lemma half_zero : forall P, con c P -> snd (cadd P P) = f0 ->
  mul (sub (mul (snd P) (snd P)) c) (sub (mul (snd P) (snd P)) c) = mul c (sub c f1).
Proof.
  intros [x y] H E. destruct (double_y x y H) as [Q _]. rewrite E in Q. unfold Edwards.on in H. cbn [fst snd] in *.
  assert (X : mul x x = mul y y).
  { assert (Z : mul c (sub (mul y y) (mul x x)) = f0) by (rewrite <- Q; ring). destruct (g_mul_zero _ _ Z) as [W|W]; [destruct (nz W)|].
    symmetry. apply g_sub_zero. exact W. }
  rewrite X in H. transitivity (add (sub (mul (mul y y) (mul y y)) (mul c (add (mul y y) (mul y y)))) (mul c c)); [ring|]. rewrite H. ring.
Qed.
End Small.

Lemma cc_1 : cc <> f1.
Proof. intro H. apply (f_equal fv) in H. discriminate H. Qed.
Lemma tc_1 : tc <> f1.
Proof. intro H. apply cc_1. rewrite <- cc_tc, H. ring. Qed.

(** ** Every u-coordinate belongs to a point of the curve or of the twist *)
Lemma lift : forall u, u <> f0 ->
  (exists P, on P /\ mul u (sub f1 (snd P)) = add f1 (snd P)) \/
  (exists P, ton P /\ mul (opp u) (sub f1 (snd P)) = add f1 (snd P)).
Proof.
  intros u NU. destruct (fe_dec (add u f1) f0) as [M|M].
  { right. exists (f1, f0). split; [unfold Edwards.on; cbn [fst snd]; ring|]. cbn [snd].
    transitivity (sub f1 (add u f1)); [ring|]. rewrite M. ring. }
  set (y := div (sub u f1) (add u f1)).
  assert (Y : mul u (sub f1 y) = add f1 y) by (unfold y; field; exact M).
  destruct (fe_dec y f0) as [Y0|Y0].
  { left. exists (f1, f0). split; [unfold Edwards.on; cbn [fst snd]; ring|]. cbn [snd]. rewrite Y0 in Y. exact Y. }
  assert (G : (exists s, mul s s = xx tc (inv y)) \/ (exists s, mul s s = xx cc y)).
  { rewrite (xx_twist y Y0). destruct (fe_dec (xx tc (inv y)) f0) as [W|W].
    - left. exists f0. rewrite W. ring.
    - exact (square_class cc _ cc_nonsquare W). }
  destruct G as [[s S]|[s S]].
  - right. exists (s, inv y). split; [apply (con_xx tc s (inv y) tc_nonsquare); exact S|]. cbn [snd].
    assert (I : mul y (inv y) = f1) by (field; exact Y0).
    apply g_sub_zero. assert (Z : mul y (sub (mul (opp u) (sub f1 (inv y))) (add f1 (inv y))) = f0).
    { transitivity (sub (mul (opp u) (sub y (mul y (inv y)))) (add y (mul y (inv y)))); [ring|]. rewrite I.
      transitivity (sub (mul u (sub f1 y)) (add f1 y)); [ring|]. rewrite Y. ring. }
    destruct (g_mul_zero _ _ Z) as [W|W]; [contradiction|exact W].
  - left. exists (s, y). split; [apply (con_xx cc s y cc_nonsquare); exact S|exact Y].
Qed.

(** ** The curve *)
Lemma enc_zero_kills : forall k P, on P -> enc (smul (clamp k) P) = f0 -> smul 8 P = pzero.
Proof.
  intros k P HP E. apply enc_zero_tiny in E; [|apply g_on_smul, HP]. apply tiny_double in E. rewrite <- g_smul_add in E by exact HP.
  destruct (clamp_value k) as (m & K & M). rewrite K in E.
  destruct (prime_inverse l25519 m) as (u & w & Q); [exact prime_L|reflexivity|unfold l25519; lia|].
  pose proof (smul_multiple _ P (2 * u) HP E) as Z. replace (2 * u * (8 * m + 8 * m)) with (w * (8 * l25519) + 8) in Z by lia.
  rewrite g_smul_add, (smul_multiple _ P w HP (proj1 orders_kill P HP)), g_zero_l in Z by exact HP. exact Z.
Qed.
Local Transparent fmul fadd fsub finv fpow_pos.
Definition r8 : fe := mkfe 25007188491146876717490354524372689199886090369869420567562791847044031924967 eq_refl.
Lemma r8_square : mul cc (sub cc f1) = mul r8 r8.
Proof. apply fe_eq. vm_compute. reflexivity. Qed.
Lemma y8_square : mul y8 y8 = add cc r8.
Proof. apply fe_eq. vm_compute. reflexivity. Qed.
Lemma other_nonsquare : forall s, mul s s <> sub cc r8.
Proof. apply euler_nonsquare. vm_compute. reflexivity. Qed.
Definition ua : fe := mkfe order8_a eq_refl.
Definition ub : fe := mkfe order8_b eq_refl.
Lemma ua_y8 : mul ua (sub f1 y8) = add f1 y8.
Proof. apply fe_eq. vm_compute. reflexivity. Qed.
Lemma ub_y8 : mul ub (sub f1 (opp y8)) = add f1 (opp y8).
Proof. apply fe_eq. vm_compute. reflexivity. Qed.
Local Opaque fmul fadd fsub finv fpow_pos.
Lemma same_u : forall u v y, mul u (sub f1 y) = add f1 y -> mul v (sub f1 y) = add f1 y -> u = v.
Proof.
  intros u v y U V. apply g_sub_zero. assert (Z : mul (sub u v) (sub f1 y) = f0).
  { transitivity (sub (mul u (sub f1 y)) (mul v (sub f1 y))); [ring|]. rewrite U, V. ring. }
  destruct (g_mul_zero _ _ Z) as [W|W]; [exact W|]. exfalso. apply two_nz.
  rewrite W in U. transitivity (add (sub f1 y) (add f1 y)); [ring|]. rewrite W, <- U. ring.
Qed.
Lemma eight_torsion : forall P u, on P -> u <> f0 -> mul u (sub f1 (snd P)) = add f1 (snd P) -> smul 8 P = pzero ->
  u = f1 \/ u = ua \/ u = ub.
Proof.
  intros P u HP NU HU E. rewrite smul_8 in E by exact HP. cbv zeta in E.
  assert (H2 : on (padd P P)) by (apply g_on_add; assumption).
  assert (H4 : on (padd (padd P P) (padd P P))) by (apply g_on_add; assumption).
  set (P2 := padd P P) in *. set (P4 := padd P2 P2) in *.
  assert (Y4 : mul (snd P4) (snd P4) = f1) by (apply (half_one cc cc_nonsquare); [exact H4|rewrite E; reflexivity]).
  assert (T : mul (snd P) (snd P) = f1 \/ snd P = f0 -> u = f1).
  { intros [Y|Y].
    - exfalso. destruct (square_one _ Y) as [W|W]; rewrite W in HU.
      + apply two_nz. transitivity (mul u (sub f1 f1)); [symmetry; exact HU|ring].
      + apply NU. apply two_cancel. transitivity (mul u (sub f1 (opp f1))); [ring|]. rewrite HU. ring.
    - rewrite Y in HU. transitivity (mul u (sub f1 f0)); [ring|]. rewrite HU. ring. }
  destruct (half_tiny cc cc_nonsquare P2 H2 cc_1 Y4) as [Y2|Y2].
  - left. apply T. exact (half_tiny cc cc_nonsquare P HP cc_1 Y2).
  - right. pose proof (half_zero cc cc_nonsquare P HP Y2) as Z. rewrite r8_square in Z. set (y := snd P) in *.
    assert (W : mul (sub (sub (mul y y) cc) r8) (add (sub (mul y y) cc) r8) = f0).
    { transitivity (sub (mul (sub (mul y y) cc) (sub (mul y y) cc)) (mul r8 r8)); [ring|]. rewrite Z. ring. }
    destruct (g_mul_zero _ _ W) as [V|V].
    + assert (Q : mul (sub y y8) (add y y8) = f0).
      { transitivity (sub (mul y y) (mul y8 y8)); [ring|]. rewrite y8_square, <- V. ring. }
      destruct (g_mul_zero _ _ Q) as [R|R].
      * left. apply g_sub_zero in R. rewrite R in HU. exact (same_u _ _ _ HU ua_y8).
      * right. assert (R' : y = opp y8) by (apply g_sub_zero; rewrite <- R; ring). rewrite R' in HU. exact (same_u _ _ _ HU ub_y8).
    + exfalso. apply (other_nonsquare y). apply g_sub_zero. rewrite <- V. ring.
Qed.

(** ** The twist *)
Lemma t_multiple : forall n P m, ton P -> tsmul n P = pzero -> tsmul (m * n) P = pzero.
Proof.
  intros n P m HP H. rewrite t_smul_mul, H by exact HP. apply Edwards.smul_zero_point with (1 := fe_field). exact tc_nonsquare.
Qed.
Lemma t_tiny_double : forall P, tiny P -> tadd P P = pzero.
Proof.
  intros [x y] [X Y]. cbn [fst snd] in *. subst x. Local Transparent Edwards.add. unfold Edwards.add, Edwards.zero. cbn [fst snd].
  Local Opaque Edwards.add. pose proof tc_nz as NC. f_equal.
  - field. intro Z. apply NC. rewrite <- Z. ring.
  - rewrite Y. field. intro Z. apply NC. rewrite <- Z. ring.
Qed.
Lemma t_enc_zero_tiny : forall P, ton P -> enc P = f0 -> tiny P.
Proof.
  intros P H E. apply t_tiny_of_y; [exact H|]. unfold enc in E.
  destruct (fe_dec (sub f1 (snd P)) f0) as [Z|Z].
  - apply g_sub_zero in Z. rewrite <- Z. ring.
  - destruct (g_mul_zero _ _ E) as [W|W].
    + apply g_sub_zero. transitivity (mul (sub (snd P) f1) (add f1 (snd P))); [ring|]. rewrite W. ring.
    + destruct (inv_nz _ Z W).
Qed.
Lemma t_enc_zero_kills : forall k P, ton P -> enc (tsmul (clamp k) P) = f0 -> tsmul 4 P = pzero.
Proof.
  intros k P HP E. apply t_enc_zero_tiny in E; [|apply t_on_smul, HP]. apply t_tiny_double in E. rewrite <- t_smul_add in E by exact HP.
  destruct (clamp_value k) as (m & K & M). rewrite K in E.
  destruct (prime_inverse l2_25519 m) as (u & w & Q); [exact prime_L2|reflexivity|unfold l2_25519; lia|].
  pose proof (t_multiple _ P u HP E) as Z. replace (u * (8 * m + 8 * m)) with (w * (4 * l2_25519) + 4) in Z by lia.
  rewrite t_smul_add, (t_multiple _ P w HP (proj2 orders_kill P HP)) in Z by exact HP.
  rewrite (Edwards.add_zero_l fe _ _ _ _ _ _ _ _ fe_field tc tc_nonsquare) in Z. exact Z.
Qed.
Lemma t_four_torsion : forall P u, ton P -> u <> f0 -> mul (opp u) (sub f1 (snd P)) = add f1 (snd P) -> tsmul 4 P = pzero -> u = opp f1.
Proof.
  intros P u HP NU HU E. replace 4 with (1 + 1 + (1 + 1)) in E by lia. rewrite !t_smul_add, t_smul_1 in E by exact HP.
  assert (H2 : ton (tadd P P)) by exact (Edwards.on_add fe _ _ _ _ _ _ _ _ fe_field fe_dec tc tc_nonsquare two_nz P P HP HP).
  set (P2 := tadd P P) in *.
  assert (Y2 : mul (snd P2) (snd P2) = f1) by (apply (half_one tc tc_nonsquare); [exact H2|rewrite E; reflexivity]).
  destruct (half_tiny tc tc_nonsquare P HP tc_1 Y2) as [Y|Y].
  - exfalso. destruct (square_one _ Y) as [W|W]; rewrite W in HU.
    + apply two_nz. transitivity (mul (opp u) (sub f1 f1)); [symmetry; exact HU|ring].
    + apply NU. apply two_cancel. transitivity (opp (mul (opp u) (sub f1 (opp f1)))); [ring|]. rewrite HU. ring.
  - rewrite Y in HU. transitivity (opp (mul (opp u) (sub f1 f0))); [ring|]. rewrite HU. ring.
Qed.

(** ** The result *)
Lemma to_le_zero : forall f : fe, to_le 32 (fv f) = zeros32 <-> f = f0.
Proof.
  intro f. split; [|intros ->; reflexivity]. intro H. apply fe_eq. pose proof (fe_lt f) as B.
  rewrite <- (of_le_to_le 32 (fv f)) by (change (256 ^ N.of_nat 32) with (2 ^ 256); unfold p25519 in B; lia).
  rewrite H. reflexivity.
Qed.
Lemma opp_zero : forall f : fe, opp f = f0 <-> f = f0.
Proof. intro f. split; intro H; [transitivity (opp (opp f)); [ring|rewrite H; ring]|rewrite H; ring]. Qed.
Lemma low_u_fe : forall u : fe, In (fv u) low_u <-> u = f0 \/ u = f1 \/ u = ua \/ u = ub \/ u = opp f1.
Proof.
  intro u. unfold low_u. cbn [In]. assert (M : fv (opp f1) = SpecNoise.p25519 - 1) by (vm_compute; reflexivity).
  split.
  - intros [E|[E|[E|[E|[E|[]]]]]].
    + left. apply fe_eq. symmetry. exact E.
    + right. left. apply fe_eq. symmetry. exact E.
    + right. right. left. apply fe_eq. symmetry. exact E.
    + right. right. right. left. apply fe_eq. symmetry. exact E.
    + right. right. right. right. apply fe_eq. rewrite M. symmetry. exact E.
  - intros [->|[->|[->|[->| ->]]]].
    + left. reflexivity.
    + right. left. reflexivity.
    + right. right. left. reflexivity.
    + right. right. right. left. reflexivity.
    + right. right. right. right. left. symmetry. exact M.
Qed.
Lemma low_curve : forall sk pk u P, on P -> u <> f0 -> mul u (sub f1 (snd P)) = add f1 (snd P) -> dec pk = fv u ->
  In (fv u) low_u -> x25519 sk pk = zeros32.
Proof.
  intros sk pk u P HP NU HU D I. rewrite (x25519_smul sk pk P u HP NU HU D), to_le_zero. set (k := of_le _).
  assert (L : smul 8 P = pzero).
  { apply low_u_small; [exact HP|]. replace (enc P) with u; [exact I|].
    assert (N : sub f1 (snd P) <> f0).
    { intro Z. rewrite Z in HU. apply two_nz. transitivity (add (sub f1 (snd P)) (add f1 (snd P))); [ring|]. rewrite Z, <- HU. ring. }
    unfold enc. rewrite <- HU. field. exact N. }
  destruct (clamp_value k) as (m & -> & _). rewrite N.mul_comm, (smul_multiple 8 P m HP L). apply tiny_enc.
  split; [reflexivity|]. cbn [snd Edwards.zero]. ring.
Qed.
Lemma zero_if : forall sk pk u, dec pk = fv u -> In (fv u) low_u -> x25519 sk pk = zeros32.
Proof.
  intros sk pk u D I. pose proof I as E. apply low_u_fe in E. destruct E as [E|[E|[E|[E|E]]]]; rewrite E in D, I.
  - apply x25519_order_two. unfold dec in D. set (v := N.land _ _) in *.
    assert (B : v < 2 ^ 255) by (unfold v; rewrite N.land_ones; apply N.mod_lt; discriminate).
    rewrite redc_mod in D by lia. cbn [fv f0] in D. unfold p25519 in *. clearbody v. lia.
  - apply (low_curve sk pk f1 (f1, f0)); [unfold Edwards.on; cbn [fst snd]; ring|exact f1_nz|cbn [snd]; ring|exact D|exact I].
  - apply (low_curve sk pk ua point8); [exact on_point8| |exact ua_y8|exact D|exact I].
    intro Z. apply (f_equal fv) in Z. discriminate Z.
  - apply (low_curve sk pk ub (y8, opp y8)); [| |exact ub_y8|exact D|exact I].
    + pose proof on_point8 as O. unfold point8, Edwards.on in *. cbn [fst snd] in *.
      replace (mul (opp y8) (opp y8)) with (mul y8 y8) by ring. exact O.
    + intro Z. apply (f_equal fv) in Z. discriminate Z.
  - assert (O : ton (f1, f0)) by (unfold Edwards.on; cbn [fst snd]; ring).
    rewrite (x25519_twist sk pk (f1, f0) (opp f1) O), to_le_zero, opp_zero.
    + set (k := of_le _). destruct (clamp_value k) as (m & -> & _).
      assert (L : tsmul 4 (f1, f0) = pzero).
      { replace 4 with (1 + 1 + (1 + 1)) by lia. rewrite !t_smul_add, t_smul_1 by exact O.
        apply t_tiny_double. apply t_tiny_of_y.
        - exact (Edwards.on_add fe _ _ _ _ _ _ _ _ fe_field fe_dec tc tc_nonsquare two_nz _ _ O O).
        - destruct (double_y tc tc_nonsquare f1 f0 O) as [Q _]. set (y2 := snd _) in *. clearbody y2.
          assert (Y : y2 = opp f1).
          { apply g_sub_zero. assert (Z : mul tc (sub y2 (opp f1)) = f0).
            { transitivity (sub (mul y2 (sub tc (mul (mul f1 f1) (mul f0 f0)))) (mul tc (sub (mul f0 f0) (mul f1 f1)))); [ring|]. rewrite Q. ring. }
            destruct (g_mul_zero _ _ Z) as [W|W]; [destruct (tc_nz W)|exact W]. }
          rewrite Y. ring. }
      replace (8 * m) with (2 * m * 4) by lia. rewrite (t_multiple 4 _ (2 * m) O L). apply tiny_enc. split; [reflexivity|]. cbn [snd Edwards.zero]. ring.
    + rewrite opp_zero. exact f1_nz.
    + cbn [snd]. ring.
    + exact D.
Qed.
Theorem zero_exact : forall sk pk u, dec pk = fv u -> (x25519 sk pk = zeros32 <-> In (fv u) low_u).
Proof.
  intros sk pk u D. split; [|exact (zero_if sk pk u D)]. intro E. apply low_u_fe.
  destruct (fe_dec u f0) as [Z|NU]; [left; exact Z|right].
  destruct (lift u NU) as [(P & HP & HU)|(P & HP & HU)].
  - rewrite (x25519_smul sk pk P u HP NU HU D), to_le_zero in E.
    destruct (eight_torsion P u HP NU HU (enc_zero_kills _ P HP E)) as [H|[H|H]]; tauto.
  - rewrite (x25519_twist sk pk P u HP NU HU D), to_le_zero, opp_zero in E.
    right. right. right. exact (t_four_torsion P u HP NU HU (t_enc_zero_kills _ P HP E)).
Qed.

(** ** In terms of the encodings *)
Definition zero_encodings : list N := [0; 1; order8_a; order8_b; 2 ^ 255 - 20; 2 ^ 255 - 19; 2 ^ 255 - 18].
Theorem zero_secret_exact : forall sk pk, len pk = 32 ->
  (c_dh real_crypto sk pk = zeros32 <-> In (spec_val (wire pk) mod 2 ^ 255) zero_encodings).
Proof.
  intros sk pk L. cbn [c_dh real_crypto]. rewrite <- of_le_spec_val.
  assert (D : dec pk = (of_le pk mod 2 ^ 255) mod p).
  { unfold dec. rewrite firstn_all2 by (unfold len in L; lia). rewrite N.land_ones. apply redc_mod.
    assert (of_le pk mod 2 ^ 255 < 2 ^ 255) by (apply N.mod_lt; discriminate). lia. }
  assert (B : of_le pk mod 2 ^ 255 < 2 ^ 255) by (apply N.mod_lt; discriminate).
  set (v := of_le pk mod 2 ^ 255) in *. clearbody v.
  assert (BP : (v mod p <? p) = true) by (apply N.ltb_lt, N.mod_lt; discriminate).
  rewrite (zero_exact sk pk (mkfe (v mod p) BP) D). cbn [fv]. unfold low_u, zero_encodings. cbn [In].
  clear D BP. change SpecNoise.p25519 with p. assert (P : p = 2 ^ 255 - 19) by reflexivity.
  assert (A : order8_a < p) by reflexivity. assert (A' : order8_b < p) by reflexivity.
  assert (A2 : 19 < order8_a) by reflexivity. assert (A2' : 19 < order8_b) by reflexivity.
  set (a := order8_a) in *. set (b := order8_b) in *. clearbody a b.
  destruct (N.lt_ge_cases v p) as [V|V].
  - rewrite N.mod_small by exact V. lia.
  - replace (v mod p) with (v - p) by (apply (N.mod_unique _ _ 1); lia). lia.
Qed.
Lemma encoding_split : forall pk, len pk = 32 -> exists t, t < 2 /\ spec_val (wire pk) = spec_val (wire pk) mod 2 ^ 255 + t * 2 ^ 255.
Proof.
  intros pk L. rewrite <- of_le_spec_val. pose proof (of_le_bound pk) as B. rewrite L in B.
  change (256 ^ 32) with (2 * 2 ^ 255) in B. exists (of_le pk / 2 ^ 255).
  split; [apply N.div_lt_upper_bound; [discriminate|lia]|]. rewrite N.mul_comm, N.add_comm. apply N.div_mod. discriminate.
Qed.
(** Of the keys that pass the check, these seven give zero; five of the refused ones never do. *)
Definition top_set : list N := map (N.add (2 ^ 255)) zero_encodings.
Lemma zeros_listed : incl zero_encodings low_order_points.
Proof.
  intros v I. unfold zero_encodings in I. unfold low_order_points. cbn [In] in *.
  change (2 ^ 255 - 20) with (SpecNoise.p25519 - 1) in I. change (2 ^ 255 - 19) with SpecNoise.p25519 in I.
  change (2 ^ 255 - 18) with (SpecNoise.p25519 + 1) in I. tauto.
Qed.
Lemma zeros_small : Forall (fun v => v < 2 ^ 255) zero_encodings.
Proof. unfold zero_encodings. repeat constructor. Qed.
Lemma accepted_zero_exact : forall sk pk, len pk = 32 -> public_key_from_bytes pk = Ok pk ->
  (c_dh real_crypto sk pk = zeros32 <-> In (spec_val (wire pk)) top_set).
Proof.
  intros sk pk L A. rewrite (zero_secret_exact sk pk L). apply (from_bytes_exact pk L) in A. unfold low_order in A.
  destruct (encoding_split pk L) as (t & T & E).
  assert (B : spec_val (wire pk) mod 2 ^ 255 < 2 ^ 255) by (apply N.mod_lt; discriminate).
  set (v := spec_val (wire pk)) in *. set (r := v mod 2 ^ 255) in *. clearbody r v. subst v.
  unfold top_set. assert (C : t = 0 \/ t = 1) by lia. destruct C as [-> | ->].
  - rewrite N.mul_0_l, N.add_0_r in *. split; intro H; exfalso.
    + exact (A (zeros_listed r H)).
    + apply in_map_iff in H. destruct H as (x & <- & _). lia.
  - rewrite N.mul_1_l, (N.add_comm r) in *. split; intro H.
    + apply in_map. exact H.
    + apply in_map_iff in H. destruct H as (x & E & I). replace r with x by lia. exact I.
Qed.
Lemma top_listed_harmless : Forall (fun v => v < 2 ^ 255 \/ existsb (N.eqb (v - 2 ^ 255)) zero_encodings = false) low_order_points.
Proof. unfold low_order_points. repeat (constructor; [first [left; reflexivity|right; vm_compute; reflexivity]|]). constructor. Qed.
Lemma refused_zero_exact : forall sk pk, len pk = 32 -> public_key_from_bytes pk = Err InvalidPublicKeyError ->
  (c_dh real_crypto sk pk = zeros32 <-> In (spec_val (wire pk)) zero_encodings).
Proof.
  intros sk pk L A. rewrite (zero_secret_exact sk pk L). apply (from_bytes_exact pk L) in A. unfold low_order in A.
  destruct (encoding_split pk L) as (t & T & E).
  assert (B : spec_val (wire pk) mod 2 ^ 255 < 2 ^ 255) by (apply N.mod_lt; discriminate).
  set (v := spec_val (wire pk)) in *. set (r := v mod 2 ^ 255) in *. clearbody r v. subst v.
  assert (C : t = 0 \/ t = 1) by lia. destruct C as [-> | ->].
  - rewrite N.mul_0_l, N.add_0_r. reflexivity.
  - rewrite N.mul_1_l in *. split; intro H; exfalso.
    + pose proof (proj1 (Forall_forall _ _) top_listed_harmless _ A) as K. cbn beta in K. destruct K as [K|K]; [lia|].
      replace (r + 2 ^ 255 - 2 ^ 255) with r in K by lia.
      assert (K' : existsb (N.eqb r) zero_encodings = true) by (apply existsb_exists; exists r; split; [exact H|apply N.eqb_refl]).
      rewrite K in K'. discriminate K'.
    + pose proof (proj1 (Forall_forall _ _) zeros_small _ H) as K. cbn beta in K. lia.
Qed.
