(** * LadderProofs: the X25519 ladder computes scalar multiples on the curve; keys agree. *)
From Coq Require Import ZArith Lia ZifyBool ZifyNat ZifyN Ring Field.
From Verif Require Import Base SpecWire BaseFacts Noise SpecNoise Crypto X25519Facts NumberTheory Edwards Field25519.
Open Scope N_scope.
Add Field FE : fe_field.

(** ** edwards25519, scaled so that x^2 + y^2 = 1 + x^2 y^2 / c *)
Definition cc : fe := mkfe 28692721048178265397853269683490922171210976843790175684556505508326675974058 eq_refl.
Definition a24 : fe := mkfe 121665 eq_refl.
Definition bx : fe := mkfe 9771384041963202563870679428059935816164187996444183106833894008023910952347 eq_refl.
Definition by_ : fe := mkfe 46316835694926478169428394003475163141307993866256225615783033603165251855960 eq_refl.
Lemma cc_nonsquare : forall s, mul s s <> cc.
Proof. apply euler_nonsquare. vm_compute. reflexivity. Qed.
Lemma two_nz : add f1 f1 <> f0.
Proof. intro H. apply (f_equal fv) in H. discriminate H. Qed.
Lemma a24_cc : mul a24 (sub cc f1) = f1.
Proof. apply fe_eq. vm_compute. reflexivity. Qed.

Notation point := (fe * fe)%type.
Notation on := (Edwards.on fe f1 add mul sub cc).
Notation padd := (Edwards.add fe add mul sub div cc).
Notation pzero := (Edwards.zero fe f0 f1).
Notation popp := (Edwards.opp fe opp).
Notation smul := (Edwards.smul fe f0 f1 add mul sub div cc).
Notation rep := (Edwards.rep fe f0 f1 add mul sub).
Notation tiny := (Edwards.tiny fe f0 f1 mul).
Definition basept : point := (bx, by_).
Lemma on_base : on basept.
Proof. apply fe_eq. vm_compute. reflexivity. Qed.

(** The u-coordinate of a point; 0 for the neutral one. *)
Definition enc (P : point) : fe := mul (add f1 (snd P)) (inv (sub f1 (snd P))).

Definition g_double := Edwards.double_rep fe _ _ _ _ _ _ _ _ fe_field fe_dec cc cc_nonsquare two_nz a24 a24_cc.
Definition g_diff := Edwards.diff_rep fe _ _ _ _ _ _ _ _ fe_field fe_dec cc cc_nonsquare two_nz.
Definition g_smul_add := Edwards.smul_add fe _ _ _ _ _ _ _ _ fe_field fe_dec cc cc_nonsquare two_nz.
Definition g_smul_mul := Edwards.smul_mul fe _ _ _ _ _ _ _ _ fe_field fe_dec cc cc_nonsquare two_nz.
Definition g_smul_1 := Edwards.smul_1 fe _ _ _ _ _ _ _ _ fe_field cc cc_nonsquare.
Definition g_on_smul := Edwards.on_smul fe _ _ _ _ _ _ _ _ fe_field fe_dec cc cc_nonsquare two_nz.
Definition g_assoc := Edwards.add_assoc fe _ _ _ _ _ _ _ _ fe_field fe_dec cc cc_nonsquare two_nz.
Definition g_opp_r := Edwards.add_opp_r fe _ _ _ _ _ _ _ _ fe_field fe_dec cc cc_nonsquare two_nz.
Definition g_on_opp := Edwards.on_opp fe _ _ _ _ _ _ _ _ fe_field cc.
Definition g_comm := Edwards.add_comm fe _ _ _ _ _ _ _ _ fe_field cc.
Definition g_zero_l := Edwards.add_zero_l fe _ _ _ _ _ _ _ _ fe_field cc cc_nonsquare.
Definition g_zero_r := Edwards.add_zero_r fe _ _ _ _ _ _ _ _ fe_field cc cc_nonsquare.
Definition g_tiny_of_y := Edwards.tiny_of_y fe _ _ _ _ _ _ _ _ fe_field fe_dec cc two_nz a24 a24_cc.
Definition g_tiny_smul := Edwards.tiny_smul fe _ _ _ _ _ _ _ _ fe_field cc cc_nonsquare.
Definition g_mul_zero := Edwards.mul_zero fe _ _ _ _ _ _ _ _ fe_field fe_dec.
Definition g_sub_zero := Edwards.sub_zero fe _ _ _ _ _ _ _ _ fe_field.

(** Unification must not compute. *)
Local Opaque fmul fadd fsub finv Edwards.smul Edwards.add.

(** ** One step *)
Lemma smul_succ_r : forall n P, on P -> smul (n + 1) P = padd (smul n P) P.
Proof. intros n P H. rewrite g_smul_add, g_smul_1 by exact H. reflexivity. Qed.
Lemma back_one : forall n P, on P -> padd (smul (n + 1) P) (popp P) = smul n P.
Proof.
  intros n P H. rewrite smul_succ_r by exact H.
  rewrite g_assoc, g_opp_r by (try apply g_on_smul; try apply g_on_opp; exact H). apply g_zero_r.
Qed.

(** The state stands for [n]P and [n+1]P, exchanged when the flag is set. *)
Definition stands (n : N) (P : point) (st : N * N * N * N * bool) : Prop :=
  exists x2 z2 x3 z3, st = (fv x2, fv z2, fv x3, fv z3, snd st) /\
  if snd st then rep x3 z3 (smul n P) /\ rep x2 z2 (smul (n + 1) P)
  else rep x2 z2 (smul n P) /\ rep x3 z3 (smul (n + 1) P).

Lemma step_stands : forall P u k n t st, on P -> mul u (sub f1 (snd P)) = add f1 (snd P) -> u <> f0 ->
  stands n P st -> stands (2 * n + (if N.testbit k t then 1 else 0)) P (ladder_step (fv u) k st t).
Proof.
  intros P u k n t st HP HU NU (x2 & z2 & x3 & z3 & E & R). rewrite E in *. cbn [snd] in R. set (sw := snd st) in *.
  clearbody sw. clear E. pose proof (g_on_smul n P HP) as ON. pose proof (g_on_smul (n + 1) P HP) as ON1.
  assert (G : exists a za b zb, (if N.testbit k t then rep b zb (smul n P) /\ rep a za (smul (n + 1) P)
     else rep a za (smul n P) /\ rep b zb (smul (n + 1) P)) /\
     ladder_step (fv u) k (fv x2, fv z2, fv x3, fv z3, sw) t = ladder_step (fv u) k (fv a, fv za, fv b, fv zb, N.testbit k t) t).
  { destruct sw, (N.testbit k t) eqn:B.
    - exists x2, z2, x3, z3. split; [exact R|reflexivity].
    - exists x3, z3, x2, z2. split; [exact R|]. unfold ladder_step. rewrite B. reflexivity.
    - exists x3, z3, x2, z2. split; [exact R|]. unfold ladder_step. rewrite B. reflexivity.
    - exists x2, z2, x3, z3. split; [exact R|reflexivity]. }
  destruct G as (a & za & b & zb & R' & ->). clear R x2 z2 x3 z3 sw.
  unfold stands, ladder_step. rewrite xorb_nilpotent. cbn [snd].
  set (aa := mul (add a za) (add a za)). set (bb := mul (sub a za) (sub a za)).
  set (da := mul (sub b zb) (add a za)). set (cb := mul (add b zb) (sub a za)).
  exists (mul aa bb), (mul (sub aa bb) (add aa (mul a24 (sub aa bb)))),
         (mul (add da cb) (add da cb)), (mul u (mul (sub da cb) (sub da cb))).
  split; [reflexivity|].
  destruct (N.testbit k t).
  - destruct R' as [RB RA]. replace (2 * n + 1 + 1) with ((n + 1) + (n + 1)) by lia.
    replace (2 * n + 1) with ((n + 1) + n) by lia. split.
    + rewrite (g_smul_add (n + 1) n) by exact HP. rewrite <- (back_one n P HP).
      apply (g_diff (smul (n + 1) P) (popp P) a za b zb u); try assumption.
      * apply g_on_opp. exact HP.
      * rewrite back_one by exact HP. exact RB.
    + rewrite (g_smul_add (n + 1) (n + 1)) by exact HP. apply g_double; assumption.
  - destruct R' as [RA RB]. replace (2 * n + 0 + 1) with (n + (n + 1)) by lia.
    replace (2 * n + 0) with (n + n) by lia. split.
    + rewrite g_smul_add by exact HP. apply g_double; assumption.
    + rewrite (g_smul_add n (n + 1)) by exact HP. rewrite (smul_succ_r n P HP) in *. apply (g_diff (smul n P) P a za b zb u); assumption.
Qed.

Lemma fold_stands : forall P u k m, on P -> mul u (sub f1 (snd P)) = add f1 (snd P) -> u <> f0 ->
  forall st, stands (N.shiftr k (N.of_nat m)) P st ->
  stands k P (fold_left (ladder_step (fv u) k) (map N.of_nat (rev (seq 0 m))) st).
Proof.
  intros P u k m HP HU NU. induction m as [|m IH]; intros st ST; [exact ST|].
  rewrite seq_S, rev_app_distr. cbn [rev app map fold_left]. apply IH.
  pose proof (step_stands P u k _ (N.of_nat m) st HP HU NU ST) as Q.
  replace (N.shiftr k (N.of_nat m)) with
    (2 * N.shiftr k (N.of_nat (S m)) + (if N.testbit k (N.of_nat m) then 1 else 0)); [exact Q|].
  replace (N.of_nat (S m)) with (N.of_nat m + 1) by lia. rewrite <- N.shiftr_shiftr.
  replace (N.testbit k (N.of_nat m)) with (N.testbit (N.shiftr k (N.of_nat m)) 0) by (rewrite N.shiftr_spec by lia; f_equal; lia).
  set (q := N.shiftr k (N.of_nat m)). rewrite N.bit0_odd. change (N.shiftr q 1) with (N.div2 q).
  pose proof (N.div2_odd q) as D. destruct (N.odd q); cbn [N.b2n] in D; lia.
Qed.

Lemma rep_enc : forall X Z P, rep X Z P -> mul X (inv Z) = enc P.
Proof.
  intros X Z [x y] [E NZ]. unfold enc. cbn [snd] in *.
  destruct (fe_dec Z f0) as [->|ZN].
  - rewrite inv_f0. assert (Y : sub f1 y = f0).
    { assert (Q : mul X (sub f1 y) = f0) by (rewrite E; ring). destruct (g_mul_zero _ _ Q); [|assumption].
      exfalso. apply NZ. auto. }
    rewrite Y, inv_f0. ring.
  - assert (YN : sub f1 y <> f0).
    { intro Y. assert (Q : mul Z (add f1 y) = f0) by (rewrite <- E, Y; ring).
      destruct (g_mul_zero _ _ Q) as [|W]; [contradiction|].
      apply two_nz. transitivity (add (sub f1 y) (add f1 y)); [ring|]. rewrite Y, W. ring. }
    transitivity (div (mul X (sub f1 y)) (mul Z (sub f1 y))); [field; split; assumption|].
    rewrite E. field. split; assumption.
Qed.

Lemma stands_init : forall P u, mul u (sub f1 (snd P)) = add f1 (snd P) -> stands 0 P (1, 0, fv u, 1, false).
Proof.
  intros P u HU. exists f1, f0, u, f1. split; [reflexivity|]. cbn [snd]. rewrite Edwards.smul_0. rewrite N.add_0_l, g_smul_1.
  split; split.
  - cbn [snd Edwards.zero]. ring.
  - intros [H _]. apply (f_equal fv) in H. discriminate H.
  - rewrite HU. ring.
  - intros [_ H]. apply (f_equal fv) in H. discriminate H.
Qed.

Lemma clamp_small : forall k, N.shiftr (clamp k) 255 = 0.
Proof.
  intro k. apply N.bits_inj_0. intro i. rewrite N.shiftr_spec by lia. unfold clamp.
  rewrite N.lor_spec, N.ldiff_spec, N.land_spec, N.ones_spec_high, andb_false_r by lia.
  rewrite N.pow2_bits_eqb. cbn [andb orb]. apply N.eqb_neq. lia.
Qed.

Definition dec (bs : bytes) : N := redc (N.land (of_le (firstn 32 bs)) (N.ones 255)).
Theorem x25519_smul : forall sk pk P u, on P -> u <> f0 -> mul u (sub f1 (snd P)) = add f1 (snd P) ->
  dec pk = fv u -> x25519 sk pk = to_le 32 (fv (enc (smul (clamp (of_le (firstn 32 sk))) P))).
Proof.
  intros sk pk P u HP NU HU D. unfold x25519. fold (dec pk). rewrite D. set (k := clamp _).
  pose proof (fold_stands P u k 255 HP HU NU (1, 0, fv u, 1, false)) as S.
  destruct (fold_left _ _ _) as [[[[x2 z2] x3] z3] sw].
  destruct S as (a & za & b & zb & E & R).
  { replace (N.shiftr k (N.of_nat 255)) with 0; [apply stands_init; exact HU|]. symmetry. apply clamp_small. }
  cbn [snd] in *. inversion E; subst. f_equal.
  destruct sw; destruct R as [R1 R2]; rewrite <- (rep_enc _ _ _ R1) || rewrite <- (rep_enc _ _ _ R2); reflexivity.
Qed.

Lemma dec_enc : forall f, dec (to_le 32 (fv f)) = fv f.
Proof.
  intro f. pose proof (fe_lt f) as L. unfold dec. rewrite firstn_all2 by (rewrite length_to_le; lia).
  rewrite of_le_to_le by (change (256 ^ N.of_nat 32) with (2 ^ 256); unfold p25519 in L; lia).
  rewrite N.land_ones, N.mod_small by (unfold p25519 in L; lia).
  rewrite redc_mod by (unfold p25519 in L; lia). apply N.mod_small. exact L.
Qed.

Lemma base_enc : forall sk, x25519 sk base_point = to_le 32 (fv (enc (smul (clamp (of_le (firstn 32 sk))) basept))).
Proof.
  intro sk. apply (x25519_smul sk base_point basept (mkfe 9 eq_refl)).
  - exact on_base.
  - intro H. apply (f_equal fv) in H. discriminate H.
  - apply fe_eq. vm_compute. reflexivity.
  - vm_compute. reflexivity.
Qed.

Lemma enc_zero_tiny : forall P, on P -> enc P = f0 -> tiny P.
Proof.
  intros P H E. apply g_tiny_of_y; [exact H|]. unfold enc in E.
  destruct (fe_dec (sub f1 (snd P)) f0) as [Z|Z].
  - apply g_sub_zero in Z. rewrite <- Z. ring.
  - destruct (g_mul_zero _ _ E) as [W|W].
    + apply g_sub_zero. transitivity (mul (sub (snd P) f1) (add f1 (snd P))); [ring|]. rewrite W. ring.
    + exfalso. apply two_nz. assert (Q : mul (inv (sub f1 (snd P))) (sub f1 (snd P)) = f1) by (field; exact Z).
      rewrite W in Q. rewrite <- Q. ring.
Qed.
Lemma tiny_enc : forall P, tiny P -> enc P = f0.
Proof.
  intros P [_ Y]. unfold enc. assert (Q : mul (sub f1 (snd P)) (add f1 (snd P)) = f0).
  { transitivity (sub f1 (mul (snd P) (snd P))); [ring|]. rewrite Y. ring. }
  destruct (g_mul_zero _ _ Q) as [Z|Z]; rewrite Z; [rewrite inv_f0|]; ring.
Qed.

Lemma dh_value : forall a b, x25519 a (x25519 b base_point) =
  to_le 32 (fv (enc (smul (clamp (of_le (firstn 32 a))) (smul (clamp (of_le (firstn 32 b))) basept)))).
Proof.
  intros a b. rewrite (base_enc b). set (ka := clamp (of_le (firstn 32 a))). set (P := smul _ basept).
  assert (HP : on P) by (apply g_on_smul, on_base).
  destruct (fe_dec (enc P) f0) as [Z|Z].
  - rewrite Z. rewrite tiny_enc by (apply g_tiny_smul, enc_zero_tiny; assumption).
    apply x25519_order_two. left. vm_compute. reflexivity.
  - apply (x25519_smul a _ P (enc P)); [exact HP|exact Z| |apply dec_enc].
    unfold enc. assert (N : sub f1 (snd P) <> f0) by (intro N; apply Z; unfold enc; rewrite N, inv_f0; ring).
    field. exact N.
Qed.

Theorem x25519_agree : forall a b, x25519 a (x25519 b base_point) = x25519 b (x25519 a base_point).
Proof.
  intros a b. rewrite !dh_value. rewrite <- !g_smul_mul by exact on_base. rewrite N.mul_comm. reflexivity.
Qed.
