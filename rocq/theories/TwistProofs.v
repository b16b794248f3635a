(** * TwistProofs: for the other half of the u-coordinates the ladder computes scalar multiples on the twist. *)
From Coq Require Import ZArith Lia ZifyBool ZifyNat ZifyN Ring Field.
From Verif Require Import Base SpecWire BaseFacts Noise SpecNoise Crypto X25519Facts NumberTheory Edwards Field25519 LadderProofs
  EdCurve KeyProofs EdProofs FiniteGroup Squares CurveOrder.
Open Scope N_scope.
Add Field FE : fe_field.
Local Opaque fmul fadd fsub finv fpow_pos Edwards.smul Edwards.add.

Notation ton := (Edwards.on fe f1 add mul sub tc).
Notation tadd := (Edwards.add fe add mul sub div tc).
Notation tsmul := (Edwards.smul fe f0 f1 add mul sub div tc).
Definition ta24 : fe := opp (add a24 f1).
Lemma ta24_tc : mul ta24 (sub tc f1) = f1.
Proof.
  transitivity (mul tc (add (mul a24 (sub cc f1)) (sub cc f1))).
  - unfold ta24. transitivity (sub (mul (add a24 f1) (mul cc tc)) (mul tc (add a24 f1))); [rewrite cc_tc; ring|ring].
  - rewrite a24_cc. transitivity (mul cc tc); [ring|exact cc_tc].
Qed.
Definition t_double := Edwards.double_rep fe _ _ _ _ _ _ _ _ fe_field fe_dec tc tc_nonsquare two_nz ta24 ta24_tc.
Definition t_diff := Edwards.diff_rep fe _ _ _ _ _ _ _ _ fe_field fe_dec tc tc_nonsquare two_nz.
Definition t_smul_add := Edwards.smul_add fe _ _ _ _ _ _ _ _ fe_field fe_dec tc tc_nonsquare two_nz.
Definition t_smul_mul := Edwards.smul_mul fe _ _ _ _ _ _ _ _ fe_field fe_dec tc tc_nonsquare two_nz.
Definition t_smul_1 := Edwards.smul_1 fe _ _ _ _ _ _ _ _ fe_field tc tc_nonsquare.
Definition t_on_smul := Edwards.on_smul fe _ _ _ _ _ _ _ _ fe_field fe_dec tc tc_nonsquare two_nz.
Definition t_assoc := Edwards.add_assoc fe _ _ _ _ _ _ _ _ fe_field fe_dec tc tc_nonsquare two_nz.
Definition t_opp_r := Edwards.add_opp_r fe _ _ _ _ _ _ _ _ fe_field fe_dec tc tc_nonsquare two_nz.
Definition t_on_opp := Edwards.on_opp fe _ _ _ _ _ _ _ _ fe_field tc.
Definition t_zero_r := Edwards.add_zero_r fe _ _ _ _ _ _ _ _ fe_field tc tc_nonsquare.
Definition t_tiny_of_y := Edwards.tiny_of_y fe _ _ _ _ _ _ _ _ fe_field fe_dec tc two_nz ta24 ta24_tc.
Definition t_tiny_smul := Edwards.tiny_smul fe _ _ _ _ _ _ _ _ fe_field tc tc_nonsquare.

(** The u-coordinate of the ladder is minus the one of the twist. *)
Notation trep X Z P := (rep (opp X) Z P).
Lemma rep_minus : forall X Z P, rep X (opp Z) P -> trep X Z P.
Proof.
  intros X Z P [E N]. split.
  - transitivity (opp (mul X (sub f1 (snd P)))); [ring|]. rewrite E. ring.
  - intros [A B]. apply N. split; [transitivity (opp (opp X)); [ring|rewrite A; ring]|rewrite B; ring].
Qed.
Lemma tdouble : forall P X Z, ton P -> trep X Z P ->
  let aa := mul (add X Z) (add X Z) in let bb := mul (sub X Z) (sub X Z) in
  trep (mul aa bb) (mul (sub aa bb) (add aa (mul a24 (sub aa bb)))) (tadd P P).
Proof.
  intros P X Z H R aa bb. pose proof (t_double P (opp X) Z H R) as D. apply rep_minus.
  match type of D with rep ?x ?z _ => replace (mul aa bb) with x by (unfold aa, bb; ring);
    replace (opp (mul (sub aa bb) (add aa (mul a24 (sub aa bb))))) with z by (unfold aa, bb, ta24; ring) end. exact D.
Qed.
Lemma tdiff : forall Q D X2 Z2 X3 Z3 u, ton Q -> ton D -> trep X2 Z2 Q -> trep X3 Z3 (tadd Q D) ->
  mul (opp u) (sub f1 (snd D)) = add f1 (snd D) -> u <> f0 ->
  let da := mul (sub X3 Z3) (add X2 Z2) in let cb := mul (add X3 Z3) (sub X2 Z2) in
  trep (mul (add da cb) (add da cb)) (mul u (mul (sub da cb) (sub da cb))) (tadd Q (tadd Q D)).
Proof.
  intros Q D X2 Z2 X3 Z3 u HQ HD R2 R3 HU NU da cb.
  assert (NU' : opp u <> f0) by (intro Z; apply NU; transitivity (opp (opp u)); [ring|rewrite Z; ring]).
  pose proof (t_diff Q D (opp X2) Z2 (opp X3) Z3 (opp u) HQ HD R2 R3 HU NU') as W. cbv zeta in W. apply rep_minus.
  match type of W with rep ?x ?z _ => replace (mul (add da cb) (add da cb)) with x by (unfold da, cb; ring);
    replace (opp (mul u (mul (sub da cb) (sub da cb)))) with z by (unfold da, cb; ring) end. exact W.
Qed.

(** ** One step *)
Lemma tsmul_succ_r : forall n P, ton P -> tsmul (n + 1) P = tadd (tsmul n P) P.
Proof. intros n P H. rewrite t_smul_add, t_smul_1 by exact H. reflexivity. Qed.
Lemma tback_one : forall n P, ton P -> tadd (tsmul (n + 1) P) (popp P) = tsmul n P.
Proof.
  intros n P H. rewrite tsmul_succ_r by exact H.
  rewrite t_assoc, t_opp_r by (try apply t_on_smul; try apply t_on_opp; exact H). apply t_zero_r.
Qed.

(** The state tstands for [n]P and [n+1]P, exchanged when the flag is set. *)
Definition tstands (n : N) (P : point) (st : N * N * N * N * bool) : Prop :=
  exists x2 z2 x3 z3, st = (fv x2, fv z2, fv x3, fv z3, snd st) /\
  if snd st then trep x3 z3 (tsmul n P) /\ trep x2 z2 (tsmul (n + 1) P)
  else trep x2 z2 (tsmul n P) /\ trep x3 z3 (tsmul (n + 1) P).

Lemma tstep_stands : forall P u k n t st, ton P -> mul (opp u) (sub f1 (snd P)) = add f1 (snd P) -> u <> f0 ->
  tstands n P st -> tstands (2 * n + (if N.testbit k t then 1 else 0)) P (ladder_step (fv u) k st t).
Proof.
  intros P u k n t st HP HU NU (x2 & z2 & x3 & z3 & E & R). rewrite E in *. cbn [snd] in R. set (sw := snd st) in *.
  clearbody sw. clear E. pose proof (t_on_smul n P HP) as ON. pose proof (t_on_smul (n + 1) P HP) as ON1.
  assert (G : exists a za b zb, (if N.testbit k t then trep b zb (tsmul n P) /\ trep a za (tsmul (n + 1) P)
     else trep a za (tsmul n P) /\ trep b zb (tsmul (n + 1) P)) /\
     ladder_step (fv u) k (fv x2, fv z2, fv x3, fv z3, sw) t = ladder_step (fv u) k (fv a, fv za, fv b, fv zb, N.testbit k t) t).
  { destruct sw, (N.testbit k t) eqn:B.
    - exists x2, z2, x3, z3. split; [exact R|reflexivity].
    - exists x3, z3, x2, z2. split; [exact R|]. unfold ladder_step. rewrite B. reflexivity.
    - exists x3, z3, x2, z2. split; [exact R|]. unfold ladder_step. rewrite B. reflexivity.
    - exists x2, z2, x3, z3. split; [exact R|reflexivity]. }
  destruct G as (a & za & b & zb & R' & ->). clear R x2 z2 x3 z3 sw.
  unfold tstands, ladder_step. rewrite xorb_nilpotent. cbn [snd].
  set (aa := mul (add a za) (add a za)). set (bb := mul (sub a za) (sub a za)).
  set (da := mul (sub b zb) (add a za)). set (cb := mul (add b zb) (sub a za)).
  exists (mul aa bb), (mul (sub aa bb) (add aa (mul a24 (sub aa bb)))),
         (mul (add da cb) (add da cb)), (mul u (mul (sub da cb) (sub da cb))).
  split; [reflexivity|].
  destruct (N.testbit k t).
  - destruct R' as [RB RA]. replace (2 * n + 1 + 1) with ((n + 1) + (n + 1)) by lia.
    replace (2 * n + 1) with ((n + 1) + n) by lia. split.
    + rewrite (t_smul_add (n + 1) n) by exact HP. rewrite <- (tback_one n P HP).
      apply (tdiff (tsmul (n + 1) P) (popp P) a za b zb u); try assumption.
      * apply t_on_opp. exact HP.
      * rewrite tback_one by exact HP. exact RB.
    + rewrite (t_smul_add (n + 1) (n + 1)) by exact HP. apply tdouble; assumption.
  - destruct R' as [RA RB]. replace (2 * n + 0 + 1) with (n + (n + 1)) by lia.
    replace (2 * n + 0) with (n + n) by lia. split.
    + rewrite t_smul_add by exact HP. apply tdouble; assumption.
    + rewrite (t_smul_add n (n + 1)) by exact HP. rewrite (tsmul_succ_r n P HP) in *. apply (tdiff (tsmul n P) P a za b zb u); assumption.
Qed.

Lemma tfold_stands : forall P u k m, ton P -> mul (opp u) (sub f1 (snd P)) = add f1 (snd P) -> u <> f0 ->
  forall st, tstands (N.shiftr k (N.of_nat m)) P st ->
  tstands k P (fold_left (ladder_step (fv u) k) (map N.of_nat (rev (seq 0 m))) st).
Proof.
  intros P u k m HP HU NU. induction m as [|m IH]; intros st ST; [exact ST|].
  rewrite seq_S, rev_app_distr. cbn [rev app map fold_left]. apply IH.
  pose proof (tstep_stands P u k _ (N.of_nat m) st HP HU NU ST) as Q.
  replace (N.shiftr k (N.of_nat m)) with
    (2 * N.shiftr k (N.of_nat (S m)) + (if N.testbit k (N.of_nat m) then 1 else 0)); [exact Q|].
  replace (N.of_nat (S m)) with (N.of_nat m + 1) by lia. rewrite <- N.shiftr_shiftr.
  replace (N.testbit k (N.of_nat m)) with (N.testbit (N.shiftr k (N.of_nat m)) 0) by (rewrite N.shiftr_spec by lia; f_equal; lia).
  set (q := N.shiftr k (N.of_nat m)). rewrite N.bit0_odd. change (N.shiftr q 1) with (N.div2 q).
  pose proof (N.div2_odd q) as D. destruct (N.odd q); cbn [N.b2n] in D; lia.
Qed.

Lemma tstands_init : forall P u, mul (opp u) (sub f1 (snd P)) = add f1 (snd P) -> tstands 0 P (1, 0, fv u, 1, false).
Proof.
  intros P u HU. exists f1, f0, u, f1. split; [reflexivity|]. cbn [snd]. rewrite Edwards.smul_0. rewrite N.add_0_l, t_smul_1.
  split; split.
  - cbn [snd Edwards.zero]. ring.
  - intros [H _]. apply f1_nz. transitivity (opp (opp f1)); [ring|]. rewrite H. ring.
  - rewrite HU. ring.
  - intros [_ H]. exact (f1_nz H).
Qed.
Theorem x25519_twist : forall sk pk P u, ton P -> u <> f0 -> mul (opp u) (sub f1 (snd P)) = add f1 (snd P) ->
  dec pk = fv u -> x25519 sk pk = to_le 32 (fv (opp (enc (tsmul (clamp (of_le (firstn 32 sk))) P)))).
Proof.
  intros sk pk P u HP NU HU D. unfold x25519. fold (dec pk). rewrite D. set (k := clamp _).
  pose proof (tfold_stands P u k 255 HP HU NU (1, 0, fv u, 1, false)) as S.
  destruct (fold_left _ _ _) as [[[[x2 z2] x3] z3] sw].
  destruct S as (a & za & b & zb & E & R).
  { replace (N.shiftr k (N.of_nat 255)) with 0; [apply tstands_init; exact HU|]. symmetry. apply clamp_small. }
  cbn [snd] in *. inversion E; subst. f_equal.
  assert (G : forall X Z Q, trep X Z Q -> opp (enc Q) = mul X (inv Z)).
  { intros X Z Q W. rewrite <- (rep_enc _ _ _ W). ring. }
  destruct sw; destruct R as [R1 R2]; rewrite (G _ _ _ R1); reflexivity.
Qed.
