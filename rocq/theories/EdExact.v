(** * EdExact: which keys and signatures Ed25519 accepts. *)
From Coq Require Import ZArith Lia ZifyBool ZifyNat ZifyN Ring Field.
From Verif Require Import Base SpecWire BaseFacts Noise SpecNoise Crypto CryptoFacts X25519Facts Edwards Field25519 LadderProofs Certs
  Ed25519 SpecEd EdCurve EdProofs.
Open Scope N_scope.
Add Field FE : fe_field.
Local Opaque fmul fadd fsub finv Edwards.smul Edwards.add sha512 fpow_pos.

(** ** From field elements to integers modulo p *)
Notation PZ := (Z.of_N p).
Definition zf (a : fe) : Z := Z.of_N (fv a).
Definition cong (a : fe) (z : Z) : Prop := zf a = (z mod PZ)%Z.
Lemma zf_range : forall a, (0 <= zf a < PZ)%Z.
Proof. intro a. pose proof (fe_lt a). unfold zf. lia. Qed.
Lemma cong_self : forall a, cong a (zf a).
Proof. intro a. unfold cong. symmetry. apply Z.mod_small, zf_range. Qed.
Lemma cong_mul : forall a b x y, cong a x -> cong b y -> cong (mul a b) (x * y).
Proof.
  intros a b x y A B. unfold cong, zf in *. rewrite fv_mul, N2Z.inj_mod, N2Z.inj_mul, A, B by discriminate.
  symmetry. apply Z.mul_mod. discriminate.
Qed.
Lemma cong_add : forall a b x y, cong a x -> cong b y -> cong (add a b) (x + y).
Proof.
  intros a b x y A B. unfold cong, zf in *. rewrite fv_add, N2Z.inj_mod, N2Z.inj_add, A, B by discriminate.
  symmetry. apply Z.add_mod. discriminate.
Qed.
Lemma cong_sub : forall a b x y, cong a x -> cong b y -> cong (sub a b) (x - y).
Proof.
  intros a b x y A B. pose proof (fe_lt b) as LB. unfold cong, zf in *. rewrite fv_sub, N2Z.inj_mod by discriminate.
  rewrite N2Z.inj_sub, N2Z.inj_add, A, B by lia. rewrite (Zminus_mod x y).
  replace (x mod PZ + PZ - y mod PZ)%Z with (x mod PZ - y mod PZ + 1 * PZ)%Z by lia. apply Z.mod_add. discriminate.
Qed.
Lemma cong_zero : forall a z, cong a z -> (a = f0 <-> (z mod PZ = 0)%Z).
Proof.
  intros a z H. unfold cong, zf in H. split.
  - intros ->. rewrite <- H. reflexivity.
  - intro Z. apply fe_eq. change (fv f0) with 0. lia.
Qed.

(** ** The curve equation *)
Definition a66 : fe := mkfe 121666 eq_refl.
Definition a65 : fe := mkfe 121665 eq_refl.
Lemma a66_dd : mul a66 dd = opp a65.
Proof. apply fe_eq. Local Transparent fmul fsub fadd. vm_compute. reflexivity. Local Opaque fmul fsub fadd. Qed.
Lemma a66_nz : a66 <> f0.
Proof. intro H. apply (f_equal fv) in H. discriminate H. Qed.
Definition on_xy (x y : fe) : Prop := mul (add (mul dd (mul y y)) f1) (mul x x) = sub (mul y y) f1.
Lemma on_xy_point : forall x y, on_xy x y <-> ed_point (zf x) (zf y).
Proof.
  intros x y.
  set (e := add (mul a66 (sub (sub (mul y y) (mul x x)) f1)) (mul a65 (mul (mul x x) (mul y y)))).
  assert (C : cong e (121666 * (zf y * zf y - zf x * zf x - 1) + 121665 * (zf x * zf x * (zf y * zf y)))).
  { unfold e. apply cong_add; [|apply cong_mul; [reflexivity|repeat apply cong_mul; apply cong_self]].
    apply cong_mul; [reflexivity|]. apply cong_sub; [|reflexivity].
    apply cong_sub; apply cong_mul; apply cong_self. }
  apply cong_zero in C.
  assert (D : on_xy x y <-> e = f0).
  { unfold on_xy. assert (K : e = mul a66 (sub (sub (mul y y) f1) (mul (add (mul dd (mul y y)) f1) (mul x x)))).
    { unfold e. transitivity (sub (mul a66 (sub (sub (mul y y) (mul x x)) f1)) (mul (mul a66 dd) (mul (mul x x) (mul y y)))); [|ring].
      rewrite a66_dd. ring. }
    split.
    - intro H. rewrite K, H. ring.
    - intro H. rewrite K in H. destruct (g_mul_zero _ _ H) as [Z|Z]; [contradiction (a66_nz Z)|]. symmetry. apply g_sub_zero, Z. }
  rewrite D, C. unfold ed_point. cbv zeta. pose proof (zf_range x). pose proof (zf_range y). tauto.
Qed.
Lemma on_of_xy : forall x y, on_xy x y -> on (mul im x, y).
Proof.
  intros x y H. unfold on_xy, Edwards.on in *. cbn [fst snd].
  replace (mul (mul im x) (mul im x)) with (mul (mul im im) (mul x x)) by ring. rewrite im_im.
  replace dd with (div (opp f1) cc) in H by (rewrite <- cc_dd; field; exact cc_nz).
  assert (K : mul cc (sub (mul y y) f1) = mul cc (mul (add (mul (div (opp f1) cc) (mul y y)) f1) (mul x x))) by (rewrite H; reflexivity).
  replace (mul cc (mul (add (mul (div (opp f1) cc) (mul y y)) f1) (mul x x))) with (sub (mul cc (mul x x)) (mul (mul x x) (mul y y))) in K
    by (field; exact cc_nz).
  transitivity (sub (sub (mul cc (mul x x)) (mul (mul x x) (mul y y))) (mul cc (mul x x))); [ring|]. rewrite <- K. ring.
Qed.
Lemma xy_of_on : forall P, on P -> on_xy (ed_x P) (snd P).
Proof. intros P H. exact (on_ed P H). Qed.

(** ** Reading a key *)
Lemma root_sound : forall u v r, root u v = Some r -> exists x, r = fv x /\ mul v (mul x x) = u.
Proof.
  intros u v r. rewrite root_fe. set (c := candidate u v).
  destruct (fe_dec (mul v (mul c c)) u) as [E|_]; [intro H; injection H as <-; exists c; split; [reflexivity|exact E]|].
  destruct (fe_dec (mul v (mul c c)) (opp u)) as [E|_]; [|discriminate].
  intro H. exists (mul c im). split; [congruence|].
  transitivity (mul (mul v (mul c c)) (mul im im)); [ring|]. rewrite E, im_im. ring.
Qed.
Definition reads (b : bytes) (x y : fe) : Prop :=
  on_xy x y /\ redc (N.land (of_le b) (N.ones 255)) = fv y /\ (x = f0 \/ N.odd (fv x) = N.testbit (of_le b) 255).
Lemma y_of : forall b, exists y : fe, redc (N.land (of_le b) (N.ones 255)) = fv y.
Proof.
  intro b. assert (B : redc (N.land (of_le b) (N.ones 255)) < p).
  { rewrite N.land_ones. assert (of_le b mod 2 ^ 255 < 2 ^ 255) by (apply N.mod_lt; discriminate).
    rewrite redc_mod by (unfold p25519; lia). apply N.mod_lt. discriminate. }
  exists (mkfe _ (proj2 (N.ltb_lt _ _) B)). reflexivity.
Qed.
Lemma decompress_sound : forall b e, decompress b = Some e -> exists x y, reads b x y /\ e = mkExt (fv x) (fv y) 1 (fmul (fv x) (fv y)).
Proof.
  intros b e H. destruct (y_of b) as [y Y]. rewrite (decompress_fields b y Y) in H.
  destruct (root _ _) as [r|] eqn:R; [|discriminate H]. destruct (root_sound _ _ _ R) as (x & -> & E). cbv zeta in H.
  destruct (Bool.eqb (N.odd (fv x)) (N.testbit (of_le b) 255)) eqn:S.
  - exists x, y. split; [|congruence]. split; [exact E|]. split; [exact Y|]. right. apply Bool.eqb_prop, S.
  - exists (opp x), y. split; [|rewrite <- (f_equal (fun o => match o with Some e => e | None => e end) H); reflexivity].
    split; [unfold on_xy; rewrite <- E; ring|]. split; [exact Y|].
    destruct (fe_dec x f0) as [->|NX]; [left; ring|right]. rewrite opp_odd by exact NX.
    destruct (N.odd (fv x)), (N.testbit (of_le b) 255); cbn in S |- *; congruence.
Qed.
Lemma decompress_complete : forall b x y, reads b x y -> decompress b = Some (mkExt (fv x) (fv y) 1 (fmul (fv x) (fv y))).
Proof.
  intros b x y (E & Y & S). rewrite (decompress_fields b y Y).
  destruct (root_ok _ _ x (v_nz y) E) as (r & -> & R). cbv zeta.
  replace (if Bool.eqb (N.odd (fv r)) (N.testbit (of_le b) 255) then fv r else fsub 0 (fv r)) with (fv x); [reflexivity|].
  destruct (fe_dec x f0) as [Z|NZ].
  - assert (r = f0) by (rewrite Z in R; destruct R as [-> | ->]; [reflexivity|ring]). subst x r.
    destruct (Bool.eqb _ _); [reflexivity|]. change (fsub 0 (fv f0)) with (fv (sub f0 f0)). f_equal. ring.
  - destruct S as [S|S]; [contradiction|]. rewrite <- S. destruct R as [-> | ->].
    + rewrite Bool.eqb_reflx. reflexivity.
    + rewrite opp_odd by exact NZ. destruct (N.odd (fv x)); cbn [Bool.eqb negb].
      all: change (fsub 0 (fv (opp x))) with (fv (opp (opp x))); f_equal; ring.
Qed.
Lemma reads_unique : forall b x1 y1 x2 y2, reads b x1 y1 -> reads b x2 y2 -> x1 = x2 /\ y1 = y2.
Proof.
  intros b x1 y1 x2 y2 R1 R2. apply decompress_complete in R1. apply decompress_complete in R2.
  rewrite R1 in R2. injection R2 as E1 E2 _. split; apply fe_eq; assumption.
Qed.

Lemma reads_spec : forall b x y, reads b x y <-> ed_reads b (zf x) (zf y).
Proof.
  intros b x y. unfold reads, ed_reads. cbv zeta. rewrite on_xy_point, <- of_le_spec_val.
  assert (A : redc (N.land (of_le b) (N.ones 255)) = fv y <-> zf y = ((Z.of_N (of_le b) mod 2 ^ 255) mod PZ)%Z).
  { rewrite N.land_ones. assert (of_le b mod 2 ^ 255 < 2 ^ 255) by (apply N.mod_lt; discriminate).
    rewrite redc_mod by (unfold p25519; lia). unfold zf.
    change (2 ^ 255)%Z with (Z.of_N (2 ^ 255)). rewrite <- !N2Z.inj_mod by discriminate. split; [intros <-; reflexivity|].
    intro E. apply N2Z.inj. symmetry. exact E. }
  assert (B : x = f0 <-> zf x = 0%Z).
  { unfold zf. split; [intros ->; reflexivity|]. intro Z. apply fe_eq. change (fv f0) with 0. lia. }
  assert (D : N.odd (fv x) = N.testbit (of_le b) 255 <-> Z.odd (zf x) = Z.odd (Z.of_N (of_le b) / 2 ^ 255)).
  { rewrite N.testbit_odd, N.shiftr_div_pow2. change (2 ^ 255)%Z with (Z.of_N (2 ^ 255)). rewrite <- N2Z.inj_div.
    assert (O : forall n, Z.odd (Z.of_N n) = N.odd n) by (intros [|[]]; reflexivity). unfold zf. rewrite !O. tauto. }
  rewrite A, B, D. tauto.
Qed.
Theorem valid_exact : forall pk, ed25519_valid pk = true <-> len pk = 32 /\ exists x y, ed_reads pk x y.
Proof.
  intro pk. unfold ed25519_valid. rewrite andb_true_iff, N.eqb_eq. split; intros [L H]; split; try exact L.
  - destruct (decompress pk) as [e|] eqn:D; [|discriminate H]. destruct (decompress_sound _ _ D) as (x & y & R & _).
    exists (zf x), (zf y). apply reads_spec, R.
  - destruct H as (x & y & R). assert (P := R). destruct P as ((X & Y & _) & _).
    assert (FX : exists a, zf a = x).
    { assert (B : (Z.to_N x <? p) = true) by (unfold SpecNoise.p25519, p25519 in *; lia). exists (mkfe (Z.to_N x) B). unfold zf. cbn [fv]. lia. }
    assert (FY : exists a, zf a = y).
    { assert (B : (Z.to_N y <? p) = true) by (unfold SpecNoise.p25519, p25519 in *; lia). exists (mkfe (Z.to_N y) B). unfold zf. cbn [fv]. lia. }
    destruct FX as [a <-], FY as [b <-]. apply reads_spec in R. rewrite (decompress_complete _ _ _ R). reflexivity.
Qed.

(** ** Verification *)
Theorem verify_exact : forall pk m sig, ed25519_verify pk m sig = true <->
  exists A, on A /\ ed_reads pk (zf (ed_x A)) (zf (snd A)) /\ of_le (skipn 32 sig) < ed_order /\
    firstn 32 sig = encp (padd (smul (of_le (skipn 32 sig)) ebase)
      (popp (smul (of_le (sha512 (firstn 32 sig ++ pk ++ m)) mod ed_order) A))).
Proof.
  intros pk m sig. unfold ed25519_verify. set (s := of_le (skipn 32 sig)). set (rb := firstn 32 sig).
  fold (hash_mod (rb ++ pk ++ m)). set (k := hash_mod _).
  assert (G : forall x y, reads pk x y -> let A := (mul im x, y) in on A /\ ed_x A = x /\
    compress (ext_add (ext_mul s ed_base) (ext_neg (ext_mul k (mkExt (fv x) (fv y) 1 (fmul (fv x) (fv y))))))
    = encp (padd (smul s ebase) (popp (smul k A)))).
  { intros x y R A. assert (OA : on A) by (apply on_of_xy; exact (proj1 R)). split; [exact OA|]. split.
    - unfold ed_x, A. cbn [fst]. transitivity (mul (opp (mul im im)) x); [ring|]. rewrite im_im. ring.
    - apply compress_rep. apply erep_add; [exact (g_on_smul s ebase on_ebase)|exact (g_on_opp _ (g_on_smul k A OA))| |].
      + apply erep_mul; [exact on_ebase|exact erep_base].
      + apply erep_neg, erep_mul; [exact OA|apply erep_affine]. }
  split.
  - destruct (decompress pk) as [e|] eqn:D; [|discriminate]. destruct (decompress_sound _ _ D) as (x & y & R & ->).
    intro H. apply andb_true_iff in H. destruct H as [SL H]. apply N.ltb_lt in SL. apply bytes_eqb_iff in H.
    destruct (G x y R) as (OA & EX & CE). exists (mul im x, y). split; [exact OA|]. rewrite EX. cbn [snd].
    split; [apply reads_spec, R|]. split; [exact SL|]. rewrite <- CE. symmetry. exact H.
  - intros (A & OA & R & SL & H). apply reads_spec in R. rewrite (decompress_complete _ _ _ R).
    destruct (G _ _ R) as (_ & _ & CE). apply andb_true_iff. split; [apply N.ltb_lt, SL|]. apply bytes_eqb_iff. rewrite CE, H.
    f_equal. f_equal. f_equal. f_equal. destruct A as [x y]. unfold ed_x. cbn [fst snd]. f_equal.
    transitivity (mul (opp (mul im im)) x); [ring|]. rewrite im_im. ring.
Qed.
