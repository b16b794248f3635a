(** * EdProofs: Ed25519 signatures made with a key pair verify under its public key. *)
From Coq Require Import ZArith Lia ZifyBool ZifyNat ZifyN Ring Field.
From Verif Require Import Base SpecWire BaseFacts Noise Crypto CryptoFacts X25519Facts Edwards Field25519 LadderProofs Certs SpecCerts
  Ed25519 EdCurve.
Open Scope N_scope.
Add Field FE : fe_field.
Local Opaque fmul fadd fsub finv Edwards.smul Edwards.add sha512.

(** ** Encoding of points *)
Definition ed_x (P : point) : fe := mul (opp im) (fst P).
Definition encp (P : point) : bytes := to_le 32 (fv (snd P) + (if N.odd (fv (ed_x P)) then 2 ^ 255 else 0)).
Lemma compress_rep : forall e P, erep e P -> compress e = encp P.
Proof.
  intros e [x y] (X & Y & Z & T & -> & NZ & HX & HY & HT). cbn [fst snd] in *.
  destruct (erep_coords _ _ _ _ _ _ NZ HX HY HT) as [EX _].
  unfold compress, encp, ed_x. cbn [eX eY eZ fst snd].
  change (fmul (fv X) (finv (fv Z))) with (fv (div X Z)). change (fmul (fv Y) (finv (fv Z))) with (fv (div Y Z)).
  replace (div X Z) with (mul (opp im) x) by (rewrite EX; field; exact NZ).
  replace (div Y Z) with y by (rewrite HY; field; exact NZ). reflexivity.
Qed.

(** ** Square roots *)
Lemma fpow_O : forall a e, fpow_pos a e~0 = fmul (fpow_pos a e) (fpow_pos a e).
Proof. reflexivity. Qed.
Lemma fpow_I : forall a e, fpow_pos a e~1 = fmul a (fmul (fpow_pos a e) (fpow_pos a e)).
Proof. reflexivity. Qed.
Local Opaque fpow_pos.
Lemma square_one : forall a, mul a a = f1 -> a = f1 \/ a = opp f1.
Proof.
  intros a H. assert (Z : mul (sub a f1) (add a f1) = f0) by (transitivity (sub (mul a a) f1); [ring|rewrite H; ring]).
  destruct (g_mul_zero _ _ Z) as [E|E].
  - left. apply g_sub_zero, E.
  - right. apply g_sub_zero. rewrite <- E. ring.
Qed.
Lemma quarter : forall s : fe, s <> f0 ->
  exists q, fv q = fpow_pos (fv s) 14474011154664524427946373126085988481658748083205070504932198000989141204987 /\
            (mul q q = f1 \/ mul q q = opp f1).
Proof.
  intros s NS. assert (L := fe_lt s). assert (P : 0 < fv s).
  { destruct (N.eq_0_gt_0_cases (fv s)) as [Z|Z]; [|exact Z]. exfalso. apply NS, fe_eq, Z. }
  destruct (fpow_pos_spec 14474011154664524427946373126085988481658748083205070504932198000989141204987 (fv s) L) as [B _].
  exists (mkfe _ (proj2 (N.ltb_lt _ _) B)). split; [reflexivity|]. set (q := mkfe _ _).
  apply square_one. apply fe_eq. change (fv f1) with 1. rewrite <- (fermat_p (fv s)) by lia.
  change 57896044618658097711785492504343953926634992332820282019728792003956564819948%positive
    with (14474011154664524427946373126085988481658748083205070504932198000989141204987~0~0)%positive.
  rewrite !fpow_O. reflexivity.
Qed.
Lemma opp_odd : forall x : fe, x <> f0 -> N.odd (fv (opp x)) = negb (N.odd (fv x)).
Proof.
  intros x NX. assert (L := fe_lt x). assert (P : 0 < fv x).
  { destruct (N.eq_0_gt_0_cases (fv x)) as [Z|Z]; [|exact Z]. exfalso. apply NX, fe_eq, Z. }
  unfold opp. rewrite fv_sub. change (fv f0) with 0. rewrite N.add_0_l, N.mod_small by lia.
  replace (N.odd (p - fv x)) with (xorb (N.odd p) (N.odd (fv x))); [reflexivity|].
  replace (N.odd p) with (N.odd (fv x + (p - fv x))) by (f_equal; lia). rewrite N.odd_add.
  destruct (N.odd (fv x)), (N.odd (p - fv x)); reflexivity.
Qed.
Lemma opp_nz : forall a, a <> f0 -> opp a <> a.
Proof.
  intros a NA H. apply (mul_nz _ _ two_nz NA). transitivity (sub a (opp a)); [ring|]. rewrite H. ring.
Qed.

(** The root chosen by [decompress] is the x coordinate up to sign. *)
Definition root (u v : fe) : option N :=
  let v3 := fmul (fv v) (fmul (fv v) (fv v)) in
  let v7 := fmul (fv v) (fmul v3 v3) in
  let r := fmul (fmul (fv u) v3) (fpow_pos (fmul (fv u) v7) 7237005577332262213973186563042994240829374041602535252466099000494570602493) in
  let c := fmul (fv v) (fmul r r) in
  if c =? fv u then Some r else if c =? fsub 0 (fv u) then Some (fmul r sqrt_m1) else None.
Lemma fv_if : forall a b : fe, (fv a =? fv b) = if fe_dec a b then true else false.
Proof.
  intros a b. destruct (fe_dec a b) as [->|N]; [apply N.eqb_refl|]. apply N.eqb_neq. intro H. apply N, fe_eq, H.
Qed.
Lemma fpw_ok : forall (a : fe) e, (fpow_pos (fv a) e <? p) = true.
Proof. intros a e. apply N.ltb_lt. destruct (fpow_pos_spec e (fv a) (fe_lt a)) as [W _]. exact W. Qed.
Definition fpw (a : fe) (e : positive) : fe := mkfe (fpow_pos (fv a) e) (fpw_ok a e).
Definition cube (v : fe) : fe := mul v (mul v v).
Definition candidate (u v : fe) : fe := mul (mul u (cube v)) (fpw (mul u (mul v (mul (cube v) (cube v)))) 7237005577332262213973186563042994240829374041602535252466099000494570602493).
Lemma root_fe : forall u v, root u v =
  if fe_dec (mul v (mul (candidate u v) (candidate u v))) u then Some (fv (candidate u v))
  else if fe_dec (mul v (mul (candidate u v) (candidate u v))) (opp u) then Some (fv (mul (candidate u v) im)) else None.
Proof.
  intros u v. transitivity (if fv (mul v (mul (candidate u v) (candidate u v))) =? fv u then Some (fv (candidate u v))
    else if fv (mul v (mul (candidate u v) (candidate u v))) =? fv (opp u) then Some (fv (mul (candidate u v) im)) else None); [reflexivity|].
  rewrite !fv_if. destruct (fe_dec _ u); [reflexivity|]. destruct (fe_dec _ (opp u)); reflexivity.
Qed.
Lemma candidate_ok : forall u v x, v <> f0 -> x <> f0 -> mul v (mul x x) = u ->
  exists q, candidate u v = mul x q /\ (mul q q = f1 \/ mul q q = opp f1).
Proof.
  intros u v x NV NX HU. set (s := mul x (mul (mul v v) (mul v v))).
  assert (NS : s <> f0) by (unfold s; apply mul_nz; [exact NX|]; apply mul_nz; apply mul_nz; exact NV).
  destruct (quarter s NS) as (q & Q & Q2). exists q. split; [|exact Q2].
  unfold candidate. replace (mul u (mul v (mul (cube v) (cube v)))) with (mul s s) by (rewrite <- HU; unfold s, cube; ring).
  assert (W : fpw (mul s s) 7237005577332262213973186563042994240829374041602535252466099000494570602493 = fpw s 7237005577332262213973186563042994240829374041602535252466099000494570602493~0).
  { apply fe_eq. cbn [fpw fv]. change (fv (mul s s)) with (fmul (fv s) (fv s)). apply fv_pow_pos, fe_lt. }
  rewrite W. set (w := fpw s _).
  assert (QW : q = mul s w).
  { apply fe_eq. rewrite Q. change (fv (mul s w)) with (fmul (fv s) (fpow_pos (fv s) 7237005577332262213973186563042994240829374041602535252466099000494570602493~0)). rewrite fpow_O.
    exact (fpow_I (fv s) 7237005577332262213973186563042994240829374041602535252466099000494570602493). }
  rewrite QW, <- HU. unfold s, cube. ring.
Qed.
Lemma root_ok : forall u v x, v <> f0 -> mul v (mul x x) = u ->
  exists r, root u v = Some (fv r) /\ (r = x \/ r = opp x).
Proof.
  intros u v x NV HU. rewrite root_fe.
  destruct (fe_dec x f0) as [Z|NX].
  { assert (U0 : u = f0) by (rewrite <- HU, Z; ring).
    assert (C : candidate u v = f0) by (unfold candidate; rewrite U0; ring). rewrite C, U0.
    destruct (fe_dec (mul v (mul f0 f0)) f0) as [_|N]; [|exfalso; apply N; ring].
    exists f0. split; [reflexivity|left; symmetry; exact Z]. }
  destruct (candidate_ok u v x NV NX HU) as (q & -> & Q2).
  replace (mul v (mul (mul x q) (mul x q))) with (mul u (mul q q)) by (rewrite <- HU; ring).
  assert (NU : u <> f0) by (rewrite <- HU; apply mul_nz; [exact NV|]; apply mul_nz; exact NX).
  destruct Q2 as [Q2|Q2]; rewrite Q2.
  - replace (mul u f1) with u by ring. destruct (fe_dec u u) as [_|N]; [|contradiction].
    exists (mul x q). split; [reflexivity|]. destruct (square_one q Q2) as [-> | ->]; [left|right]; ring.
  - replace (mul u (opp f1)) with (opp u) by ring. destruct (fe_dec (opp u) u) as [E|_]; [exfalso; exact (opp_nz u NU E)|].
    destruct (fe_dec (opp u) (opp u)) as [_|N]; [|contradiction].
    exists (mul (mul x q) im). split; [reflexivity|].
    assert (Q4 : mul (mul q im) (mul q im) = f1).
    { transitivity (mul (mul q q) (mul im im)); [ring|]. rewrite Q2, im_im. ring. }
    replace (mul (mul x q) im) with (mul x (mul q im)) by ring.
    destruct (square_one _ Q4) as [-> | ->]; [left|right]; ring.
Qed.

Lemma decompress_fields : forall b (y : fe), redc (N.land (of_le b) (N.ones 255)) = fv y ->
  decompress b = match root (sub (mul y y) f1) (add (mul dd (mul y y)) f1) with
                 | None => None
                 | Some r => let x := if Bool.eqb (N.odd r) (N.testbit (of_le b) 255) then r else fsub 0 r in
                             Some (mkExt x (fv y) 1 (fmul x (fv y)))
                 end.
Proof. intros b y E. unfold decompress. rewrite E. reflexivity. Qed.

Lemma encp_value : forall P, of_le (encp P) = fv (snd P) + (if N.odd (fv (ed_x P)) then 2 ^ 255 else 0).
Proof.
  intro P. assert (L := fe_lt (snd P)). unfold encp. apply of_le_to_le.
  change (256 ^ N.of_nat 32) with (2 ^ 256). unfold p25519 in L. destruct (N.odd _); lia.
Qed.
Lemma encp_y : forall P, redc (N.land (of_le (encp P)) (N.ones 255)) = fv (snd P).
Proof.
  intro P. assert (L := fe_lt (snd P)). rewrite encp_value, N.land_ones.
  replace ((fv (snd P) + (if N.odd (fv (ed_x P)) then 2 ^ 255 else 0)) mod 2 ^ 255) with (fv (snd P)).
  - rewrite redc_mod by (unfold p25519 in L; lia). apply N.mod_small. exact L.
  - destruct (N.odd _); [|rewrite N.add_0_r, N.mod_small by (unfold p25519 in L; lia); reflexivity].
    rewrite <- (N.mul_1_l (2 ^ 255)) at 1. rewrite N.mod_add by discriminate. rewrite N.mod_small by (unfold p25519 in L; lia). reflexivity.
Qed.
Lemma encp_sign : forall P, N.testbit (of_le (encp P)) 255 = N.odd (fv (ed_x P)).
Proof.
  intro P. assert (L := fe_lt (snd P)). rewrite encp_value, N.testbit_odd, N.shiftr_div_pow2.
  destruct (N.odd (fv (ed_x P))).
  - rewrite <- (N.mul_1_l (2 ^ 255)) at 1. rewrite N.div_add by discriminate.
    rewrite N.div_small by (unfold p25519 in L; lia). reflexivity.
  - rewrite N.add_0_r, N.div_small by (unfold p25519 in L; lia). reflexivity.
Qed.

Lemma on_ed : forall P, on P -> let x := ed_x P in let y := snd P in
  mul (add (mul dd (mul y y)) f1) (mul x x) = sub (mul y y) f1.
Proof.
  intros [x y] H. unfold ed_x, Edwards.on in *. cbn [fst snd] in *. cbv zeta.
  replace (mul (mul (opp im) x) (mul (opp im) x)) with (mul (mul im im) (mul x x)) by ring. rewrite im_im.
  replace dd with (div (opp f1) cc) by (rewrite <- cc_dd; field; exact cc_nz).
  transitivity (sub (div (mul (mul x x) (mul y y)) cc) (mul x x)); [field; exact cc_nz|]. rewrite H. field. exact cc_nz.
Qed.
Lemma v_nz : forall y, add (mul dd (mul y y)) f1 <> f0.
Proof.
  intros y H. apply (cc_nonsquare y). apply (f_equal (mul cc)) in H.
  replace (mul cc (add (mul dd (mul y y)) f1)) with (add (mul (mul cc dd) (mul y y)) cc) in H by ring. rewrite cc_dd in H.
  symmetry. apply g_sub_zero. transitivity (add (mul (opp f1) (mul y y)) cc); [ring|]. rewrite H. ring.
Qed.

Theorem decompress_encp : forall P, on P -> exists e, decompress (encp P) = Some e /\ erep e P.
Proof.
  intros P HP. rewrite (decompress_fields (encp P) (snd P) (encp_y P)), encp_sign.
  destruct (root_ok _ _ (ed_x P) (v_nz (snd P)) (on_ed P HP)) as (r & -> & R). cbv zeta.
  assert (S : (if Bool.eqb (N.odd (fv r)) (N.odd (fv (ed_x P))) then fv r else fsub 0 (fv r)) = fv (ed_x P)).
  { destruct (fe_dec (ed_x P) f0) as [Z|NZ].
    - assert (r = f0) by (rewrite Z in R; destruct R as [-> | ->]; [reflexivity|ring]). rewrite H, Z. reflexivity.
    - destruct R as [-> | ->].
      + rewrite Bool.eqb_reflx. reflexivity.
      + rewrite opp_odd by exact NZ. destruct (N.odd (fv (ed_x P))); cbn [Bool.eqb negb].
        all: change (fsub 0 (fv (opp (ed_x P)))) with (fv (opp (opp (ed_x P)))); f_equal; ring. }
  rewrite S. eexists. split; [reflexivity|].
  assert (EP : (mul im (ed_x P), snd P) = P).
  { destruct P as [x y]. unfold ed_x. cbn [fst snd]. f_equal.
    transitivity (mul (opp (mul im im)) x); [ring|]. rewrite im_im. ring. }
  pose proof (erep_affine (ed_x P) (snd P)) as R'. rewrite EP in R'. exact R'.
Qed.

(** ** Signatures *)
Lemma smul_order : forall n, smul (n mod ed_order) ebase = smul n ebase.
Proof.
  intro n. rewrite (N.div_mod n ed_order) at 2 by discriminate. rewrite g_smul_add by exact on_ebase.
  rewrite (N.mul_comm ed_order), g_smul_mul, ebase_order by exact on_ebase.
  rewrite (Edwards.smul_zero_point fe _ _ _ _ _ _ _ _ fe_field cc cc_nonsquare). symmetry. apply g_zero_l.
Qed.
Definition key_point (seed : bytes) : point := smul (ed_scalar seed) ebase.
Lemma key_on : forall seed, on (key_point seed).
Proof. intro. apply g_on_smul, on_ebase. Qed.
Lemma public_encp : forall seed, ed_public seed = encp (key_point seed).
Proof. intro seed. apply compress_rep, erep_mul; [exact on_ebase|exact erep_base]. Qed.

Lemma sign_shape : forall seed m, let r := hash_mod (skipn 32 (sha512 seed) ++ m) in
  let rb := encp (smul r ebase) in
  ed25519_sign (ed_generate seed) m =
  rb ++ to_le 32 ((r + hash_mod (rb ++ ed_public seed ++ m) * ed_scalar seed) mod ed_order).
Proof.
  intros seed m r rb. unfold ed25519_sign. cbn [ek_secret ek_public ed_generate]. fold r.
  rewrite (compress_rep _ (smul r ebase)) by (apply erep_mul; [exact on_ebase|exact erep_base]). reflexivity.
Qed.
Lemma length_encp : forall P, length (encp P) = 32%nat.
Proof. intro. apply length_to_le. Qed.

Theorem signature_verifies : forall seed m, ed25519_verify (ed_public seed) m (ed25519_sign (ed_generate seed) m) = true.
Proof.
  intros seed m. rewrite sign_shape. cbv zeta. set (r := hash_mod (skipn 32 _ ++ m)). set (rb := encp _).
  set (k := hash_mod _). unfold ed25519_verify.
  rewrite firstn_app, (firstn_all2 rb) by (unfold rb; rewrite length_encp; lia).
  rewrite skipn_app, (skipn_all2 rb) by (unfold rb; rewrite length_encp; lia).
  replace (length rb) with 32%nat by (symmetry; apply length_encp). rewrite Nat.sub_diag. cbn [firstn skipn app]. rewrite app_nil_r.
  fold k. set (s := (r + k * ed_scalar seed) mod ed_order).
  assert (SL : s < ed_order) by (apply N.mod_lt; discriminate).
  rewrite of_le_to_le by (change (256 ^ N.of_nat 32) with (2 ^ 256); unfold ed_order in SL; lia).
  destruct (decompress_encp (key_point seed) (key_on seed)) as (a & DA & RA). rewrite (public_encp seed), DA.
  apply andb_true_iff. split; [apply N.ltb_lt, SL|]. apply bytes_eqb_iff.
  assert (OK : on (smul k (key_point seed))) by (apply g_on_smul, key_on).
  rewrite (compress_rep _ (padd (smul s ebase) (popp (smul k (key_point seed))))).
  2:{ apply erep_add; [apply g_on_smul, on_ebase|apply g_on_opp, OK| |].
      - apply erep_mul; [exact on_ebase|exact erep_base].
      - apply erep_neg, erep_mul; [apply key_on|exact RA]. }
  unfold rb. f_equal. unfold s. rewrite smul_order, g_smul_add, g_smul_mul by exact on_ebase. fold (key_point seed).
  rewrite (g_assoc (smul r ebase) (smul k (key_point seed)) (popp (smul k (key_point seed)))
    (g_on_smul r ebase on_ebase) OK (g_on_opp _ OK)).
  rewrite g_opp_r by exact OK. apply g_zero_r.
Qed.

Lemma ed_valid_public : forall seed, ed25519_valid (ed_public seed) = true.
Proof.
  intro seed. unfold ed25519_valid. rewrite public_encp.
  destruct (decompress_encp (key_point seed) (key_on seed)) as (a & -> & _).
  unfold len. rewrite length_encp. reflexivity.
Qed.
Lemma of_le_app : forall a b, of_le (a ++ b) = of_le a + 256 ^ N.of_nat (length a) * of_le b.
Proof.
  induction a as [|x a IH]; intro b; [cbn [app length of_le]; rewrite N.pow_0_r; lia|].
  cbn [app length of_le]. rewrite IH, pow256_S. lia.
Qed.
Lemma length_compress : forall e, length (compress e) = 32%nat.
Proof. intro. apply length_to_le. Qed.
Theorem real_ed_ok : forall b, ed_ok (real_ed b).
Proof.
  intro b. split; intros kp m; cbn [ed_sign real_ed]; unfold ed25519_sign; set (rb := compress _); set (s := _ mod ed_order).
  - rewrite len_app, len_to_le. unfold len, rb. rewrite length_compress. reflexivity.
  - assert (SL : s < ed_order) by (apply N.mod_lt; discriminate). clearbody s.
    rewrite skipn_app, skipn_all2 by (unfold rb; rewrite length_compress; lia). unfold rb. rewrite length_compress.
    change (63 - 32)%nat with 31%nat. cbn [app]. rewrite <- of_le_spec_val.
    assert (E : of_le (to_le 32 s) = s) by (apply of_le_to_le; change (256 ^ N.of_nat 32) with (2 ^ 256); unfold ed_order in SL; lia).
    rewrite <- (firstn_skipn 31 (to_le 32 s)), of_le_app, firstn_length, length_to_le in E.
    change (256 ^ N.of_nat (Nat.min 31 32)) with (2 ^ 248) in E. unfold ed_order in SL. lia.
Qed.
Theorem real_ed_pair : forall b seed, ed_pair (real_ed b) (ed_generate seed).
Proof.
  intros b seed. split; [|split].
  - cbn [ek_public ed_generate]. rewrite public_encp. unfold len. rewrite length_encp. reflexivity.
  - apply ed_valid_public.
  - intro m. apply signature_verifies.
Qed.
