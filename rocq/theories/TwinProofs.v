(** * TwinProofs: exactly which public keys give the same X25519 shared secret. *)
From Coq Require Import ZArith Znumtheory Lia ZifyBool ZifyNat ZifyN Ring Field.
From Verif Require Import GroupOrder Base SpecWire BaseFacts Noise Crypto CryptoFacts SpecNoise X25519Facts Edwards Field25519 LadderProofs TwistProofs KeyProofs
  NoiseFacts HandshakeProofs NxProofs SessionProofs SessionClaims NoiseClaims FiniteGroup Squares SpecSession EdCurve EdProofs EdExact CurveOrder ZeroSecret SigProofs SpecScalar ScalarProofs SpecTwin.
Open Scope N_scope.
Add Field FE : fe_field.
Local Opaque fmul fadd fsub finv Edwards.smul Edwards.add.

Section Gen.
Variable c : fe.
Hypothesis nonsquare : forall s, mul s s <> c.
Notation con := (Edwards.on fe f1 add mul sub c).
Notation cadd := (Edwards.add fe add mul sub div c).
Notation csmul := (Edwards.smul fe f0 f1 add mul sub div c).
Let on_add := Edwards.on_add fe _ _ _ _ _ _ _ _ fe_field fe_dec c nonsquare two_nz.
Let on_smul := Edwards.on_smul fe _ _ _ _ _ _ _ _ fe_field fe_dec c nonsquare two_nz.
Let smul_add := Edwards.smul_add fe _ _ _ _ _ _ _ _ fe_field fe_dec c nonsquare two_nz.
Let assoc := Edwards.add_assoc fe _ _ _ _ _ _ _ _ fe_field fe_dec c nonsquare two_nz.
Let zero_r := Edwards.add_zero_r fe _ _ _ _ _ _ _ _ fe_field c nonsquare.
Let zero_l := Edwards.add_zero_l fe _ _ _ _ _ _ _ _ fe_field c nonsquare.
Let comm := Edwards.add_comm fe _ _ _ _ _ _ _ _ fe_field c.
Let on_opp := Edwards.on_opp fe _ _ _ _ _ _ _ _ fe_field c.
Let opp_r := Edwards.add_opp_r fe _ _ _ _ _ _ _ _ fe_field fe_dec c nonsquare two_nz.
Let smul_opp := Edwards.smul_opp fe _ _ _ _ _ _ _ _ fe_field fe_dec c nonsquare two_nz.
Let tiny_smul := Edwards.tiny_smul fe _ _ _ _ _ _ _ _ fe_field c nonsquare.
Let multiple := c_multiple c nonsquare.
Let opposite := c_opp c nonsquare.
Let same := enc_same c nonsquare.

Lemma enc_opp : forall P, enc (popp P) = enc P.
Proof. intros [x y]. reflexivity. Qed.
Lemma tiny_of_enc : forall P, con P -> enc P = f0 -> mul (snd P) (snd P) = f1.
Proof.
  intros P H E. unfold enc in E. destruct (fe_dec (sub f1 (snd P)) f0) as [Z|Z].
  - apply g_sub_zero in Z. rewrite <- Z. ring.
  - destruct (g_mul_zero _ _ E) as [W|W].
    + apply g_sub_zero. transitivity (mul (sub (snd P) f1) (add f1 (snd P))); [ring|]. rewrite W. ring.
    + destruct (inv_nz _ Z W).
Qed.
Lemma c_enc_tiny : forall P, con P -> enc P = f0 -> tiny P.
Proof.
  intros [x y] H E. pose proof (tiny_of_enc _ H E) as Y. cbn [snd] in Y. split; [|exact Y]. cbn [fst]. unfold Edwards.on in H. cbn [fst snd] in H.
  rewrite Y in H. assert (Z : mul (sub c f1) (mul x x) = f0).
  { transitivity (sub (mul c (sub (add (mul x x) f1) f1)) (mul (mul x x) f1)); [ring|]. rewrite H. ring. }
  destruct (g_mul_zero _ _ Z) as [W|W].
  - exfalso. apply g_sub_zero in W. apply (nonsquare f1). rewrite W. ring.
  - destruct (g_mul_zero _ _ W); assumption.
Qed.
Lemma smul_dist : forall n P Q, con P -> con Q -> csmul n (cadd P Q) = cadd (csmul n P) (csmul n Q).
Proof.
  intros n P Q HP HQ. induction n as [|n IH] using N.peano_ind.
  - rewrite !(Edwards.smul_0 fe). symmetry. apply zero_l.
  - rewrite !(Edwards.smul_succ fe), IH. pose proof (on_smul n P HP) as A. pose proof (on_smul n Q HQ) as B. set (a := csmul n P) in *. set (b := csmul n Q) in *.
    rewrite (assoc P Q (cadd a b) HP HQ (on_add _ _ A B)), (assoc P a (cadd Q b) HP A (on_add _ _ HQ B)). f_equal.
    rewrite <- (assoc Q a b HQ A B), <- (assoc a Q b A HQ B), (comm Q a). reflexivity.
Qed.
Lemma cancel : forall P A B, con P -> con A -> con B -> cadd P A = cadd P B -> A = B.
Proof.
  intros P A B HP HA HB E. apply (f_equal (cadd (popp P))) in E. rewrite <- !assoc, (comm (popp P) P), opp_r, !zero_l in E by auto. exact E.
Qed.
Lemma split_sum : forall P Q, con P -> con Q -> Q = cadd P (cadd Q (popp P)).
Proof. intros P Q HP HQ. rewrite (comm Q (popp P)), <- assoc, opp_r, zero_l by auto. reflexivity. Qed.

Variable l : N.
Hypotheses (PL : prime (Z.of_N l)) (L2 : 2 < l) (KL : forall P, con P -> csmul (8 * l) P = pzero).
Lemma clears : forall P m, con P -> 0 < m < l -> csmul (8 * m) P = pzero -> csmul 8 P = pzero.
Proof.
  intros P m HP D E. destruct (prime_inverse l m PL L2 D) as (u & w & Q). pose proof (multiple _ _ (u * 4) HP E) as Z.
  replace (u * 4 * (8 * m)) with (8 + w * (8 * l)) in Z by lia. rewrite smul_add, (multiple _ _ _ HP (KL P HP)), zero_r in Z by exact HP. exact Z.
Qed.
Variable TL : list (fe * fe).
Hypothesis TS : forall P, con P -> (csmul 8 P = pzero <-> In P TL).
Hypothesis TO : forall P, In P TL -> con P.
Hypothesis TD : NoDup TL.

Lemma t_opp : forall T, In T TL -> In (popp T) TL.
Proof.
  intros T I. pose proof (TO _ I) as H. apply TS; [apply on_opp, H|]. rewrite smul_opp, (proj2 (TS T H) I) by exact H.
  unfold Edwards.opp, Edwards.zero. cbn [fst snd]. f_equal. ring.
Qed.
Lemma t_gone : forall P T m, con P -> In T TL -> csmul (8 * m) (cadd P T) = csmul (8 * m) P.
Proof.
  intros P T m HP I. pose proof (TO _ I) as H. rewrite smul_dist by assumption. rewrite (N.mul_comm 8 m), (multiple 8 T m H (proj2 (TS T H) I)). apply zero_r.
Qed.
Lemma t_enc : forall P T m, con P -> In T TL -> enc (csmul (8 * m) P) <> f0 -> enc (cadd P T) <> f0.
Proof.
  intros P T m HP I NZ E. apply NZ. rewrite <- (t_gone P T m HP I). apply tiny_enc, tiny_smul, c_enc_tiny; [apply on_add; auto|exact E].
Qed.
(** The points with the same multiple, up to sign, are those that differ by a point of small order. *)
Lemma same_secret : forall P Q m, con P -> con Q -> 0 < m < l -> enc (csmul (8 * m) P) <> f0 ->
  (enc (csmul (8 * m) Q) = enc (csmul (8 * m) P) <-> exists T, In T TL /\ enc Q = enc (cadd P T)).
Proof.
  intros P Q m HP HQ M NZ. split.
  - intro E. assert (W : exists P', (P' = P \/ P' = popp P) /\ csmul (8 * m) Q = csmul (8 * m) P').
    { destruct (same _ _ (on_smul (8 * m) P HP) (on_smul (8 * m) Q HQ) NZ (eq_sym E)) as [X|X].
      - exists P. split; [left; reflexivity|symmetry; exact X].
      - exists (popp P). split; [right; reflexivity|]. rewrite smul_opp, X by exact HP. symmetry. apply popp_popp. }
    destruct W as (P' & S & X). assert (HP' : con P') by (destruct S as [-> | ->]; auto).
    set (T := cadd Q (popp P')). assert (HT : con T) by (apply on_add; auto).
    assert (I : In T TL).
    { apply (TS T HT). apply (clears T m HT M). unfold T. rewrite smul_dist, smul_opp, X by auto. apply opp_r, on_smul, HP'. }
    assert (Q' : Q = cadd P' T) by (apply split_sum; assumption). destruct S as [S|S].
    + exists T. split; [exact I|]. rewrite Q', S at 1. reflexivity.
    + exists (popp T). split; [apply t_opp, I|]. transitivity (enc (popp Q)); [symmetry; apply enc_opp|]. f_equal. symmetry. apply opposite; auto.
      rewrite comm, Q', (comm P (popp T)), assoc, <- (assoc T (popp T) P), opp_r, zero_l by auto. rewrite S, (comm (popp P) P). apply opp_r, HP.
  - intros (T & I & E). rewrite <- (t_gone P T m HP I). pose proof (t_enc P T m HP I NZ) as NT.
    destruct (same (cadd P T) Q) as [X|X]; auto; rewrite X; [reflexivity|]. rewrite smul_opp, enc_opp by exact HQ. reflexivity.
Qed.
(** They give as many u-coordinates as there are points of small order. *)
Lemma twins_nodup : forall P m, con P -> enc (csmul (8 * m) P) <> f0 -> NoDup (map (fun T => enc (cadd P T)) TL).
Proof.
  intros P m HP NZ. apply nodup_map_in; [exact TD|]. intros A B IA IB E.
  pose proof (TO _ IA) as HA. pose proof (TO _ IB) as HB.
  destruct (same (cadd P A) (cadd P B)) as [X|X]; auto.
  - exact (t_enc P A m HP IA NZ).
  - apply (cancel P); assumption.
  - exfalso. apply NZ. assert (Z : csmul (8 * 2) P = pzero).
    { assert (Y : cadd (cadd P A) (cadd P B) = pzero) by (rewrite X, comm; apply opp_r; auto).
      apply (f_equal (csmul 8)) in Y. rewrite (Edwards.smul_zero_point fe _ _ _ _ _ _ _ _ fe_field c nonsquare) in Y.
      rewrite smul_dist in Y by auto. change 8 with (8 * 1) in Y. rewrite !t_gone in Y by assumption. rewrite <- smul_add in Y by exact HP. exact Y. }
    apply clears in Z; [|exact HP|lia]. rewrite (N.mul_comm 8 m), (multiple 8 P m HP Z). apply tiny_enc. split; [reflexivity|]. cbn [snd Edwards.zero]. ring.
Qed.
End Gen.

(** ** The points of small order *)
Lemma same_y : forall c x x' y, (forall s, mul s s <> c) -> con c (x, y) -> con c (x', y) -> x = x' \/ x = opp x'.
Proof.
  intros c x x' y N H H'. apply (con_xx c x y N) in H. apply (con_xx c x' y N) in H'. rewrite <- H' in H.
  assert (Z : mul (sub x x') (sub x (opp x')) = f0) by (transitivity (sub (mul x x) (mul x' x')); [ring|rewrite H; ring]).
  destruct (g_mul_zero _ _ Z) as [W|W]; apply g_sub_zero in W; auto.
Qed.
Definition tors4 : list (fe * fe) := [(f0, f1); (f0, opp f1); (f1, f0); (opp f1, f0)].
Definition tors8 : list (fe * fe) := tors4 ++ [(y8, y8); (opp y8, y8); (y8, opp y8); (opp y8, opp y8)].
Lemma tors4_on : forall c P, In P tors4 -> con c P.
Proof. intros c P [<-|[<-|[<-|[<-|[]]]]]; unfold Edwards.on; cbn [fst snd]; ring. Qed.
Lemma tors8_on : forall P, In P tors8 -> on P.
Proof.
  intros P I. apply in_app_or in I. destruct I as [I|I]; [exact (tors4_on cc P I)|]. pose proof on_point8 as O. unfold point8, Edwards.on in *.
  cbn [In] in I. destruct I as [<-|[<-|[<-|[<-|[]]]]]; cbn [fst snd] in *; [exact O| | |];
    replace (mul (opp y8) (opp y8)) with (mul y8 y8) by ring; exact O.
Qed.
Lemma tors8_spec : forall P, on P -> (smul 8 P = pzero <-> In P tors8).
Proof.
  intros [x y] H. rewrite small_iff by exact H. cbn [snd]. split.
  - intros [-> |[-> |[-> |[-> | ->]]]].
    + destruct (same_y cc x f1 f0 cc_nonsquare H (tors4_on _ _ ltac:(right; right; left; reflexivity))) as [-> | ->]; cbn; auto 10.
    + destruct (same_y cc x f0 f1 cc_nonsquare H (tors4_on _ _ ltac:(left; reflexivity))) as [-> | ->]; [cbn; auto 10|].
      replace (opp f0) with f0 by ring. cbn; auto.
    + destruct (same_y cc x f0 (opp f1) cc_nonsquare H (tors4_on _ _ ltac:(right; left; reflexivity))) as [-> | ->]; [cbn; auto 10|].
      replace (opp f0) with f0 by ring. cbn; auto.
    + destruct (same_y cc x y8 y8 cc_nonsquare H on_point8) as [-> | ->]; unfold tors8; apply in_or_app; right; cbn [In]; auto.
    + assert (O : on (y8, opp y8)) by (apply tors8_on; unfold tors8; apply in_or_app; right; cbn [In]; auto).
      destruct (same_y cc x y8 (opp y8) cc_nonsquare H O) as [-> | ->];
        unfold tors8; apply in_or_app; right; cbn [In]; auto.
  - intro I. unfold tors8, tors4 in I. cbn [app In] in I.
    repeat (destruct I as [E|I]; [injection E as _ <-; tauto|]). destruct I.
Qed.
Lemma nodup_fv : forall l : list (fe * fe), NoDup (map (fun T => (fv (fst T), fv (snd T))) l) -> NoDup l.
Proof. intros l H. exact (NoDup_map_inv _ _ H). Qed.
Local Transparent fmul fadd fsub finv.
Lemma tors8_nodup : NoDup tors8.
Proof.
  apply nodup_fv. vm_compute. repeat (constructor; [cbn [In]; intro H; repeat destruct H as [H|H]; try discriminate H; destruct H|]). constructor.
Qed.
Lemma tors4_nodup : NoDup tors4.
Proof.
  apply nodup_fv. vm_compute. repeat (constructor; [cbn [In]; intro H; repeat destruct H as [H|H]; try discriminate H; destruct H|]). constructor.
Qed.
Local Opaque fmul fadd fsub finv.
Lemma tors4_spec : forall P, ton P -> (tsmul 8 P = pzero <-> In P tors4).
Proof.
  intros P H. split.
  - intro E. assert (F : tsmul 4 P = pzero).
    { pose proof (proj2 orders_kill P H) as K. replace (4 * l2_25519) with (l2_25519 / 2 * 8 + 4) in K by reflexivity.
      rewrite t_smul_add, (t_multiple 8 P _ H E), (Edwards.add_zero_l fe _ _ _ _ _ _ _ _ fe_field tc tc_nonsquare) in K by exact H. exact K. }
    replace 4 with (1 + 1 + (1 + 1)) in F by lia. rewrite !t_smul_add, t_smul_1 in F by exact H.
    assert (H2 : ton (tadd P P)) by exact (Edwards.on_add fe _ _ _ _ _ _ _ _ fe_field fe_dec tc tc_nonsquare two_nz P P H H).
    assert (Y2 : mul (snd (tadd P P)) (snd (tadd P P)) = f1) by (apply (half_one tc tc_nonsquare); [exact H2|rewrite F; reflexivity]).
    destruct P as [x y]. destruct (half_tiny tc tc_nonsquare (x, y) H tc_1 Y2) as [Y|Y]; cbn [snd] in Y.
    + destruct (square_one _ Y) as [-> | ->].
      * destruct (same_y tc x f0 f1 tc_nonsquare H (tors4_on _ _ ltac:(left; reflexivity))) as [-> | ->]; [left; reflexivity|].
        replace (opp f0) with f0 by ring. left. reflexivity.
      * destruct (same_y tc x f0 (opp f1) tc_nonsquare H (tors4_on _ _ ltac:(right; left; reflexivity))) as [-> | ->]; [right; left; reflexivity|].
        replace (opp f0) with f0 by ring. right. left. reflexivity.
    + subst y. destruct (same_y tc x f1 f0 tc_nonsquare H (tors4_on _ _ ltac:(right; right; left; reflexivity))) as [-> | ->]; cbn [tors4 In]; auto 6.
  - intro I. set (D := tadd P P). assert (HD : ton D) by exact (Edwards.on_add fe _ _ _ _ _ _ _ _ fe_field fe_dec tc tc_nonsquare two_nz P P H H).
    assert (Z : tadd D D = pzero).
    { apply t_tiny_double, t_tiny_of_y; [exact HD|]. unfold D. assert (T : tiny P \/ snd P = f0 /\ mul (fst P) (fst P) = f1).
      { destruct I as [<-|[<-|[<-|[<-|[]]]]]; cbn [fst snd]; [left; split; cbn [fst snd]; try reflexivity; ring..| |]; right; (split; [reflexivity|ring]). }
      destruct T as [T|[Y X]]; [rewrite (t_tiny_double P T); cbn [snd Edwards.zero]; ring|].
      destruct P as [x y]. cbn [fst snd] in X, Y. subst y. destruct (double_y tc tc_nonsquare x f0 H) as [Q _]. set (y2 := snd _) in *. clearbody y2.
      assert (W : y2 = opp f1).
      { apply g_sub_zero. assert (Z : mul tc (sub y2 (opp f1)) = f0).
        { transitivity (add (sub (mul y2 (sub tc (mul (mul x x) (mul f0 f0)))) (mul tc (sub (mul f0 f0) (mul x x)))) (mul tc (sub f1 (mul x x)))); [ring|].
          rewrite Q, X. ring. }
        destruct (g_mul_zero _ _ Z) as [W|W]; [destruct (tc_nz W)|exact W]. }
      rewrite W. ring. }
    change 8 with (2 * 4). apply t_multiple; [exact H|]. replace 4 with (1 + 1 + (1 + 1)) by lia. rewrite !t_smul_add, t_smul_1 by exact H. exact Z.
Qed.

(** ** No u-coordinate but zero belongs to both the curve and its twist *)
Lemma apart : forall P Q, on P -> ton Q -> enc P = opp (enc Q) -> enc P = f0.
Proof.
  intros [x y] [x' y'] H H' E. destruct (fe_dec (enc (x, y)) f0) as [Z|NZ]; [exact Z|exfalso].
  assert (N1 : sub f1 y <> f0) by (intro Z; apply NZ; unfold enc; cbn [snd]; rewrite Z, inv_f0; ring).
  assert (N2 : sub f1 y' <> f0) by (intro Z; apply NZ; rewrite E; unfold enc; cbn [snd]; rewrite Z, inv_f0; ring).
  assert (U : mul (enc (x, y)) (sub f1 y) = add f1 y) by (unfold enc; cbn [snd]; field; exact N1).
  assert (U' : mul (opp (enc (x, y))) (sub f1 y') = add f1 y') by (rewrite E; unfold enc; cbn [snd]; field; exact N2).
  set (u := enc (x, y)) in *. clearbody u. assert (I : mul y y' = f1).
  { symmetry. apply g_sub_zero, two_cancel. transitivity (add (mul (add f1 y) (sub f1 y')) (mul (add f1 y') (sub f1 y))); [ring|]. rewrite <- U, <- U'. ring. }
  assert (Y0 : y <> f0) by (intro Z; apply f1_nz; rewrite <- I, Z; ring).
  assert (Y' : y' = inv y) by (transitivity (mul (mul y y') (inv y)); [field; exact Y0|rewrite I; ring]). 
  apply (con_xx cc x y cc_nonsquare) in H. apply (con_xx tc x' y' tc_nonsquare) in H'. rewrite (xx_twist y Y0), <- Y', <- H' in H.
  destruct (fe_dec x' f0) as [X|X].
  - assert (Y1 : mul y' y' = f1).
    { assert (O : con tc (x', y')) by (apply (con_xx tc x' y' tc_nonsquare), H'). unfold Edwards.on in O. cbn [fst snd] in O. rewrite X in O.
      apply g_sub_zero. assert (Z : mul tc (sub (mul y' y') f1) = f0) by (transitivity (mul tc (sub (add (mul f0 f0) (mul y' y')) f1)); [ring|rewrite <- O; ring]).
      destruct (g_mul_zero _ _ Z) as [W|W]; [destruct (tc_nz W)|exact W]. }
    destruct (square_one _ Y1) as [W|W]; [apply N2; rewrite W; ring|]. rewrite W in I.
    assert (V : y = opp f1) by (transitivity (opp (mul y (opp f1))); [ring|rewrite I; reflexivity]). apply NZ.
    rewrite V in U. apply two_cancel. transitivity (mul u (sub f1 (opp f1))); [ring|]. rewrite U. ring.
  - apply (cc_nonsquare (div x x')). transitivity (div (mul x x) (mul x' x')); [field; exact X|]. rewrite H. field. exact X.
Qed.

(** ** The result *)
Lemma dec_value : forall pk, len pk = 32 -> dec pk = u_value pk.
Proof.
  intros pk L. unfold dec, u_value. rewrite firstn_all2 by (unfold len in L; lia). rewrite N.land_ones, <- of_le_spec_val. apply redc_mod.
  assert (of_le pk mod 2 ^ 255 < 2 ^ 255) by (apply N.mod_lt; discriminate). lia.
Qed.
Lemma enc_rel : forall P, enc P <> f0 -> mul (enc P) (sub f1 (snd P)) = add f1 (snd P).
Proof.
  intros P NZ. assert (N : sub f1 (snd P) <> f0) by (intro Z; apply NZ; unfold enc; rewrite Z, inv_f0; ring). unfold enc. field. exact N.
Qed.
Lemma fv_in : forall (f : fe) l, In (fv f) (map fv l) <-> In f l.
Proof.
  intros f l. split; [|apply in_map]. intro I. apply in_map_iff in I. destruct I as (g & E & I). apply fe_eq in E. rewrite <- E. exact I.
Qed.
Lemma nodup_map_fv : forall l : list fe, NoDup l -> NoDup (map fv l).
Proof. intros l H. apply nodup_map_in; [exact H|]. intros a b _ _ E. apply fe_eq. exact E. Qed.
Theorem twins_exact : forall pk, len pk = 32 -> ~ In (spec_val (wire pk) mod 2 ^ 255) zero_encodings ->
  exists l, NoDup l /\ (len l = 8 \/ len l = 4) /\
    forall sk pk', len pk' = 32 -> (c_dh real_crypto sk pk' = c_dh real_crypto sk pk <-> In (u_value pk') l).
Proof.
  intros pk LP NZ. assert (NS : forall sk, x25519 sk pk <> zeros32) by (intros sk H; apply NZ; apply (zero_secret_exact sk pk LP); exact H).
  cbn [c_dh real_crypto]. destruct (y_of (firstn 32 pk)) as [u D]. change (dec pk = fv u) in D.
  destruct (fe_dec u f0) as [Z|NU].
  { exfalso. apply (NS zeros32). apply (zero_exact _ _ _ D). rewrite Z. left. reflexivity. }
  assert (K : forall (f : fe), to_le 32 (fv f) <> zeros32 -> f <> f0) by (intros f H E; apply H, to_le_zero, E).
  destruct (lift u NU) as [(P & HP & HU)|(P & HP & HU)].
  - assert (NP : forall sk, enc (smul (clamp (of_le (firstn 32 sk))) P) <> f0).
    { intro sk. apply K. rewrite <- (x25519_smul sk pk P u HP NU HU D). apply NS. }
    assert (NT : forall T, In T tors8 -> enc (padd P T) <> f0).
    { intros T I. pose proof (NP zeros32) as H. destruct (clamp_value (of_le (firstn 32 zeros32))) as (m & E & _). rewrite E in H.
      exact (t_enc cc cc_nonsquare tors8 tors8_spec tors8_on P T m HP I H). }
    exists (map fv (map (fun T => enc (padd P T)) tors8)). split; [|split].
    + apply nodup_map_fv. pose proof (NP zeros32) as H. destruct (clamp_value (of_le (firstn 32 zeros32))) as (m & E & _). rewrite E in H.
      exact (twins_nodup cc cc_nonsquare l25519 prime_L ltac:(reflexivity) (proj1 orders_kill) tors8 tors8_spec tors8_on tors8_nodup P m HP H).
    + left. unfold len. rewrite !map_length. reflexivity.
    + intros sk pk' LP'. destruct (y_of (firstn 32 pk')) as [u' D']. change (dec pk' = fv u') in D'. rewrite <- (dec_value pk' LP'), D', fv_in.
      assert (A : (exists T, In T tors8 /\ u' = enc (padd P T)) <-> In u' (map (fun T => enc (padd P T)) tors8)).
      { split; [intros (T & I & ->); apply (in_map (fun T => enc (padd P T))), I|intro I; apply in_map_iff in I; destruct I as (T & E & I); exists T; auto]. }
      rewrite <- A. clear A. destruct (fe_dec u' f0) as [Z|NU'].
      { split.
        - intro E. exfalso. apply (NS sk). rewrite <- E. apply (zero_exact _ _ _ D'). rewrite Z. left. reflexivity.
        - intros (T & I & E). exfalso. apply (NT T I). rewrite <- E. exact Z. }
      rewrite (x25519_smul sk pk P u HP NU HU D). pose proof (NP sk) as H. set (k := clamp _) in *.
      assert (C : k = clamp (of_le (firstn 32 sk))) by reflexivity. clearbody k. pose proof (clamp_value (of_le (firstn 32 sk))) as CV. rewrite <- C in CV.
      destruct CV as (m & KM & M). destruct (lift u' NU') as [(Q & HQ & HV)|(Q & HQ & HV)].
      * rewrite (x25519_smul sk pk' Q u' HQ NU' HV D'), to_le_fe, <- C. rewrite KM in *. rewrite <- (enc_of Q u' HV).
        apply (same_secret cc cc_nonsquare l25519 prime_L ltac:(reflexivity) (proj1 orders_kill) tors8 tors8_spec tors8_on P Q m HP HQ); [|exact H].
        unfold l25519. lia.
      * rewrite (x25519_twist sk pk' Q u' HQ NU' HV D'), to_le_fe, <- C. split.
        -- intro E. exfalso. apply H. apply (apart _ (tsmul k Q)); [apply g_on_smul, HP|apply t_on_smul, HQ|symmetry; exact E].
        -- intros (T & I & E). exfalso. apply (NT T I). apply (apart _ Q); [apply g_on_add; [exact HP|apply tors8_on, I]|exact HQ|].
           rewrite <- E. rewrite (enc_of Q (opp u') HV). ring.
  - assert (NP : forall sk, enc (tsmul (clamp (of_le (firstn 32 sk))) P) <> f0).
    { intros sk E. apply (NS sk). rewrite (x25519_twist sk pk P u HP NU HU D), E. apply to_le_zero. ring. }
    assert (TO : forall T, In T tors4 -> ton T) by (intro T; apply tors4_on).
    assert (KT : forall P, ton P -> tsmul (8 * l2_25519) P = pzero).
    { intros X HX. change (8 * l2_25519) with (2 * (4 * l2_25519)). apply t_multiple; [exact HX|]. exact (proj2 orders_kill X HX). }
    assert (NT : forall T, In T tors4 -> enc (tadd P T) <> f0).
    { intros T I. pose proof (NP zeros32) as H. destruct (clamp_value (of_le (firstn 32 zeros32))) as (m & E & _). rewrite E in H.
      exact (t_enc tc tc_nonsquare tors4 tors4_spec TO P T m HP I H). }
    exists (map fv (map (fun T => opp (enc (tadd P T))) tors4)). split; [|split].
    + apply nodup_map_fv. pose proof (NP zeros32) as H. destruct (clamp_value (of_le (firstn 32 zeros32))) as (m & E & _). rewrite E in H.
      rewrite <- (map_map (fun T => enc (tadd P T)) opp). apply nodup_map_in.
      * exact (twins_nodup tc tc_nonsquare l2_25519 prime_L2 ltac:(reflexivity) KT tors4 tors4_spec TO tors4_nodup P m HP H).
      * intros a b _ _ EQ. transitivity (opp (opp a)); [ring|]. rewrite EQ. ring.
    + right. unfold len. rewrite !map_length. reflexivity.
    + intros sk pk' LP'. destruct (y_of (firstn 32 pk')) as [u' D']. change (dec pk' = fv u') in D'. rewrite <- (dec_value pk' LP'), D', fv_in.
      assert (A : (exists T, In T tors4 /\ opp u' = enc (tadd P T)) <-> In u' (map (fun T => opp (enc (tadd P T))) tors4)).
      { split.
        - intros (T & I & E). replace u' with (opp (enc (tadd P T))) by (rewrite <- E; ring). apply (in_map (fun T => opp (enc (tadd P T)))), I.
        - intro I. apply in_map_iff in I. destruct I as (T & E & I). exists T. split; [exact I|]. rewrite <- E. ring. }
      rewrite <- A. clear A. destruct (fe_dec u' f0) as [Z|NU'].
      { split.
        - intro E. exfalso. apply (NS sk). rewrite <- E. apply (zero_exact _ _ _ D'). rewrite Z. left. reflexivity.
        - intros (T & I & E). exfalso. apply (NT T I). rewrite <- E, Z. ring. }
      rewrite (x25519_twist sk pk P u HP NU HU D). pose proof (NP sk) as H. set (k := clamp _) in *.
      assert (C : k = clamp (of_le (firstn 32 sk))) by reflexivity. clearbody k. pose proof (clamp_value (of_le (firstn 32 sk))) as CV. rewrite <- C in CV.
      destruct CV as (m & KM & M). destruct (lift u' NU') as [(Q & HQ & HV)|(Q & HQ & HV)].
      * rewrite (x25519_smul sk pk' Q u' HQ NU' HV D'), to_le_fe, <- C. split.
        -- intro E. exfalso. apply H. assert (W : enc (smul k Q) = f0) by (apply (apart _ (tsmul k P)); [apply g_on_smul, HQ|apply t_on_smul, HP|exact E]).
           apply opp_zero. rewrite <- E. exact W.
        -- intros (T & I & E). exfalso. apply NU'. rewrite <- (enc_of Q u' HV) in E |- *. apply (apart _ (tadd P T)); [exact HQ| |].
           ++ exact (Edwards.on_add fe _ _ _ _ _ _ _ _ fe_field fe_dec tc tc_nonsquare two_nz P T HP (TO T I)).
           ++ rewrite <- E. ring.
      * rewrite (x25519_twist sk pk' Q u' HQ NU' HV D'), to_le_fe, <- C. rewrite KM in *. rewrite <- (enc_of Q (opp u') HV).
        rewrite <- (same_secret tc tc_nonsquare l2_25519 prime_L2 ltac:(reflexivity) KT tors4 tors4_spec TO P Q m HP HQ); [|unfold l2_25519; lia|exact H].
        split; intro E; [|rewrite E; reflexivity]. transitivity (opp (opp (enc (tsmul (8 * m) Q)))); [ring|]. rewrite E. ring.
Qed.
(** Whether two public keys give the same secret does not depend on the private key. *)
Theorem twins_always : forall pk pk' sk, len pk = 32 -> len pk' = 32 ->
  c_dh real_crypto sk pk = c_dh real_crypto sk pk' -> twins (c_dh real_crypto) pk pk'.
Proof.
  intros pk pk' sk L L' E sk'. destruct (in_dec N.eq_dec (spec_val (wire pk) mod 2 ^ 255) zero_encodings) as [Z|NZ].
  - pose proof (proj2 (zero_secret_exact sk pk L) Z) as Z1. rewrite E in Z1. apply (zero_secret_exact sk pk' L') in Z1.
    rewrite (proj2 (zero_secret_exact sk' pk L) Z), (proj2 (zero_secret_exact sk' pk' L') Z1). reflexivity.
  - destruct (twins_exact pk L NZ) as (l & _ & _ & X). symmetry. apply (X sk' pk' L'). apply (X sk pk' L'). symmetry. exact E.
Qed.

(** ** The inverse of a key is a twin of it *)
Lemma half_turn : forall c x y, (forall s, mul s s <> c) -> Edwards.add fe add mul sub div c (x, y) (f0, opp f1) = (opp x, opp y).
Proof.
  intros c x y N. assert (NC : c <> f0) by (apply nz; exact N). Local Transparent Edwards.add. unfold Edwards.add. cbn [fst snd]. Local Opaque Edwards.add.
  f_equal; field; (intro Z; apply NC; rewrite <- Z; ring).
Qed.
Theorem inverse_twin : forall pk pk', len pk = 32 -> len pk' = 32 -> (u_value pk * u_value pk') mod SpecNoise.p25519 = 1 -> twins (c_dh real_crypto) pk pk'.
Proof.
  intros pk pk' L L' E sk. cbn [c_dh real_crypto].
  destruct (y_of (firstn 32 pk)) as [u D]. change (dec pk = fv u) in D. destruct (y_of (firstn 32 pk')) as [u' D']. change (dec pk' = fv u') in D'.
  rewrite <- (dec_value pk L), <- (dec_value pk' L'), D, D' in E. assert (I : mul u u' = f1).
  { apply fe_eq. rewrite fv_mul. exact E. }
  assert (NU : u <> f0) by (intro Z; apply f1_nz; rewrite <- I, Z; ring). assert (NU' : u' <> f0) by (intro Z; apply f1_nz; rewrite <- I, Z; ring).
  destruct (clamp_value (of_le (firstn 32 sk))) as (m & KM & _).
  destruct (lift u NU) as [(P & HP & HU)|(P & HP & HU)].
  - assert (IT : In (f0, opp f1) tors8) by (right; left; reflexivity). pose proof (half_turn cc (fst P) (snd P) cc_nonsquare) as H.
    rewrite <- surjective_pairing in H.
    rewrite (x25519_smul sk pk P u HP NU HU D), (x25519_smul sk pk' (padd P (f0, opp f1)) u'); [|apply g_on_add; [exact HP|apply tors8_on, IT]|exact NU'| |exact D'].
    + rewrite KM, (t_gone cc cc_nonsquare tors8 tors8_spec tors8_on P _ m HP IT). reflexivity.
    + rewrite H. cbn [snd]. transitivity (mul u' (add f1 (snd P))); [ring|]. rewrite <- HU. transitivity (mul (mul u u') (sub f1 (snd P))); [ring|]. rewrite I. ring.
  - assert (IT : In (f0, opp f1) tors4) by (right; left; reflexivity). pose proof (half_turn tc (fst P) (snd P) tc_nonsquare) as H.
    rewrite <- surjective_pairing in H. assert (TO : forall T, In T tors4 -> ton T) by (intro T; apply tors4_on).
    rewrite (x25519_twist sk pk P u HP NU HU D), (x25519_twist sk pk' (tadd P (f0, opp f1)) u'); [| |exact NU'| |exact D'].
    + rewrite KM, (t_gone tc tc_nonsquare tors4 tors4_spec TO P _ m HP IT). reflexivity.
    + exact (Edwards.on_add fe _ _ _ _ _ _ _ _ fe_field fe_dec tc tc_nonsquare two_nz P _ HP (TO _ IT)).
    + rewrite H. cbn [snd]. transitivity (opp (mul u' (add f1 (snd P)))); [ring|]. rewrite <- HU.
      transitivity (mul (mul u u') (sub f1 (snd P))); [ring|]. rewrite I. ring.
Qed.

(** ** Generated keys *)
Lemma odd_part : forall X, on X -> smul 8 X = pzero -> smul l25519 X = pzero -> X = pzero.
Proof.
  intros X H E8 EL. rewrite <- (g_smul_1 X). pose proof (smul_multiple l25519 X 5 H EL) as K.
  replace (5 * l25519) with (5 * l25519 / 8 * 8 + 1) in K by reflexivity.
  rewrite g_smul_add, (smul_multiple 8 X _ H E8), g_zero_l in K by exact H. exact K.
Qed.
Definition s_opp := Edwards.smul_opp fe _ _ _ _ _ _ _ _ fe_field fe_dec cc cc_nonsquare two_nz.
Lemma opp_pzero : popp pzero = pzero.
Proof. unfold Edwards.opp, Edwards.zero. cbn [fst snd]. f_equal. ring. Qed.
Lemma odd_same : forall A B m, on A -> on B -> smul l25519 A = pzero -> smul l25519 B = pzero -> 0 < m < l25519 -> smul (8 * m) A = smul (8 * m) B -> A = B.
Proof.
  intros A B m HA HB KA KB M X. set (T := padd A (popp B)). assert (HT : on T) by (apply g_on_add; [exact HA|apply g_on_opp, HB]).
  assert (T0 : T = pzero).
  { apply odd_part; [exact HT| |].
    - apply (clears cc cc_nonsquare l25519 prime_L ltac:(reflexivity) (proj1 orders_kill) T m HT M).
      unfold T. rewrite (smul_dist cc cc_nonsquare), s_opp, X by (try apply g_on_opp; assumption). apply g_opp_r, g_on_smul, HB.
    - unfold T. rewrite (smul_dist cc cc_nonsquare), s_opp, KA, KB by (try apply g_on_opp; assumption). rewrite g_zero_l. apply opp_pzero. }
  rewrite (split_sum cc cc_nonsquare B A HB HA). fold T. rewrite T0. apply g_zero_r.
Qed.
Lemma odd_enc : forall A B m, on A -> on B -> smul l25519 A = pzero -> smul l25519 B = pzero -> 0 < m < l25519 ->
  enc (smul (8 * m) A) <> f0 -> enc (smul (8 * m) A) = enc (smul (8 * m) B) -> enc A = enc B.
Proof.
  intros A B m HA HB KA KB M NZ E. destruct (enc_same cc cc_nonsquare _ _ (g_on_smul (8 * m) _ HA) (g_on_smul (8 * m) _ HB) NZ E) as [X|X].
  - rewrite (odd_same A B m HA HB KA KB M X). reflexivity.
  - rewrite <- (s_opp (8 * m) B HB) in X. assert (KB' : smul l25519 (popp B) = pzero) by (rewrite s_opp, KB by exact HB; apply opp_pzero).
    rewrite (odd_same A (popp B) m HA (g_on_opp _ HB) KA KB' M X). apply enc_opp.
Qed.
Lemma derived_l : forall s, smul l25519 (derived s) = pzero.
Proof. intro s. unfold derived. rewrite <- g_smul_mul, N.mul_comm by exact on_base. apply smul_multiple; [exact on_base|exact base_l]. Qed.
Lemma pub_derived : forall s, c_pub real_crypto s = to_le 32 (fv (enc (derived s))).
Proof. exact base_enc. Qed.
Lemma dh_derived : forall a b, c_dh real_crypto a (c_pub real_crypto b) = to_le 32 (fv (enc (smul (clamp (of_le (firstn 32 a))) (derived b)))).
Proof. exact dh_value. Qed.
Lemma dh_nonzero : forall a b, c_dh real_crypto a (c_pub real_crypto b) <> zeros32.
Proof. exact secret_nonzero. Qed.
Theorem generated_alone : forall a b sk, c_dh real_crypto sk (c_pub real_crypto a) = c_dh real_crypto sk (c_pub real_crypto b) ->
  c_pub real_crypto a = c_pub real_crypto b.
Proof.
  intros a b sk E. pose proof (dh_nonzero sk a) as NZ. rewrite dh_derived in NZ. rewrite !dh_derived in E. rewrite !pub_derived.
  apply to_le_fe. apply to_le_fe in E. destruct (clamp_value (of_le (firstn 32 sk))) as (m & KM & M). rewrite KM in E, NZ.
  apply (odd_enc _ _ m (derived_on a) (derived_on b) (derived_l a) (derived_l b)); [unfold l25519; lia| |exact E].
  intro Z. apply NZ. apply to_le_zero. exact Z.
Qed.

(** ** A responder that shows the inverse of its public key *)
Lemma pub_u : forall sk, exists u, c_pub real_crypto sk = to_le 32 (fv u) /\ u_value (c_pub real_crypto sk) = fv u /\ u <> f0 /\ u <> f1 /\ u <> opp f1.
Proof.
  intro sk. exists (enc (derived sk)). assert (NZ : ~ In (fv (enc (derived sk))) low_u).
  { intro H. exact (derived_order sk (low_u_small _ (derived_on sk) H)). }
  rewrite low_u_fe in NZ. split; [apply pub_derived|]. split; [|tauto].
  rewrite <- dec_value by apply (pub_len _ real_crypto_ok). rewrite pub_derived. apply dec_enc.
Qed.
Theorem inverse_exists : forall sk, exists pk, len pk = 32 /\ public_key_from_bytes pk = Ok pk /\ (u_value (c_pub real_crypto sk) * u_value pk) mod SpecNoise.p25519 = 1.
Proof.
  intro sk. destruct (pub_u sk) as (u & EP & UV & NU & _). set (v := inv u). assert (I : mul u v = f1) by (unfold v; field; exact NU).
  assert (LV : len (to_le 32 (fv v)) = 32) by (unfold len; rewrite length_to_le; reflexivity).
  assert (UV' : u_value (to_le 32 (fv v)) = fv v) by (rewrite <- dec_value by exact LV; apply dec_enc).
  assert (PR : (u_value (c_pub real_crypto sk) * u_value (to_le 32 (fv v))) mod SpecNoise.p25519 = 1) by (rewrite UV, UV'; transitivity (fv (mul u v)); [symmetry; apply fv_mul|rewrite I; reflexivity]).
  exists (to_le 32 (fv v)). split; [exact LV|]. split; [|exact PR]. apply from_bytes_exact; [exact LV|].
  unfold low_order. intro H. rewrite <- of_le_spec_val in H. pose proof (fe_lt v) as B.
  rewrite of_le_to_le in H by (change (256 ^ N.of_nat 32) with (2 ^ 256); unfold Crypto.p25519 in B; lia).
  apply (dh_nonzero zeros32 sk). rewrite (inverse_twin _ _ (pub_len _ real_crypto_ok sk) LV PR zeros32).
  exact (proj2 (zero_exact zeros32 _ v (dec_enc v)) (low_reduced _ H B)).
Qed.
Theorem inverse_not_generated : forall sk pk, (u_value (c_pub real_crypto sk) * u_value pk) mod SpecNoise.p25519 = 1 -> forall sk', c_pub real_crypto sk' <> pk.
Proof.
  intros sk pk PR sk' E. subst pk. assert (G : c_pub real_crypto sk = c_pub real_crypto sk').
  { apply (generated_alone _ _ zeros32). apply inverse_twin; [apply (pub_len _ real_crypto_ok)|apply (pub_len _ real_crypto_ok)|exact PR]. }
  rewrite <- G in PR. destruct (pub_u sk) as (u & _ & UV & _ & N1 & N2). rewrite UV in PR.
  destruct (square_one u) as [Q|Q]; [apply fe_eq; rewrite fv_mul; exact PR|exact (N1 Q)|exact (N2 Q)].
Qed.
Theorem impostor : forall ksr pk, len ksr = 32 -> len pk = 32 -> public_key_from_bytes pk = Ok pk -> (u_value (c_pub real_crypto ksr) * u_value pk) mod SpecNoise.p25519 = 1 ->
  forall pro ksi kei ker rnd1 rnd2 I0 R0 b1 b2, len ksi = 32 -> len kei = 32 -> len ker = 32 ->
  started real_crypto true pro (real_pair ksi) rnd1 (real_pair kei) I0 ->
  started real_crypto false pro (mkKeypair ksr pk) rnd2 (real_pair ker) R0 ->
  48 <= len b1 <= 65535 -> 96 <= len b2 <= 2128 ->
  let x1 := send_message real_crypto rnd1 I0 b1 in
  let x2 := recv_message real_crypto R0 (out x1) in
  let x3 := send_message real_crypto rnd2 (st x2) b2 in
  let x4 := recv_message real_crypto (st x1) (out x3) in
  ~ In zeros32 (nx_keys real_crypto pro (mkKeypair ksr pk) (real_pair ker) (out x1) (payload2 b2)) ->
  (forall sk, c_pub real_crypto sk <> pk) /\
  res x4 = Ok tt /\ is_transport (st x4) = true /\ get_remote_static_public_key (st x4) = Some pk /\
  se_cs1 (st x3) = se_cs1 (st x4) /\ se_cs2 (st x3) = se_cs2 (st x4).
Proof.
  intros ksr pk LR LP AC PR pro ksi kei ker rnd1 rnd2 I0 R0 b1 b2 L1 L3 L4 SI SR B1 B2 x1 x2 x3 x4 NK. split; [exact (inverse_not_generated ksr pk PR)|].
  assert (NL : ~ low_order pk) by (apply from_bytes_exact; assumption).
  pose proof (inverse_twin _ _ (pub_len _ real_crypto_ok ksr) LP PR) as TW.
  assert (K : forall k, len k = 32 -> keypair_ok (real_pair k)) by (intros k H; split; [exact H|apply (pub_len _ real_crypto_ok)]).
  assert (HO : honest real_crypto pro (real_pair ksi) (mkKeypair ksr pk) (real_pair kei) (real_pair ker) rnd1 rnd2 I0 R0).
  { constructor; [apply K, L1|split; [exact LR|exact LP]|apply K, L3|apply K, L4|exact SI|exact SR|exact (public_not_low kei)|exact (public_not_low ker)|exact NL|apply real_agree|].
    unfold dh_agree. cbn [kp_public kp_private real_pair]. rewrite <- TW. exact (real_agree kei ksr). }
  destruct (agreement real_crypto real_crypto_ok pro _ _ _ _ rnd1 rnd2 I0 R0 b1 b2 HO B1 B2 NK) as (_ & _ & _ & R4 & _ & T4 & _ & G & C1 & C2 & _).
  split; [exact R4|]. split; [exact T4|]. split; [exact G|]. split; [exact C1|exact C2].
Qed.
