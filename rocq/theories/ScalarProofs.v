(** * ScalarProofs: public keys and shared secrets determine the private scalar, up to its partner. *)
From Coq Require Import ZArith Znumtheory Lia ZifyBool ZifyNat ZifyN Ring Field.
From Verif Require Import GroupOrder Base SpecWire BaseFacts Noise Crypto CryptoFacts SpecNoise X25519Facts Edwards Field25519 LadderProofs TwistProofs KeyProofs
  Certs FiniteGroup SpecSession Ed25519 EdCurve EdProofs EdExact CurveOrder ZeroSecret SigProofs SpecScalar.
Open Scope N_scope.
Add Field FE : fe_field.
Local Opaque fmul fadd fsub finv Edwards.smul Edwards.add sha512.

Lemma clamp_plain : forall v, clamp v = 2 ^ 254 + 8 * (v / 8 mod 2 ^ 251).
Proof.
  intro v. set (x := v / 8 mod 2 ^ 251).
  assert (B : forall i, N.testbit (8 * x) i = if i <? 3 then false else if i <? 254 then N.testbit v i else false).
  { intro i. change 8 with (2 ^ 3). rewrite (N.mul_comm (2 ^ 3)). destruct (i <? 3) eqn:I3; [apply N.mul_pow2_bits_low; lia|].
    rewrite N.mul_pow2_bits_high by lia. unfold x. destruct (i <? 254) eqn:I.
    - rewrite N.mod_pow2_bits_low by lia. change 8 with (2 ^ 3). rewrite N.div_pow2_bits. f_equal. lia.
    - apply N.mod_pow2_bits_high. lia. }
  assert (D : N.land (2 ^ 254) (8 * x) = 0).
  { apply N.bits_inj_0. intro i. rewrite N.land_spec, N.pow2_bits_eqb, B. destruct (254 =? i) eqn:E; [|reflexivity].
    apply N.eqb_eq in E. subst i. reflexivity. }
  rewrite N.add_nocarry_lxor, N.lxor_lor by exact D. unfold clamp. apply N.bits_inj. intro i.
  rewrite !N.lor_spec, N.ldiff_spec, N.land_spec, N.pow2_bits_eqb, B. change 7 with (N.ones 3).
  destruct (254 =? i) eqn:E; [rewrite orb_true_r; reflexivity|]. rewrite orb_false_r. cbn [orb].
  assert (K : forall n, N.testbit (N.ones n) i = (i <? n)).
  { intro n. destruct (i <? n) eqn:Q; [apply N.ones_spec_low; lia|apply N.ones_spec_high; lia]. }
  rewrite !K. destruct (i <? 3) eqn:I3; [rewrite andb_false_r; reflexivity|]. cbn [negb]. rewrite andb_true_r.
  destruct (i <? 254) eqn:I; [replace (i <? 255) with true by lia; apply andb_true_r|replace (i <? 255) with false by lia; apply andb_false_r].
Qed.
Lemma clamp_scalar : forall sk, len sk = 32 -> clamp (of_le (firstn 32 sk)) = scalar sk.
Proof. intros sk L. rewrite firstn_all2 by (unfold len in L; lia). rewrite clamp_plain, of_le_spec_val. reflexivity. Qed.
(** Eighths of scalars. *)
Definition eighth (sk : bytes) : N := 2 ^ 251 + (spec_val (wire sk) / 8 mod 2 ^ 251).
Lemma scalar_eighth : forall sk, scalar sk = 8 * eighth sk.
Proof. intro sk. unfold scalar, eighth. change (2 ^ 254) with (8 * 2 ^ 251). lia. Qed.
Lemma eighth_bound : forall sk, 2 ^ 251 <= eighth sk < 2 ^ 252.
Proof. intro sk. unfold eighth. pose proof (N.mod_lt (spec_val (wire sk) / 8) (2 ^ 251) ltac:(discriminate)). change (2 ^ 252) with (2 ^ 251 + 2 ^ 251). lia. Qed.

Section Gen.
Variable c : fe.
Hypothesis nonsquare : forall s, mul s s <> c.
Notation con := (Edwards.on fe f1 add mul sub c).
Notation cadd := (Edwards.add fe add mul sub div c).
Notation csmul := (Edwards.smul fe f0 f1 add mul sub div c).
Let on_add := Edwards.on_add fe _ _ _ _ _ _ _ _ fe_field fe_dec c nonsquare two_nz.
Let on_smul := Edwards.on_smul fe _ _ _ _ _ _ _ _ fe_field fe_dec c nonsquare two_nz.
Let smul_add := Edwards.smul_add fe _ _ _ _ _ _ _ _ fe_field fe_dec c nonsquare two_nz.
Let smul_mul := Edwards.smul_mul fe _ _ _ _ _ _ _ _ fe_field fe_dec c nonsquare two_nz.
Let assoc := Edwards.add_assoc fe _ _ _ _ _ _ _ _ fe_field fe_dec c nonsquare two_nz.
Let zero_r := Edwards.add_zero_r fe _ _ _ _ _ _ _ _ fe_field c nonsquare.
Let zero_l := Edwards.add_zero_l fe _ _ _ _ _ _ _ _ fe_field c nonsquare.
Let comm := Edwards.add_comm fe _ _ _ _ _ _ _ _ fe_field c.
Let on_opp := Edwards.on_opp fe _ _ _ _ _ _ _ _ fe_field c.
Let opp_r := Edwards.add_opp_r fe _ _ _ _ _ _ _ _ fe_field fe_dec c nonsquare two_nz.
Lemma enc_same : forall P Q, con P -> con Q -> enc P <> f0 -> enc P = enc Q -> P = Q \/ P = popp Q.
Proof.
  intros [x y] [x' y'] HP HQ NZ E. assert (Y : y = y').
  { assert (N1 : sub f1 y <> f0) by (intro Z; apply NZ; unfold enc; cbn [snd]; rewrite Z, inv_f0; ring).
    assert (N2 : sub f1 y' <> f0) by (intro Z; apply NZ; rewrite E; unfold enc; cbn [snd]; rewrite Z, inv_f0; ring).
    unfold enc in E. cbn [snd] in E. apply (y_of_u (mul (add f1 y) (inv (sub f1 y)))); [field; exact N1|rewrite E; field; exact N2]. }
  subst y'. apply (con_xx c x y nonsquare) in HP. apply (con_xx c x' y nonsquare) in HQ. rewrite <- HQ in HP.
  assert (Z : mul (sub x x') (sub x (opp x')) = f0) by (transitivity (sub (mul x x) (mul x' x')); [ring|rewrite HP; ring]).
  unfold Edwards.opp. cbn [fst snd]. destruct (g_mul_zero _ _ Z) as [W|W]; apply g_sub_zero in W; subst x; auto.
Qed.
Lemma c_multiple : forall n P k, con P -> csmul n P = pzero -> csmul (k * n) P = pzero.
Proof. intros n P k HP H. rewrite smul_mul, H by exact HP. apply (Edwards.smul_zero_point fe _ _ _ _ _ _ _ _ fe_field c nonsquare). Qed.
Lemma c_opp : forall P Q, con P -> con Q -> cadd P Q = pzero -> P = popp Q.
Proof.
  intros P Q HP HQ E. apply (f_equal (fun X => cadd X (popp Q))) in E. rewrite (assoc P Q (popp Q) HP HQ (on_opp _ HQ)), opp_r, zero_r, zero_l in E by exact HQ. exact E.
Qed.
Lemma c_gap : forall P a b, con P -> a <= b -> csmul a P = csmul b P -> csmul (b - a) P = pzero.
Proof.
  intros P a b HP L E. replace b with ((b - a) + a) in E at 1 by lia. rewrite smul_add in E by exact HP.
  apply (f_equal (fun X => cadd X (popp (csmul a P)))) in E. pose proof (on_smul a P HP) as HA.
  rewrite assoc, opp_r, zero_r in E by auto. symmetry. exact E.
Qed.
Variables (P : point) (l : N).
Hypotheses (HP : con P) (PL : prime (Z.of_N l)) (L2 : 2 < l) (KL : csmul (8 * l) P = pzero) (N8 : csmul 8 P <> pzero).
Lemma c_reduce : forall n, csmul (8 * n) P = csmul (8 * (n mod l)) P.
Proof.
  intro n. rewrite (N.div_mod n l) at 1 by lia. replace (8 * (l * (n / l) + n mod l)) with (n / l * (8 * l) + 8 * (n mod l)) by lia.
  rewrite smul_add, (c_multiple _ _ _ HP KL) by exact HP. apply zero_l.
Qed.
Lemma c_kills : forall n, csmul (8 * n) P = pzero -> n mod l = 0.
Proof.
  intros n E. destruct (N.eq_dec (n mod l) 0) as [|NE]; [assumption|]. exfalso. apply N8. rewrite c_reduce in E.
  assert (D : 0 < n mod l < l) by (pose proof (N.mod_lt n l ltac:(lia)); lia). set (d := n mod l) in *. clearbody d.
  destruct (prime_inverse l d PL L2 D) as (u & w & Q). pose proof (c_multiple _ _ (u * 4) HP E) as Z.
  replace (u * 4 * (8 * d)) with (8 + w * (8 * l)) in Z by lia. rewrite smul_add, (c_multiple _ _ _ HP KL), zero_r in Z by exact HP. exact Z.
Qed.
Theorem same_u_iff : forall m m', enc (csmul (8 * m) P) <> f0 ->
  (enc (csmul (8 * m) P) = enc (csmul (8 * m') P) <-> m mod l = m' mod l \/ (m + m') mod l = 0).
Proof.
  intros m m' NZ. pose proof (on_smul (8 * m) P HP) as H1. pose proof (on_smul (8 * m') P HP) as H2. split.
  - intro E. destruct (enc_same _ _ H1 H2 NZ E) as [Q|Q].
    + left. assert (G : forall a b, a <= b -> csmul (8 * a) P = csmul (8 * b) P -> a mod l = b mod l).
      { intros a b LE EQ. apply c_gap in EQ; [|exact HP|lia]. replace (8 * b - 8 * a) with (8 * (b - a)) in EQ by lia. apply c_kills in EQ.
        apply N.mod_divide in EQ; [|lia]. destruct EQ as [q EQ]. replace b with (a + q * l) by lia. rewrite N.mod_add by lia. reflexivity. }
      destruct (N.le_ge_cases m m'); [|symmetry]; auto.
    + right. apply c_kills. rewrite N.mul_add_distr_l, smul_add by exact HP. rewrite Q, comm. apply opp_r. exact H2.
  - intros [Q|Q].
    + rewrite (c_reduce m), (c_reduce m'), Q. reflexivity.
    + assert (Z : csmul (8 * (m + m')) P = pzero).
      { rewrite c_reduce, Q. reflexivity. }
      rewrite N.mul_add_distr_l, smul_add in Z by exact HP. rewrite (c_opp _ _ H1 H2 Z). reflexivity.
Qed.
End Gen.

Lemma lt_mod_eq : forall a b l, a < l -> b < l -> a mod l = b mod l -> a = b.
Proof. intros a b l A B E. rewrite !N.mod_small in E by assumption. exact E. Qed.
Lemma sum_mod : forall a l, l <= a + l -> 0 < a -> a < 2 * l -> a mod l = 0 -> a = l.
Proof.
  intros a l _ P0 B E. apply N.mod_divide in E; [|lia]. destruct E as [q ->]. assert (q = 1) by nia. lia.
Qed.
Lemma eighths : forall l sk sk', 2 ^ 252 <= l -> (eighth sk mod l = eighth sk' mod l \/ (eighth sk + eighth sk') mod l = 0) <->
  scalar sk = scalar sk' \/ scalar sk + scalar sk' = 8 * l.
Proof.
  intros l sk sk' B. rewrite !scalar_eighth. pose proof (eighth_bound sk) as H. pose proof (eighth_bound sk') as H'.
  set (a := eighth sk) in *. set (b := eighth sk') in *. clearbody a b. change (2 ^ 252) with (2 * 2 ^ 251) in *. set (t := 2 ^ 251) in *. clearbody t.
  split; intros [E|E].
  - left. f_equal. apply (lt_mod_eq a b l); lia.
  - right. apply sum_mod in E; lia.
  - left. f_equal. lia.
  - right. replace (a + b) with l by lia. apply N.mod_same. lia.
Qed.
Lemma to_le_fe : forall f g : fe, to_le 32 (fv f) = to_le 32 (fv g) <-> f = g.
Proof.
  intros f g. split; [|intros ->; reflexivity]. intro H. apply fe_eq. pose proof (fe_lt f) as B. pose proof (fe_lt g) as B'.
  rewrite <- (of_le_to_le 32 (fv f)), <- (of_le_to_le 32 (fv g)), H by (change (256 ^ N.of_nat 32) with (2 ^ 256); unfold Crypto.p25519 in *; lia). reflexivity.
Qed.

(** ** Shared secrets *)
Theorem secret_exact : forall pk, ~ In (spec_val (wire pk) mod 2 ^ 255) zero_encodings -> len pk = 32 ->
  exists l, (l = order_curve \/ l = order_twist) /\ forall sk sk', len sk = 32 -> len sk' = 32 ->
    (c_dh real_crypto sk pk = c_dh real_crypto sk' pk <-> scalar sk = scalar sk' \/ scalar sk + scalar sk' = 8 * l).
Proof.
  intros pk NZ LP. assert (NS : forall sk, x25519 sk pk <> zeros32) by (intros sk H; apply NZ; apply (zero_secret_exact sk pk LP); exact H).
  cbn [c_dh real_crypto]. assert (U : exists u : fe, dec pk = fv u).
  { destruct (y_of (firstn 32 pk)) as [y Y]. exists y. exact Y. }
  destruct U as [u D]. destruct (fe_dec u f0) as [Z|NU].
  { exfalso. apply (NS zeros32). apply (zero_exact _ _ _ D). rewrite Z. left. reflexivity. }
  destruct (lift u NU) as [(P & HP & HU)|(P & HP & HU)].
  - exists order_curve. split; [left; reflexivity|]. intros sk sk' L L'. pose proof (NS sk) as N1.
    rewrite (x25519_smul sk pk P u HP NU HU D), to_le_zero in N1. rewrite (x25519_smul sk pk P u HP NU HU D), (x25519_smul sk' pk P u HP NU HU D), to_le_fe.
    rewrite !clamp_scalar, !scalar_eighth in * by assumption.
    assert (N8 : smul 8 P <> pzero).
    { intro Z. apply N1. rewrite N.mul_comm, (smul_multiple 8 P _ HP Z). apply tiny_enc. split; [reflexivity|]. cbn [snd Edwards.zero]. ring. }
    rewrite (same_u_iff cc cc_nonsquare P order_curve HP prime_L ltac:(reflexivity) (proj1 orders_kill P HP) N8 _ _ N1).
    rewrite <- !scalar_eighth. apply eighths. discriminate.
  - exists order_twist. split; [right; reflexivity|]. intros sk sk' L L'. pose proof (NS sk) as N1.
    rewrite (x25519_twist sk pk P u HP NU HU D), to_le_zero, opp_zero in N1. rewrite (x25519_twist sk pk P u HP NU HU D), (x25519_twist sk' pk P u HP NU HU D), to_le_fe.
    rewrite !clamp_scalar, !scalar_eighth in * by assumption.
    assert (N8 : tsmul 8 P <> pzero).
    { intro Z. apply N1. rewrite N.mul_comm, (t_multiple 8 P _ HP Z). apply tiny_enc. split; [reflexivity|]. cbn [snd Edwards.zero]. ring. }
    assert (K8 : tsmul (8 * order_twist) P = pzero).
    { change (8 * order_twist) with (2 * (4 * l2_25519)). apply t_multiple; [exact HP|]. exact (proj2 orders_kill P HP). }
    pose proof (same_u_iff tc tc_nonsquare P order_twist HP prime_L2 ltac:(reflexivity) K8 N8 _ (eighth sk') N1) as S.
    rewrite <- !scalar_eighth in *. rewrite <- eighths by discriminate. rewrite <- S. clear. set (a := enc _). set (b := enc _).
    split; intro H; [|rewrite H; reflexivity]. transitivity (opp (opp a)); [ring|]. rewrite H. ring.
Qed.
Theorem public_exact : forall sk sk', len sk = 32 -> len sk' = 32 ->
  (c_pub real_crypto sk = c_pub real_crypto sk' <-> scalar sk = scalar sk' \/ scalar sk + scalar sk' = 8 * order_curve).
Proof.
  intros sk sk' L L'. cbn [c_pub real_crypto]. rewrite !base_enc, to_le_fe. rewrite !clamp_scalar, !scalar_eighth by assumption.
  assert (NZ : enc (smul (8 * eighth sk) basept) <> f0).
  { intro Z. apply (derived_order sk). apply low_u_small; [apply derived_on|]. unfold derived. rewrite clamp_scalar, scalar_eighth by assumption.
    rewrite Z. left. reflexivity. }
  assert (N8 : smul 8 basept <> pzero).
  { intro Z. apply NZ. rewrite N.mul_comm, (smul_multiple 8 basept _ on_base Z). apply tiny_enc. split; [reflexivity|]. cbn [snd Edwards.zero]. ring. }
  rewrite (same_u_iff cc cc_nonsquare basept order_curve on_base prime_L ltac:(reflexivity) (proj1 orders_kill basept on_base) N8 _ _ NZ).
  rewrite <- !scalar_eighth. apply eighths. discriminate.
Qed.
(** A scalar with a partner is close to an end of the range. *)
Lemma scalar_bound : forall sk, 2 ^ 254 <= scalar sk < 2 ^ 255.
Proof. intro sk. rewrite scalar_eighth. pose proof (eighth_bound sk). change (2 ^ 254) with (8 * 2 ^ 251). change (2 ^ 255) with (8 * 2 ^ 252). lia. Qed.
Theorem partner_rare : forall sk sk', (scalar sk + scalar sk' = 8 * order_curve -> scalar sk < 2 ^ 254 + 2 ^ 128) /\
  (scalar sk + scalar sk' = 8 * order_twist -> 2 ^ 255 - 2 ^ 129 < scalar sk).
Proof.
  intros sk sk'. pose proof (scalar_bound sk). pose proof (scalar_bound sk'). unfold order_curve, order_twist. split; intro E; lia.
Qed.
(** ** Ed25519 *)
Lemma cancel_mod : forall p c x y, prime (Z.of_N p) -> (Z.of_N c mod Z.of_N p <> 0)%Z -> x <= y -> y < p -> (x * c) mod p = (y * c) mod p -> x = y.
Proof.
  intros p c x y PP NC LE LT M. pose proof (prime_ge_2 _ PP) as G. apply (f_equal Z.of_N) in M. rewrite !N2Z.inj_mod, !N2Z.inj_mul in M by lia.
  assert (DV : (Z.of_N p | (Z.of_N y - Z.of_N x) * Z.of_N c)%Z).
  { apply Z.mod_divide; [lia|]. rewrite Z.mul_sub_distr_r, Zminus_mod, M, Z.sub_diag. apply Z.mod_0_l. lia. }
  apply prime_mult in DV; [|exact PP]. destruct DV as [DV|DV].
  - destruct (N.eq_dec x y) as [|NE]; [assumption|]. apply Z.divide_pos_le in DV; lia.
  - apply Z.mod_divide in DV; [destruct (NC DV)|lia].
Qed.
Theorem authority_exact : forall seed seed', ek_public (ed_generate seed) = ek_public (ed_generate seed') <->
  scalar (firstn 32 (sha512 seed)) = scalar (firstn 32 (sha512 seed')).
Proof.
  assert (K : forall seed, ed_scalar seed = 8 * eighth (firstn 32 (sha512 seed))).
  { intro seed. unfold ed_scalar. rewrite <- scalar_eighth, clamp_plain, of_le_spec_val. reflexivity. }
  intros seed seed'. cbn [ek_public ed_generate]. rewrite !public_encp. rewrite !scalar_eighth. split.
  - intro E. apply encp_inj in E; [|apply key_on|apply key_on]. unfold key_point in E. apply base_inj in E. rewrite !K in E.
    rewrite !(N.mul_comm 8) in E. f_equal. pose proof (eighth_bound (firstn 32 (sha512 seed))) as B. pose proof (eighth_bound (firstn 32 (sha512 seed'))) as B'.
    assert (LA : eighth (firstn 32 (sha512 seed)) < ed_order) by (eapply N.lt_trans; [apply B|reflexivity]).
    assert (LB : eighth (firstn 32 (sha512 seed')) < ed_order) by (eapply N.lt_trans; [apply B'|reflexivity]).
    assert (P8 : (Z.of_N 8 mod Z.of_N ed_order <> 0)%Z) by discriminate. assert (PL : prime (Z.of_N ed_order)) by exact prime_L.
    destruct (N.le_ge_cases (eighth (firstn 32 (sha512 seed))) (eighth (firstn 32 (sha512 seed')))) as [LE|LE];
      [exact (cancel_mod _ 8 _ _ PL P8 LE LB E)|symmetry; exact (cancel_mod _ 8 _ _ PL P8 LE LA (eq_sym E))].
  - intro E. unfold key_point. rewrite !K, E. reflexivity.
Qed.
(** ** How many private keys have the same public key *)
Lemma same_scalar_bits : forall sk sk', len sk = 32 -> len sk' = 32 -> scalar sk = scalar sk' ->
  spec_val (wire sk) mod 8 = spec_val (wire sk') mod 8 -> spec_val (wire sk) / 2 ^ 254 = spec_val (wire sk') / 2 ^ 254 -> sk = sk'.
Proof.
  intros sk sk' L L' E A B. rewrite <- (to_le_of_le sk), <- (to_le_of_le sk'). replace (length sk') with (length sk) by (unfold len in *; lia). f_equal.
  unfold scalar in E. rewrite <- !of_le_spec_val in *. set (v := of_le sk) in *. set (w := of_le sk') in *. clearbody v w.
  change (2 ^ 254) with (8 * 2 ^ 251) in *. rewrite <- !N.div_div in B by discriminate.
  rewrite (N.div_mod v 8), (N.div_mod w 8), A by discriminate. f_equal. f_equal.
  rewrite (N.div_mod (v / 8) (2 ^ 251)), (N.div_mod (w / 8) (2 ^ 251)), B by discriminate. f_equal. lia.
Qed.
Theorem few_private_keys : forall pub l, NoDup l -> (forall sk, In sk l -> len sk = 32 /\ c_pub real_crypto sk = pub) -> len l <= 64.
Proof.
  intros pub l ND H. destruct l as [|s0 l0]; [discriminate|]. set (l := s0 :: l0) in *.
  set (f := fun sk : bytes => (spec_val (wire sk) mod 8, spec_val (wire sk) / 2 ^ 254, scalar sk =? scalar s0)).
  assert (B4 : forall sk, len sk = 32 -> spec_val (wire sk) / 2 ^ 254 < 4).
  { intros sk L. rewrite <- of_le_spec_val. pose proof (of_le_bound sk) as B. rewrite L in B. change (256 ^ 32) with (2 ^ 254 * 4) in B.
    apply N.div_lt_upper_bound; [discriminate|exact B]. }
  assert (I : forall a b, In a l -> In b l -> f a = f b -> a = b).
  { intros a b Ia Ib E. unfold f in E. injection E as E1 E2 E3. destruct (H a Ia) as [La Pa], (H b Ib) as [Lb Pb]. destruct (H s0 (or_introl eq_refl)) as [L0 P0].
    apply same_scalar_bits; try assumption. destruct (scalar a =? scalar s0) eqn:Q; [lia|].
    rewrite <- P0 in Pa, Pb. apply public_exact in Pa; [|assumption|assumption]. apply public_exact in Pb; [|assumption|assumption]. lia. }
  set (r8 := [0;1;2;3;4;5;6;7]). set (r4 := [0;1;2;3]).
  set (all := flat_map (fun x => flat_map (fun y => [(x, y, true); (x, y, false)]) r4) r8).
  assert (IN : incl (map f l) all).
  { intros z Iz. apply in_map_iff in Iz. destruct Iz as (a & <- & Ia). destruct (H a Ia) as [La _]. unfold f, all.
    apply in_flat_map. exists (spec_val (wire a) mod 8). split.
    - pose proof (N.mod_lt (spec_val (wire a)) 8 ltac:(discriminate)). unfold r8. cbn [In]. lia.
    - apply in_flat_map. exists (spec_val (wire a) / 2 ^ 254). split; [pose proof (B4 a La); unfold r4; cbn [In]; lia|].
      destruct (_ =? _); cbn [In]; auto. }
  assert (NM : NoDup (map f l)) by (apply nodup_map_in; [exact ND|exact I]).
  pose proof (NoDup_incl_length NM IN) as LE. rewrite map_length in LE. change (length all) with 64%nat in LE. unfold len. lia.
Qed.
(** ** First messages *)
Theorem first_message_fresh : forall pro pro' si si' rnd rnd' b b', len rnd = 32 -> len rnd' = 32 ->
  let x := send_message real_crypto rnd (init_session real_crypto true pro si) b in
  let x' := send_message real_crypto rnd' (init_session real_crypto true pro' si') b' in
  res x = Ok tt -> res x' = Ok tt ->
  (firstn 32 (out x) = firstn 32 (out x') <-> scalar rnd = scalar rnd' \/ scalar rnd + scalar rnd' = 8 * order_curve).
Proof.
  intros pro pro' si si' rnd rnd' b b' L L' x x' R R'.
  assert (F : forall pro si rnd b, res (send_message real_crypto rnd (init_session real_crypto true pro si) b) = Ok tt ->
    firstn 32 (out (send_message real_crypto rnd (init_session real_crypto true pro si) b)) = c_pub real_crypto rnd).
  { clear. intros pro si rnd b. unfold send_message. destruct (_ || _); [discriminate|]. cbn [init_session se_mc N.eqb se_hs initialize_initiator].
    unfold write_message_a. destruct (len b <? 32); [discriminate|]. intros _. unfold ensure_ephemeral. cbn [hs_e keypair_is_empty keypair_empty kp_private].
    change (is_zero_key EMPTY_KEY) with true. cbn iota. unfold out, res, st. cbn [fst snd hs_set_e hs_e keypair_default kp_public].
    pose proof (pub_len _ real_crypto_ok rnd) as PLN. pose proof (firstn_len_app _ (c_pub real_crypto rnd) (skipn DHLEN b)) as FL. rewrite PLN in FL. exact FL. }
  unfold x, x'. rewrite !F by assumption. apply public_exact; assumption.
Qed.
