(** * SigProofs: what a signature is bound to. *)
From Coq Require Import ZArith Znumtheory Lia ZifyBool ZifyNat ZifyN Ring Field.
From Verif Require Import GroupOrder Base SpecWire BaseFacts Codec Types SpecTypes Noise Crypto CryptoFacts SpecNoise X25519Facts Edwards Field25519 LadderProofs KeyProofs Certs SpecCerts
  Base58Facts CertProofs Ed25519 SpecEd EdCurve EdProofs EdExact CurveOrder ZeroSecret SpecSig.
Open Scope N_scope.
Add Field FE : fe_field.
Local Opaque fmul fadd fsub finv Edwards.smul Edwards.add sha512.

Lemma erep_same : forall e P Q, erep e P -> erep e Q -> P = Q.
Proof.
  intros e [x y] [x' y'] (X & Y & Z & T & -> & NZ & HX & HY & _) (X' & Y' & Z' & T' & E & NZ' & HX' & HY' & _).
  cbn [fst snd] in *. injection E as E1 E2 E3 _. apply fe_eq in E1, E2, E3. subst X' Y' Z'. f_equal.
  - transitivity (div (mul x Z) Z); [field; exact NZ|]. rewrite <- HX, HX'. field. exact NZ.
  - transitivity (div (mul y Z) Z); [field; exact NZ|]. rewrite <- HY, HY'. field. exact NZ.
Qed.
Lemma encp_inj : forall P Q, on P -> on Q -> encp P = encp Q -> P = Q.
Proof.
  intros P Q HP HQ E. destruct (decompress_encp P HP) as (e & D & R). destruct (decompress_encp Q HQ) as (e' & D' & R').
  rewrite E, D' in D. injection D as <-. exact (erep_same _ _ _ R R').
Qed.
Lemma g_cancel : forall P Q R, on P -> on Q -> on R -> padd P R = padd Q R -> P = Q.
Proof.
  intros P Q R HP HQ HR E. apply (f_equal (fun X => padd X (popp R))) in E.
  rewrite (g_assoc P R (popp R) HP HR (g_on_opp _ HR)), (g_assoc Q R (popp R) HQ HR (g_on_opp _ HR)), g_opp_r, !g_zero_r in E by exact HR. exact E.
Qed.
Lemma popp_popp : forall P, popp (popp P) = P.
Proof. intros [x y]. unfold Edwards.opp. cbn [fst snd]. f_equal. ring. Qed.
Lemma popp_inj : forall P Q, popp P = popp Q -> P = Q.
Proof. intros P Q E. rewrite <- (popp_popp P), <- (popp_popp Q), E. reflexivity. Qed.
Lemma smul_gap : forall P a b, on P -> a <= b -> smul a P = smul b P -> smul (b - a) P = pzero.
Proof.
  intros P a b HP L E. replace b with ((b - a) + a) in E at 1 by lia. rewrite g_smul_add in E by exact HP.
  symmetry. apply (g_cancel _ _ (smul a P)); try (apply g_on_smul, HP); [exact g_on_zero|]. rewrite g_zero_l. exact E.
Qed.
(** Multiples of the base point are equal exactly modulo the order. *)
Lemma base_zero : forall n, smul n ebase = pzero -> n mod ed_order = 0.
Proof.
  intros n H. destruct (N.eq_dec (n mod ed_order) 0) as [E|NE]; [exact E|]. exfalso.
  apply (not_low_order_multiple n).
  - intro Z. apply NE. change L with (Z.of_N ed_order) in Z. rewrite <- N2Z.inj_mod in Z by discriminate. lia.
  - assert (B : smul n basept = pzero).
    { apply popp_inj. rewrite <- (Edwards.smul_opp fe _ _ _ _ _ _ _ _ fe_field fe_dec cc cc_nonsquare two_nz n basept on_base).
      rewrite <- ebase_opp, H. unfold Edwards.opp, Edwards.zero. cbn [fst snd]. f_equal. ring. }
    rewrite (g_smul_mul 8 n basept on_base), B. apply (Edwards.smul_zero_point fe _ _ _ _ _ _ _ _ fe_field cc cc_nonsquare).
Qed.
Lemma base_inj : forall a b, smul a ebase = smul b ebase -> a mod ed_order = b mod ed_order.
Proof.
  assert (H : forall a b, a <= b -> smul a ebase = smul b ebase -> a mod ed_order = b mod ed_order).
  { intros a b L E. apply smul_gap in E; [|exact on_ebase|exact L]. apply base_zero in E.
    apply N.mod_divide in E; [|discriminate]. destruct E as [q Q]. replace b with (a + q * ed_order) by lia.
    rewrite N.mod_add by discriminate. reflexivity. }
  intros a b E. destruct (N.le_ge_cases a b); [auto|]. symmetry. auto.
Qed.

(** ** The points of small order *)
Lemma enc_of : forall P u, mul u (sub f1 (snd P)) = add f1 (snd P) -> enc P = u.
Proof.
  intros P u HU. assert (NZ : sub f1 (snd P) <> f0).
  { intro Z. rewrite Z in HU. apply two_nz. transitivity (add (sub f1 (snd P)) (add f1 (snd P))); [ring|]. rewrite Z, <- HU. ring. }
  unfold enc. rewrite <- HU. field. exact NZ.
Qed.
Lemma y_of_u : forall u y y', mul u (sub f1 y) = add f1 y -> mul u (sub f1 y') = add f1 y' -> y = y'.
Proof.
  intros u y y' U U'. apply g_sub_zero. assert (Z : mul (add f1 u) (sub y y') = f0).
  { transitivity (sub (sub (add f1 y) (mul u (sub f1 y))) (sub (add f1 y') (mul u (sub f1 y')))); [ring|]. rewrite U, U'. ring. }
  destruct (g_mul_zero _ _ Z) as [W|W]; [|exact W]. exfalso. apply two_nz.
  transitivity (sub (add f1 y) (mul u (sub f1 y))); [|rewrite U; ring].
  transitivity (add (add f1 y) (sub (sub f1 y) (mul (add f1 u) (sub f1 y)))); [rewrite W|]; ring.
Qed.
Lemma small_iff : forall P, on P -> (smul 8 P = pzero <-> snd P = f0 \/ snd P = f1 \/ snd P = opp f1 \/ snd P = y8 \/ snd P = opp y8).
Proof.
  intros P HP. set (y := snd P). split.
  - intro E. destruct (fe_dec y f1) as [Y|NY]; [auto|]. assert (NZ : sub f1 y <> f0).
    { intro Z. apply NY. symmetry. apply g_sub_zero. exact Z. }
    set (u := div (add f1 y) (sub f1 y)). assert (HU : mul u (sub f1 y) = add f1 y) by (unfold u; field; exact NZ).
    destruct (fe_dec u f0) as [Z|NU].
    + right. right. left. rewrite Z in HU. apply g_sub_zero. transitivity (add f1 y); [ring|]. rewrite <- HU. ring.
    + destruct (eight_torsion P u HP NU HU E) as [-> |[-> | ->]].
      * left. apply (y_of_u _ _ _ HU). ring.
      * right. right. right. left. exact (y_of_u _ _ _ HU ua_y8).
      * right. right. right. right. exact (y_of_u _ _ _ HU ub_y8).
  - intro Y. apply low_u_small; [exact HP|]. apply low_u_fe. destruct Y as [Y|[Y|[Y|[Y|Y]]]].
    + right. left. apply enc_of. fold y. rewrite Y. ring.
    + left. unfold enc. fold y. rewrite Y. replace (sub f1 f1) with f0 by ring. rewrite inv_f0. ring.
    + left. apply enc_of. fold y. rewrite Y. ring.
    + right. right. left. apply enc_of. fold y. rewrite Y. exact ua_y8.
    + right. right. right. left. apply enc_of. fold y. rewrite Y. exact ub_y8.
Qed.
Lemma weak_small : forall pk x y, reads pk x y -> (weak pk <-> smul 8 (mul im x, y) = pzero).
Proof.
  intros pk x y (O & Y & _). rewrite small_iff by (apply on_of_xy, O). cbn [snd]. unfold weak.
  replace (spec_val (wire pk) mod 2 ^ 255 mod SpecNoise.p25519) with (fv y).
  2: { rewrite <- Y, <- of_le_spec_val, N.land_ones. assert (of_le pk mod 2 ^ 255 < 2 ^ 255) by (apply N.mod_lt; discriminate).
       rewrite redc_mod by (unfold p25519; lia). reflexivity. }
  unfold weak_ys. cbv zeta. cbn [In].
  assert (M1 : fv (opp f1) = SpecNoise.p25519 - 1) by (vm_compute; reflexivity).
  assert (M8 : fv (opp y8) = SpecNoise.p25519 - fv y8) by (vm_compute; reflexivity).
  split.
  - intros [H|[H|[H|[H|[H|[]]]]]]; [left|right; left|do 2 right; left|do 3 right; left|do 4 right]; apply fe_eq; rewrite <- H; [| |rewrite M1| |rewrite M8]; reflexivity.
  - intros [-> |[-> |[-> |[-> | ->]]]]; [left|right; left|do 2 right; left|do 3 right; left|do 4 right; left]; [| |rewrite M1| |rewrite M8]; reflexivity.
Qed.

(** ** Verification with the point of the key *)
Lemma verify_point : forall pk m sig x y, reads pk x y -> let A := (mul im x, y) in
  ed25519_verify pk m sig = true <->
  of_le (skipn 32 sig) < ed_order /\ firstn 32 sig = encp (padd (smul (of_le (skipn 32 sig)) ebase) (popp (smul (challenge pk m sig) A))).
Proof.
  intros pk m sig x y R A. unfold ed25519_verify. rewrite (decompress_complete _ _ _ R).
  assert (OA : on A) by (apply on_of_xy; exact (proj1 R)). rewrite andb_true_iff, N.ltb_lt, bytes_eqb_iff.
  replace (challenge pk m sig) with (hash_mod (firstn 32 sig ++ pk ++ m)) by (unfold hash_mod, challenge; rewrite of_le_spec_val; reflexivity).
  set (k := hash_mod _). set (s := of_le (skipn 32 sig)). set (rb := firstn 32 sig).
  rewrite (compress_rep _ (padd (smul s ebase) (popp (smul k A)))); [intuition congruence|].
  apply erep_add; [exact (g_on_smul _ ebase on_ebase)|exact (g_on_opp _ (g_on_smul _ _ OA))| |].
  - apply erep_mul; [exact on_ebase|exact erep_base].
  - apply erep_neg, erep_mul; [exact OA|apply erep_affine].
Qed.
Lemma verify_reads : forall pk m sig, ed25519_verify pk m sig = true -> exists x y, reads pk x y.
Proof.
  intros pk m sig H. unfold ed25519_verify in H. destruct (decompress pk) as [e|] eqn:D; [|discriminate].
  destruct (decompress_sound _ _ D) as (x & y & R & _). exists x, y. exact R.
Qed.
Lemma on_sum : forall s k A, on A -> on (padd (smul s ebase) (popp (smul k A))).
Proof.
  intros s k A OA. apply g_on_add; [apply g_on_smul, on_ebase|apply g_on_opp, g_on_smul, OA].
Qed.

(** ** The second half of a signature *)
Theorem scalar_unique : forall pk m r s s', len r = 32 -> len s = 32 -> len s' = 32 ->
  ed25519_verify pk m (r ++ s) = true -> ed25519_verify pk m (r ++ s') = true -> s = s'.
Proof.
  intros pk m r s s' LR LS LS' V V'.
  assert (F : forall x, firstn 32 (r ++ x) = r) by (intro x; rewrite firstn_app, firstn_all2 by (unfold len in LR; lia);
    replace (32 - length r)%nat with O by (unfold len in LR; lia); apply app_nil_r).
  assert (K : forall x, skipn 32 (r ++ x) = x) by (intro x; rewrite skipn_app, skipn_all2 by (unfold len in LR; lia);
    replace (32 - length r)%nat with O by (unfold len in LR; lia); reflexivity).
  destruct (verify_reads _ _ _ V) as (x & y & R). pose proof (on_of_xy _ _ (proj1 R)) as OA.
  apply (verify_point _ _ _ _ _ R) in V. apply (verify_point _ _ _ _ _ R) in V'. destruct V as [B E], V' as [B' E'].
  unfold challenge in *. rewrite F, K in *. set (h := _ mod _) in *. clearbody h. rewrite E in E'. apply encp_inj in E'; try (apply on_sum, OA).
  apply g_cancel in E'; [|apply g_on_smul, on_ebase|apply g_on_smul, on_ebase|apply g_on_opp, g_on_smul, OA].
  apply base_inj in E'. rewrite !N.mod_small in E' by assumption.
  rewrite <- (to_le_of_le s), <- (to_le_of_le s'). replace (length s) with 32%nat by (unfold len in LS; lia).
  replace (length s') with 32%nat by (unfold len in LS'; lia). rewrite E'. reflexivity.
Qed.

(** ** One signature, two messages *)
Lemma scalar_cancel : forall A h h', on A -> smul 8 A <> pzero -> h <= h' -> h' < ed_order -> smul h A = smul h' A -> h = h'.
Proof.
  intros A h h' OA NS LE LT E. destruct (N.eq_dec h h') as [|NE]; [assumption|]. exfalso. apply NS.
  apply smul_gap in E; [|exact OA|exact LE]. set (d := h' - h) in *. assert (D : 0 < d < ed_order) by lia. clearbody d.
  destruct (prime_inverse ed_order d) as (u & w & Q); [exact prime_L|reflexivity|exact D|].
  pose proof (smul_multiple d A (8 * (u * 4)) OA E) as Z. replace (8 * (u * 4) * d) with (8 + w * (8 * ed_order)) in Z by nia.
  rewrite g_smul_add in Z by exact OA. rewrite (smul_multiple (8 * ed_order) A w OA) in Z by exact (proj1 orders_kill A OA).
  rewrite g_zero_r in Z. exact Z.
Qed.
Lemma challenge_lt : forall pk m sig, challenge pk m sig < ed_order.
Proof. intros. apply N.mod_lt. discriminate. Qed.
Theorem message_bound : forall pk m m' sig, ~ weak pk -> ed25519_verify pk m sig = true -> ed25519_verify pk m' sig = true ->
  challenge pk m sig = challenge pk m' sig.
Proof.
  intros pk m m' sig NW V V'. destruct (verify_reads _ _ _ V) as (x & y & R). pose proof (on_of_xy _ _ (proj1 R)) as OA.
  rewrite (weak_small _ _ _ R) in NW. apply (verify_point _ _ _ _ _ R) in V. apply (verify_point _ _ _ _ _ R) in V'.
  destruct V as [_ E], V' as [_ E']. pose proof (challenge_lt pk m sig) as H. pose proof (challenge_lt pk m' sig) as H'.
  set (h := challenge pk m sig) in *. set (h' := challenge pk m' sig) in *. clearbody h h'. rewrite E in E'. apply encp_inj in E'; try (apply on_sum, OA).
  rewrite !(g_comm (smul _ ebase)) in E'.
  apply g_cancel in E'; [|apply g_on_opp, g_on_smul, OA|apply g_on_opp, g_on_smul, OA|apply g_on_smul, on_ebase].
  apply popp_inj in E'. destruct (N.le_ge_cases h h') as [LE|LE]; [|symmetry in E' |- *]; eapply scalar_cancel; eauto.
Qed.
(** The keys that the library generates are not weak. *)
Theorem generated_not_weak : forall seed, ~ weak (ed_public seed).
Proof.
  intros seed W. destruct (decompress_encp (key_point seed) (key_on seed)) as (e & D & RA). rewrite <- public_encp in D.
  destruct (decompress_sound _ _ D) as (x & y & R & ->). apply (weak_small _ _ _ R) in W.
  rewrite (erep_same _ _ _ (erep_affine x y) RA) in W. unfold key_point in W. rewrite <- g_smul_mul in W by exact on_ebase.
  apply base_zero in W. apply (clamp_not_multiple (of_le (firstn 32 (sha512 seed)))). fold (ed_scalar seed).
  set (k := ed_scalar seed) in *. clearbody k. apply (f_equal Z.of_N) in W. rewrite N2Z.inj_mod, N2Z.inj_mul in W by discriminate.
  apply Z.mod_divide in W; [|discriminate]. apply prime_mult in W; [|exact prime_L]. destruct W as [W|W].
  - exfalso. apply Z.divide_pos_le in W; [|reflexivity]. revert W. apply Zlt_not_le. reflexivity.
  - apply Z.mod_divide; [discriminate|exact W].
Qed.

(** ** Weak keys *)
Theorem weak_replay : forall pk m m' sig, weak pk -> challenge pk m sig mod 8 = challenge pk m' sig mod 8 ->
  ed25519_verify pk m sig = ed25519_verify pk m' sig.
Proof.
  intros pk m m' sig W E. destruct (decompress pk) as [e|] eqn:D; [|unfold ed25519_verify; rewrite D; reflexivity].
  destruct (decompress_sound _ _ D) as (x & y & R & _). apply (weak_small _ _ _ R) in W. pose proof (on_of_xy _ _ (proj1 R)) as OA.
  assert (Q : forall k, smul k (mul im x, y) = smul (k mod 8) (mul im x, y)).
  { intro k. rewrite (N.div_mod k 8) at 1 by discriminate. rewrite N.mul_comm, g_smul_add, (smul_multiple 8), g_zero_l by assumption. reflexivity. }
  apply Bool.eq_true_iff_eq. rewrite !(verify_point _ _ _ _ _ R). cbv zeta. rewrite (Q (challenge pk m sig)), (Q (challenge pk m' sig)), E. reflexivity.
Qed.
Definition weak_key : bytes := x01 :: repeat x00 31.
Definition weak_sig : bytes := weak_key ++ repeat x00 32.
Lemma weak_reads : reads weak_key f0 f1.
Proof. split; [apply fe_eq; vm_compute; reflexivity|]. split; [vm_compute; reflexivity|left; reflexivity]. Qed.
Theorem weak_accepts : forall m, ed25519_verify weak_key m weak_sig = true.
Proof.
  intro m. apply (verify_point _ _ _ _ _ weak_reads). split; [reflexivity|]. set (k := challenge _ _ _). clearbody k.
  change (of_le (skipn 32 weak_sig)) with 0. replace (mul im f0, f1) with (pzero : point) by (unfold Edwards.zero; f_equal; ring).
  rewrite (Edwards.smul_zero_point fe _ _ _ _ _ _ _ _ fe_field cc cc_nonsquare). rewrite (Edwards.smul_0 fe).
  replace (popp pzero) with (pzero : point) by (unfold Edwards.opp, Edwards.zero; cbn [fst snd]; f_equal; ring).
  rewrite g_zero_l. vm_compute. reflexivity.
Qed.

(** The fourteen weak keys: seven values of the low 255 bits, either top bit. *)
Lemma weak_y : forall pk, weak pk -> exists y, redc (N.land (of_le pk) (N.ones 255)) = fv y /\ In y [f0; f1; opp f1; y8; opp y8].
Proof.
  intros pk W. destruct (y_of pk) as [y Y]. exists y. split; [exact Y|]. unfold weak in W.
  replace (spec_val (wire pk) mod 2 ^ 255 mod SpecNoise.p25519) with (fv y) in W.
  2: { rewrite <- Y, <- of_le_spec_val, N.land_ones. assert (of_le pk mod 2 ^ 255 < 2 ^ 255) by (apply N.mod_lt; discriminate).
       rewrite redc_mod by (unfold p25519; lia). reflexivity. }
  unfold weak_ys in W. cbv zeta in W. cbn [In] in *.
  assert (M1 : fv (opp f1) = SpecNoise.p25519 - 1) by (vm_compute; reflexivity).
  assert (M8 : fv (opp y8) = SpecNoise.p25519 - fv y8) by (vm_compute; reflexivity).
  destruct W as [H|[H|[H|[H|[H|[]]]]]]; [left|right; left|do 2 right; left|do 3 right; left|do 4 right; left]; apply fe_eq; rewrite <- H; [| |rewrite M1| |rewrite M8]; reflexivity.
Qed.
Theorem weak_all_accepted : forall pk, len pk = 32 -> weak pk -> ed25519_valid pk = true.
Proof.
  intros pk L W. unfold ed25519_valid. rewrite L. destruct (weak_y pk W) as (y & Y & I). rewrite (decompress_fields pk y Y).
  assert (O : exists x, on (x, y)).
  { assert (O8 := on_point8). unfold Edwards.on, point8 in O8. cbn [fst snd] in O8. cbn [In] in I.
    destruct I as [<-|[<-|[<-|[<-|[<-|[]]]]]]; [exists f1|exists f0|exists f0|exists y8|exists y8]; unfold Edwards.on; cbn [fst snd]; [ring|ring|ring|exact O8|].
    transitivity (mul (mul y8 y8) (mul y8 y8)); [ring|]. rewrite O8. ring. }
  destruct O as [x O]. apply on_ed in O. cbn [snd] in O. destruct (root_ok _ _ _ (v_nz y) O) as (r & -> & _). reflexivity.
Qed.
Lemma weak_valid : ed25519_valid weak_key = true.
Proof. apply weak_all_accepted; [reflexivity|]. vm_compute. auto. Qed.
Theorem weak_list : forall pk, weak pk <-> In (spec_val (wire pk) mod 2 ^ 255) (weak_ys ++ [SpecNoise.p25519; SpecNoise.p25519 + 1]).
Proof.
  intro pk. unfold weak. set (v := spec_val (wire pk) mod 2 ^ 255). assert (B : v < 2 ^ 255) by (apply N.mod_lt; discriminate). clearbody v.
  rewrite in_app_iff. destruct (N.lt_ge_cases v SpecNoise.p25519) as [LT|GE].
  - rewrite N.mod_small by exact LT. split; [auto|]. intros [H|[H|[H|[]]]]; [exact H| |]; rewrite <- H in LT; discriminate LT.
  - replace (v mod SpecNoise.p25519) with (v - SpecNoise.p25519).
    2: { rewrite <- (N.mod_small (v - SpecNoise.p25519) SpecNoise.p25519) by (unfold SpecNoise.p25519 in *; lia).
         rewrite <- (N.mod_add (v - SpecNoise.p25519) 1) by discriminate. f_equal. lia. }
    assert (S : v - SpecNoise.p25519 < 19) by (unfold SpecNoise.p25519 in *; lia).
    unfold weak_ys. cbv zeta. cbn [In]. split.
    + intros [H|[H|[H|[H|[H|[]]]]]]; [right; left; lia|right; right; left; lia| | |]; exfalso; rewrite <- H in S; discriminate S.
    + intros [H|H].
      * destruct H as [H|[H|[H|[H|[H|[]]]]]]; exfalso; rewrite <- H in GE; apply GE; reflexivity.
      * destruct H as [H|[H|[]]]; [left|right; left]; lia.
Qed.

(** ** Certificates *)
Lemma accepted_iff : forall E now c, cf_verify E now c = Ok tt -> exists signed,
  wire signed = cert_layout (sn_version (cf_message c)) (sn_valid_from (cf_message c)) (sn_not_valid_after (cf_message c)) (cf_static c) /\
  ed_verify E (cf_authority c) signed (sn_signature (cf_message c)) = true.
Proof.
  intros E now c H. destruct (CertProofs.verify_exact E now c) as (signed & HW & V). exists signed. split; [exact HW|].
  rewrite V in H. destruct (now <? 0)%Z; [discriminate|]. destruct (_ <=? _); [discriminate|]. destruct (ed_verify _ _ _ _); [reflexivity|discriminate].
Qed.
Theorem certificate_bound : forall checked now now' c c', snm_ok (cf_message c) -> snm_ok (cf_message c') ->
  cf_authority c = cf_authority c' -> ~ weak (cf_authority c) -> sn_signature (cf_message c) = sn_signature (cf_message c') ->
  cf_verify (real_ed checked) now c = Ok tt -> cf_verify (real_ed checked) now' c' = Ok tt ->
  same_certificate c c' \/ exists m m', m <> m' /\
    wire m = cert_layout (sn_version (cf_message c)) (sn_valid_from (cf_message c)) (sn_not_valid_after (cf_message c)) (cf_static c) /\
    wire m' = cert_layout (sn_version (cf_message c')) (sn_valid_from (cf_message c')) (sn_not_valid_after (cf_message c')) (cf_static c') /\
    challenge (cf_authority c) m (sn_signature (cf_message c)) = challenge (cf_authority c) m' (sn_signature (cf_message c)).
Proof.
  intros checked now now' c c' (Hv & Hf & Ht & _) (Hv' & Hf' & Ht' & _) A NW S V V'.
  apply accepted_iff in V as (m & W & V). apply accepted_iff in V' as (m' & W' & V'). rewrite <- A, <- S in V'.
  destruct (list_eq_dec Byte.byte_eq_dec m m') as [EQ|NE].
  - left. subst m'. rewrite W in W'. apply layout_binds in W'; try assumption. destruct W' as (Q1 & Q2 & Q3 & Q4).
    unfold same_certificate. auto.
  - right. exists m, m'. split; [exact NE|]. split; [exact W|]. split; [exact W'|]. exact (message_bound _ _ _ _ NW V V').
Qed.
Theorem certificate_signature : forall checked now now' c v f t r s s', len r = 32 -> len s = 32 -> len s' = 32 ->
  cf_message c = mkSnm v f t (r ++ s) ->
  cf_verify (real_ed checked) now c = Ok tt -> cf_verify (real_ed checked) now' (mkCf (cf_authority c) (cf_static c) (mkSnm v f t (r ++ s'))) = Ok tt -> s = s'.
Proof.
  intros checked now now' c v f t r s s' LR LS LS' M V V'. apply accepted_iff in V as (m & W & V). apply accepted_iff in V' as (m' & W' & V').
  rewrite M in *. cbn [cf_message cf_authority cf_static sn_version sn_valid_from sn_not_valid_after sn_signature] in *.
  rewrite <- W in W'. apply wire_inj in W'. subst m'. exact (scalar_unique _ _ _ _ _ LR LS LS' V V').
Qed.
Theorem weak_authority : forall checked, exists text sig, len sig = 64 /\ canonical_sig sig /\ forall v f t key now,
  (0 <= now)%Z -> Z.to_N (now / 10 ^ 9) mod 2 ^ 32 < t ->
  exists c, cf_new (real_ed checked) text key (mkSnm v f t sig) = Ok c /\ cf_verify (real_ed checked) now c = Ok tt.
Proof.
  intro checked. destruct (base58_total weak_key) as [text T]. exists text, weak_sig. split; [reflexivity|]. split; [vm_compute; reflexivity|].
  intros v f t key now N0 N1. exists (mkCf weak_key key (mkSnm v f t weak_sig)). split.
  - rewrite (proj2 (cf_new_exact (real_ed checked) text key _) _ T). change (len weak_key =? 32) with true. cbn [real_ed ed_valid].
    rewrite weak_valid. reflexivity.
  - destruct (verify_iff (real_ed checked) now (mkCf weak_key key (mkSnm v f t weak_sig))) as (signed & _ & _ & _ & H).
    rewrite (H N0 N1). cbn [real_ed ed_verify cf_authority cf_message sn_signature]. rewrite weak_accepts. reflexivity.
Qed.
