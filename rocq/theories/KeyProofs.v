(** * KeyProofs: public keys derived by X25519 never have low order, shared secrets are never zero. *)
From Coq Require Import ZArith Znumtheory Lia ZifyBool ZifyNat ZifyN Ring Field.
From Verif Require Import Base SpecWire BaseFacts Noise SpecNoise SpecSession Crypto CryptoFacts X25519Facts NumberTheory GroupOrder
  Edwards Field25519 LadderProofs EdCurve NoiseClaims SessionClaims.
Open Scope N_scope.
Add Field FE : fe_field.

Definition l25519 : N := 2 ^ 252 + 27742317777372353535851937790883648493.

(** ** The order of the base point *)
Lemma base_l : smul l25519 basept = pzero.
Proof. exact base_order. Qed.
Local Opaque fmul fadd fsub finv Edwards.smul Edwards.add.

Lemma tiny_double : forall P, tiny P -> padd P P = pzero.
Proof.
  intros [x y] [X Y]. cbn [fst snd] in *. subst x. Local Transparent Edwards.add. unfold Edwards.add, Edwards.zero. cbn [fst snd].
  Local Opaque Edwards.add. pose proof (Edwards.c_nonzero fe _ _ _ _ _ _ _ _ fe_field cc cc_nonsquare) as NC. f_equal.
  - field. intro Z. apply NC. rewrite <- Z. ring.
  - rewrite Y. field. intro Z. apply NC. rewrite <- Z. ring.
Qed.
Lemma base_2 : smul 2 basept <> pzero.
Proof.
  intro H. assert (R : rep (mkfe 9 eq_refl) f1 basept).
  { split; [apply fe_eq; vm_compute; reflexivity|]. intros [Z _]. apply (f_equal fv) in Z. discriminate Z. }
  pose proof (g_double basept _ _ on_base R) as D.
  assert (E : padd basept basept = pzero) by (rewrite <- H; replace 2 with (1 + 1) by lia; rewrite g_smul_add, g_smul_1 by exact on_base; reflexivity).
  rewrite E in D. destruct D as [D _]. cbn [snd Edwards.zero] in D. apply (f_equal fv) in D. revert D. vm_compute. discriminate.
Qed.

Lemma smul_multiple : forall n P m, on P -> smul n P = pzero -> smul (m * n) P = pzero.
Proof.
  intros n P m HP H. rewrite g_smul_mul, H by exact HP. apply Edwards.smul_zero_point with (1 := fe_field). exact cc_nonsquare.
Qed.

Lemma base_2l : smul (2 * l25519) basept = pzero.
Proof. apply smul_multiple; [exact on_base|exact base_l]. Qed.
Lemma l_inverse : forall n, (Z.of_N n mod L <> 0)%Z -> exists u w, u * (4 * n) = 1 + w * l25519.
Proof.
  intros n ND. assert (R : rel_prime (4 * Z.of_N n) L).
  { apply rel_prime_sym, prime_rel_prime; [exact prime_L|]. intro D.
    apply prime_mult in D; [|exact prime_L]. destruct D as [D|D].
    - apply Z.divide_pos_le in D; [|lia]. unfold L in D. lia.
    - apply ND. apply Z.mod_divide; [discriminate|exact D]. }
  destruct (rel_prime_bezout _ _ R) as [a b E].
  set (x := (a mod L)%Z). assert (X : (0 <= x)%Z) by (apply Z.mod_pos_bound; reflexivity).
  assert (Q : (x * (4 * Z.of_N n) = 1 + (- b - a / L * (4 * Z.of_N n)) * L)%Z).
  { unfold x. rewrite Z.mod_eq by discriminate. lia. }
  set (w := (- b - a / L * (4 * Z.of_N n))%Z) in *. clearbody x w.
  assert (W : (0 <= w)%Z).
  { assert (0 <= 1 + w * L)%Z by (rewrite <- Q; lia). unfold L in *. lia. }
  exists (Z.to_N x), (Z.to_N w). change L with (Z.of_N l25519) in Q. lia.
Qed.
Lemma not_low_order_multiple : forall n, (Z.of_N n mod L <> 0)%Z -> smul (8 * n) basept <> pzero.
Proof.
  intros n ND H. apply base_2. destruct (l_inverse n ND) as (u & w & E).
  rewrite <- (smul_multiple (8 * n) basept u on_base H).
  replace (u * (8 * n)) with (2 + w * (2 * l25519)) by lia.
  rewrite g_smul_add, (smul_multiple (2 * l25519) basept w on_base base_2l) by exact on_base. symmetry. apply g_zero_r.
Qed.
Lemma clamp_not_multiple : forall k, (Z.of_N (clamp k) mod L <> 0)%Z.
Proof.
  intros k H. apply Z.mod_divide in H; [|discriminate].
  assert (B : clamp k < 2 ^ 255).
  { destruct (clamp k) as [|q] eqn:E; [reflexivity|]. rewrite <- E. apply N.log2_lt_pow2; [lia|].
    apply N.nle_gt. intro G. pose proof (clamp_small k) as S. rewrite N.shiftr_div_pow2 in S.
    apply N.div_small_iff in S; [|discriminate]. apply N.log2_lt_pow2 in S; lia. }
  assert (P : 0 < clamp k).
  { assert (N.testbit (clamp k) 254 = true) by (unfold clamp; rewrite N.lor_spec, N.pow2_bits_true, orb_true_r; reflexivity).
    destruct (clamp k); [discriminate|lia]. }
  assert (M : clamp k mod 2 ^ 3 = 0).
  { apply N.bits_inj_0. intro i. destruct (N.lt_ge_cases i 3) as [I|I]; [|apply N.mod_pow2_bits_high; exact I].
    rewrite N.mod_pow2_bits_low by exact I. unfold clamp. rewrite N.lor_spec, N.ldiff_spec, N.pow2_bits_eqb.
    change 7 with (N.ones 3). rewrite N.ones_spec_low by exact I. cbn [negb].
    rewrite andb_false_r. apply N.eqb_neq. lia. }
  destruct H as [q Q].
  assert (D8 : (8 | q * L)%Z).
  { rewrite <- Q. apply Z.mod_divide; [discriminate|]. change (2 ^ 3) with 8 in M. lia. }
  rewrite Z.mul_comm in D8. apply Gauss in D8.
  - destruct D8 as [q' ->]. change L with (Z.of_N l25519) in Q. unfold l25519 in Q. lia.
  - apply rel_prime_sym, prime_rel_prime; [exact prime_L|]. intro D. apply Z.divide_pos_le in D; [|lia]. unfold L in D. lia.
Qed.

(** ** Derived public keys *)
Definition derived (sk : bytes) : point := smul (clamp (of_le (firstn 32 sk))) basept.
Lemma derived_on : forall sk, on (derived sk).
Proof. intro sk. apply g_on_smul, on_base. Qed.
Lemma derived_order : forall sk, smul 8 (derived sk) <> pzero.
Proof.
  intros sk H. unfold derived in H. rewrite <- g_smul_mul in H by exact on_base.
  exact (not_low_order_multiple _ (clamp_not_multiple _) H).
Qed.
Lemma smul_8 : forall P, on P -> smul 8 P = (let Q := padd P P in let R := padd Q Q in padd R R).
Proof.
  intros P HP. cbv zeta. replace 8 with ((1 + 1 + (1 + 1)) + (1 + 1 + (1 + 1))) by lia.
  rewrite !g_smul_add, g_smul_1 by exact HP. reflexivity.
Qed.

(** u-coordinate [a] after three doublings is the neutral point. *)
Definition dbl (q : fe * fe) : fe * fe :=
  let aa := mul (add (fst q) (snd q)) (add (fst q) (snd q)) in
  let bb := mul (sub (fst q) (snd q)) (sub (fst q) (snd q)) in
  (mul aa bb, mul (sub aa bb) (add aa (mul a24 (sub aa bb)))).
Lemma dbl_rep : forall q P, on P -> rep (fst q) (snd q) P -> rep (fst (dbl q)) (snd (dbl q)) (padd P P).
Proof. intros q P H R. apply g_double; assumption. Qed.
Lemma g_on_add : forall P Q, on P -> on Q -> on (padd P Q).
Proof. exact (Edwards.on_add fe _ _ _ _ _ _ _ _ fe_field fe_dec cc cc_nonsquare two_nz). Qed.
Lemma three_doublings : forall P u, on P -> rep u f1 P -> snd (dbl (dbl (dbl (u, f1)))) = f0 -> smul 8 P = pzero.
Proof.
  intros P u HP R Z. rewrite smul_8 by exact HP. cbv zeta.
  assert (H2 : on (padd P P)) by (apply g_on_add; assumption).
  assert (H4 : on (padd (padd P P) (padd P P))) by (apply g_on_add; assumption).
  set (P2 := padd P P) in *. set (P4 := padd P2 P2) in *.
  assert (R1 : rep (fst (dbl (u, f1))) (snd (dbl (u, f1))) P2) by (apply dbl_rep; assumption).
  assert (R2 : rep (fst (dbl (dbl (u, f1)))) (snd (dbl (dbl (u, f1)))) P4) by (apply dbl_rep; assumption).
  assert (R3 : rep (fst (dbl (dbl (dbl (u, f1))))) (snd (dbl (dbl (dbl (u, f1))))) (padd P4 P4)) by (apply dbl_rep; assumption).
  rewrite Z in R3. destruct R3 as [E NZ].
  assert (Y : snd (padd P4 P4) = f1).
  { assert (Q : mul (fst (dbl (dbl (dbl (u, f1))))) (sub f1 (snd (padd P4 P4))) = f0) by (rewrite E; ring).
    destruct (g_mul_zero _ _ Q) as [W|W]; [exfalso; apply NZ; auto|]. apply g_sub_zero in W. symmetry. exact W. }
  assert (T : tiny (padd P4 P4)) by (apply g_tiny_of_y; [apply g_on_add; exact H4|rewrite Y; ring]).
  destruct T as [X _]. rewrite (surjective_pairing (padd P4 P4)), X, Y. reflexivity.
Qed.
Lemma enc_rep : forall P, enc P <> f0 -> rep (enc P) f1 P.
Proof.
  intros P Z. unfold enc in *. assert (N : sub f1 (snd P) <> f0) by (intro N; apply Z; rewrite N, inv_f0; ring).
  split.
  - field. exact N.
  - intros [W _]. contradiction.
Qed.

Definition low_u : list N := [0; 1; order8_a; order8_b; SpecNoise.p25519 - 1].
Lemma low_u_small : forall P, on P -> In (fv (enc P)) low_u -> smul 8 P = pzero.
Proof.
  intros P HP I. unfold low_u in I.
  destruct (fe_dec (enc P) f0) as [Z|Z].
  - replace 8 with (4 * 2) by lia. apply smul_multiple; [exact HP|]. replace 2 with (1 + 1) by lia.
    rewrite g_smul_add, g_smul_1 by exact HP. apply tiny_double, enc_zero_tiny; assumption.
  - pose proof (enc_rep P Z) as R.
    destruct I as [I|[I|[I|[I|[I|[]]]]]].
    + exfalso. apply Z, fe_eq. symmetry. exact I.
    + apply (three_doublings P (enc P) HP R). replace (enc P) with (mkfe 1 eq_refl) by (apply fe_eq; exact I).
      apply fe_eq. vm_compute. reflexivity.
    + apply (three_doublings P (enc P) HP R). replace (enc P) with (mkfe order8_a eq_refl) by (apply fe_eq; exact I).
      apply fe_eq. vm_compute. reflexivity.
    + apply (three_doublings P (enc P) HP R). replace (enc P) with (mkfe order8_b eq_refl) by (apply fe_eq; exact I).
      apply fe_eq. vm_compute. reflexivity.
    + exfalso. destruct R as [R _]. replace (enc P) with (opp f1) in R by (apply fe_eq; rewrite <- I; vm_compute; reflexivity).
      apply two_nz. assert (W : sub (mul f1 (add f1 (snd P))) (mul (opp f1) (sub f1 (snd P))) = f0) by (rewrite R; ring).
      rewrite <- W. ring.
Qed.
Lemma low_reduced : forall v, In v low_order_points -> v < p -> In v low_u.
Proof.
  intros v I L. unfold low_order_points in I. unfold low_u.
  repeat (destruct I as [<-|I]; [first [cbn [In]; tauto|exfalso; revert L; vm_compute; discriminate]|]). destruct I.
Qed.

Theorem public_not_low : forall sk, ~ low_order (x25519 sk base_point).
Proof.
  intros sk H. unfold low_order in H. rewrite <- of_le_spec_val, base_enc in H.
  pose proof (fe_lt (enc (derived sk))) as B. fold (derived sk) in H.
  rewrite of_le_to_le in H by (change (256 ^ N.of_nat 32) with (2 ^ 256); unfold p25519 in B; lia).
  exact (derived_order sk (low_u_small _ (derived_on sk) (low_reduced _ H B))).
Qed.

(** ** Shared secrets *)
Theorem secret_nonzero : forall a b, x25519 a (x25519 b base_point) <> zeros32.
Proof.
  intros a b H. rewrite dh_value in H. set (ka := clamp (of_le (firstn 32 a))) in *. set (kb := clamp (of_le (firstn 32 b))) in *.
  assert (Z : enc (smul ka (smul kb basept)) = f0).
  { set (f := enc _) in *. clearbody f. apply fe_eq. pose proof (fe_lt f) as B.
    rewrite <- (of_le_to_le 32 (fv f)) by (change (256 ^ N.of_nat 32) with (2 ^ 256); unfold p25519 in B; lia).
    rewrite H. reflexivity. }
  rewrite <- g_smul_mul in Z by exact on_base.
  apply (not_low_order_multiple (ka * kb)).
  - intro M. rewrite N2Z.inj_mul in M. apply Z.mod_divide in M; [|discriminate].
    apply prime_mult in M; [|exact prime_L]. destruct M as [M|M]; (apply Z.mod_divide in M; [|discriminate]).
    + exact (clamp_not_multiple _ M).
    + exact (clamp_not_multiple _ M).
  - rewrite g_smul_mul by exact on_base. apply low_u_small; [apply g_on_smul, on_base|]. rewrite Z. left. reflexivity.
Qed.

Local Opaque x25519.
(** ** The real primitives: every two derived key pairs can run a handshake *)
Definition real_pair (sk : bytes) : keypair := mkKeypair sk (c_pub real_crypto sk).
Theorem real_agree : forall a b, dh_agree real_crypto (real_pair a) (real_pair b).
Proof.
  intros a b. unfold dh_agree, real_pair. cbn [kp_private kp_public c_dh c_pub real_crypto]. exact (x25519_agree a b).
Qed.
Theorem real_usable : forall ksi ksr kei ker, len ksi = 32 -> len ksr = 32 -> len kei = 32 -> len ker = 32 ->
  usable_keys real_crypto (real_pair ksi) (real_pair ksr) (real_pair kei) (real_pair ker).
Proof.
  intros ksi ksr kei ker L1 L2 L3 L4.
  assert (K : forall k, len k = 32 -> keypair_ok (real_pair k)).
  { intros k H. split; [exact H|]. apply (pub_len _ real_crypto_ok). }
  constructor; [apply K, L1|apply K, L2|apply K, L3|apply K, L4|exact (public_not_low kei)|
    exact (public_not_low ker)|exact (public_not_low ksr)|apply real_agree|apply real_agree].
Qed.
Theorem real_honest : forall pro ksi ksr kei ker rnd1 rnd2 I0 R0,
  len ksi = 32 -> len ksr = 32 -> len kei = 32 -> len ker = 32 ->
  started real_crypto true pro (real_pair ksi) rnd1 (real_pair kei) I0 ->
  started real_crypto false pro (real_pair ksr) rnd2 (real_pair ker) R0 ->
  honest real_crypto pro (real_pair ksi) (real_pair ksr) (real_pair kei) (real_pair ker) rnd1 rnd2 I0 R0.
Proof.
  intros pro ksi ksr kei ker rnd1 rnd2 I0 R0 L1 L2 L3 L4 SI SR.
  assert (K : forall k, len k = 32 -> keypair_ok (real_pair k)).
  { intros k H. split; [exact H|]. apply (pub_len _ real_crypto_ok). }
  constructor; [apply K, L1|apply K, L2|apply K, L3|apply K, L4|exact SI|exact SR|exact (public_not_low kei)|
    exact (public_not_low ker)|exact (public_not_low ksr)|apply real_agree|apply real_agree].
Qed.

Lemma public_accepted : forall sk, public_key_from_bytes (c_pub real_crypto sk) = Ok (c_pub real_crypto sk).
Proof.
  intro sk. apply from_bytes_exact; [apply (pub_len _ real_crypto_ok)|]. exact (public_not_low sk).
Qed.

(** The handshake of C41 and the channel of C44 for the real primitives. *)
Lemma real_agreement : forall pro ksi ksr kei ker rnd1 rnd2 I0 R0 b1 b2,
  len ksi = 32 -> len ksr = 32 -> len kei = 32 -> len ker = 32 ->
  started real_crypto true pro (real_pair ksi) rnd1 (real_pair kei) I0 ->
  started real_crypto false pro (real_pair ksr) rnd2 (real_pair ker) R0 ->
  48 <= len b1 <= 65535 -> 96 <= len b2 <= 2128 ->
  let x1 := send_message real_crypto rnd1 I0 b1 in
  let x2 := recv_message real_crypto R0 (out x1) in
  let x3 := send_message real_crypto rnd2 (st x2) b2 in
  let x4 := recv_message real_crypto (st x1) (out x3) in
  ~ In zeros32 (nx_keys real_crypto pro (real_pair ksr) (real_pair ker) (out x1) (payload2 b2)) ->
  res x1 = Ok tt /\ res x2 = Ok tt /\ res x3 = Ok tt /\ res x4 = Ok tt /\
  is_transport (st x3) = true /\ is_transport (st x4) = true /\
  (exists h, get_handshake_hash (st x3) = Some h /\ get_handshake_hash (st x4) = Some h) /\
  get_remote_static_public_key (st x4) = Some (c_pub real_crypto ksr) /\
  se_cs1 (st x3) = se_cs1 (st x4) /\ se_cs2 (st x3) = se_cs2 (st x4) /\
  skipn 32 (out x2) = skipn 32 b1 /\ payload2 (out x4) = payload2 b2.
Proof.
  intros pro ksi ksr kei ker rnd1 rnd2 I0 R0 b1 b2 L1 L2 L3 L4 SI SR B1 B2.
  exact (agreement real_crypto real_crypto_ok pro _ _ _ _ rnd1 rnd2 I0 R0 b1 b2
    (real_honest pro ksi ksr kei ker rnd1 rnd2 I0 R0 L1 L2 L3 L4 SI SR) B1 B2).
Qed.
Lemma real_channel : forall pro ksi ksr kei ker rnd1 rnd2 I0 R0 b1 b2 es,
  len ksi = 32 -> len ksr = 32 -> len kei = 32 -> len ker = 32 ->
  started real_crypto true pro (real_pair ksi) rnd1 (real_pair kei) I0 ->
  started real_crypto false pro (real_pair ksr) rnd2 (real_pair ker) R0 ->
  48 <= len b1 <= 65535 -> 96 <= len b2 <= 2128 ->
  let x1 := send_message real_crypto rnd1 I0 b1 in
  let x2 := recv_message real_crypto R0 (out x1) in
  let x3 := send_message real_crypto rnd2 (st x2) b2 in
  let x4 := recv_message real_crypto (st x1) (out x3) in
  ~ In zeros32 (nx_keys real_crypto pro (real_pair ksr) (real_pair ker) (out x1) (payload2 b2)) ->
  cs_k (se_cs1 (st x4)) <> zeros32 -> cs_k (se_cs2 (st x4)) <> zeros32 ->
  Forall sized es -> (forall l, ~ In (IRekey l) es) ->
  len (i_sends es) <= 2 ^ 64 - 1 -> len (r_sends es) <= 2 ^ 64 - 1 ->
  let n := net_run real_crypto (net_start (st x4) (st x3)) es in
  n_sent_i n = i_sends es /\ n_sent_r n = r_sends es /\
  exists pi pr, i_sends es = n_got_r n ++ pi /\ length pi = packets (n_ir n) /\
                r_sends es = n_got_i n ++ pr /\ length pr = packets (n_ri n).
Proof.
  intros pro ksi ksr kei ker rnd1 rnd2 I0 R0 b1 b2 es L1 L2 L3 L4 SI SR B1 B2 x1 x2 x3 x4 NK.
  destruct (real_agreement pro ksi ksr kei ker rnd1 rnd2 I0 R0 b1 b2 L1 L2 L3 L4 SI SR B1 B2 NK) as (_ & _ & E3 & _).
  fold x1 in E3. fold x2 in E3. fold x3 in E3.
  apply (channel_no_rekey real_crypto real_crypto_ok (st x4) (st x3) es).
  pose proof (real_honest pro ksi ksr kei ker rnd1 rnd2 I0 R0 L1 L2 L3 L4 SI SR) as [H1 H2 H3 H4 H5 H6 H7 H8 H9 H10 H11].
  exists pro, (real_pair ksi), (real_pair ksr), (real_pair kei), (real_pair ker), rnd1, rnd2, I0, R0, b1, b2.
  cbv zeta. fold x1. fold x2. fold x3. fold x4.
  do 13 (split; [assumption|]). split; [rewrite E3; discriminate|]. split; reflexivity.
Qed.

(** For Examples. *)
Lemma not_in_zero : forall l, existsb (bytes_eqb zeros32) l = false -> ~ In zeros32 l.
Proof.
  intros l E H. assert (T : existsb (bytes_eqb zeros32) l = true) by (apply existsb_exists; exists zeros32; split; [exact H|reflexivity]).
  rewrite E in T. discriminate T.
Qed.
