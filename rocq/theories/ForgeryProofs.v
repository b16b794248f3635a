(** * ForgeryProofs: how often a forged message is accepted. *)
From Coq Require Import ZArith Znumtheory Lia ZifyBool ZifyNat ZifyN List.
From Verif Require Import Base BaseFacts Noise Crypto CryptoFacts SpecWire SpecNoise SpecSession SpecTransport TransportProofs NoiseFacts RecvProofs
  SpecForgery PolyBound.
Import ListNotations.
Open Scope N_scope.

(** ** The clamp *)
Lemma land_split : forall d a m M, d < 256 -> m < 256 -> N.land (d + 256 * a) (m + 256 * M) = N.land d m + 256 * N.land a M.
Proof.
  intros d a m M D Hm.
  assert (A : forall x y, x < 256 -> (x + 256 * y) mod 256 = x /\ (x + 256 * y) / 256 = y).
  { intros x y X. rewrite (N.mul_comm 256 y). split; [rewrite N.mod_add by lia; apply N.mod_small; exact X|].
    rewrite N.div_add by lia. rewrite N.div_small by exact X. lia. }
  destruct (A d a D) as [A1 A2], (A m M Hm) as [B1 B2].
  set (x := d + 256 * a) in *. set (y := m + 256 * M) in *.
  rewrite (N.div_mod (N.land x y) 256) by lia.
  change 256 with (2 ^ 8) at 1 2. rewrite <- N.shiftr_div_pow2, N.shiftr_land, !N.shiftr_div_pow2. change (2 ^ 8) with 256. rewrite A2, B2.
  change 256 with (2 ^ 8) at 2. rewrite <- N.land_ones.
  replace (N.land (N.land x y) (N.ones 8)) with (N.land (N.land x (N.ones 8)) (N.land y (N.ones 8))).
  2:{ apply N.bits_inj. intro j. rewrite !N.land_spec. destruct (N.testbit x j), (N.testbit y j), (N.testbit (N.ones 8) j); reflexivity. }
  rewrite !N.land_ones. change (2 ^ 8) with 256. rewrite A1, B1. lia.
Qed.
Definition mask : N := 0x0ffffffc0ffffffc0ffffffc0fffffff.
Definition masks : list N := [255;255;255;15;252;255;255;15;252;255;255;15;252;255;255;15].
Lemma land_255 : forall b, N.land (Byte.to_N b) 255 = Byte.to_N b.
Proof. intros []; reflexivity. Qed.
Lemma land_15 : forall b, N.land (Byte.to_N b) 15 = Byte.to_N b mod 16.
Proof. intros []; reflexivity. Qed.
Lemma land_252 : forall b, N.land (Byte.to_N b) 252 = 4 * (Byte.to_N b / 4).
Proof. intros []; reflexivity. Qed.
Fixpoint land_each (bs : bytes) (ms : list N) : list N :=
  match bs, ms with b :: bs', m :: ms' => N.land (Byte.to_N b) m :: land_each bs' ms' | _, _ => [] end.
Lemma land_list : forall ms bs, Forall (fun m => m < 256) ms -> length bs = length ms ->
  N.land (of_le bs) (spec_val ms) = spec_val (land_each bs ms).
Proof.
  induction ms as [|m ms IH]; intros [|b bs] F L; try discriminate L; [reflexivity|].
  inversion F; subst. cbn [of_le spec_val fold_right land_each]. rewrite land_split; [|apply to_N_lt|assumption].
  f_equal. f_equal. apply IH; [assumption|]. cbn in L. lia.
Qed.
Lemma mask_value : mask = spec_val masks. Proof. vm_compute. reflexivity. Qed.
Lemma clamp_spec : forall bs, length bs = 16%nat -> N.land (of_le bs) mask = clamped bs.
Proof.
  intros bs L. rewrite mask_value, land_list; [|unfold masks; repeat constructor; reflexivity|exact L].
  unfold clamped. f_equal. do 16 (destruct bs as [|? bs]; [discriminate L|]). destruct bs; [|discriminate L].
  cbn [land_each masks wire map clamp_from clamp_byte]. rewrite !land_255, !land_15, !land_252. reflexivity.
Qed.
Lemma clamp_byte_lt : forall i v, v < 256 -> clamp_byte i v < 256.
Proof.
  intros i v V. assert (v mod 16 < 16) by (apply N.mod_lt; lia). assert (4 * (v / 4) <= v) by (apply N.mul_div_le; lia).
  unfold clamp_byte. repeat (destruct i as [|i]; try lia).
Qed.
Lemma clamp_from_lt : forall bs i, spec_val (clamp_from i (wire bs)) < 256 ^ len bs.
Proof.
  induction bs as [|b bs IH]; intro i; [reflexivity|]. cbn [wire map clamp_from spec_val fold_right]. rewrite len_cons, N.pow_add_r, N.pow_1_r.
  specialize (IH (Datatypes.S i)). unfold spec_val, wire in IH. pose proof (clamp_byte_lt i (Byte.to_N b) (to_N_lt b)). lia.
Qed.
Lemma clamp_small : forall bs, length bs = 16%nat -> clamped bs < 2 ^ 128.
Proof. intros bs L. pose proof (clamp_from_lt bs 0) as H. unfold len in H. rewrite L in H. exact H. Qed.

(** ** Blocks *)
Lemma chunks_fuel_concat : forall k f b, (0 < k)%nat -> (length b <= f)%nat -> concat (chunks_fuel f k b) = b.
Proof.
  intros k. induction f as [|f IH]; intros b K L; [destruct b; [reflexivity|cbn in L; lia]|].
  destruct b as [|x b]; [reflexivity|]. cbn [chunks_fuel concat]. rewrite IH; [apply firstn_skipn|exact K|].
  rewrite skipn_length. cbn [length] in *. lia.
Qed.
Lemma chunks_concat : forall b, concat (chunks 16 b) = b.
Proof. intro b. apply chunks_fuel_concat; lia. Qed.
Lemma chunks_fuel_small : forall k f b, Forall (fun c => (length c <= k)%nat) (chunks_fuel f k b).
Proof.
  intros k. induction f as [|f IH]; intros b; [constructor|]. destruct b as [|x b]; [constructor|]. cbn [chunks_fuel].
  constructor; [rewrite firstn_length; lia|apply IH].
Qed.
Lemma chunks_fuel_count : forall f b, (length b <= f)%nat -> len (chunks_fuel f 16 b) = (len b + 15) / 16.
Proof.
  induction f as [|f IH]; intros b L; [destruct b; [reflexivity|cbn in L; lia]|].
  destruct b as [|x b]; [reflexivity|]. cbn [chunks_fuel]. rewrite len_cons, IH by (rewrite skipn_length; cbn [length] in *; lia).
  assert (E : len (skipn 16 (x :: b)) = len (x :: b) - 16) by (unfold len; rewrite skipn_length; lia). rewrite E.
  set (n := len (x :: b)) in *. assert (0 < n) by (subst n; rewrite len_cons; lia).
  destruct (N.le_gt_cases n 16).
  - replace (n - 16) with 0 by lia. change ((0 + 15) / 16) with 0. apply (N.div_unique _ _ _ (n - 1)); lia.
  - replace (n + 15) with (n - 16 + 15 + 1 * 16) by lia. rewrite N.div_add by lia. lia.
Qed.
Lemma chunks_count : forall b, len (chunks 16 b) = (len b + 15) / 16.
Proof. intro b. apply chunks_fuel_count. lia. Qed.

(** The number of a block. *)
Definition bv (blk : bytes) : Z := Z.of_N (of_le (blk ++ [x01])).
Lemma of_le_app : forall a b, of_le (a ++ b) = of_le a + 256 ^ len a * of_le b.
Proof.
  induction a as [|x a IH]; intro b; [cbn [app of_le]; rewrite len_nil, N.pow_0_r; lia|].
  cbn [app of_le]. rewrite IH, len_cons, N.pow_add_r. lia.
Qed.
Lemma bv_eq : forall blk, of_le (blk ++ [x01]) = of_le blk + 256 ^ len blk.
Proof. intro blk. rewrite of_le_app. cbn. lia. Qed.
Lemma bv_small : forall blk, (length blk <= 16)%nat -> smallc (bv blk).
Proof.
  intros blk L. unfold bv, smallc. rewrite bv_eq. pose proof (of_le_bound blk).
  assert (256 ^ len blk <= 256 ^ 16) by (apply N.pow_le_mono_r; [lia|unfold len; lia]).
  assert (0 < 256 ^ len blk) by (apply N.neq_0_lt_0, N.pow_nonzero; lia).
  unfold q1305. split; [lia|]. change (2 ^ 130 - 5)%Z with (Z.of_N (2 ^ 130 - 5)). apply N2Z.inj_lt.
  change (256 ^ 16) with (2 ^ 128) in *. lia.
Qed.
Lemma bv_inj : forall a b, bv a = bv b -> a = b.
Proof.
  intros a b E. unfold bv in E. apply N2Z.inj in E. rewrite !bv_eq in E.
  pose proof (of_le_bound a) as A. pose proof (of_le_bound b) as B.
  assert (MONO : forall x y, x < y -> 256 ^ (x + 1) <= 256 ^ y) by (intros; apply N.pow_le_mono_r; lia).
  assert (L : len a = len b).
  { destruct (N.lt_trichotomy (len a) (len b)) as [H|[H|H]]; [|exact H|].
    - specialize (MONO _ _ H). rewrite N.pow_add_r, N.pow_1_r in MONO. lia.
    - specialize (MONO _ _ H). rewrite N.pow_add_r, N.pow_1_r in MONO. lia. }
  rewrite L in E. assert (V : of_le a = of_le b) by lia.
  rewrite <- (to_le_of_le a), <- (to_le_of_le b), V. unfold len in L. replace (length b) with (length a) by lia. reflexivity.
Qed.
Lemma map_inj : forall (A B : Type) (f : A -> B), (forall x y, f x = f y -> x = y) -> forall l l', map f l = map f l' -> l = l'.
Proof.
  intros A B f I. induction l as [|x l IH]; intros [|y l'] E; try discriminate E; [reflexivity|].
  cbn in E. injection E as E1 E2. rewrite (I _ _ E1), (IH _ E2). reflexivity.
Qed.
Definition bvs (m : bytes) : list Z := map bv (chunks 16 m).
Lemma bvs_inj : forall m m', bvs m = bvs m' -> m = m'.
Proof.
  intros m m' E. apply map_inj in E; [|exact bv_inj]. rewrite <- (chunks_concat m), <- (chunks_concat m'), E. reflexivity.
Qed.
Lemma bvs_small : forall m, Forall smallc (bvs m).
Proof.
  intro m. unfold bvs, chunks. apply Forall_map. eapply Forall_impl; [|apply chunks_fuel_small]. intros c L. apply bv_small. exact L.
Qed.
Lemma bvs_count : forall m, len (bvs m) = (len m + 15) / 16.
Proof. intro m. unfold bvs. rewrite len_map. apply chunks_count. Qed.

(** ** The tag *)
Definition acc_of (r : N) (m : bytes) : N :=
  fold_left (fun a blk => ((a + of_le (blk ++ [x01])) * r) mod p1305) (chunks 16 m) 0.
Lemma acc_psum : forall r m, Z.of_N (acc_of r m) = psum (Z.of_N r) (bvs m).
Proof.
  intros r m. unfold acc_of, psum, bvs. change 0%Z with (Z.of_N 0). generalize 0. generalize (chunks 16 m).
  induction l as [|c l IH]; intro a; [reflexivity|]. cbn [map fold_left]. rewrite IH. f_equal.
  rewrite N2Z.inj_mod, N2Z.inj_mul, N2Z.inj_add. reflexivity.
Qed.
Lemma to_le_mod : forall k v, of_le (to_le k v) = v mod 256 ^ N.of_nat k.
Proof.
  intros k v. assert (E : to_le k v = to_le k (v mod 256 ^ N.of_nat k)).
  { revert v. induction k as [|k IH]; intro v; [reflexivity|]. cbn [to_le].
    rewrite pow256_S. set (q := 256 ^ N.of_nat k). assert (Q : q <> 0) by (apply N.pow_nonzero; lia).
    rewrite (N.mod_mul_r v 256 q) by lia. f_equal.
    - apply to_N_inj. rewrite !to_N_b8. rewrite (N.mul_comm 256), N.mod_add by lia. symmetry. apply N.mod_mod. lia.
    - rewrite IH. fold q. f_equal. rewrite (N.mul_comm 256), N.div_add by lia. rewrite (N.div_small (v mod 256)) by (apply N.mod_lt; lia).
      rewrite N.add_0_l. reflexivity. }
  rewrite E. apply of_le_to_le. apply N.mod_lt. apply N.pow_nonzero. lia.
Qed.

Lemma poly_acc : forall key msg, poly1305 key msg =
  to_le 16 (acc_of (N.land (of_le (firstn 16 key)) mask) msg + of_le (firstn 16 (skipn 16 key))).
Proof. reflexivity. Qed.
(** A tag with its multiplier and pad. *)
Definition tag_of (r s : N) (m : bytes) : bytes := to_le 16 (acc_of r m + s).
Lemma tag_difference : forall r s m m' t t', tag_of r s m = t -> tag_of r s m' = t' ->
  ((psum (Z.of_N r) (bvs m') - psum (Z.of_N r) (bvs m)) mod 2 ^ 128 = (Z.of_N (of_le t') - Z.of_N (of_le t)) mod 2 ^ 128)%Z.
Proof.
  intros r s m m' t t' E E'. subst. unfold tag_of. rewrite !to_le_mod. change (256 ^ N.of_nat 16) with (2 ^ 128).
  rewrite !N2Z.inj_mod, !N2Z.inj_add, !acc_psum. change (Z.of_N (2 ^ 128)) with (2 ^ 128)%Z.
  rewrite <- Zminus_mod. f_equal. lia.
Qed.

(** The finitely many numbers below [n] with a decidable property, in a list. *)
Lemma listed : forall (P : N -> Prop), (forall x, {P x} + {~ P x}) -> forall n,
  exists l, NoDup l /\ forall x, In x l <-> x < n /\ P x.
Proof.
  intros P D. apply N.peano_ind.
  - exists []. split; [constructor|]. intro x. split; [intros []|lia].
  - intros n (l & ND & H). destruct (D n) as [Y|Y].
    + exists (n :: l). split; [constructor; [rewrite H; lia|exact ND]|]. intro x. cbn [In]. rewrite H. split.
      * intros [E|[L Q]]; [subst; split; [lia|exact Y]|split; [lia|exact Q]].
      * intros [L Q]. destruct (N.eq_dec x n); [left; congruence|right; split; [lia|exact Q]].
    + exists l. split; [exact ND|]. intro x. rewrite H. split; [intros [L Q]; split; [lia|exact Q]|].
      intros [L Q]. split; [|exact Q]. destruct (N.eq_dec x n); [subst; contradiction|lia].
Qed.

Theorem few_multipliers : forall m m' t t', m <> m' ->
  exists bad, NoDup bad /\ len bad <= 8 * N.max ((len m + 15) / 16) ((len m' + 15) / 16) /\
    forall r s, r < 2 ^ 128 -> tag_of r s m = t -> tag_of r s m' = t' -> In r bad.
Proof.
  intros m m' t t' NE. set (d := ((Z.of_N (of_le t') - Z.of_N (of_le t)) mod 2 ^ 128)%Z).
  destruct (listed (fun r => (psum (Z.of_N r) (bvs m') - psum (Z.of_N r) (bvs m)) mod 2 ^ 128 = d)%Z ltac:(intro; apply Z.eq_dec) (2 ^ 128)) as (bad & ND & H).
  exists bad. split; [exact ND|]. split.
  - assert (K : (length (map Z.of_N bad) <= 8 * Nat.max (length (bvs m)) (length (bvs m')))%nat).
    { apply (few_r (bvs m) (bvs m') d); try apply bvs_small.
      - intro E. apply NE, bvs_inj, E.
      - apply FinFun.Injective_map_NoDup; [intros x y E; apply N2Z.inj; exact E|exact ND].
      - intros r R. apply in_map_iff in R. destruct R as (x & <- & X). apply H in X. destruct X as [L Q]. split; [|exact Q].
        split; [lia|]. apply N2Z.inj_lt in L. eapply Z.lt_trans; [exact L|reflexivity]. }
    rewrite map_length in K. rewrite <- !bvs_count. unfold len. lia.
  - intros r s R T T'. apply H. split; [exact R|]. eapply tag_difference; eassumption.
Qed.

(** ** The authenticated data *)
Definition auth_data (ad ct : bytes) : bytes := ad ++ pad16 ad ++ ct ++ pad16 ct ++ to_le 8 (len ad) ++ to_le 8 (len ct).
Lemma pad_len : forall b, len b + len (pad16 b) = 16 * ((len b + 15) / 16).
Proof.
  intro b. unfold pad16. pose proof (Nat.div_mod (length b) 16 ltac:(lia)) as E. pose proof (Nat.mod_upper_bound (length b) 16 ltac:(lia)) as B.
  set (q := Nat.div (length b) 16) in *. set (r := Nat.modulo (length b) 16) in *. clearbody q r.
  destruct r as [|r].
  - rewrite len_nil. replace ((len b + 15) / 16) with (N.of_nat q); [unfold len; lia|]. apply (N.div_unique _ _ _ 15); unfold len; lia.
  - rewrite len_repeat. replace ((len b + 15) / 16) with (N.of_nat q + 1); [unfold len; lia|]. apply (N.div_unique _ _ _ (N.of_nat r)); unfold len; lia.
Qed.
Lemma auth_len : forall ad ct, len (auth_data ad ct) = 16 * blocks (len ad) (len ct).
Proof.
  intros ad ct. unfold auth_data, blocks. rewrite !len_app, !len_to_le. pose proof (pad_len ad). pose proof (pad_len ct). lia.
Qed.
Lemma auth_inj : forall ad ct ad' ct', len ad < 2 ^ 64 -> len ct < 2 ^ 64 -> len ad' < 2 ^ 64 -> len ct' < 2 ^ 64 ->
  auth_data ad ct = auth_data ad' ct' -> ad = ad' /\ ct = ct'.
Proof.
  intros ad ct ad' ct' A B A' B' E. unfold auth_data in E. rewrite !app_assoc in E.
  destruct (app_len_unique _ _ _ _ E) as [E1 L1]; [rewrite !len_to_le; reflexivity|].
  destruct (app_len_unique _ _ _ _ E1) as [E2 L2]; [rewrite !len_to_le; reflexivity|].
  assert (LC : len ct = len ct') by (apply (f_equal of_le) in L1; rewrite !of_le_to_le in L1; assumption).
  assert (LA : len ad = len ad') by (apply (f_equal of_le) in L2; rewrite !of_le_to_le in L2; assumption).
  rewrite <- !app_assoc in E2. apply app_inj_len in E2; [|exact LA]. destruct E2 as [-> E2]. split; [reflexivity|].
  apply app_inj_len in E2; [|reflexivity]. destruct E2 as [_ E2]. apply app_inj_len in E2; [|exact LC]. apply E2.
Qed.

Lemma aead_tag_of : forall key nonce, exists s, forall ad ct,
  aead_tag key nonce ad ct = tag_of (one_time_r key nonce) s (auth_data ad ct).
Proof.
  intros key nonce. set (blk := chacha_block key 0 nonce).
  exists (of_le (firstn 16 (skipn 16 (firstn 32 blk)))). intros ad ct. unfold aead_tag, tag_of. fold blk. cbv zeta.
  rewrite poly_acc. f_equal. f_equal. f_equal. unfold one_time_r. fold blk. rewrite <- clamp_spec.
  - rewrite firstn_firstn. reflexivity.
  - rewrite firstn_length. subst blk. rewrite chacha_block_length. reflexivity.
Qed.
Lemma one_time_small : forall key nonce, one_time_r key nonce < 2 ^ 128.
Proof. intros. apply clamp_small. rewrite firstn_length, chacha_block_length. reflexivity. Qed.

Definition parts (m : bytes) : bytes * bytes := (firstn (length m - 16) m, skipn (length m - 16) m).
Lemma ENCRYPT_parts : forall k n ad pt m, ENCRYPT real_crypto k n ad pt = m ->
  snd (parts m) = aead_tag k (nonce96 n) ad (fst (parts m)) /\ m = fst (parts m) ++ snd (parts m).
Proof.
  intros k n ad pt m E. subst. unfold ENCRYPT. cbn [real_crypto c_seal aead_seal]. unfold aead_seal.
  set (ct := chacha20 k 1 (nonce96 n) pt). set (tag := aead_tag k (nonce96 n) ad ct).
  assert (LT : length tag = 16%nat) by (unfold tag, aead_tag, poly1305; apply length_to_le).
  unfold parts. cbn [fst snd]. split; [|symmetry; apply firstn_skipn].
  replace (length (ct ++ tag) - 16)%nat with (length ct) by (rewrite app_length; lia).
  rewrite (firstn_app_exact _ (length ct)), (skipn_app_exact _ (length ct)) by reflexivity. reflexivity.
Qed.
Lemma DECRYPT_parts : forall k n ad m pt, DECRYPT real_crypto k n ad m = Some pt ->
  snd (parts m) = aead_tag k (nonce96 n) ad (fst (parts m)) /\ m = fst (parts m) ++ snd (parts m).
Proof.
  intros k n ad m pt E. unfold DECRYPT in E. unfold parts. cbn [fst snd]. split; [|symmetry; apply firstn_skipn].
  destruct (len m <? 16); [discriminate E|]. cbn [real_crypto c_open] in E. unfold aead_open in E.
  destruct (bytes_eqb _ _) eqn:T; [|discriminate E]. apply bytes_eqb_iff in T. exact T.
Qed.

(** C99. *)
Theorem forgery : forall ad m ad' m', len ad < 2 ^ 64 -> len m < 2 ^ 64 -> len ad' < 2 ^ 64 -> len m' < 2 ^ 64 ->
  (ad, m) <> (ad', m') ->
  exists bad, NoDup bad /\ len bad <= 8 * N.max (blocks (len ad) (len m - 16)) (blocks (len ad') (len m' - 16)) /\
    forall k n pt pt', ENCRYPT real_crypto k n ad pt = m -> DECRYPT real_crypto k n ad' m' = Some pt' ->
      In (one_time_r k (nonce96 n)) bad.
Proof.
  intros ad m ad' m' A M A' M' NE.
  assert (LP : forall x, len x < 2 ^ 64 -> len (fst (parts x)) = len x - 16 /\ len (fst (parts x)) < 2 ^ 64).
  { intros x X. unfold parts, len in *. cbn [fst]. rewrite firstn_length. lia. }
  destruct (LP m M) as [L1 L2], (LP m' M') as [L1' L2'].
  destruct (list_eq_dec Byte.byte_eq_dec (auth_data ad (fst (parts m))) (auth_data ad' (fst (parts m')))) as [E|E].
  - apply auth_inj in E; try assumption. destruct E as [-> EC].
    exists []. split; [constructor|]. split; [rewrite len_nil; lia|]. intros k n pt pt' H H'. exfalso. apply NE. f_equal.
    apply ENCRYPT_parts in H. apply DECRYPT_parts in H'. destruct H as [T ->], H' as [T' ->]. rewrite T, T', EC. reflexivity.
  - destruct (few_multipliers _ _ (snd (parts m)) (snd (parts m')) E) as (bad & ND & B & H). exists bad. split; [exact ND|]. split.
    + rewrite !auth_len, L1, L1' in B.
      assert (Q : forall x, (16 * x + 15) / 16 = x) by (intro x; symmetry; apply (N.div_unique _ _ _ 15); lia). rewrite !Q in B. exact B.
    + intros k n pt pt' S O. apply ENCRYPT_parts in S. apply DECRYPT_parts in O. destruct S as [S _], O as [O _].
      destruct (aead_tag_of k (nonce96 n)) as (s & X). apply (H _ s); [apply one_time_small|rewrite S; symmetry; apply X|rewrite O; symmetry; apply X].
Qed.
(** An unchanged ciphertext with another tag is never accepted. *)
Theorem other_tag : forall k n ad pt ct tag tag', ENCRYPT real_crypto k n ad pt = ct ++ tag -> len tag = 16 -> len tag' = 16 -> tag <> tag' ->
  DECRYPT real_crypto k n ad (ct ++ tag') = None.
Proof.
  intros k n ad pt ct tag tag' E L L' NE. destruct (DECRYPT real_crypto k n ad (ct ++ tag')) as [p|] eqn:D; [exfalso|reflexivity].
  apply ENCRYPT_parts in E. apply DECRYPT_parts in D. destruct E as [E _], D as [D _].
  assert (P : forall t, len t = 16 -> parts (ct ++ t) = (ct, t)).
  { intros t T. unfold parts. replace (length (ct ++ t) - 16)%nat with (length ct) by (rewrite app_length; unfold len in *; lia).
    rewrite (firstn_app_exact _ (length ct)), (skipn_app_exact _ (length ct)) by reflexivity. reflexivity. }
  rewrite P in E, D by assumption. cbn [fst snd] in *. congruence.
Qed.

(** The receiving side of a session. *)
Theorem session_forgery : forall C, crypto_ok C -> c_seal C = aead_seal -> c_open C = aead_open ->
  forall m b, len m <= 65535 -> m <> b ->
  exists bad, NoDup bad /\ len bad <= 2 ^ 15 /\
    forall s k n pt, reachable C s -> is_transport s = true -> receiving (se_i s) (channel_of s) = (k, n) ->
      ENCRYPT C k n [] pt = m -> res (recv_message C s b) = Ok tt -> In (one_time_r k (nonce96 n)) bad.
Proof.
  intros C OK CS CO m b LM NE. destruct (N.le_gt_cases (len b) 65535) as [LB|LB].
  2:{ exists []. split; [constructor|]. split; [rewrite len_nil; lia|]. intros s k n pt R T RC E X. exfalso.
      pose proof (step_served C OK s (Recv b) (wf_reachable C OK s R) T) as S. cbn [step] in S.
      rewrite X in S. inversion S; subst; lia. }
  assert (P64 : forall x, x <= 65535 -> x < 2 ^ 64) by (intros x X; change (2 ^ 64) with 18446744073709551616; lia).
  destruct (forgery [] m [] b) as (bad & ND & B & H); [reflexivity|apply P64; exact LM|reflexivity|apply P64; exact LB|congruence|].
  exists bad. split; [exact ND|]. split.
  - eapply N.le_trans; [exact B|]. unfold blocks. rewrite len_nil.
    assert (Q : forall x, x <= 65535 -> (x - 16 + 15) / 16 <= 4095).
    { intros x X. apply N.lt_succ_r. apply N.div_lt_upper_bound; lia. }
    change ((0 + 15) / 16) with 0. change (2 ^ 15) with 32768. pose proof (Q _ LM). pose proof (Q _ LB). lia.
  - intros s k n pt R T RC E X.
    pose proof (step_served C OK s (Recv b) (wf_reachable C OK s R) T) as S. cbn [step] in S.
    rewrite X in S. inversion S as [| | | | | | | |ct tag k' n' pt' c' Q1 Q2 Q3 Q4 Q5 Q6 Q7 Q8 Q9 Q10 Q11| | | | |]; subst.
    rewrite RC in Q3. injection Q3 as <- <-.
    apply (H k n pt pt').
    + unfold ENCRYPT. cbn [real_crypto c_seal]. rewrite CS. reflexivity.
    + unfold DECRYPT in *. rewrite CO in Q6. exact Q6.
Qed.

(** ** Counting *)
Theorem one_pad : forall rb msg tag, length rb = 16%nat -> length tag = 16%nat ->
  exists! s, length s = 16%nat /\ poly1305 (rb ++ s) msg = tag.
Proof.
  intros rb msg tag R T. set (acc := acc_of (N.land (of_le rb) mask) msg).
  assert (X : forall s, length s = 16%nat -> poly1305 (rb ++ s) msg = to_le 16 (acc + of_le s)).
  { intros s S. rewrite poly_acc, (firstn_app_exact _ 16), (skipn_app_exact _ 16) by (unfold len; rewrite R; reflexivity). rewrite (firstn_all2 s) by lia. reflexivity. }
  assert (TB : forall b : bytes, length b = 16%nat -> of_le b < 2 ^ 128).
  { intros b B. pose proof (of_le_bound b) as Q. unfold len in Q. rewrite B in Q. exact Q. }
  set (M := 2 ^ 128). assert (M0 : M <> 0) by discriminate.
  set (v := (of_le tag + (M - acc mod M)) mod M). assert (V : v < M) by (apply N.mod_lt; exact M0).
  assert (VE : (acc + v) mod M = of_le tag).
  { unfold v. rewrite N.add_mod_idemp_r by exact M0. pose proof (N.mod_lt acc M M0).
    rewrite (N.div_mod acc M M0) at 1.
    replace (M * (acc / M) + acc mod M + (of_le tag + (M - acc mod M))) with (of_le tag + (acc / M + 1) * M) by nia.
    rewrite N.mod_add by exact M0. apply N.mod_small. apply TB. exact T. }
  exists (to_le 16 v). split.
  - split; [apply length_to_le|]. rewrite X by apply length_to_le. rewrite of_le_to_le by exact V.
    rewrite <- (to_le_of_le tag), T. rewrite <- (to_le_of_le (to_le 16 (acc + v))), length_to_le, to_le_mod. change (256 ^ N.of_nat 16) with M.
    rewrite VE. reflexivity.
  - intros s [S E]. rewrite X in E by exact S. apply (f_equal of_le) in E. rewrite to_le_mod in E. change (256 ^ N.of_nat 16) with M in E.
    rewrite <- VE in E. rewrite <- (to_le_of_le s), S. f_equal. pose proof (TB s S) as SB. fold M in SB.
    pose proof (N.div_mod (acc + v) M M0) as D1. pose proof (N.div_mod (acc + of_le s) M M0) as D2. rewrite E in D2.
    set (q1 := (acc + v) / M) in *. set (q2 := (acc + of_le s) / M) in *.
    assert (q1 = q2) by (clearbody q1 q2 v M acc; nia). clearbody q1 q2 v M acc. subst. lia.
Qed.

(** The clamped values. *)
Definition byte_values (i : nat) : list N := filter (fun d => clamp_byte i d =? d) (map N.of_nat (seq 0 256)).
Lemma byte_values_nodup : forall i, NoDup (byte_values i).
Proof.
  intro i. apply NoDup_filter. apply FinFun.Injective_map_NoDup; [intros x y E; lia|apply seq_NoDup].
Qed.
Lemma clamp_byte_idem : forall i v, clamp_byte i (clamp_byte i v) = clamp_byte i v.
Proof.
  intros i v. assert (A : v mod 16 mod 16 = v mod 16) by (apply N.mod_mod; lia).
  assert (B : 4 * (4 * (v / 4) / 4) = 4 * (v / 4)) by (rewrite (N.mul_comm 4 (v / 4)), N.div_mul by lia; lia).
  unfold clamp_byte. do 16 (destruct i as [|i]; [first [reflexivity|exact A|exact B]|]). reflexivity.
Qed.
Lemma byte_values_in : forall i d, In d (byte_values i) <-> exists b, clamp_byte i (Byte.to_N b) = d.
Proof.
  intros i d. unfold byte_values. rewrite filter_In, in_map_iff. split.
  - intros [(x & <- & X) E]. apply in_seq in X. exists (b8 (N.of_nat x)). rewrite to_N_b8, N.mod_small by lia. lia.
  - intros (b & <-). rewrite clamp_byte_idem. split; [|lia]. pose proof (clamp_byte_lt i _ (to_N_lt b)).
    exists (N.to_nat (clamp_byte i (Byte.to_N b))). split; [lia|]. apply in_seq. lia.
Qed.
Definition clampable (i k : nat) (c : N) : Prop :=
  exists l, NoDup l /\ len l = c /\ forall r, In r l <-> exists bs : bytes, length bs = k /\ spec_val (clamp_from i (wire bs)) = r.
Lemma clampable_0 : forall i, clampable i 0 1.
Proof.
  intro i. exists [0]. split; [repeat constructor; intros []|]. split; [reflexivity|]. intro r. cbn [In]. split.
  - intros [<-|[]]. exists []. split; reflexivity.
  - intros (bs & L & E). destruct bs; [|discriminate L]. left. exact E.
Qed.
Lemma len_flat : forall (A B : Type) (f : A -> list B) c l, (forall a, len (f a) = c) -> len (flat_map f l) = len l * c.
Proof.
  intros A B f c l F. induction l as [|a l IH]; [reflexivity|]. cbn [flat_map]. rewrite len_app, len_cons, F, IH. lia.
Qed.
Lemma nodup_app : forall (A : Type) (a b : list A), NoDup a -> NoDup b -> (forall x, In x a -> In x b -> False) -> NoDup (a ++ b).
Proof.
  intros A a b NA NB D. induction NA as [|x a NI NA IH]; [exact NB|]. cbn. constructor.
  - rewrite in_app_iff. intros [H|H]; [contradiction|]. apply (D x); [left; reflexivity|exact H].
  - apply IH. intros y Y. apply D. right. exact Y.
Qed.
Lemma clampable_S : forall i k c, clampable (Datatypes.S i) k c -> clampable i (Datatypes.S k) (len (byte_values i) * c).
Proof.
  intros i k c (l & ND & L & H).
  exists (flat_map (fun d => map (fun a => d + 256 * a) l) (byte_values i)).
  assert (SMALL : forall d, In d (byte_values i) -> d < 256).
  { intros d D. apply byte_values_in in D. destruct D as (b & <-). apply clamp_byte_lt, to_N_lt. }
  split; [|split].
  - pose proof (byte_values_nodup i) as NB. revert SMALL NB. generalize (byte_values i). induction l0 as [|d ds IH]; intros SMALL NB; [constructor|].
    inversion NB; subst. cbn [flat_map]. apply nodup_app.
    + apply FinFun.Injective_map_NoDup; [intros x y E; lia|exact ND].
    + apply IH; [intros; apply SMALL; right; assumption|assumption].
    + intros x X Y. apply in_map_iff in X. destruct X as (a & <- & _). apply in_flat_map in Y. destruct Y as (d' & D' & Y).
      apply in_map_iff in Y. destruct Y as (a' & E & _).
      pose proof (SMALL d (or_introl eq_refl)). pose proof (SMALL d' (or_intror D')).
      assert (d = d') by lia. subst. contradiction.
  - apply len_flat. intro d. rewrite len_map. exact L.
  - intro r. rewrite in_flat_map. split.
    + intros (d & D & X). apply in_map_iff in X. destruct X as (a & <- & X). apply byte_values_in in D. destruct D as (b & <-).
      apply H in X. destruct X as (bs & LB & <-). exists (b :: bs). split; [cbn; lia|reflexivity].
    + intros (bs & LB & <-). destruct bs as [|b bs]; [discriminate LB|].
      exists (clamp_byte i (Byte.to_N b)). split; [apply byte_values_in; exists b; reflexivity|].
      apply in_map_iff. exists (spec_val (clamp_from (Datatypes.S i) (wire bs))). split; [reflexivity|].
      apply H. exists bs. split; [cbn in LB; lia|reflexivity].
Qed.
Theorem multiplier_count : exists all, NoDup all /\ len all = 2 ^ 106 /\
  forall r, In r all <-> exists bs : bytes, length bs = 16%nat /\ clamped bs = r.
Proof.
  assert (K : clampable 0 16 (2 ^ 106)); [|exact K].
  assert (K : clampable 0 16 (fold_right (fun i c => len (byte_values i) * c) 1 (seq 0 16))).
  { cbn [seq fold_right]. repeat apply clampable_S. apply clampable_0. }
  assert (E : fold_right (fun i c => len (byte_values i) * c) 1 (seq 0 16) = 2 ^ 106) by (vm_compute; reflexivity).
  rewrite E in K. exact K.
Qed.
