(** * Base58Facts: the scratch-buffer decoder computes the base58 relation. *)
From Coq Require Import Lia ZifyBool ZifyNat ZifyN.
From Verif Require Import Base Codec Types Certs SpecWire SpecCerts BaseFacts.
Open Scope N_scope.

(** ** Positional numbers, big-endian *)
Lemma be_snoc : forall b ds d, be_value b (ds ++ [d]) = b * be_value b ds + d.
Proof. intros. unfold be_value. rewrite fold_left_app. reflexivity. Qed.
Lemma be_fold : forall b ds acc, fold_left (fun a d => b * a + d) ds acc = b ^ len ds * acc + be_value b ds.
Proof.
  intros b ds. induction ds as [|d ds IH] using rev_ind; intro acc.
  - unfold be_value. cbn [fold_left]. rewrite len_nil, N.pow_0_r. lia.
  - rewrite fold_left_app. cbn [fold_left]. rewrite IH, be_snoc, len_app, len_cons, len_nil.
    rewrite N.add_0_r, N.pow_add_r, N.pow_1_r. lia.
Qed.
Lemma be_zeros : forall b z ds, be_value b (repeat 0 z ++ ds) = be_value b ds.
Proof.
  intros b z ds. unfold be_value at 1. rewrite fold_left_app.
  assert (E : forall n, fold_left (fun a d => b * a + d) (repeat 0 n) 0 = 0).
  { induction n as [|n IH]; [reflexivity|]. cbn [repeat fold_left]. rewrite N.mul_0_r. exact IH. }
  rewrite E. reflexivity.
Qed.
Lemma be_cons : forall b d ds, be_value b (d :: ds) = b ^ len ds * d + be_value b ds.
Proof. intros. unfold be_value at 1. cbn [fold_left]. rewrite N.mul_0_r, N.add_0_l. apply be_fold. Qed.
Lemma be_pos : forall b d ds, 1 < b -> d <> 0 -> 0 < be_value b (d :: ds).
Proof.
  intros b d ds Hb Hd. rewrite be_cons. assert (0 < b ^ len ds) by (apply N.neq_0_lt_0, N.pow_nonzero; lia). nia.
Qed.
Lemma be_bound : forall b ds, Forall (fun d => d < b) ds -> be_value b ds < b ^ len ds.
Proof.
  intros b ds. induction ds as [|d ds IH] using rev_ind; intro H; [reflexivity|].
  apply Forall_app in H. destruct H as [H1 H2]. apply IH in H1. inversion H2; subst.
  rewrite be_snoc, len_app, len_cons, len_nil, N.add_0_r, N.pow_add_r, N.pow_1_r. nia.
Qed.

Definition lead (ds : list N) : Prop := hd_error ds <> Some 0.
Lemma be_inj : forall b, 1 < b -> forall x y, Forall (fun d => d < b) x -> Forall (fun d => d < b) y ->
  lead x -> lead y -> be_value b x = be_value b y -> x = y.
Proof.
  intros b Hb x. induction x as [|d x IH] using rev_ind; intros y Hx Hy Lx Ly E.
  - destruct y as [|e y]; [reflexivity|]. exfalso.
    assert (0 < be_value b (e :: y)) by (apply be_pos; [exact Hb|intros ->; apply Ly; reflexivity]).
    unfold be_value in E at 1. cbn [fold_left] in E. lia.
  - destruct y as [|e y] using rev_ind.
    + exfalso. assert (0 < be_value b (x ++ [d])).
      { destruct x as [|c x]; cbn [app]; (apply be_pos; [exact Hb|intros ->; apply Lx; reflexivity]). }
      unfold be_value in E at 2. cbn [fold_left] in E. lia.
    + clear IHy. rewrite !be_snoc in E. apply Forall_app in Hx, Hy. destruct Hx as [Hx Hd], Hy as [Hy He].
      inversion Hd; inversion He; subst.
      assert (D : d = e /\ be_value b x = be_value b y).
      { assert (d = (b * be_value b x + d) mod b) by (rewrite N.add_comm, N.mul_comm, N.mod_add, N.mod_small; lia).
        assert (e = (b * be_value b y + e) mod b) by (rewrite N.add_comm, N.mul_comm, N.mod_add, N.mod_small; lia).
        rewrite E in H. assert (d = e) by congruence. split; [assumption|]. nia. }
      destruct D as [-> D]. f_equal. apply IH; auto.
      * destruct x as [|c x]; [unfold lead; discriminate|exact Lx].
      * destruct y as [|c y]; [unfold lead; discriminate|exact Ly].
Qed.

Lemma digits_exist : forall b, 1 < b -> forall v, exists ds, Forall (fun d => d < b) ds /\ lead ds /\ be_value b ds = v.
Proof.
  intros b Hb v. induction v as [v IH] using (well_founded_induction N.lt_wf_0).
  destruct (N.eq_dec v 0) as [->|NZ].
  { exists []. split; [constructor|]. split; [unfold lead; discriminate|reflexivity]. }
  destruct (N.lt_ge_cases v b) as [H|H].
  - exists [v]. split; [repeat constructor; exact H|]. split.
    + unfold lead. cbn. intro E. injection E as E. lia.
    + unfold be_value. cbn [fold_left]. lia.
  - destruct (IH (v / b)) as [ds [F [L E]]]; [apply N.div_lt; lia|].
    exists (ds ++ [v mod b]). split.
    { apply Forall_app. split; [exact F|]. repeat constructor. apply N.mod_lt. lia. }
    split.
    { destruct ds as [|d ds]; [|exact L]. exfalso. unfold be_value in E. cbn [fold_left] in E.
      assert (1 <= v / b) by (apply N.div_le_lower_bound; lia). lia. }
    rewrite be_snoc, E. symmetry. apply N.div_mod. lia.
Qed.

(** ** Digits *)
Lemma b58_digit_some : forall c d, b58_digit c = Some d -> digit58 c d.
Proof. intros c d. unfold digit58. destruct c; vm_compute; intro H; try discriminate; injection H as <-; reflexivity. Qed.
Lemma digit58_lt : forall c d, digit58 c d -> d < 58.
Proof.
  intros c d H. unfold digit58 in H. assert (N.to_nat d < length b58_alphabet)%nat by (apply nth_error_Some; congruence).
  change (length b58_alphabet) with 58%nat in *. lia.
Qed.
Lemma digit58_some : forall c d, digit58 c d -> b58_digit c = Some d.
Proof.
  intros c d H. pose proof (digit58_lt c d H) as L. unfold digit58 in H.
  assert (X : forallb (fun n => match nth_error b58_alphabet n with
      | Some c => match b58_digit c with Some e => e =? N.of_nat n | None => false end | None => false end) (seq 0 58) = true)
    by (vm_compute; reflexivity).
  rewrite forallb_forall in X. specialize (X (N.to_nat d) ltac:(apply in_seq; lia)). rewrite H in X.
  destruct (b58_digit c) as [e|]; [|discriminate]. f_equal. lia.
Qed.
Lemma digit58_fun : forall c d e, digit58 c d -> digit58 c e -> d = e.
Proof. intros c d e H1 H2. apply digit58_some in H1, H2. congruence. Qed.
Lemma digit58_inj : forall c e d, digit58 c d -> digit58 e d -> c = e.
Proof. unfold digit58. intros. congruence. Qed.
Lemma digits_fun : forall s x y, Forall2 digit58 s x -> Forall2 digit58 s y -> x = y.
Proof.
  induction s as [|c s IH]; intros x y H1 H2; inversion H1; inversion H2; subst; [reflexivity|].
  f_equal; [eapply digit58_fun; eassumption|eapply IH; eassumption].
Qed.
Lemma digits_inj : forall s t x, Forall2 digit58 s x -> Forall2 digit58 t x -> s = t.
Proof.
  induction s as [|c s IH]; intros t x H1 H2; inversion H1; subst; inversion H2; subst; [reflexivity|].
  f_equal; [eapply digit58_inj; eassumption|eapply IH; eassumption].
Qed.
Lemma digits_lt : forall s x, Forall2 digit58 s x -> Forall (fun d => d < 58) x.
Proof. induction 1; constructor; [eapply digit58_lt; eassumption|assumption]. Qed.
Lemma digits_len : forall s x, Forall2 digit58 s x -> len s = len x.
Proof. intros s x H. induction H; [reflexivity|]. rewrite !len_cons. congruence. Qed.
Lemma digits_decide : forall s, (exists ds, Forall2 digit58 s ds) \/ ~ (exists ds, Forall2 digit58 s ds).
Proof.
  induction s as [|c s IH]; [left; exists []; constructor|].
  destruct (b58_digit c) as [d|] eqn:E.
  - destruct IH as [[ds H]|H].
    + left. exists (d :: ds). constructor; [apply b58_digit_some; exact E|exact H].
    + right. intros [ds X]. inversion X; subst. apply H. eauto.
  - right. intros [ds X]. inversion X; subst. match goal with H : digit58 _ _ |- _ => apply digit58_some in H end. congruence.
Qed.

(** ** The scratch buffer *)
Lemma mul_add_spec : forall l carry, Forall (fun d => d < 256) l ->
  let '(l', c') := b58_mul_add l carry in
  Forall (fun d => d < 256) l' /\ length l' = length l /\ spec_val l' + 256 ^ len l * c' = carry + 58 * spec_val l.
Proof.
  induction l as [|d l IH]; intros carry H; cbn [b58_mul_add].
  - split; [constructor|]. split; [reflexivity|]. rewrite len_nil, N.pow_0_r. unfold spec_val. cbn [fold_right]. lia.
  - inversion H as [|? ? Hd Hl]; subst. specialize (IH ((carry + d * 58) / 256) Hl).
    destruct (b58_mul_add l ((carry + d * 58) / 256)) as [l' c'] eqn:E. destruct IH as (F & L & V).
    split; [constructor; [apply N.mod_lt; discriminate|exact F]|]. split; [cbn [length]; congruence|].
    unfold spec_val in *. cbn [fold_right]. rewrite len_cons, N.add_comm, N.pow_add_r, N.pow_1_r in *.
    pose proof (N.div_mod (carry + d * 58) 256 ltac:(discriminate)) as DM.
    set (q := (carry + d * 58) / 256) in *. set (r := (carry + d * 58) mod 256) in *. lia.
Qed.

Lemma fold_ge : forall b ds acc, 1 <= b -> acc <= fold_left (fun a d => b * a + d) ds acc.
Proof.
  intros b ds. induction ds as [|d ds IH]; intros acc Hb; cbn [fold_left]; [lia|].
  etransitivity; [|apply IH; exact Hb]. nia.
Qed.

Lemma loop_ok : forall data ds l, Forall2 digit58 data ds -> Forall (fun d => d < 256) l ->
  fold_left (fun a d => 58 * a + d) ds (spec_val l) < 256 ^ len l ->
  exists l', b58_loop data l = Ok l' /\ Forall (fun d => d < 256) l' /\ length l' = length l /\
    spec_val l' = fold_left (fun a d => 58 * a + d) ds (spec_val l).
Proof.
  intros data ds l H. revert l. induction H as [|c d data ds Hc Hds IH]; intros l Fl Hb.
  - exists l. auto.
  - cbn [b58_loop]. rewrite (digit58_some _ _ Hc). pose proof (mul_add_spec l d Fl) as M.
    destruct (b58_mul_add l d) as [l1 c1]. destruct M as (F1 & L1 & V1). cbn [fold_left] in Hb |- *.
    assert (B : 58 * spec_val l + d < 256 ^ len l).
    { eapply N.le_lt_trans; [|exact Hb]. apply fold_ge. lia. }
    assert (C0 : c1 = 0).
    { destruct (N.eq_dec c1 0) as [|NZ]; [assumption|exfalso]. assert (256 ^ len l <= 256 ^ len l * c1) by nia. lia. }
    subst c1. cbn [N.eqb]. rewrite N.mul_0_r, N.add_0_r in V1.
    assert (E : spec_val l1 = 58 * spec_val l + d) by lia. rewrite <- E in *.
    assert (EL : len l1 = len l) by (unfold len; congruence). rewrite <- EL in *.
    destruct (IH l1 F1 Hb) as (l2 & R & F2 & L2 & V2). exists l2. rewrite L2. auto.
Qed.
Lemma loop_bad : forall data l, ~ (exists ds, Forall2 digit58 data ds) -> Forall (fun d => d < 256) l ->
  (forall pre d post, data = pre ++ post -> Forall2 digit58 pre d ->
     fold_left (fun a d => 58 * a + d) d (spec_val l) < 256 ^ len l) ->
  b58_loop data l = Err Base58Error.
Proof.
  induction data as [|c data IH]; intros l H Fl Hb.
  - exfalso. apply H. exists []. constructor.
  - cbn [b58_loop]. destruct (b58_digit c) as [d|] eqn:E; [|reflexivity].
    pose proof (mul_add_spec l d Fl) as M. destruct (b58_mul_add l d) as [l1 c1]. destruct M as (F1 & L1 & V1).
    assert (Hc : digit58 c d) by (apply b58_digit_some; exact E).
    assert (B : 58 * spec_val l + d < 256 ^ len l).
    { apply (Hb [c] [d] data); [reflexivity|]. repeat constructor. exact Hc. }
    assert (C0 : c1 = 0).
    { destruct (N.eq_dec c1 0) as [|NZ]; [assumption|exfalso]. assert (256 ^ len l <= 256 ^ len l * c1) by nia. lia. }
    subst c1. cbn [N.eqb]. rewrite N.mul_0_r, N.add_0_r in V1.
    assert (E1 : spec_val l1 = 58 * spec_val l + d) by lia.
    assert (EL : len l1 = len l) by (unfold len; congruence).
    apply IH; auto.
    + intros [ds' X]. apply H. exists (d :: ds'). constructor; assumption.
    + intros pre d' post -> Hd'. rewrite E1, EL. apply (Hb (c :: pre) (d :: d') post); [reflexivity|].
      constructor; assumption.
Qed.

(** 58^n fits 1 + 11n/15 bytes. *)
Lemma scratch_fits : forall n, 58 ^ n <= 256 ^ (1 + n * 11 / 15).
Proof.
  intro n. pose proof (N.div_mod n 15 ltac:(discriminate)) as D. pose proof (N.mod_lt n 15 ltac:(discriminate)) as R.
  set (q := n / 15) in *. set (r := n mod 15) in *. clearbody q r. subst n.
  replace ((15 * q + r) * 11 / 15) with (11 * q + r * 11 / 15).
  2:{ replace ((15 * q + r) * 11) with (r * 11 + (11 * q) * 15) by lia. rewrite N.div_add by discriminate. lia. }
  rewrite !N.pow_add_r, !N.pow_mul_r.
  assert (A : (58 ^ 15) ^ q <= (256 ^ 11) ^ q) by (apply N.pow_le_mono_l; vm_compute; discriminate).
  assert (B : 58 ^ r <= 256 ^ 1 * 256 ^ (r * 11 / 15)).
  { assert (X : forallb (fun k => 58 ^ N.of_nat k <=? 256 ^ 1 * 256 ^ (N.of_nat k * 11 / 15)) (seq 0 15) = true) by (vm_compute; reflexivity).
    rewrite forallb_forall in X. specialize (X (N.to_nat r) ltac:(apply in_seq; lia)). rewrite N2Nat.id in X. lia. }
  replace (256 ^ 1 * ((256 ^ 11) ^ q * 256 ^ (r * 11 / 15))) with ((256 ^ 11) ^ q * (256 ^ 1 * 256 ^ (r * 11 / 15))) by lia.
  apply N.mul_le_mono; assumption.
Qed.

Lemma spec_val_zeros : forall n, spec_val (repeat 0 n) = 0.
Proof. induction n as [|n IH]; [reflexivity|]. unfold spec_val in *. cbn [repeat fold_right]. rewrite IH. reflexivity. Qed.
Lemma spec_val_rev : forall l, spec_val l = be_value 256 (rev l).
Proof.
  induction l as [|d l IH]; [reflexivity|]. cbn [rev]. rewrite be_snoc, <- IH. unfold spec_val. cbn [fold_right]. lia.
Qed.
Lemma wire_b8 : forall l, Forall (fun d => d < 256) l -> wire (map b8 l) = l.
Proof.
  induction 1 as [|d l Hd Hl IH]; [reflexivity|]. unfold wire in *. cbn [map]. rewrite IH. f_equal. rewrite to_N_b8. apply N.mod_small. exact Hd.
Qed.

(** ** Leading symbols *)
Lemma take_ones_spec : forall data, exists z s', data = repeat x31 z ++ s' /\ hd_error s' <> Some x31 /\
  take_ones data = repeat (b8 0) z.
Proof.
  induction data as [|c data IH].
  - exists 0%nat, []. split; [reflexivity|]. split; [discriminate|reflexivity].
  - cbn [take_ones]. destruct (Byte.eqb c x31) eqn:E.
    + apply byte_eqb_iff in E. subst. destruct IH as (z & s' & -> & H & T). exists (S z), s'.
      split; [reflexivity|]. split; [exact H|]. rewrite T. reflexivity.
    + exists 0%nat, (c :: data). split; [reflexivity|]. split; [|reflexivity].
      cbn. intro X. injection X as ->. discriminate.
Qed.
Lemma skip_zeros_spec : forall l, exists z, l = repeat (b8 0) z ++ skip_zeros l /\ hd_error (skip_zeros l) <> Some (b8 0).
Proof.
  induction l as [|c l IH].
  - exists 0%nat. split; [reflexivity|discriminate].
  - cbn [skip_zeros]. destruct (Byte.eqb c x00) eqn:E.
    + apply byte_eqb_iff in E. subst. destruct IH as (z & H & T). exists (S z). split; [|exact T].
      cbn [repeat app]. rewrite <- H. reflexivity.
    + exists 0%nat. split; [reflexivity|]. cbn. intro X. injection X as ->. discriminate.
Qed.
Lemma lead_count : forall A (a : A) z1 z2 (x y : list A), hd_error x <> Some a -> hd_error y <> Some a ->
  repeat a z1 ++ x = repeat a z2 ++ y -> z1 = z2 /\ x = y.
Proof.
  induction z1 as [|z1 IH]; intros [|z2] x y Hx Hy E; cbn [repeat app] in E.
  - auto.
  - exfalso. apply Hx. rewrite E. reflexivity.
  - exfalso. apply Hy. rewrite <- E. reflexivity.
  - injection E as E. destruct (IH z2 x y Hx Hy E) as [-> ->]. auto.
Qed.
Lemma wire_repeat0 : forall z, wire (repeat (b8 0) z) = repeat 0 z.
Proof. induction z as [|z IH]; [reflexivity|]. unfold wire in *. cbn [repeat map]. rewrite IH. reflexivity. Qed.
Lemma wire_lead : forall k, hd_error k <> Some (b8 0) -> lead (wire k).
Proof.
  intros [|c k] H; [unfold lead; discriminate|]. unfold lead, wire. cbn. intro E. injection E as E. apply H. cbn. f_equal.
  rewrite <- (b8_to_N c), E. reflexivity.
Qed.
Lemma wire_lt : forall k, Forall (fun d => d < 256) (wire k).
Proof. induction k as [|c k IH]; constructor; [apply to_N_lt|exact IH]. Qed.

Lemma digits_ones : forall z s' ds, Forall2 digit58 (repeat x31 z ++ s') ds ->
  exists ds', ds = repeat 0 z ++ ds' /\ Forall2 digit58 s' ds'.
Proof.
  induction z as [|z IH]; intros s' ds H; cbn [repeat app] in H.
  - exists ds. auto.
  - inversion H as [|? d ? ds1 Hd Hds]; subst. destruct (IH _ _ Hds) as (ds' & -> & F). exists ds'. split; [|exact F].
    cbn [repeat app]. f_equal. eapply digit58_fun; [exact Hd|reflexivity].
Qed.

(** ** The decoder *)
Lemma base58_unique : forall s k1 k2, base58 s k1 -> base58 s k2 -> k1 = k2.
Proof.
  intros s k1 k2 (z1 & s1 & t1 & d1 & E1 & -> & H1 & T1 & F1 & V1) (z2 & s2 & t2 & d2 & E2 & -> & H2 & T2 & F2 & V2).
  rewrite E1 in E2. destruct (lead_count _ _ _ _ _ _ H1 H2 E2) as [-> ->].
  f_equal. apply wire_inj. assert (d1 = d2) by (eapply digits_fun; eassumption). subst d2.
  apply (be_inj 256); try apply wire_lt; try apply wire_lead; try assumption; [reflexivity|congruence].
Qed.
Lemma base58_text_unique : forall s1 s2 k, base58 s1 k -> base58 s2 k -> s1 = s2.
Proof.
  intros s1 s2 k (z1 & u1 & t1 & d1 & -> & E1 & H1 & T1 & F1 & V1) (z2 & u2 & t2 & d2 & -> & E2 & H2 & T2 & F2 & V2).
  rewrite E1 in E2. destruct (lead_count _ _ _ _ _ _ T1 T2 E2) as [-> ->]. f_equal.
  assert (d1 = d2); [|subst; eapply digits_inj; eassumption].
  apply (be_inj 58); try reflexivity; try (eapply digits_lt; eassumption); try congruence.
  - intro X. apply H1. destruct F1; cbn in X; [discriminate|]. injection X as ->. cbn. f_equal. eapply digit58_inj; [exact H|reflexivity].
  - intro X. apply H2. destruct F2; cbn in X; [discriminate|]. injection X as ->. cbn. f_equal. eapply digit58_inj; [exact H|reflexivity].
Qed.

Lemma base58_from_ok : forall s ds, Forall2 digit58 s ds -> exists k, base58_from s = Ok k /\ base58 s k.
Proof.
  intros s ds F. unfold base58_from. set (n := 1 + len s * 11 / 15).
  set (l0 := repeat 0 (N.to_nat n)).
  assert (L0 : len l0 = n) by (unfold l0, len; rewrite repeat_length, N2Nat.id; reflexivity).
  assert (F0 : Forall (fun d => d < 256) l0).
  { apply Forall_forall. intros x Hx. apply repeat_spec in Hx. subst. reflexivity. }
  assert (V0 : spec_val l0 = 0) by apply spec_val_zeros.
  destruct (loop_ok s ds l0 F F0) as (l & E & Fl & Ll & V).
  { rewrite V0, L0. change (fold_left (fun a d => 58 * a + d) ds 0) with (be_value 58 ds).
    eapply N.lt_le_trans; [apply be_bound; eapply digits_lt; eassumption|].
    rewrite <- (digits_len _ _ F). apply scratch_fits. }
  rewrite E. eexists. split; [reflexivity|].
  destruct (take_ones_spec s) as (z & s' & Es & Hs & ->).
  destruct (skip_zeros_spec (rev (map b8 l))) as (w & Ew & Hw).
  rewrite Es in F. destruct (digits_ones _ _ _ F) as (ds' & -> & F').
  exists z, s', (skip_zeros (rev (map b8 l))), ds'.
  do 2 (split; [first [exact Es|reflexivity]|]). split; [exact Hs|]. split; [exact Hw|]. split; [exact F'|].
  rewrite V0 in V. change (fold_left (fun a d => 58 * a + d) (repeat 0 z ++ ds') 0) with (be_value 58 (repeat 0 z ++ ds')) in V.
  rewrite be_zeros in V. rewrite <- V, spec_val_rev.
  transitivity (be_value 256 (wire (rev (map b8 l)))).
  - f_equal. unfold wire. rewrite map_rev. f_equal. symmetry. apply (wire_b8 l Fl).
  - rewrite Ew at 1. rewrite wire_app, wire_repeat0, be_zeros. reflexivity.
Qed.
Lemma base58_from_bad : forall s, ~ (exists ds, Forall2 digit58 s ds) -> base58_from s = Err Base58Error.
Proof.
  intros s H. unfold base58_from. set (n := 1 + len s * 11 / 15).
  set (l0 := repeat 0 (N.to_nat n)).
  assert (L0 : len l0 = n) by (unfold l0, len; rewrite repeat_length, N2Nat.id; reflexivity).
  assert (F0 : Forall (fun d => d < 256) l0).
  { apply Forall_forall. intros x Hx. apply repeat_spec in Hx. subst. reflexivity. }
  assert (V0 : spec_val l0 = 0) by apply spec_val_zeros.
  rewrite (loop_bad s l0 H F0); [reflexivity|].
  intros pre d post -> Fp. rewrite V0, L0. change (fold_left (fun a d => 58 * a + d) d 0) with (be_value 58 d).
  eapply N.lt_le_trans; [apply be_bound; eapply digits_lt; eassumption|].
  rewrite <- (digits_len _ _ Fp). etransitivity; [|apply scratch_fits].
  apply N.pow_le_mono_r; [discriminate|]. rewrite len_app. lia.
Qed.
Lemma base58_digits : forall s k, base58 s k -> exists ds, Forall2 digit58 s ds.
Proof.
  intros s k (z & s' & k' & ds & -> & _ & _ & _ & F & _). exists (repeat 0 z ++ ds).
  apply Forall2_app; [|exact F]. clear. induction z; constructor; [reflexivity|assumption].
Qed.
Theorem base58_from_spec : forall s,
  (forall k, base58_from s = Ok k <-> base58 s k) /\
  ((exists k, base58 s k) \/ base58_from s = Err Base58Error).
Proof.
  intro s. destruct (digits_decide s) as [[ds F]|NF].
  - destruct (base58_from_ok s ds F) as (k & E & B). split.
    + intro k'. rewrite E. split; [intro X; injection X as <-; exact B|].
      intro B'. f_equal. eapply base58_unique; eassumption.
    + left. eauto.
  - rewrite (base58_from_bad s NF). split; [|right; reflexivity].
    intro k. split; [discriminate|]. intro B. exfalso. apply NF. eapply base58_digits. exact B.
Qed.

(** Every byte string has a text. *)
Theorem base58_total : forall k, exists s, base58 s k.
Proof.
  intro k. destruct (skip_zeros_spec k) as (z & Ek & Hk). set (k' := skip_zeros k) in *.
  destruct (digits_exist 58 ltac:(reflexivity) (be_value 256 (wire k'))) as (ds & F & L & V).
  assert (X : exists s', Forall2 digit58 s' ds).
  { clear - F. induction F as [|d ds Hd F [s' IH]]; [exists []; constructor|].
    destruct (nth_error b58_alphabet (N.to_nat d)) as [c|] eqn:E.
    - exists (c :: s'). constructor; [exact E|exact IH].
    - exfalso. apply nth_error_None in E. change (length b58_alphabet) with 58%nat in E. lia. }
  destruct X as [s' Fs]. exists (repeat x31 z ++ s'), z, s', k', ds.
  split; [reflexivity|]. split; [exact Ek|]. split; [|split; [exact Hk|split; [exact Fs|exact V]]].
  intro H. apply L. destruct Fs as [|c d s'' ds' Hc Hs]; [discriminate|]. cbn in *. injection H as ->. f_equal.
  eapply digit58_fun; [exact Hc|reflexivity].
Qed.
