(** * TypesFacts: every field type is a correct, canonical codec. *)
From Verif Require Import Base Codec Types SpecWire BaseFacts CodecFacts Utf8Facts.
Ltac Zify.zify_post_hook ::= Z.div_mod_to_equations.

(** A field type: encoder matches the layout, decoder inverts it, and decodes nothing else. *)
Definition field {A} (ser : A -> wprog N) (de : De A) (ok : A -> Prop) (lay : A -> list N) : Prop :=
  (forall a, ok a -> exists cs, emits (ser a) cs (len (concat cs)) /\ wire (concat cs) = lay a) /\
  (forall a c, ok a -> wire c = lay a -> reads de c a) /\
  good de (fun a c => ok a /\ wire c = lay a).

Lemma wire_split : forall c a b, wire c = a ++ b ->
  exists c1 c2, c = c1 ++ c2 /\ wire c1 = a /\ wire c2 = b.
Proof.
  intros c a b H.
  destruct (split_at _ (len a) c) as (c1 & c2 & -> & Hl).
  { rewrite <- len_wire, H, len_app. lia. }
  rewrite wire_app in H. apply app_inj_len in H as [H1 H2]; [|rewrite len_wire; exact Hl].
  eauto.
Qed.

Lemma clone_from_slice_ok : forall k c, len c = k -> clone_from_slice k c = Ok c.
Proof. intros k c H. unfold clone_from_slice. rewrite H, N.eqb_refl. reflexivity. Qed.

Lemma wire_le_inv : forall k v c, wire c = spec_le k v -> c = to_le k v.
Proof. intros k v c H. apply wire_inj. rewrite H, wire_to_le. reflexivity. Qed.

Lemma spec_le_of_le : forall k c, len c = N.of_nat k -> spec_le k (of_le c) = wire c.
Proof.
  intros k c H. rewrite <- wire_to_le. f_equal.
  replace k with (length c) by (unfold len in H; lia). apply to_le_of_le.
Qed.

(** ** unsigned integers *)
Lemma uint_field : forall k, (k <= 8)%nat ->
  field (ser_uint k) (de_uint k) (fun v => v < 256 ^ N.of_nat k) (spec_le k).
Proof.
  intros k Hk. split; [|split].
  - intros v _. exists [to_le k v]. cbn [concat]. rewrite app_nil_r.
    split; [|apply wire_to_le]. unfold ser_uint, wwrite, wok. cbn [wbind].
    repeat constructor.
  - intros v c Hv Hc. apply wire_le_inv in Hc. subst c. unfold de_uint.
    eapply reads_bind_last.
    + apply reads_next_by. apply len_to_le.
    + eapply reads_bind_last.
      * apply reads_lift. apply clone_from_slice_ok, len_to_le.
      * rewrite of_le_to_le by assumption. apply reads_ret.
  - unfold de_uint. eapply good_bind.
    + apply good_next_by. lia.
    + intros a ca [-> Hc]. cbn beta. eapply good_bind with (Qm := fun x cx => x = ca /\ cx = []).
      * rewrite clone_from_slice_ok by assumption. apply good_lift; [discriminate|].
        intros a E; injection E as <-; auto.
      * intros x cx [-> ->]. apply good_ret. rewrite !app_nil_r. split.
        -- rewrite <- Hc. apply of_le_bound.
        -- symmetry. apply spec_le_of_le, Hc.
Qed.

Lemma u8_field : field ser_u8 de_u8 u8_ok (spec_le 1).
Proof. apply (uint_field 1). lia. Qed.
Lemma u16_field : field ser_u16 de_u16 u16_ok (spec_le 2).
Proof. apply (uint_field 2). lia. Qed.
Lemma u32_field : field ser_u32 de_u32 u32_ok (spec_le 4).
Proof. apply (uint_field 4). lia. Qed.
Lemma f32_field : field ser_f32 de_f32 u32_ok (spec_le 4).
Proof. apply (uint_field 4). lia. Qed.

(** ** bool *)
Lemma land_1 : forall n, (N.land n 1 =? 1) = N.odd n.
Proof.
  intros n. change 1 with (N.ones 1) at 1. rewrite N.land_ones. change (2 ^ 1) with 2.
  rewrite <- N.bit0_mod, N.bit0_odd. destruct (N.odd n); reflexivity.
Qed.

Lemma reads_bool : forall b, reads de_bool [b] (N.odd (Byte.to_N b)).
Proof.
  intros b. unfold de_bool. eapply reads_bind_last.
  - apply reads_next_by. reflexivity.
  - eapply reads_bind_last.
    + apply reads_lift. apply clone_from_slice_ok. reflexivity.
    + cbn [hd]. rewrite land_1. apply reads_ret.
Qed.

Lemma emits_bool : forall b, emits (ser_bool b) [[if b then x01 else x00]] 1.
Proof. intros []; unfold ser_bool, wwrite, wok; cbn [wbind]; repeat constructor. Qed.

Lemma good_bool : good de_bool (fun v c => exists b, c = [b] /\ v = N.odd (Byte.to_N b)).
Proof.
  unfold de_bool. eapply good_bind.
  - apply good_next_by. lia.
  - intros a ca [-> Hc]. cbn beta.
    destruct ca as [|b [|? ?]]; rewrite ?len_cons, ?len_nil in Hc; try lia.
    rewrite clone_from_slice_ok by reflexivity.
    eapply good_bind with (Qm := fun x cx => x = [b] /\ cx = []).
    + apply good_lift; [discriminate|]. intros a E; injection E as <-; auto.
    + intros x cx [-> ->]. apply good_ret. cbn [app hd]. exists b. rewrite land_1. auto.
Qed.

(** ** U24, U256 *)
Lemma u24_new_ok : forall v, v < 2 ^ 24 -> u24_new v = Ok v.
Proof.
  intros v H. unfold u24_new, u24_try_from_usize.
  destruct (2 ^ 24 - 1 <? v) eqn:E; [lia|]. rewrite N.mod_small by lia. reflexivity.
Qed.
Lemma u24_new_err : forall v, 2 ^ 24 <= v -> u24_new v = Err RequirementError.
Proof.
  intros v H. unfold u24_new, u24_try_from_usize.
  destruct (2 ^ 24 - 1 <? v) eqn:E; [reflexivity|lia].
Qed.

Lemma of_le_app0 : forall c, of_le (c ++ [x00]) = of_le c.
Proof. induction c; cbn [app of_le]; [reflexivity|]. rewrite IHc. reflexivity. Qed.

Lemma u24_field : field ser_u24 de_u24 (fun v => v < 2 ^ 24) (spec_le 3).
Proof.
  split; [|split].
  - intros v _. exists [to_le 3 v]. cbn [concat]. rewrite app_nil_r, len_to_le.
    split; [|apply wire_to_le]. unfold ser_u24, wwrite, wok.
    rewrite firstn_to_le by lia. cbn [wbind]. repeat constructor.
  - intros v c Hv Hc. apply wire_le_inv in Hc. subst c. unfold de_u24.
    eapply reads_bind_last.
    + apply reads_next_by. apply len_to_le.
    + eapply reads_bind_last.
      * apply reads_lift. apply clone_from_slice_ok, len_to_le.
      * apply reads_lift. rewrite of_le_app0, of_le_to_le by exact Hv. apply u24_new_ok, Hv.
  - unfold de_u24. eapply good_bind.
    + apply good_next_by. lia.
    + intros a ca [-> Hc]. cbn beta. eapply good_bind with (Qm := fun x cx => x = ca /\ cx = []).
      * rewrite clone_from_slice_ok by assumption. apply good_lift; [discriminate|].
        intros a E; injection E as <-; auto.
      * intros x cx [-> ->]. rewrite of_le_app0.
        pose proof (of_le_bound ca) as B. rewrite Hc in B. change (256 ^ 3) with (2 ^ 24) in B.
        rewrite u24_new_ok by exact B. apply good_lift; [discriminate|].
        intros a E; injection E as <-. rewrite !app_nil_r. split; [exact B|].
        symmetry. apply spec_le_of_le, Hc.
Qed.

Lemma u256_field : field ser_u256 de_u256 u256_ok wire.
Proof.
  split; [|split].
  - intros v Hv. exists [v]. cbn [concat]. rewrite app_nil_r. split; [|reflexivity].
    unfold ser_u256, wwrite, wok. cbn [wbind]. replace (len v) with 32.
    + repeat constructor.
    + unfold len. rewrite Hv. reflexivity.
  - intros v c Hv Hc. apply wire_inj in Hc. subst c.
    assert (len v = 32) by (unfold len; rewrite Hv; reflexivity).
    unfold de_u256. eapply reads_bind_last.
    + apply reads_next_by. assumption.
    + apply reads_lift. apply clone_from_slice_ok. assumption.
  - unfold de_u256. eapply good_bind.
    + apply good_next_by. lia.
    + intros a ca [-> Hc]. cbn beta. rewrite clone_from_slice_ok by assumption.
      apply good_lift; [discriminate|]. intros a E; injection E as <-.
      rewrite app_nil_r. split; [|reflexivity]. unfold u256_ok. unfold len in Hc. lia.
Qed.

(** ** B0 *)
Definition hdr_size (t : b0type) : nat :=
  match t with B0_31 | B0_32 | B0_255 => 1%nat | B0_64K => 2%nat | B0_16M => 3%nat end.

Lemma len_field : forall t,
  field (ser_len (b0_lentype t)) (de_len (b0_lentype t))
        (fun v => v < 256 ^ N.of_nat (hdr_size t)) (spec_le (hdr_size t)).
Proof.
  destruct t; cbn [b0_lentype ser_len de_len hdr_size];
    first [exact u8_field | exact u16_field | exact u24_field].
Qed.

Lemma b0_max_hdr : forall t, b0_max t < 256 ^ N.of_nat (hdr_size t).
Proof. destruct t; cbn [b0_max hdr_size]; unfold U24_MAX; lia. Qed.

Lemma b0_new_ok : forall t v, len v <= b0_max t -> b0_new t v = Ok (mkB0 (len v) v).
Proof.
  intros t v H. unfold b0_new. destruct (b0_max t <? len v) eqn:E; [lia|].
  assert (X : len_try_into_unwrap (b0_lentype t) (len v) = Ok (len v)).
  { destruct t; cbn [b0_max b0_lentype len_try_into_unwrap] in *.
    - destruct (len v <? 2 ^ 8) eqn:E2; [reflexivity|lia].
    - destruct (len v <? 2 ^ 8) eqn:E2; [reflexivity|lia].
    - destruct (len v <? 2 ^ 8) eqn:E2; [reflexivity|lia].
    - destruct (len v <? 2 ^ 16) eqn:E2; [reflexivity|lia].
    - unfold U24_MAX in *. fold (u24_new (len v)). rewrite u24_new_ok by lia. reflexivity. }
  rewrite X. reflexivity.
Qed.
Lemma b0_new_err : forall t v, b0_max t < len v -> b0_new t v = Err RequirementError.
Proof. intros t v H. unfold b0_new. destruct (b0_max t <? len v) eqn:E; [reflexivity|lia]. Qed.
Lemma b0_new_no_panic : forall t v, b0_new t v <> Panic.
Proof.
  intros t v. destruct (N.le_gt_cases (len v) (b0_max t)) as [H|H].
  - rewrite b0_new_ok by assumption. discriminate.
  - rewrite b0_new_err by assumption. discriminate.
Qed.

Lemma b0_field : forall t, field (ser_b0 t) (de_b0 t) (b0_ok (b0_max t)) (lay_b0 (hdr_size t)).
Proof.
  intros t. pose proof (b0_max_hdr t) as Hmax.
  destruct (len_field t) as (Le & Lr & Lg).
  split; [|split].
  - intros [l d] [Hd Hl]. cbn [b0_length b0_data] in *. subst l.
    destruct (Le (len d)) as (cs & He & Hw); [lia|].
    exists (cs ++ [d]). rewrite concat_app. cbn [concat]. rewrite app_nil_r, len_app. split.
    + unfold ser_b0. cbn [b0_length b0_data]. eapply emits_bind; [exact He|].
      unfold wwrite, wok. cbn [wbind]. repeat constructor.
    + unfold lay_b0. cbn [b0_data]. rewrite wire_app, Hw. reflexivity.
  - intros [l d] c [Hd Hl] Hc. cbn [b0_length b0_data lay_b0] in *. subst l.
    apply wire_split in Hc as (c1 & c2 & -> & H1 & H2). apply wire_inj in H2. subst c2.
    unfold de_b0. eapply reads_bind.
    + apply Lr; [|exact H1]. cbn [b0_data] in *. lia.
    + eapply reads_bind_last.
      * apply reads_next_by. reflexivity.
      * apply reads_lift. apply b0_new_ok. exact Hd.
  - unfold de_b0. eapply good_bind; [exact Lg|].
    intros l cl [Hl Hcl]. eapply good_bind.
    + apply good_next_by. destruct t; cbn in Hl; lia.
    + intros a ca [-> Hca]. apply good_lift; [apply b0_new_no_panic|].
      intros v Hv. destruct (N.le_gt_cases (len ca) (b0_max t)) as [H|H].
      * rewrite b0_new_ok in Hv by assumption. injection Hv as <-.
        split; [split; cbn; auto|]. unfold lay_b0. cbn [b0_data].
        rewrite app_nil_r, wire_app, Hcl, Hca. reflexivity.
      * rewrite b0_new_err in Hv by assumption. discriminate.
Qed.

(** ** STR0 *)
Lemma str0_max_le : forall t, str0_max t <= 255.
Proof. destruct t; cbn; lia. Qed.

Lemma str0_new_ok : forall t v, len v <= str0_max t -> str0_new t v = Ok (mkStr0 (len v) v).
Proof.
  intros t v H. pose proof (str0_max_le t). unfold str0_new.
  destruct (str0_max t <? len v) eqn:E; [lia|]. rewrite N.mod_small by lia. reflexivity.
Qed.
Lemma str0_new_err : forall t v, str0_max t < len v -> str0_new t v = Err RequirementError.
Proof. intros t v H. unfold str0_new. destruct (str0_max t <? len v) eqn:E; [reflexivity|lia]. Qed.
Lemma str0_new_no_panic : forall t v, str0_new t v <> Panic.
Proof. intros t v. unfold str0_new. destruct (_ <? _); discriminate. Qed.

Lemma from_utf8_ok : forall s, utf8_text s -> string_from_utf8 s = Ok s.
Proof. intros s H. unfold string_from_utf8. apply utf8_valid_iff in H. rewrite H. reflexivity. Qed.
Lemma from_utf8_inv : forall s r, string_from_utf8 s = Ok r -> r = s /\ utf8_text s.
Proof.
  intros s r H. unfold string_from_utf8 in H. destruct (utf8_valid s) eqn:E; [|discriminate].
  injection H as <-. split; [reflexivity|]. apply utf8_valid_iff, E.
Qed.
Lemma from_utf8_no_panic : forall s, string_from_utf8 s <> Panic.
Proof. intros s. unfold string_from_utf8. destruct (utf8_valid s); discriminate. Qed.

Lemma str0_field : forall t, field ser_str0 (de_str0 t) (str_ok (str0_max t)) lay_str.
Proof.
  intros t. pose proof (str0_max_le t) as Hmax.
  destruct u8_field as (Le & Lr & Lg).
  split; [|split].
  - intros [l d] (Hu & Hd & Hl). cbn [str0_length str0_data] in *. subst l.
    destruct (Le (len d)) as (cs & He & Hw); [unfold u8_ok; lia|].
    exists (cs ++ [d]). rewrite concat_app. cbn [concat]. rewrite app_nil_r, len_app. split.
    + unfold ser_str0. cbn [str0_length str0_data]. eapply emits_bind; [exact He|].
      unfold wwrite, wok. cbn [wbind]. repeat constructor.
    + unfold lay_str. cbn [str0_data]. rewrite wire_app, Hw. reflexivity.
  - intros [l d] c (Hu & Hd & Hl) Hc. cbn [str0_length str0_data lay_str] in *. subst l.
    apply wire_split in Hc as (c1 & c2 & -> & H1 & H2). apply wire_inj in H2. subst c2.
    unfold de_str0. eapply reads_bind.
    + apply Lr; [|exact H1]. unfold u8_ok; cbn [str0_data] in *; lia.
    + eapply reads_bind_last.
      * apply reads_next_by. reflexivity.
      * eapply reads_bind_last.
        -- apply reads_lift. apply from_utf8_ok, Hu.
        -- apply reads_lift. apply str0_new_ok. exact Hd.
  - unfold de_str0. eapply good_bind; [exact Lg|].
    intros l cl [Hl Hcl]. eapply good_bind.
    + apply good_next_by. unfold u8_ok in Hl; lia.
    + intros a ca [-> Hca].
      eapply good_bind with (Qm := fun x cx => x = ca /\ cx = [] /\ utf8_text ca).
      * apply good_lift; [apply from_utf8_no_panic|]. intros x Hx.
        apply from_utf8_inv in Hx as [-> Hx]. auto.
      * intros x cx (-> & -> & Hu). apply good_lift; [apply str0_new_no_panic|].
        intros v Hv. destruct (N.le_gt_cases (len ca) (str0_max t)) as [H|H].
        -- rewrite str0_new_ok in Hv by assumption. injection Hv as <-.
           split; [split; [|split]; cbn; auto|]. unfold lay_str. cbn [str0_data].
           rewrite !app_nil_r, wire_app, Hcl, Hca. reflexivity.
        -- rewrite str0_new_err in Hv by assumption. discriminate.
Qed.

(** ** Flags *)
Lemma flags_all_ones : forall fs, flags_all fs = N.ones (flag_width fs).
Proof. destruct fs; reflexivity. Qed.

Lemma flags_from_bits_iff : forall fs b r, flags_from_bits fs b = Some r <-> r = b /\ flags_ok fs b.
Proof.
  intros fs b r. unfold flags_from_bits, flags_ok. rewrite flags_all_ones.
  assert (G : N.ldiff b (N.ones (flag_width fs)) = 0 <-> forall i, N.testbit b i = true -> i < flag_width fs).
  { split.
    - intros H i Hi. assert (X : N.testbit (N.ldiff b (N.ones (flag_width fs))) i = false).
      { rewrite H. apply N.bits_0. }
      rewrite N.ldiff_spec, Hi, Bool.andb_true_l in X. apply Bool.negb_false_iff in X.
      destruct (N.lt_ge_cases i (flag_width fs)) as [L|L]; [exact L|].
      rewrite N.ones_spec_high in X by exact L. discriminate.
    - intros H. apply N.bits_inj_0. intros i. rewrite N.ldiff_spec.
      destruct (N.testbit b i) eqn:E; [|reflexivity]. rewrite N.ones_spec_low by (apply H; exact E).
      reflexivity. }
  destruct (N.ldiff b (N.ones (flag_width fs)) =? 0) eqn:E.
  - apply N.eqb_eq in E. split; [intros X; injection X as <-|intros [-> _]]; auto.
    split; [reflexivity|]. apply G, E.
  - apply N.eqb_neq in E. split; [discriminate|]. intros [-> X]. apply G in X. contradiction.
Qed.

Lemma flags_ok_lt : forall fs b, flags_ok fs b -> b < 2 ^ flag_width fs.
Proof.
  intros fs b H. destruct (N.eq_dec b 0) as [->|Hb].
  - apply N.neq_0_lt_0, N.pow_nonzero. lia.
  - apply N.log2_lt_pow2; [lia|]. apply H. apply N.bit_log2, Hb.
Qed.
Lemma flags_ok_u32 : forall fs b, flags_ok fs b -> u32_ok b.
Proof.
  intros fs b H. apply flags_ok_lt in H. unfold u32_ok.
  assert (2 ^ flag_width fs <= 2 ^ 32) by (apply N.pow_le_mono_r; destruct fs; cbn; lia). lia.
Qed.

Lemma flags_field : forall fs, field ser_flags (de_flags fs) (flags_ok fs) (spec_le 4).
Proof.
  intros fs. destruct u32_field as (Le & Lr & Lg). split; [|split].
  - intros a Ha. apply Le. eapply flags_ok_u32, Ha.
  - intros a c Ha Hc. unfold de_flags. eapply reads_bind_last.
    + apply Lr; [eapply flags_ok_u32, Ha|exact Hc].
    + apply reads_lift. assert (X : flags_from_bits fs a = Some a) by (apply flags_from_bits_iff; auto).
      rewrite X. reflexivity.
  - unfold de_flags. eapply good_bind; [exact Lg|]. intros a ca [Ha Hca].
    apply good_lift.
    + destruct (flags_from_bits fs a); discriminate.
    + intros f Hf. destruct (flags_from_bits fs a) as [r|] eqn:E; [|discriminate].
      injection Hf as <-. apply flags_from_bits_iff in E as [-> E]. rewrite app_nil_r. auto.
Qed.

(** ** Error codes *)
Lemma utf8_ascii : forall s, Forall (fun b => Byte.to_N b <= 127) s -> utf8_text s.
Proof.
  intros s H. apply utf8_valid_iff. induction H; [reflexivity|].
  cbn [utf8_valid]. assert (X : in_range 0 127 x = true) by (apply in_range_iff; lia).
  rewrite X. exact IHForall.
Qed.

Lemma code_str0_len : forall s, len s <= 255 -> code_str0 s = mkStr0 (len s) s.
Proof. intros s H. unfold code_str0. rewrite N.mod_small by lia. reflexivity. Qed.

Lemma sc_code_from_str_ok : forall c, sc_code_from_str (sc_code_str c) = Ok c.
Proof. destruct c; reflexivity. Qed.
Lemma sc_code_from_str_inv : forall s c, sc_code_from_str s = Ok c -> s = sc_code_str c.
Proof.
  intros s c H. unfold sc_code_from_str in H.
  destruct (bytes_eqb s _) eqn:E1 in H.
  { apply bytes_eqb_iff in E1. subst s. injection H as <-. reflexivity. }
  destruct (bytes_eqb s _) eqn:E2 in H.
  { apply bytes_eqb_iff in E2. subst s. injection H as <-. reflexivity. }
  destruct (bytes_eqb s _) eqn:E3 in H; [|discriminate].
  apply bytes_eqb_iff in E3. subst s. injection H as <-. reflexivity.
Qed.
Lemma sc_code_from_str_no_panic : forall s, sc_code_from_str s <> Panic.
Proof. intros s. unfold sc_code_from_str. repeat destruct (bytes_eqb _ _); discriminate. Qed.

Lemma omc_code_from_str_ok : forall c, omc_code_from_str (omc_code_str c) = Ok c.
Proof. destruct c; reflexivity. Qed.
Lemma omc_code_from_str_inv : forall s c, omc_code_from_str s = Ok c -> s = omc_code_str c.
Proof.
  intros s c H. unfold omc_code_from_str in H.
  destruct (bytes_eqb s _) eqn:E1 in H.
  { apply bytes_eqb_iff in E1. subst s. injection H as <-. reflexivity. }
  destruct (bytes_eqb s _) eqn:E2 in H; [|discriminate].
  apply bytes_eqb_iff in E2. subst s. injection H as <-. reflexivity.
Qed.
Lemma omc_code_from_str_no_panic : forall s, omc_code_from_str s <> Panic.
Proof. intros s. unfold omc_code_from_str. repeat destruct (bytes_eqb _ _); discriminate. Qed.

Lemma sc_code_str_ok : forall c, str_ok 255 (code_str0 (sc_code_str c)).
Proof.
  intros c. assert (H : len (sc_code_str c) <= 255) by (destruct c; vm_compute; discriminate).
  rewrite code_str0_len by exact H. split; [|split]; cbn [str0_data str0_length]; auto.
  apply utf8_valid_iff. destruct c; reflexivity.
Qed.
Lemma omc_code_str_ok : forall c, str_ok 255 (code_str0 (omc_code_str c)).
Proof.
  intros c. assert (H : len (omc_code_str c) <= 255) by (destruct c; vm_compute; discriminate).
  rewrite code_str0_len by exact H. split; [|split]; cbn [str0_data str0_length]; auto.
  apply utf8_valid_iff. destruct c; reflexivity.
Qed.

Lemma lay_sc_code_eq : forall c, lay_str (code_str0 (sc_code_str c)) = lay_sc_code c.
Proof. destruct c; vm_compute; reflexivity. Qed.
Lemma lay_omc_code_eq : forall c, lay_str (code_str0 (omc_code_str c)) = lay_omc_code c.
Proof. destruct c; vm_compute; reflexivity. Qed.

Lemma sc_code_field : field ser_sc_code de_sc_code (fun _ => True) lay_sc_code.
Proof.
  destruct (str0_field STR0_255) as (Le & Lr & Lg). split; [|split].
  - intros c _. rewrite <- lay_sc_code_eq. apply Le, sc_code_str_ok.
  - intros c bs _ H. rewrite <- lay_sc_code_eq in H. unfold de_sc_code.
    eapply reads_bind_last; [apply Lr; [apply sc_code_str_ok|exact H]|].
    apply reads_lift. apply sc_code_from_str_ok.
  - unfold de_sc_code. eapply good_bind; [exact Lg|]. intros s cs [Hs Hc].
    apply good_lift; [apply sc_code_from_str_no_panic|]. intros c H. split; [exact I|].
    apply sc_code_from_str_inv in H. rewrite app_nil_r, Hc, <- lay_sc_code_eq.
    destruct s as [l d]. destruct Hs as (_ & Hd & _). cbn [str0_data str0_length] in *. subst d.
    unfold lay_str. reflexivity.
Qed.

Lemma omc_code_field : field ser_omc_code de_omc_code (fun _ => True) lay_omc_code.
Proof.
  destruct (str0_field STR0_255) as (Le & Lr & Lg). split; [|split].
  - intros c _. rewrite <- lay_omc_code_eq. apply Le, omc_code_str_ok.
  - intros c bs _ H. rewrite <- lay_omc_code_eq in H. unfold de_omc_code.
    eapply reads_bind_last; [apply Lr; [apply omc_code_str_ok|exact H]|].
    apply reads_lift. apply omc_code_from_str_ok.
  - unfold de_omc_code. eapply good_bind; [exact Lg|]. intros s cs [Hs Hc].
    apply good_lift; [apply omc_code_from_str_no_panic|]. intros c H. split; [exact I|].
    apply omc_code_from_str_inv in H. rewrite app_nil_r, Hc, <- lay_omc_code_eq.
    destruct s as [l d]. destruct Hs as (_ & Hd & _). cbn [str0_data str0_length] in *. subst d.
    unfold lay_str. reflexivity.
Qed.

(** ** Protocol *)
Lemma protocol_try_from_inv : forall b p, protocol_try_from b = Ok p -> b = protocol_to_u8 p.
Proof.
  intros b p H. unfold protocol_try_from in H.
  destruct b as [|[[|[]|]|[]|]]; try discriminate; injection H as <-; reflexivity.
Qed.
Lemma protocol_no_panic : forall b, protocol_try_from b <> Panic.
Proof. intros b. unfold protocol_try_from. destruct b as [|[[|[]|]|[]|]]; discriminate. Qed.

Lemma protocol_field : field ser_protocol de_protocol (fun _ => True) (fun p => [protocol_to_u8 p]).
Proof.
  destruct u8_field as (Le & Lr & Lg).
  assert (S1 : forall p, spec_le 1 (protocol_to_u8 p) = [protocol_to_u8 p]) by (destruct p; reflexivity).
  split; [|split].
  - intros p _. rewrite <- S1. apply Le. destruct p; cbn; unfold u8_ok; lia.
  - intros p c _ H. rewrite <- S1 in H. unfold de_protocol. eapply reads_bind_last.
    + apply Lr; [|exact H]. destruct p; cbn; unfold u8_ok; lia.
    + apply reads_lift. destruct p; reflexivity.
  - unfold de_protocol. eapply good_bind; [exact Lg|]. intros b cb [Hb Hc].
    apply good_lift; [apply protocol_no_panic|]. intros p H. split; [exact I|].
    apply protocol_try_from_inv in H. subst b. rewrite app_nil_r, Hc, S1. reflexivity.
Qed.
