(** * CodecProofs: the lemmas behind the codec, frame and message properties. *)
From Verif Require Import Base Codec Types Messages Frame Catalog SpecWire SpecTypes
  BaseFacts CodecFacts Utf8Facts TypesFacts MessagesFacts FrameFacts.
Ltac Zify.zify_post_hook ::= Z.div_mod_to_equations.

Ltac toP := repeat match goal with |- context[cursor ?a ?b] => change (cursor a b) with (P a b) end.

(** ** Encoding *)
Lemma encode_vec : forall t v, ok t v -> exists enc, wire enc = lay t v /\
  serialize (ser_of t v) = Ok enc /\ forall w, run vec_writer (ser_of t v) w = (w ++ enc, Ok (len enc)).
Proof.
  intros t v H. destruct (ty_encodes t) as (E & _ & _). destruct (E v H) as (cs & He & Hw).
  exists (concat cs). split; [exact Hw|]. split; [eapply emits_serialize, He|].
  intros w. apply emits_run_vec, He.
Qed.

Lemma decode_encoded : forall t v enc, ok t v -> wire enc = lay t v -> forall pf pre rest,
  rust_slice (pre ++ enc ++ rest) ->
  de_of t pf (cursor pre (enc ++ rest)) = (cursor (pre ++ enc) rest, Ok v).
Proof. intros t v enc H Hw pf pre rest Hs. destruct (ty_encodes t) as (_ & R & _). apply (R v enc H Hw pf pre rest Hs). Qed.

Lemma roundtrip : forall t v, ok t v -> exists enc, wire enc = lay t v /\
  serialize (ser_of t v) = Ok enc /\
  (forall w, run vec_writer (ser_of t v) w = (w ++ enc, Ok (len enc))) /\
  (forall pf pre rest, rust_slice (pre ++ enc ++ rest) ->
     de_of t pf (cursor pre (enc ++ rest)) = (cursor (pre ++ enc) rest, Ok v)).
Proof.
  intros t v H. destruct (encode_vec t v H) as (enc & Hw & Hs & Hr). exists enc.
  split; [exact Hw|]. split; [exact Hs|]. split; [exact Hr|]. apply decode_encoded; assumption.
Qed.

Lemma serialize_layout : forall t v enc, ok t v -> serialize (ser_of t v) = Ok enc -> wire enc = lay t v.
Proof.
  intros t v enc H Hs. destruct (encode_vec t v H) as (enc' & Hw & Hs' & _).
  rewrite Hs in Hs'. injection Hs' as <-. exact Hw.
Qed.

(** ** Decoding *)
Lemma decode_total : forall t pf pre rest, rust_slice (pre ++ rest) ->
  exists c rest' r, rest = c ++ rest' /\ de_of t pf (cursor pre rest) = (cursor (pre ++ c) rest', r) /\
    r <> Panic /\
    (r <> Err ParseError ->
      (forall pf2 pre2 rest2, rust_slice (pre2 ++ c ++ rest2) ->
         de_of t pf2 (cursor pre2 (c ++ rest2)) = (cursor (pre2 ++ c) rest2, r)) /\
      (forall pf2 pre2 c1 c2, c = c1 ++ c2 -> c2 <> [] -> rust_slice (pre2 ++ c1) ->
         exists p', de_of t pf2 (cursor pre2 c1) = (p', Err ParseError))) /\
    (forall a, r = Ok a -> ok t a).
Proof. intros t pf pre rest H. destruct (ty_encodes t) as (_ & _ & G). exact (G pf pre rest H). Qed.

Lemma cursor_0 : forall bs, mkParser bs 0 = cursor [] bs.
Proof. reflexivity. Qed.

Lemma no_panic : forall t pf bs, rust_slice bs -> deserialize (de_of t) pf bs <> Panic.
Proof.
  intros t pf bs H. unfold deserialize. rewrite cursor_0.
  destruct (decode_total t pf [] bs H) as (c & rest' & r & _ & E & Np & _). rewrite E. exact Np.
Qed.

Lemma decode_canonical : forall t pf pre rest p v, t <> T_bool -> rust_slice (pre ++ rest) ->
  de_of t pf (cursor pre rest) = (p, Ok v) ->
  exists c rest', rest = c ++ rest' /\ p = cursor (pre ++ c) rest' /\ ok t v /\
                  serialize (ser_of t v) = Ok c.
Proof.
  intros t pf pre rest p v Ht Hs E. destruct (ty_field t Ht) as (F & _ & G).
  destruct (G pf pre rest Hs) as (c & rest' & r & -> & E2 & _ & _ & Q).
  change (P pre (c ++ rest')) with (cursor pre (c ++ rest')) in E2.
  rewrite E in E2. injection E2 as -> <-. destruct (Q v eq_refl) as [Ho Hw].
  exists c, rest'. repeat (split; [reflexivity || assumption|]).
  destruct (F v Ho) as (cs & He & Hc). rewrite (emits_serialize _ _ _ He). f_equal.
  apply wire_inj. congruence.
Qed.

Lemma decode_injective : forall t pf1 pf2 b1 r1 b2 r2 v, t <> T_bool ->
  rust_slice (b1 ++ r1) -> rust_slice (b2 ++ r2) ->
  de_of t pf1 (cursor [] (b1 ++ r1)) = (cursor b1 r1, Ok v) ->
  de_of t pf2 (cursor [] (b2 ++ r2)) = (cursor b2 r2, Ok v) -> b1 = b2.
Proof.
  intros t pf1 pf2 b1 r1 b2 r2 v Ht H1 H2 E1 E2.
  apply decode_canonical in E1 as (c1 & s1 & X1 & Y1 & _ & S1); [|assumption..].
  apply decode_canonical in E2 as (c2 & s2 & X2 & Y2 & _ & S2); [|assumption..].
  rewrite S1 in S2. injection S2 as <-.
  injection Y1 as _ L1. injection Y2 as _ L2. cbn [app] in *.
  apply app_inj_len in X1 as [-> _]; [|assumption].
  apply app_inj_len in X2 as [-> _]; [|assumption]. reflexivity.
Qed.

Lemma prefix_free : forall t v1 v2 e1 s, ok t v1 -> ok t v2 ->
  serialize (ser_of t v1) = Ok e1 -> serialize (ser_of t v2) = Ok (e1 ++ s) ->
  rust_slice (e1 ++ s) -> v1 = v2 /\ s = [].
Proof.
  intros t v1 v2 e1 s H1 H2 S1 S2 Hs.
  pose proof (serialize_layout _ _ _ H1 S1) as W1. pose proof (serialize_layout _ _ _ H2 S2) as W2.
  pose proof (decode_encoded t v1 e1 H1 W1 Debug [] s Hs) as D1.
  pose proof (decode_encoded t v2 (e1 ++ s) H2 W2 Debug [] []) as D2.
  rewrite app_nil_r in D2. specialize (D2 Hs). rewrite D1 in D2. unfold cursor in D2. cbn [app] in D2.
  injection D2 as E L ->. split; [reflexivity|]. rewrite len_app in L. destruct s; [reflexivity|].
  rewrite len_cons in L. lia.
Qed.

(** Streams *)
Lemma stream : forall t vs encs, Forall (ok t) vs ->
  Forall2 (fun v e => serialize (ser_of t v) = Ok e) vs encs ->
  forall pf pre rest, rust_slice (pre ++ concat encs ++ rest) ->
  read_many (de_of t) (length vs) pf (cursor pre (concat encs ++ rest))
    = (cursor (pre ++ concat encs) rest, Ok vs).
Proof.
  intros t vs encs Hok HF. induction HF as [|v e vs encs Hs HF IH]; intros pf pre rest Hr.
  - cbn. rewrite app_nil_r. reflexivity.
  - inversion Hok as [|? ? Hv Hvs]; subst. cbn [length concat read_many] in *.
    rewrite <- app_assoc in *.
    rewrite (decode_encoded t v e Hv (serialize_layout _ _ _ Hv Hs)) by exact Hr.
    rewrite (IH Hvs) by (rewrite <- app_assoc; exact Hr). rewrite <- app_assoc. reflexivity.
Qed.

(** ** next_by *)
Lemma next_by_exact : forall pf bs start step,
  start + step < 2 ^ 64 \/ (pf = Release /\ start < 2 ^ 64 /\ step < 2 ^ 64 /\ rust_slice bs) ->
  (start + step <= len bs -> exists a b c, bs = a ++ b ++ c /\ len a = start /\ len b = step /\
     next_by step pf (mkParser bs start) = (mkParser bs (start + step), Ok b)) /\
  (len bs < start + step -> next_by step pf (mkParser bs start) = (mkParser bs start, Err ParseError)).
Proof.
  intros pf bs start step H.
  assert (C : start + step < 2 ^ 64 \/ (pf = Release /\ start < 2 ^ 64 /\ step < 2 ^ 64 /\ rust_slice bs /\ 2 ^ 64 <= start + step)).
  { destruct (N.lt_ge_cases (start + step) (2 ^ 64)); [left; assumption|]. right.
    destruct H as [H|(A & B & C & D)]; [lia|]. auto. }
  clear H. destruct C as [H|(-> & H1 & H2 & H3 & H4)].
  - split; intros L.
    + destruct (split_at _ start bs) as (a & r & -> & La); [lia|].
      rewrite len_app in L.
      destruct (split_at _ step r) as (b & c & -> & Lb); [lia|].
      exists a, b, c. repeat (split; [reflexivity || assumption|]).
      rewrite next_by_raw by exact H. rewrite !len_app.
      assert (E : (start + step <=? len a + (len b + len c)) = true) by lia. rewrite E.
      rewrite <- La, skipn_len_app, <- Lb, firstn_len_app. reflexivity.
    + rewrite next_by_raw by exact H. assert (E : (start + step <=? len bs) = false) by lia.
      rewrite E. reflexivity.
  - unfold rust_slice in H3. split; intros L; [lia|].
    unfold next_by, usize_add, slice_get, USIZE_MOD. cbn [p_start p_bytes].
    assert (E : (start + step <? 2 ^ 64) = false) by lia. rewrite E.
    assert (E2 : (start <=? (start + step) mod 2 ^ 64) = false).
    { apply N.leb_gt. rewrite N.mod_eq by lia.
      replace ((start + step) / 2 ^ 64) with 1 by (apply N.div_unique with (r := start + step - 2 ^ 64); lia). lia. }
    rewrite E2. reflexivity.
Qed.

Lemma take_steps_ok : forall steps pf bs start p segs,
  start + sum steps < 2 ^ 64 ->
  take_steps steps pf (mkParser bs start) = (p, Ok segs) ->
  map len segs = steps /\ p = mkParser bs (start + sum steps) /\
  (steps <> [] -> start + sum steps <= len bs) /\
  concat segs = firstn (N.to_nat (sum steps)) (skipn (N.to_nat start) bs).
Proof.
  induction steps as [|s steps IH]; intros pf bs start p segs Hb E.
  - cbn in E. injection E as <- <-. cbn. rewrite N.add_0_r. repeat split; congruence.
  - cbn [sum fold_right] in *. fold (sum steps) in *. cbn [take_steps] in E.
    destruct (next_by_exact pf bs start s) as [Hok Herr]; [left; lia|].
    destruct (N.le_gt_cases (start + s) (len bs)) as [L|L].
    + destruct (Hok L) as (a & b & c & -> & La & Lb & En). rewrite En in E.
      destruct (take_steps steps pf (mkParser (a ++ b ++ c) (start + s))) as [p2 [l|e|]] eqn:E2; try discriminate.
      injection E as <- <-. apply IH in E2 as (M & -> & B & C); [|lia].
      split; [cbn [map]; rewrite Lb, M; reflexivity|].
      split; [f_equal; lia|]. split.
      * intros _. destruct steps as [|s2 steps2]; [cbn; lia|]. specialize (B ltac:(discriminate)). lia.
      * cbn [concat]. rewrite C, <- La, skipn_len_app.
        replace (len a + s) with (len (a ++ b)) by (rewrite len_app; lia).
        rewrite app_assoc, skipn_len_app.
        replace (N.to_nat (s + sum steps)) with (length b + N.to_nat (sum steps))%nat by (unfold len in Lb; lia).
        rewrite firstn_app_2. reflexivity.
    + rewrite (Herr L) in E. discriminate.
Qed.

(** ** B0 and STR0 decision tables *)
Lemma le_header : forall (h : nat) (rest : bytes), (h <= 3)%nat -> N.of_nat h <= len rest ->
  exists hd body, rest = hd ++ body /\ len hd = N.of_nat h /\ firstn h rest = hd /\ skipn h rest = body.
Proof.
  intros h rest Hh HL. exists (firstn h rest), (skipn h rest).
  split; [symmetry; apply firstn_skipn|]. split; [|auto].
  unfold len in *. rewrite firstn_length. lia.
Qed.

Lemma b0_table : forall t pf pre rest, rust_slice (pre ++ rest) ->
  match spec_decode_b0 t rest with
  | Ok (v, n) => de_b0 t pf (cursor pre rest) = (mkParser (pre ++ rest) (len pre + n), Ok v)
  | Err e => snd (de_b0 t pf (cursor pre rest)) = Err e
  | Panic => False
  end.
Proof.
  intros t pf pre rest Hs. unfold spec_decode_b0. rewrite spec_b0_hdr_eq, spec_b0_limit_eq.
  destruct (len_field t) as (_ & Lr & Lg).
  assert (Hh : (hdr_size t <= 3)%nat) by (destruct t; cbn; lia).
  assert (Lf : len (firstn (hdr_size t) rest) = N.min (N.of_nat (hdr_size t)) (len rest)).
  { unfold len. rewrite firstn_length. lia. }
  rewrite Lf. destruct (N.min _ _ <? _) eqn:E.
  { (* header missing *)
    unfold de_b0, de_bind.
    assert (X : exists p, de_len (b0_lentype t) pf (cursor pre rest) = (p, Err ParseError)).
    { assert (Y : forall k, (k <= 3)%nat -> len rest < N.of_nat k ->
        next_by (N.of_nat k) pf (cursor pre rest) = (cursor pre rest, Err ParseError)).
      { intros k Hk Hk2. apply next_by_short; auto. lia. }
      destruct t; cbn [hdr_size b0_lentype de_len] in *;
        unfold de_u8, de_u16, de_u24, de_uint, de_bind.
      1,2,3: rewrite (Y 1%nat) by lia; eauto.
      - rewrite (Y 2%nat) by lia; eauto.
      - change 3 with (N.of_nat 3). rewrite (Y 3%nat) by lia; eauto. }
    destruct X as [p ->]. reflexivity. }
  destruct (le_header (hdr_size t) rest) as (hd & body & -> & Lh & -> & ->); [lia|lia|].
  assert (V : of_le hd = spec_val (wire hd)) by apply of_le_spec_val. rewrite <- V.
  pose proof (of_le_bound hd) as Bd. rewrite Lh in Bd.
  assert (R : de_len (b0_lentype t) pf (cursor pre (hd ++ body)) = (cursor (pre ++ hd) body, Ok (of_le hd))).
  { apply Lr; [exact Bd| |exact Hs]. symmetry. apply spec_le_of_le, Lh. }
  assert (Hs2 : rust_slice ((pre ++ hd) ++ body)) by (rewrite <- app_assoc; exact Hs).
  assert (D : de_b0 t pf (cursor pre (hd ++ body)) =
    de_bind (next_by (of_le hd)) (fun b => de_lift (b0_new t b)) pf (cursor (pre ++ hd) body)).
  { unfold de_b0. unfold de_bind at 1. rewrite R. reflexivity. }
  rewrite D. clear D R.
  destruct (len body <? of_le hd) eqn:E1.
  { unfold de_bind. toP. rewrite next_by_short; [reflexivity|exact Hs2| |lia].
    destruct t; cbn in Bd; lia. }
  destruct (split_at _ (of_le hd) body) as (d & r & -> & Ld); [lia|].
  rewrite <- Ld in *. unfold de_bind. toP. rewrite next_by_ok by exact Hs2.
  unfold de_lift. destruct (b0_max t <? len d) eqn:E2.
  - rewrite b0_new_err by lia. reflexivity.
  - rewrite b0_new_ok by lia. rewrite firstn_len_app. rewrite P_app, len_app, <- app_assoc, Lh, N.add_assoc. reflexivity.
Qed.

Lemma str_table : forall t pf pre rest, rust_slice (pre ++ rest) ->
  exists r, spec_decode_str t rest r /\
  match r with
  | Ok (v, n) => de_str0 t pf (cursor pre rest) = (mkParser (pre ++ rest) (len pre + n), Ok v)
  | Err e => snd (de_str0 t pf (cursor pre rest)) = Err e
  | Panic => False
  end.
Proof.
  intros t pf pre rest Hs. destruct rest as [|h body].
  { exists (Err ParseError). split; [reflexivity|].
    unfold de_str0, de_u8, de_uint, de_bind. change (N.of_nat 1) with 1.
    toP. rewrite next_by_short; auto; rewrite ?len_nil; lia. }
  unfold spec_decode_str. rewrite spec_str_limit_eq.
  destruct u8_field as (_ & Lr & _).
  pose proof (to_N_lt h) as Bh.
  assert (Hs2 : rust_slice ((pre ++ [h]) ++ body)) by (rewrite <- app_assoc; exact Hs).
  assert (R : de_u8 pf (cursor pre ([h] ++ body)) = (cursor (pre ++ [h]) body, Ok (Byte.to_N h))).
  { apply Lr; [exact Bh| |exact Hs]. unfold spec_le. cbn [map seq wire]. rewrite N.pow_0_r, N.div_1_r, N.mod_small by exact Bh. reflexivity. }
  assert (D : de_str0 t pf (cursor pre (h :: body)) =
    de_bind (next_by (Byte.to_N h)) (fun b => de_bind (de_lift (string_from_utf8 b)) (fun s => de_lift (str0_new t s)))
      pf (cursor (pre ++ [h]) body)).
  { change (h :: body) with ([h] ++ body). unfold de_str0. unfold de_bind at 1. rewrite R. reflexivity. }
  rewrite D. clear D R.
  destruct (N.lt_ge_cases (len body) (Byte.to_N h)) as [L|L].
  { exists (Err ParseError). split; [left; auto|].
    unfold de_bind. toP. rewrite next_by_short; auto. lia. }
  destruct (split_at _ (Byte.to_N h) body) as (d & r & -> & Ld); [lia|].
  rewrite <- Ld in *. rewrite firstn_len_app.
  assert (Nx : next_by (len d) pf (cursor (pre ++ [h]) (d ++ r)) = (P ((pre ++ [h]) ++ d) r, Ok d))
    by (apply next_by_ok; exact Hs2).
  destruct (utf8_valid d) eqn:U.
  - pose proof (proj1 (utf8_valid_iff d) U) as UT.
    destruct (N.le_gt_cases (len d) (str0_max t)) as [M|M].
    + exists (Ok (mkStr0 (len d) d, 1 + len d)). split; [right; right; right; auto|].
      unfold de_bind. rewrite Nx.
      unfold de_lift. rewrite from_utf8_ok by exact UT. rewrite str0_new_ok by exact M.
      rewrite P_app, <- app_assoc, len_app. change (len [h]) with 1. rewrite N.add_assoc. reflexivity.
    + exists (Err RequirementError). split; [right; right; left; auto|].
      unfold de_bind. rewrite Nx.
      unfold de_lift. rewrite from_utf8_ok by exact UT. rewrite str0_new_err by exact M. reflexivity.
  - exists (Err FromUtf8Error). split.
    + right; left. split; [lia|]. split; [|reflexivity]. intros C. apply utf8_valid_iff in C. congruence.
    + unfold de_bind. rewrite Nx.
      unfold de_lift, string_from_utf8. rewrite U. reflexivity.
Qed.
