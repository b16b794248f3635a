(** * MsgProofs: lemmas behind the writer, frame and message properties. *)
From Verif Require Import Base Codec Types Messages Frame Catalog SpecWire SpecTypes
  BaseFacts CodecFacts Utf8Facts TypesFacts MessagesFacts FrameFacts CodecProofs.
Ltac Zify.zify_post_hook ::= Z.div_mod_to_equations.

(** ** Frame table *)
Lemma de_bind_ok : forall A B (m : De A) (f : A -> De B) pf p p' a,
  m pf p = (p', Ok a) -> de_bind m f pf p = f a pf p'.
Proof. intros A B m f pf p p' a E. unfold de_bind. rewrite E. reflexivity. Qed.
Lemma de_bind_err : forall A B (m : De A) (f : A -> De B) pf p p' e,
  m pf p = (p', Err e) -> de_bind m f pf p = (p', Err e).
Proof. intros A B m f pf p p' a E. unfold de_bind. rewrite E. reflexivity. Qed.
Lemma wire_cons : forall b bs, wire (b :: bs) = Byte.to_N b :: wire bs.
Proof. reflexivity. Qed.

Lemma de_uint_bytes : forall k c pf pre rest, (k <= 8)%nat -> len c = N.of_nat k -> rust_slice (pre ++ c ++ rest) ->
  de_uint k pf (cursor pre (c ++ rest)) = (cursor (pre ++ c) rest, Ok (of_le c)).
Proof.
  intros k c pf pre rest Hk Hc Hs. destruct (uint_field k Hk) as (_ & R & _).
  apply R; [|symmetry; apply spec_le_of_le, Hc|exact Hs]. cbn beta. rewrite <- Hc. apply of_le_bound.
Qed.
Lemma de_u24_bytes : forall c pf pre rest, len c = 3 -> rust_slice (pre ++ c ++ rest) ->
  de_u24 pf (cursor pre (c ++ rest)) = (cursor (pre ++ c) rest, Ok (of_le c)).
Proof.
  intros c pf pre rest Hc Hs. destruct u24_field as (_ & R & _).
  apply R; [|symmetry; apply spec_le_of_le, Hc|exact Hs]. cbn beta.
  pose proof (of_le_bound c) as B. rewrite Hc in B. exact B.
Qed.

Lemma de_uint_short : forall k pf pre rest, (k <= 8)%nat -> len rest < N.of_nat k -> rust_slice (pre ++ rest) ->
  de_uint k pf (cursor pre rest) = (cursor pre rest, Err ParseError).
Proof.
  intros k pf pre rest Hk Hc Hs. unfold de_uint, de_bind. toP. rewrite next_by_short; auto. lia.
Qed.
Lemma de_u24_short : forall pf pre rest, len rest < 3 -> rust_slice (pre ++ rest) ->
  de_u24 pf (cursor pre rest) = (cursor pre rest, Err ParseError).
Proof.
  intros pf pre rest Hc Hs. unfold de_u24, de_bind. toP. rewrite next_by_short; auto. lia.
Qed.

Lemma frame_table : forall pf pre rest, rust_slice (pre ++ rest) ->
  match spec_decode_frame rest with
  | Ok (m, n) => de_message pf (cursor pre rest) = (mkParser (pre ++ rest) (len pre + n), Ok m)
  | Err e => snd (de_message pf (cursor pre rest)) = Err e
  | Panic => False
  end.
Proof.
  intros pf pre rest Hs. unfold spec_decode_frame.
  destruct rest as [|b0 [|b1 rest]]; cbn [wire map].
  1,2: unfold de_message; unfold de_bind at 1; unfold de_u16; rewrite de_uint_short;
       [reflexivity | lia | rewrite ?len_cons, ?len_nil; lia | exact Hs].
  assert (Hs1 : rust_slice ((pre ++ [b0; b1]) ++ rest)) by (rewrite <- app_assoc; exact Hs).
  assert (R1 : de_u16 pf (cursor pre (b0 :: b1 :: rest)) =
               (cursor (pre ++ [b0; b1]) rest, Ok (Byte.to_N b0 + 256 * Byte.to_N b1))).
  { change (b0 :: b1 :: rest) with ([b0; b1] ++ rest). unfold de_u16.
    rewrite (de_uint_bytes 2 [b0; b1]); [|lia|reflexivity|exact Hs].
    cbn [of_le]. rewrite N.mul_0_r, N.add_0_r. reflexivity. }
  pose proof (to_N_lt b0) as B0'. pose proof (to_N_lt b1) as B1'.
  destruct rest as [|b2 rest]; cbn [wire map].
  { unfold de_message. unfold de_bind at 1. rewrite R1. unfold de_bind at 1. unfold de_u8.
    rewrite de_uint_short; [reflexivity|lia|rewrite len_nil; lia|exact Hs1]. }
  assert (R2 : de_u8 pf (cursor (pre ++ [b0; b1]) (b2 :: rest)) =
               (cursor (pre ++ [b0; b1; b2]) rest, Ok (Byte.to_N b2))).
  { change (b2 :: rest) with ([b2] ++ rest). unfold de_u8.
    rewrite (de_uint_bytes 1 [b2]); [|lia|reflexivity|exact Hs1].
    cbn [of_le]. rewrite N.mul_0_r, N.add_0_r, <- app_assoc. reflexivity. }
  assert (Hs2 : rust_slice ((pre ++ [b0; b1; b2]) ++ rest)) by (rewrite <- app_assoc in *; exact Hs).
  set (e := Byte.to_N b0 + 256 * Byte.to_N b1) in *.
  assert (E1 : Byte.to_N b0 + 256 * (Byte.to_N b1 mod 128) = e mod 32768) by (unfold e; lia).
  assert (E2 : (128 <=? Byte.to_N b1) = (32768 <=? e)) by (unfold e; lia).
  rewrite E1, E2.
  assert (D : de_message pf (cursor pre (b0 :: b1 :: b2 :: rest)) =
    de_bind (de_lift (mt_new (e mod 32768) (Byte.to_N b2))) (fun mt =>
      if negb (Bool.eqb (mt_channel_bit mt) (32768 <=? e))
      then de_lift (Err (UnexpectedChannelBit (32768 <=? e)))
      else de_bind de_u24 (fun l => de_bind (next_by l) (fun p => de_ret (mkMessage mt p))))
    pf (cursor (pre ++ [b0; b1; b2]) rest)).
  { unfold de_message. unfold de_bind at 1. rewrite R1. unfold de_bind at 1. rewrite R2.
    rewrite land_7fff, land_8000 by (unfold e; lia). reflexivity. }
  rewrite D. clear D R1 R2. rewrite mt_new_spec.
  destruct (spec_lookup (e mod 32768) (Byte.to_N b2)) as [t|]; [|reflexivity].
  rewrite (de_bind_ok _ _ _ _ _ _ (cursor (pre ++ [b0; b1; b2]) rest) t) by reflexivity. rewrite mt_chan.
  destruct (negb (Bool.eqb (snd (spec_code t)) (32768 <=? e))); [reflexivity|].
  change (skipn 3 (b0 :: b1 :: b2 :: rest)) with rest.
  change (skipn 6 (b0 :: b1 :: b2 :: rest)) with (skipn 3 rest).
  assert (Lf : len (firstn 3 rest) = N.min 3 (len rest)) by (unfold len; rewrite firstn_length; lia).
  rewrite Lf. destruct (N.min 3 (len rest) <? 3) eqn:E.
  { erewrite de_bind_err; [reflexivity|]. apply de_u24_short; [lia|exact Hs2]. }
  destruct (split_at _ 3 rest) as (h & body & -> & Lh); [lia|].
  assert (F1 : firstn 3 (h ++ body) = h) by (change 3%nat with (N.to_nat 3); rewrite <- Lh; apply firstn_len_app).
  assert (F2 : skipn 3 (h ++ body) = body) by (change 3%nat with (N.to_nat 3); rewrite <- Lh; apply skipn_len_app).
  rewrite F1, F2, <- of_le_spec_val.
  assert (R3 : de_u24 pf (cursor (pre ++ [b0; b1; b2]) (h ++ body)) =
               (cursor ((pre ++ [b0; b1; b2]) ++ h) body, Ok (of_le h)))
    by (apply de_u24_bytes; [exact Lh|exact Hs2]).
  pose proof (of_le_bound h) as Bh. rewrite Lh in Bh.
  assert (Hs3 : rust_slice (((pre ++ [b0; b1; b2]) ++ h) ++ body)) by (rewrite <- app_assoc; exact Hs2).
  rewrite (de_bind_ok _ _ _ _ _ _ _ _ R3).
  destruct (len body <? of_le h) eqn:E3.
  { unfold de_bind. toP. rewrite next_by_short; [reflexivity|exact Hs3|lia|lia]. }
  destruct (split_at _ (of_le h) body) as (d & r & -> & Ld); [lia|].
  rewrite <- Ld, firstn_len_app. unfold de_bind. toP. rewrite next_by_ok by exact Hs3.
  unfold de_ret, P. rewrite !len_app, <- !app_assoc. cbn [app].
  f_equal. f_equal. rewrite Lh, !len_cons, len_nil. lia.
Qed.

(** ** Constructors *)
Lemma constructed_ok : forall k m, constructed k m -> msg_ok k m.
Proof.
  intros k m H. destruct H; cbn [msg_ok];
    try (match goal with H : csc_new_mining _ _ _ _ _ _ _ _ _ = _ |- _ => unfold csc_new_mining in H
         | H : csc_new_job_negotation _ _ _ _ _ _ _ _ _ = _ |- _ => unfold csc_new_job_negotation in H end;
         match goal with H : obind ?x _ = _ |- _ => destruct x as [v| |] eqn:E; cbn in H; [injection H as <-|discriminate..] end).
  1: rename E into H8.
  2: rename E into H8.
  1-4: match goal with H : sc_new _ _ _ _ _ _ _ _ _ = _ |- _ =>
    apply sc_new_ok_iff in H as (A1 & A2 & A3 & A4 & A5 & A6 & A7 & A8 & A9 & ->) end;
    unfold sc_ok; cbn; repeat (split; [first [assumption | apply str_ok_mk; assumption] |]); assumption.
  - injection H1 as <-. auto.
  - injection H1 as <-. auto.
  - apply sce_new_ok_iff in H0 as [-> H0]. auto.
  - apply sce_new_ok_iff in H0 as [-> H0]. auto.
  - injection H0 as <-. auto.
  - unfold osmc_new in H3. destruct (str0_new STR0_255 u) as [s| |] eqn:E; cbn in H3; [|discriminate..].
    injection H3 as <-. apply str_new_inv in E as [L ->]. cbn. repeat (split; [first [assumption | apply str_ok_mk; assumption]|]). assumption.
  - unfold osmcs_new in H3. destruct (b0_new B0_32 x) as [s| |] eqn:E; cbn in H3; [|discriminate..].
    injection H3 as <-. apply b0_new_inv in E as [L ->]. cbn. repeat split; assumption.
  - injection H0 as <-. auto.
  - unfold oemc_new in H4. destruct (str0_new STR0_255 u) as [s0| |] eqn:E; cbn in H4; [|discriminate..].
    injection H4 as <-. apply str_new_inv in E as [L ->]. cbn. repeat (split; [first [assumption | apply str_ok_mk; assumption]|]). assumption.
  - unfold oemcs_new in H3. destruct (b0_new B0_32 x) as [s0| |] eqn:E; cbn in H3; [|discriminate..].
    injection H3 as <-. apply b0_new_inv in E as [L ->]. cbn. repeat split; assumption.
  - injection H0 as <-. auto.
  - injection H2 as <-. auto.
Qed.

Lemma str_ok_inv : forall s, str_ok 255 s -> exists d, s = mk_str d /\ utf8_text d /\ len d <= 255.
Proof. intros [l d] (H1 & H2 & H3). cbn in *. subst l. exists d. auto. Qed.

Lemma sc_ok_new : forall fs m, sc_ok fs m ->
  sc_new (sc_min_version m) (sc_max_version m) (sc_flags m) (str0_data (sc_endpoint_host m))
    (sc_endpoint_port m) (str0_data (sc_vendor m)) (str0_data (sc_hardware_version m))
    (str0_data (sc_firmware m)) (str0_data (sc_device_id m)) = Ok m.
Proof.
  intros fs m (H1 & H2 & H3 & H4 & H5 & H6 & H7 & H8 & H9 & H10 & H11 & H12 & H13).
  apply sc_new_ok_iff. destruct m as [mi ma fl eh ep ve hv fw di]. cbn in *.
  destruct (str_ok_inv _ H4) as (? & -> & ? & ?), (str_ok_inv _ H6) as (? & -> & ? & ?),
    (str_ok_inv _ H7) as (? & -> & ? & ?), (str_ok_inv _ H8) as (? & -> & ? & ?), (str_ok_inv _ H9) as (? & -> & ? & ?).
  cbn in *. repeat (split; [assumption|]). reflexivity.
Qed.

Lemma ok_constructed : forall k m, msg_ok k m -> constructed k m.
Proof.
  assert (T : forall n s, str_ok n s -> utf8_text (str0_data s)) by (intros n s (A & _); exact A).
  intros k m H. destruct k; cbn [msg_ok msg_of] in *.
  - destruct m as [v|v].
    + pose proof (sc_ok_new _ _ H) as E. destruct H as (H1 & H2 & H3 & H4 & H5 & H6 & H7 & H8 & H9 & _).
      eapply C_csc_mining; [.. | unfold csc_new_mining; rewrite E; reflexivity]; eauto.
    + pose proof (sc_ok_new _ _ H) as E. destruct H as (H1 & H2 & H3 & H4 & H5 & H6 & H7 & H8 & H9 & _).
      eapply C_csc_jn; [.. | unfold csc_new_job_negotation; rewrite E; reflexivity]; eauto.
  - pose proof (sc_ok_new _ _ H) as E. destruct H as (H1 & H2 & H3 & H4 & H5 & H6 & H7 & H8 & H9 & _).
    eapply C_sc_mining; [.. | exact E]; eauto.
  - destruct H. destruct m. eapply C_scs_mining; [.. | reflexivity]; assumption.
  - destruct H. destruct m. eapply C_sce_mining; [.. | apply sce_new_ok_iff; split; [reflexivity|assumption]]; assumption.
  - pose proof (sc_ok_new _ _ H) as E. destruct H as (H1 & H2 & H3 & H4 & H5 & H6 & H7 & H8 & H9 & _).
    eapply C_sc_jn; [.. | exact E]; eauto.
  - destruct H. destruct m. eapply C_scs_jn; [.. | reflexivity]; assumption.
  - destruct H. destruct m. eapply C_sce_jn; [.. | apply sce_new_ok_iff; split; [reflexivity|assumption]]; assumption.
  - destruct m. eapply C_cec; [|reflexivity]. assumption.
  - destruct m as [r u h t], H as (H1 & H2 & H3 & H4). eapply C_osmc; [exact H1|exact (T _ _ H2)|exact H3|exact H4|].
    cbn. unfold osmc_new. rewrite str_new_same by exact H2. reflexivity.
  - destruct m as [r c t x g], H as (H1 & H2 & H3 & H4 & H5). eapply C_osmcs; [exact H1|exact H2|exact H3|exact H5|].
    cbn. unfold osmcs_new. rewrite (b0_new_same B0_32) by exact H4. reflexivity.
  - destruct m. eapply C_osmce; [|reflexivity]. assumption.
  - destruct m as [r u h t s], H as (H1 & H2 & H3 & H4 & H5).
    eapply C_oemc; [exact H1|exact (T _ _ H2)|exact H3|exact H4|exact H5|].
    cbn. unfold oemc_new. rewrite str_new_same by exact H2. reflexivity.
  - destruct m as [r c t s x], H as (H1 & H2 & H3 & H4 & H5). eapply C_oemcs; [exact H1|exact H2|exact H3|exact H4|].
    cbn. unfold oemcs_new. rewrite (b0_new_same B0_32) by exact H5. reflexivity.
  - destruct m. eapply C_oemce; [|reflexivity]. assumption.
  - destruct m, H as (H1 & H2 & H3). eapply C_uc; [| | |reflexivity]; assumption.
Qed.

(** ** Sizes: every message fits a frame *)
Lemma len_spec_le : forall k v, len (spec_le k v) = N.of_nat k.
Proof. intros k v. unfold len, spec_le. rewrite map_length, seq_length. reflexivity. Qed.
Lemma len_lay_str : forall s, len (lay_str s) = 1 + len (str0_data s).
Proof. intros s. unfold lay_str. rewrite len_app, len_spec_le, len_wire. reflexivity. Qed.
Lemma len_lay_b0 : forall h s, len (lay_b0 h s) = N.of_nat h + len (b0_data s).
Proof. intros h s. unfold lay_b0. rewrite len_app, len_spec_le, len_wire. reflexivity. Qed.

Lemma u256_len : forall v, u256_ok v -> len v = 32.
Proof. intros v H. unfold len. rewrite H. reflexivity. Qed.

Lemma len_lay_sc : forall fs m, sc_ok fs m -> len (lay_sc m) <= 1290.
Proof.
  intros fs m (_ & _ & _ & (_ & H4 & _) & _ & (_ & H6 & _) & (_ & H7 & _) & (_ & H8 & _) & (_ & H9 & _) & _).
  unfold lay_sc. rewrite !len_app, !len_spec_le, !len_lay_str. lia.
Qed.

Lemma layout_size : forall k m, msg_ok k m -> len (layout k m) <= 1291.
Proof.
  intros k m H. destruct k; cbn [msg_ok layout] in *.
  - destruct m; apply len_lay_sc in H; rewrite len_app, len_cons, len_nil; lia.
  - apply len_lay_sc in H; lia.
  - rewrite !len_app, !len_spec_le; lia.
  - rewrite !len_app, !len_spec_le. destruct (sce_error_code m); cbn; lia.
  - apply len_lay_sc in H; lia.
  - rewrite !len_app, !len_spec_le; lia.
  - rewrite !len_app, !len_spec_le. destruct (sce_error_code m); cbn; lia.
  - rewrite !len_spec_le; lia.
  - destruct H as (_ & (_ & H & _) & _ & H2). rewrite !len_app, !len_spec_le, !len_lay_str, !len_wire, (u256_len _ H2). lia.
  - destruct H as (_ & _ & H2 & (H & _) & _). rewrite !len_app, !len_spec_le, !len_lay_b0, !len_wire, (u256_len _ H2). lia.
  - rewrite !len_app, !len_spec_le. destruct (omce_error_code m); cbn; lia.
  - destruct H as (_ & (_ & H & _) & _ & H2 & _). rewrite !len_app, !len_spec_le, !len_lay_str, !len_wire, (u256_len _ H2). lia.
  - destruct H as (_ & _ & H2 & _ & (H & _)). rewrite !len_app, !len_spec_le, !len_lay_b0, !len_wire, (u256_len _ H2). lia.
  - rewrite !len_app, !len_spec_le. destruct (omce_error_code m); cbn; lia.
  - destruct H as (_ & _ & H2). rewrite !len_app, !len_spec_le, !len_wire, (u256_len _ H2). lia.
Qed.

(** ** frame / unframe *)
Lemma frame_ok : forall k m, msg_ok k m -> exists bs,
  wire bs = layout k m /\ len bs < 16777216 /\
  frame (frameable_of k) m = Ok (mkMessage (fr_type (frameable_of k)) bs).
Proof.
  intros k m H. destruct (encode_vec (T_msg k) m H) as (bs & Hw & Hs & _). exists bs.
  split; [exact Hw|]. split.
  - rewrite <- (len_wire bs), Hw. cbn [lay]. pose proof (layout_size k m H). lia.
  - unfold frame. cbn [ser_of] in Hs. rewrite Hs. reflexivity.
Qed.

Lemma unframe_same : forall k pf bs, rust_slice bs ->
  unframe (frameable_of k) pf (mkMessage (fr_type (frameable_of k)) bs) = deserialize (fr_de (frameable_of k)) pf bs.
Proof.
  intros k pf bs _. unfold unframe. cbn [m_type m_payload].
  assert (E : mt_eqb (fr_type (frameable_of k)) (fr_type (frameable_of k)) = true) by (apply mt_eqb_iff; reflexivity).
  rewrite E. reflexivity.
Qed.

Lemma frame_unframe : forall k m, msg_ok k m -> exists fr,
  frame (frameable_of k) m = Ok fr /\
  (forall pf, unframe (frameable_of k) pf fr = Ok m) /\
  exists enc, serialize (ser_message fr) = Ok enc /\
    forall pf pre rest, rust_slice (pre ++ enc ++ rest) ->
      de_message pf (cursor pre (enc ++ rest)) = (cursor (pre ++ enc) rest, Ok fr).
Proof.
  intros k m H. destruct (frame_ok k m H) as (bs & Hw & Hl & Hf).
  exists (mkMessage (fr_type (frameable_of k)) bs). split; [exact Hf|]. split.
  - intros pf. rewrite unframe_same by (unfold rust_slice; lia). unfold deserialize. rewrite cursor_0.
    pose proof (decode_encoded (T_msg k) m bs H Hw pf [] []) as D. rewrite app_nil_r in D.
    cbn [de_of] in D. rewrite D by (unfold rust_slice; cbn [app]; lia). reflexivity.
  - destruct (roundtrip T_frame (mkMessage (fr_type (frameable_of k)) bs)) as (enc & _ & Hs & _ & Hd); [exact Hl|].
    exists enc. split; [exact Hs|exact Hd].
Qed.

Lemma unframe_other : forall k pf m, fr_type (frameable_of k) <> m_type m ->
  exists e t, unframe (frameable_of k) pf m = Err (UnexpectedMessageType e t) /\
    e = 0 /\ t = fst (spec_code (fr_type (frameable_of k))).
Proof.
  intros k pf m H. unfold unframe.
  destruct (mt_eqb (fr_type (frameable_of k)) (m_type m)) eqn:E; [apply mt_eqb_iff in E; contradiction|].
  cbn [negb]. do 2 eexists. split; [reflexivity|]. rewrite mt_ext_0, mt_msg_code. auto.
Qed.

Lemma unframe_ok_type : forall k pf m v, unframe (frameable_of k) pf m = Ok v -> m_type m = fr_type (frameable_of k).
Proof.
  intros k pf m v H. unfold unframe in H.
  destruct (mt_eqb (fr_type (frameable_of k)) (m_type m)) eqn:E; [apply mt_eqb_iff in E; congruence|discriminate].
Qed.

Lemma unframe_ok_payload : forall k pf m v, rust_slice (m_payload m) -> unframe (frameable_of k) pf m = Ok v ->
  msg_ok k v /\ exists c rest, m_payload m = c ++ rest /\ wire c = layout k v.
Proof.
  intros k pf m v Hs H. pose proof (unframe_ok_type _ _ _ _ H) as T. destruct m as [t p]. cbn [m_type m_payload] in *.
  subst t. rewrite unframe_same in H by exact Hs. unfold deserialize in H. rewrite cursor_0 in H.
  destruct (fr_de (frameable_of k) pf (cursor [] p)) as [p' r] eqn:E. cbn [snd] in H. subst r.
  apply (decode_canonical (T_msg k)) in E as (c & rest & -> & _ & Ho & Hc); [|discriminate|exact Hs].
  split; [exact Ho|]. exists c, rest. split; [reflexivity|]. apply (serialize_layout (T_msg k)); assumption.
Qed.

(** ** Writers *)
Lemma emits_whole : forall W (wr : writer W) taken failed, whole_writer wr taken failed ->
  forall A (m : wprog A) cs a, emits m cs a -> forall w w' r, run wr m w = (w', r) -> failed w = false ->
  (r = Ok a /\ taken w' = taken w ++ concat cs /\ failed w' = false) \/
  (r = Err IOError /\ failed w' = true /\ exists p s, concat cs = p ++ s /\ taken w' = taken w ++ p).
Proof.
  intros W wr taken failed [Hok Hfail] A m cs a He. induction He as [a|buf k cs a He IH]; intros w w' r Hr Hf.
  - cbn in Hr. injection Hr as <- <-. left. cbn [concat]. rewrite app_nil_r. auto.
  - cbn [run] in Hr. destruct (wr w buf) as [w1 [n|]] eqn:E.
    + apply Hok in E as (-> & Ht & Hf1). rewrite Hf in Hf1. cbn [concat].
      destruct (IH _ _ _ Hr Hf1) as [(A1 & A2 & A3)|(A1 & A2 & p & s & A3 & A4)].
      * left. rewrite A2, Ht, app_assoc. auto.
      * right. split; [exact A1|]. split; [exact A2|]. exists (buf ++ p), s.
        rewrite A3, A4, Ht, !app_assoc. auto.
    + injection Hr as <- <-. apply Hfail in E as ((p & s & -> & Ht) & Hf1). right.
      split; [reflexivity|]. split; [exact Hf1|]. exists p, (s ++ concat cs). cbn [concat].
      rewrite <- app_assoc. auto.
Qed.

Lemma failing_writer : forall t v W (wr : writer W) taken failed w w' r,
  ok t v -> whole_writer wr taken failed -> failed w = false -> run wr (ser_of t v) w = (w', r) ->
  exists enc, serialize (ser_of t v) = Ok enc /\
   ((r = Ok (len enc) /\ failed w' = false /\ taken w' = taken w ++ enc) \/
    (r = Err IOError /\ failed w' = true /\ exists p s, enc = p ++ s /\ taken w' = taken w ++ p)).
Proof.
  intros t v W wr taken failed w w' r H Hw Hf Hr.
  destruct (ty_encodes t) as (E & _ & _). destruct (E v H) as (cs & He & _).
  exists (concat cs). split; [eapply emits_serialize, He|].
  destruct (emits_whole W wr taken failed Hw _ _ _ _ He _ _ _ Hr Hf) as [(A1 & A2 & A3)|(A1 & A2 & A3)].
  - left. auto.
  - right. auto.
Qed.

(** A writer that takes at most one byte per call (allowed by the io::Write contract). *)
Definition one_byte_writer : writer bytes := fun w buf => (w ++ firstn 1 buf, Some (len (firstn 1 buf))).

(** ** Oversized frames *)
Lemma oversized : forall W (wr : writer W) w m, 16777216 <= len (m_payload m) -> len (m_payload m) < 2 ^ 32 ->
  run wr (ser_message m) w = (w, Err RequirementError).
Proof.
  intros W wr w m H1 H2. unfold ser_message. rewrite N.mod_small by exact H2.
  rewrite u24_new_err by lia. reflexivity.
Qed.

Lemma len_repeat : forall A (x : A) n, len (repeat x (N.to_nat n)) = n.
Proof. intros. unfold len. rewrite repeat_length. lia. Qed.

Lemma oversized_truncated : forall t p, len p = 2 ^ 32 ->
  run vec_writer (ser_message (mkMessage t p)) [] =
    (to_le 2 (hdr_ext t) ++ [b8 (fst (spec_code t))] ++ [x00; x00; x00] ++ p, Ok (6 + 2 ^ 32)).
Proof.
  intros t p H. unfold ser_message. rewrite ser_ext, mt_msg_code. cbn [m_type m_payload].
  rewrite H. change (2 ^ 32 mod 2 ^ 32) with 0. rewrite u24_new_ok by reflexivity.
  unfold ser_u16, ser_u8, ser_u24, ser_uint, wwrite, wok. cbn [wbind run vec_writer].
  rewrite H, len_to_le. rewrite <- !app_assoc. reflexivity.
Qed.

(** ** Equality *)
Lemma str0_eqb_iff : forall a b, str0_eqb a b = true <-> a = b.
Proof.
  intros [l d] [l' d']. unfold str0_eqb. cbn. rewrite andb_true_iff, N.eqb_eq, bytes_eqb_iff.
  split; [intros [-> ->]; reflexivity | intros E; injection E as -> ->; auto].
Qed.
Lemma b0_eqb_iff : forall a b, b0_eqb a b = true <-> a = b.
Proof.
  intros [l d] [l' d']. unfold b0_eqb. cbn. rewrite andb_true_iff, N.eqb_eq, bytes_eqb_iff.
  split; [intros [-> ->]; reflexivity | intros E; injection E as -> ->; auto].
Qed.
Lemma sc_code_eqb_iff : forall a b, sc_code_eqb a b = true <-> a = b.
Proof. intros [] []; cbn; split; congruence. Qed.
Lemma omc_code_eqb_iff : forall a b, omc_code_eqb a b = true <-> a = b.
Proof. intros [] []; cbn; split; congruence. Qed.

Lemma land_low : forall x k, N.land x (N.ones k) = x mod 2 ^ k.
Proof. intros. apply N.land_ones. Qed.
Lemma f32_is_zero_iff : forall x, f32_is_zero x = true <-> x mod 2 ^ 31 = 0.
Proof. intros x. unfold f32_is_zero. change 0x7fffffff with (N.ones 31). rewrite land_low, N.eqb_eq. reflexivity. Qed.

Lemma land_exp : forall x, N.land x 0x7f800000 = (x / 2 ^ 23) mod 256 * 2 ^ 23.
Proof.
  intros x. change 0x7f800000 with (N.shiftl (N.ones 8) 23).
  rewrite <- N.shiftr_div_pow2, <- N.shiftl_mul_pow2. change 256 with (2 ^ 8). rewrite <- N.land_ones.
  apply N.bits_inj. intros i. rewrite N.land_spec.
  destruct (N.lt_ge_cases i 23) as [L|L].
  - rewrite !N.shiftl_spec_low by exact L. apply andb_false_r.
  - rewrite !N.shiftl_spec_high' by exact L. rewrite N.land_spec, N.shiftr_spec'.
    replace (i - 23 + 23) with i by lia. reflexivity.
Qed.

Lemma f32_is_nan_iff : forall x, f32_is_nan x = true <-> is_nan_bits x.
Proof.
  intros x. unfold f32_is_nan, is_nan_bits. rewrite andb_true_iff, negb_true_iff, N.eqb_eq, N.eqb_neq.
  rewrite land_exp. change 0x7fffff with (N.ones 23). rewrite land_low.
  change 0x80000000 with (2 ^ 31). change 0x7f800000 with (255 * 2 ^ 23).
  assert (E : x mod 2 ^ 31 = (x / 2 ^ 23) mod 256 * 2 ^ 23 + x mod 2 ^ 23).
  { change (2 ^ 31) with (2 ^ 23 * 256). rewrite N.mod_mul_r by lia. lia. }
  rewrite E. pose proof (N.mod_lt (x / 2 ^ 23) 256). pose proof (N.mod_lt x (2 ^ 23)).
  remember ((x / 2 ^ 23) mod 256) as q. remember (x mod 2 ^ 23) as r. clear E. split; intros; nia.
Qed.

Lemma f32_eqb_iff : forall x y, ~ is_nan_bits x -> ~ is_nan_bits y -> u32_ok x -> u32_ok y ->
  x <> neg_zero_bits -> y <> neg_zero_bits -> (f32_eqb x y = true <-> x = y).
Proof.
  intros x y Nx Ny Ux Uy Zx Zy. unfold f32_eqb.
  rewrite <- f32_is_nan_iff, Bool.not_true_iff_false in Nx, Ny. rewrite Nx, Ny. cbn [negb andb].
  rewrite orb_true_iff, andb_true_iff, !f32_is_zero_iff, N.eqb_eq. unfold u32_ok, neg_zero_bits in *.
  split; [|auto]. intros [E|[E1 E2]]; [exact E|]. lia.
Qed.

Lemma f32_eqb_refl : forall x, f32_eqb x x = true <-> ~ is_nan_bits x.
Proof.
  intros x. unfold f32_eqb. rewrite N.eqb_refl. rewrite <- f32_is_nan_iff.
  destruct (f32_is_nan x); cbn; split; congruence.
Qed.

Lemma msg_eqb_iff : forall k a b, msg_ok k a -> msg_ok k b ->
  Forall (fun x => ~ is_nan_bits x /\ x <> neg_zero_bits) (hash_rates k a) ->
  Forall (fun x => ~ is_nan_bits x /\ x <> neg_zero_bits) (hash_rates k b) ->
  (msg_eqb k a b = true <-> a = b).
Proof.
  assert (SC : forall x y, sc_eqb x y = true <-> x = y).
  { intros [] []. unfold sc_eqb. cbn. rewrite !andb_true_iff, !N.eqb_eq, !str0_eqb_iff.
    split; [intuition congruence|]. intros E; injection E as -> -> -> -> -> -> -> -> ->. tauto. }
  assert (SCS : forall x y, scs_eqb x y = true <-> x = y).
  { intros [] []. unfold scs_eqb. cbn. rewrite !andb_true_iff, !N.eqb_eq. 
    split; [intuition congruence|]. intros E; injection E as -> ->. tauto. }
  assert (SCE : forall x y, sce_eqb x y = true <-> x = y).
  { intros [] []. unfold sce_eqb. cbn. rewrite !andb_true_iff, !N.eqb_eq, sc_code_eqb_iff.
    split; [intuition congruence|]. intros E; injection E as -> ->. tauto. }
  assert (OMCE : forall x y, omce_eqb x y = true <-> x = y).
  { intros [] []. unfold omce_eqb. cbn. rewrite !andb_true_iff, !N.eqb_eq, omc_code_eqb_iff.
    split; [intuition congruence|]. intros E; injection E as -> ->. tauto. }
  intros k a b Ha Hb Fa Fb. destruct k; cbn [msg_eqb hash_rates msg_ok msg_of] in *; auto.
  - destruct a, b; rewrite ?SC; split; congruence.
  - destruct a, b. unfold cec_eqb. cbn. rewrite N.eqb_eq. split; congruence.
  - destruct a, b. unfold osmc_eqb. cbn in *. rewrite !andb_true_iff, N.eqb_eq, str0_eqb_iff, bytes_eqb_iff.
    inversion Fa as [|? ? [? ?]]; inversion Fb as [|? ? [? ?]]; subst. rewrite f32_eqb_iff by tauto.
    split; [intuition congruence|]. intros E; injection E as -> -> -> ->. tauto.
  - destruct a, b. unfold osmcs_eqb. cbn in *. rewrite !andb_true_iff, !N.eqb_eq, b0_eqb_iff, bytes_eqb_iff.
    split; [intuition congruence|]. intros E; injection E as -> -> -> -> ->. tauto.
  - destruct a, b. unfold oemc_eqb. cbn in *. rewrite !andb_true_iff, !N.eqb_eq, str0_eqb_iff, bytes_eqb_iff.
    inversion Fa as [|? ? [? ?]]; inversion Fb as [|? ? [? ?]]; subst. rewrite f32_eqb_iff by tauto.
    split; [intuition congruence|]. intros E; injection E as -> -> -> -> ->. tauto.
  - destruct a, b. unfold oemcs_eqb. cbn in *. rewrite !andb_true_iff, !N.eqb_eq, b0_eqb_iff, bytes_eqb_iff.
    split; [intuition congruence|]. intros E; injection E as -> -> -> -> ->. tauto.
  - destruct a, b. unfold uc_eqb. cbn in *. rewrite !andb_true_iff, N.eqb_eq, bytes_eqb_iff.
    inversion Fa as [|? ? [? ?]]; inversion Fb as [|? ? [? ?]]; subst. rewrite f32_eqb_iff by tauto.
    split; [intuition congruence|]. intros E; injection E as -> -> ->. tauto.
Qed.

Lemma layout_inj : forall k a b, msg_ok k a -> msg_ok k b -> layout k a = layout k b -> a = b.
Proof.
  intros k a b Ha Hb E. destruct (encode_vec (T_msg k) a Ha) as (ea & Wa & Sa & _).
  destruct (encode_vec (T_msg k) b Hb) as (eb & Wb & Sb & _). cbn [lay] in *.
  assert (ea = eb) as -> by (apply wire_inj; congruence).
  destruct (prefix_free (T_msg k) a b eb [] Ha Hb Sa) as [X _].
  - rewrite app_nil_r. exact Sb.
  - rewrite app_nil_r. unfold rust_slice. rewrite <- (len_wire eb), Wb.
    pose proof (layout_size k b Hb). lia.
  - exact X.
Qed.

Lemma eq_wire : forall k a b, msg_ok k a -> msg_ok k b ->
  Forall (fun x => ~ is_nan_bits x /\ x <> neg_zero_bits) (hash_rates k a) ->
  Forall (fun x => ~ is_nan_bits x /\ x <> neg_zero_bits) (hash_rates k b) ->
  (msg_eqb k a b = true <->
   serialize (fr_ser (frameable_of k) a) = serialize (fr_ser (frameable_of k) b)).
Proof.
  intros k a b Ha Hb Fa Fb. rewrite msg_eqb_iff by assumption. split; [intros ->; reflexivity|].
  intros E. apply (layout_inj k); [assumption..|].
  destruct (encode_vec (T_msg k) a Ha) as (ea & Wa & Sa & _).
  destruct (encode_vec (T_msg k) b Hb) as (eb & Wb & Sb & _). cbn [lay ser_of] in *.
  rewrite Sa, Sb in E. injection E as ->. congruence.
Qed.

(** A decoded message is == to the one sent exactly when no hash rate is NaN. *)
Lemma eq_refl_iff : forall k a, msg_ok k a ->
  (msg_eqb k a a = true <-> Forall (fun x => ~ is_nan_bits x) (hash_rates k a)).
Proof.
  assert (S0 : forall s, str0_eqb s s = true) by (intros; apply str0_eqb_iff; reflexivity).
  assert (B : forall s, b0_eqb s s = true) by (intros; apply b0_eqb_iff; reflexivity).
  assert (SC : forall x, sc_eqb x x = true).
  { intros []. unfold sc_eqb. cbn. rewrite !N.eqb_refl, !S0. reflexivity. }
  assert (F1 : forall x, Forall (fun x => ~ is_nan_bits x) [x] <-> ~ is_nan_bits x).
  { intros x. split; [intros H; inversion H; assumption | repeat constructor; assumption]. }
  intros k a H. destruct k; cbn [msg_eqb hash_rates msg_of] in *; rewrite ?F1, <- ?f32_eqb_refl.
  - destruct a; rewrite SC; split; auto.
  - rewrite SC; split; auto.
  - unfold scs_eqb. rewrite !N.eqb_refl. split; auto.
  - unfold sce_eqb. rewrite !N.eqb_refl. destruct (sce_error_code a); split; auto.
  - rewrite SC; split; auto.
  - unfold scs_eqb. rewrite !N.eqb_refl. split; auto.
  - unfold sce_eqb. rewrite !N.eqb_refl. destruct (sce_error_code a); split; auto.
  - unfold cec_eqb. rewrite !N.eqb_refl. split; auto.
  - unfold osmc_eqb. rewrite N.eqb_refl, S0, bytes_eqb_refl, andb_true_r. reflexivity.
  - unfold osmcs_eqb. rewrite !N.eqb_refl, B, bytes_eqb_refl. split; auto.
  - unfold omce_eqb. rewrite !N.eqb_refl. destruct (omce_error_code a); split; auto.
  - unfold oemc_eqb. rewrite !N.eqb_refl, S0, bytes_eqb_refl, !andb_true_r. reflexivity.
  - unfold oemcs_eqb. rewrite !N.eqb_refl, B, bytes_eqb_refl. split; auto.
  - unfold omce_eqb. rewrite !N.eqb_refl. destruct (omce_error_code a); split; auto.
  - unfold uc_eqb. rewrite N.eqb_refl, bytes_eqb_refl, andb_true_r. reflexivity.
Qed.
