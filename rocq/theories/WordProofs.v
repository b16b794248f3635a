(** * WordProofs: decoding and framing do not depend on the width of usize. *)
From Coq Require Import Lia ZifyBool ZifyNat ZifyN.
From Verif Require Import Base Codec Types Messages Frame Catalog Macro Word SpecWord SpecWire SpecTypes SpecDecode SpecMacro Nest SpecNest
  BaseFacts CodecFacts TypesFacts FrameFacts MsgProofs WriterProofs FrameProofs DecodeProofs MacroProofs NestProofs.

Lemma slice_rust : forall w bs, slice_on w bs -> rust_slice bs.
Proof. intros [] bs H; unfold slice_on, rust_slice in *; [change (2 ^ 63 - 1) with 9223372036854775807|]; lia. Qed.

Definition inv (w : width) (p : parser) : Prop := p_start p <= len (p_bytes p) /\ slice_on w (p_bytes p).
Definition agrees (w : width) {A} (Q : A -> Prop) (d d' : De A) : Prop :=
  forall pf p, inv w p -> d pf p = d' pf p /\ inv w (fst (d' pf p)) /\ forall a, snd (d' pf p) = Ok a -> Q a.

Lemma agrees_next : forall w n, n <= 16777216 -> agrees w (fun b => len b = n) (next_by_w w n) (next_by n).
Proof.
  intros w n Hn pf p [S L].
  assert (A : p_start p + n < 2 ^ 32 \/ w = W64 /\ p_start p + n < 2 ^ 64).
  { destruct w; cbn [slice_on] in L; [left; change (2 ^ 32) with 4294967296; lia|right; split; auto].
    change (2 ^ 64) with 18446744073709551616. lia. }
  assert (E1 : usize_add_w w pf (p_start p) n = Some (p_start p + n)).
  { unfold usize_add_w, usize_mod. destruct w; destruct A as [A|[A1 A]]; try discriminate A1;
      try (rewrite (proj2 (N.ltb_lt _ _) A); reflexivity).
    assert (p_start p + n < 2 ^ 64) by (revert A; change (2 ^ 32) with 4294967296; change (2 ^ 64) with 18446744073709551616; lia).
    rewrite (proj2 (N.ltb_lt _ _) H); reflexivity. }
  assert (E2 : usize_add pf (p_start p) n = Some (p_start p + n)).
  { unfold usize_add, USIZE_MOD.
    assert (p_start p + n < 2 ^ 64) by (destruct A as [A|[_ A]]; revert A; change (2 ^ 32) with 4294967296; change (2 ^ 64) with 18446744073709551616; lia).
    rewrite (proj2 (N.ltb_lt _ _) H); reflexivity. }
  unfold next_by_w, next_by. rewrite E1, E2. unfold slice_get.
  destruct (p_start p <=? p_start p + n) eqn:B1, (p_start p + n <=? len (p_bytes p)) eqn:B2; cbn [andb fst snd];
    (split; [reflexivity|]); (split; [|intros a E]); try (split; assumption); try discriminate E.
  - split; [cbn [p_start p_bytes]; lia|exact L].
  - inversion E; subst a; clear E. unfold len. rewrite firstn_length, skipn_length. unfold len in *. lia.
Qed.
Lemma agrees_lift : forall w A (Q : A -> Prop) (o : Result A), (forall a, o = Ok a -> Q a) -> agrees w Q (de_lift o) (de_lift o).
Proof. intros w A Q o H pf p I. unfold de_lift. cbn [fst snd]. auto. Qed.
Lemma agrees_ret : forall w A (Q : A -> Prop) (a : A), Q a -> agrees w Q (de_ret a) (de_ret a).
Proof. intros w A Q a H pf p I. unfold de_ret. cbn [fst snd]. split; [reflexivity|split; [exact I|]]. intros a' E; inversion E; subst; exact H. Qed.
Lemma agrees_bind : forall w A B (Q : A -> Prop) (R : B -> Prop) (d d' : De A) (f f' : A -> De B),
  agrees w Q d d' -> (forall a, Q a -> agrees w R (f a) (f' a)) -> agrees w R (de_bind d f) (de_bind d' f').
Proof.
  intros w A B Q R d d' f f' H K pf p I. destruct (H pf p I) as (E & I' & V). unfold de_bind. rewrite E.
  destruct (d' pf p) as [p' [a|e|]]; cbn [fst snd] in *.
  - apply K; auto.
  - split; [reflexivity|split; [exact I'|intros a X; discriminate X]].
  - split; [reflexivity|split; [exact I'|intros a X; discriminate X]].
Qed.
Lemma agrees_weak : forall w A (Q R : A -> Prop) d d', agrees w Q d d' -> (forall a, Q a -> R a) -> agrees w R d d'.
Proof. intros w A Q R d d' H K pf p I. destruct (H pf p I) as (E & I' & V). auto. Qed.

Lemma of_le_bound : forall bs, of_le bs < 256 ^ len bs.
Proof.
  induction bs as [|b bs IH]; [vm_compute; reflexivity|]. cbn [of_le].
  replace (len (b :: bs)) with (N.succ (len bs)) by (unfold len; cbn [length]; lia).
  rewrite N.pow_succ_r'. pose proof (Byte.to_N_bounded b). lia.
Qed.
Lemma clone_ok : forall k b a, clone_from_slice k b = Ok a -> a = b /\ len a = k.
Proof. intros k b a H. unfold clone_from_slice in H. destruct (len b =? k) eqn:E; inversion H; subst. split; auto; lia. Qed.

Lemma agrees_uint : forall w k, (k <= 32)%nat -> agrees w (fun v => v < 256 ^ N.of_nat k) (de_uint_w w k) (de_uint k).
Proof.
  intros w k Hk. unfold de_uint_w, de_uint. eapply agrees_bind; [apply agrees_next; lia|]. intros b Hb.
  eapply agrees_bind with (Q := fun b => len b = N.of_nat k).
  - apply agrees_lift. intros a H. apply clone_ok in H. tauto.
  - intros a Ha. apply agrees_ret. rewrite <- Ha. apply of_le_bound.
Qed.
Lemma agrees_u8 : forall w, agrees w (fun v => v < 256) (de_u8_w w) de_u8.
Proof. intro w. eapply agrees_weak; [apply (agrees_uint w 1); lia|]. cbn beta. change (256 ^ N.of_nat 1) with 256. auto. Qed.
Lemma agrees_u16 : forall w, agrees w (fun v => v < 65536) (de_u16_w w) de_u16.
Proof. intro w. eapply agrees_weak; [apply (agrees_uint w 2); lia|]. cbn beta. change (256 ^ N.of_nat 2) with 65536. auto. Qed.
Lemma agrees_u32 : forall w, agrees w (fun _ => True) (de_u32_w w) de_u32.
Proof. intro w. eapply agrees_weak; [apply (agrees_uint w 4); lia|]. auto. Qed.
Lemma agrees_f32 : forall w, agrees w (fun _ => True) (de_f32_w w) de_f32.
Proof. intro w. eapply agrees_weak; [apply (agrees_uint w 4); lia|]. auto. Qed.
Lemma agrees_u24 : forall w, agrees w (fun v => v < 16777216) (de_u24_w w) de_u24.
Proof.
  intro w. unfold de_u24_w, de_u24. eapply agrees_bind; [apply agrees_next; lia|]. intros b Hb.
  eapply agrees_bind with (Q := fun _ => True); [apply agrees_lift; auto|]. intros a _. apply agrees_lift.
  intros v H. destruct (N.lt_ge_cases (of_le (a ++ [x00])) (2 ^ 24)) as [X|X].
  - rewrite (u24_new_ok _ X) in H. inversion H; subst. exact X.
  - rewrite (u24_new_err _ X) in H. discriminate H.
Qed.
Lemma agrees_len : forall w lt, agrees w (fun v => v < 16777216) (de_len_w w lt) (de_len lt).
Proof.
  intros w []; cbn [de_len_w de_len]; [eapply agrees_weak; [apply agrees_u8|]|eapply agrees_weak; [apply agrees_u16|]|apply agrees_u24];
    cbn beta; intros; lia.
Qed.
Definition any {A} (a : A) : Prop := True.
Lemma agrees_any : forall w A (o : Result A), agrees w any (de_lift o) (de_lift o).
Proof. intros. apply agrees_lift. unfold any; auto. Qed.
Lemma agrees_reta : forall w A (a : A), agrees w any (de_ret a) (de_ret a).
Proof. intros. apply agrees_ret. exact Logic.I. Qed.
Lemma agrees_seq : forall w A B (Q : A -> Prop) (d d' : De A) (f f' : A -> De B),
  agrees w Q d d' -> (forall a, agrees w any (f a) (f' a)) -> agrees w any (de_bind d f) (de_bind d' f').
Proof. intros. eapply agrees_bind; [eassumption|auto]. Qed.

Lemma agrees_b0 : forall w t, agrees w any (de_b0_w w t) (de_b0 t).
Proof.
  intros. unfold de_b0_w, de_b0. eapply agrees_bind; [apply agrees_len|]. intros n Hn; cbn beta in Hn.
  eapply agrees_seq; [apply agrees_next; lia|]. intro. apply agrees_any.
Qed.
Lemma agrees_str0 : forall w t, agrees w any (de_str0_w w t) (de_str0 t).
Proof.
  intros. unfold de_str0_w, de_str0. eapply agrees_bind; [apply agrees_u8|]. intros n Hn; cbn beta in Hn.
  eapply agrees_seq; [apply agrees_next; lia|]. intro. eapply agrees_seq; [apply agrees_any|]. intro. apply agrees_any.
Qed.
Lemma agrees_bool : forall w, agrees w any (de_bool_w w) de_bool.
Proof.
  intros. unfold de_bool_w, de_bool. eapply agrees_seq; [apply agrees_next; lia|]. intro.
  eapply agrees_seq; [apply agrees_any|]. intro. apply agrees_reta.
Qed.
Lemma agrees_u256 : forall w, agrees w any (de_u256_w w) de_u256.
Proof. intros. unfold de_u256_w, de_u256. eapply agrees_seq; [apply agrees_next; lia|]. intro. apply agrees_any. Qed.
Lemma agrees_flags : forall w fs, agrees w any (de_flags_w w fs) (de_flags fs).
Proof. intros. unfold de_flags_w, de_flags. eapply agrees_seq; [apply agrees_u32|]. intro. apply agrees_any. Qed.
Lemma agrees_scc : forall w, agrees w any (de_sc_code_w w) de_sc_code.
Proof. intros. unfold de_sc_code_w, de_sc_code. eapply agrees_seq; [apply agrees_str0|]. intro. apply agrees_any. Qed.
Lemma agrees_omc : forall w, agrees w any (de_omc_code_w w) de_omc_code.
Proof. intros. unfold de_omc_code_w, de_omc_code. eapply agrees_seq; [apply agrees_str0|]. intro. apply agrees_any. Qed.
Lemma agrees_protocol : forall w, agrees w any (de_protocol_w w) de_protocol.
Proof. intros. unfold de_protocol_w, de_protocol. eapply agrees_seq; [apply agrees_u8|]. intro. apply agrees_any. Qed.
Ltac go :=
  match goal with
  | |- agrees _ any (de_lift _) _ => apply agrees_any
  | |- agrees _ any (de_ret _) _ => apply agrees_reta
  | |- agrees _ any (de_bind _ _) _ => eapply agrees_seq; [first
      [apply agrees_u8|apply agrees_u16|apply agrees_u32|apply agrees_f32|apply agrees_u256|apply agrees_flags
      |apply agrees_scc|apply agrees_omc|apply agrees_protocol|apply agrees_b0|apply agrees_str0]|intro; go]
  end.
Lemma agrees_sc : forall w fs, agrees w any (de_sc_w w fs) (de_sc fs).
Proof. intros. unfold de_sc_w, de_sc. go. Qed.
Lemma agrees_csc : forall w, agrees w any (de_csc_w w) de_csc.
Proof.
  intros. unfold de_csc_w, de_csc. eapply agrees_seq; [apply agrees_protocol|]. intros []; try apply agrees_any;
    (eapply agrees_seq; [apply agrees_sc|intro; apply agrees_reta]).
Qed.
Lemma agrees_kind : forall w k, agrees w any (de_kind_w w k) (fr_de (frameable_of k)).
Proof.
  intros w []; cbn [de_kind_w frameable_of fr_de]; first [apply agrees_csc|apply agrees_sc|idtac];
    unfold de_scs_w, de_scs, de_sce_w, de_sce, de_cec_w, de_cec, de_osmc_w, de_osmc, de_oemc_w, de_oemc, de_osmcs_w, de_osmcs,
      de_oemcs_w, de_oemcs, de_omce_w, de_omce, de_uc_w, de_uc; go.
Qed.
Lemma agrees_message : forall w, agrees w any (de_message_w w) de_message.
Proof.
  intros. unfold de_message_w, de_message. eapply agrees_seq; [apply agrees_u16|]. intro.
  eapply agrees_seq; [apply agrees_u8|]. intro. eapply agrees_seq; [apply agrees_any|]. intro t.
  destruct (negb _); [apply agrees_any|]. eapply agrees_bind; [apply agrees_u24|]. intros n Hn; cbn beta in Hn.
  eapply agrees_seq; [apply agrees_next; lia|]. intro. apply agrees_reta.
Qed.
Lemma agrees_of : forall w t, agrees w any (de_of_w w t) (de_of t).
Proof.
  intros w []; cbn [de_of_w de_of]; first [apply agrees_u32|apply agrees_f32|apply agrees_bool|apply agrees_u256|apply agrees_b0
    |apply agrees_str0|apply agrees_flags|apply agrees_scc|apply agrees_omc|apply agrees_protocol|apply agrees_kind|apply agrees_message
    |eapply agrees_weak; [apply agrees_u8|intros; exact Logic.I]|eapply agrees_weak; [apply agrees_u16|intros; exact Logic.I]
    |eapply agrees_weak; [apply agrees_u24|intros; exact Logic.I]].
Qed.
Lemma agrees_fields : forall w ts, agrees w any (de_fields_w w ts) (de_fields ts).
Proof.
  intros w ts. induction ts as [|t ts IH]; cbn [de_fields_w de_fields]; [apply agrees_reta|].
  eapply agrees_seq; [apply agrees_of|]. intro. eapply agrees_seq; [apply IH|]. intro. apply agrees_reta.
Qed.

Lemma cursor_inv : forall w pre rest, slice_on w (pre ++ rest) -> inv w (cursor pre rest).
Proof. intros. split; [|exact H]. unfold cursor. cbn [p_start p_bytes]. unfold len. rewrite app_length. lia. Qed.

Lemma word_same : forall w t pf pre rest, slice_on w (pre ++ rest) ->
  de_of_w w t pf (cursor pre rest) = de_of t pf (cursor pre rest).
Proof. intros. apply (agrees_of w t pf). apply cursor_inv; auto. Qed.
Lemma word_fields : forall w ts M (new : fields ts -> Result M) pf pre rest, slice_on w (pre ++ rest) ->
  im_de_w w ts new pf (cursor pre rest) = im_de ts new pf (cursor pre rest).
Proof.
  intros. assert (X : agrees w any (im_de_w w ts new) (im_de ts new)).
  { unfold im_de_w, im_de. eapply agrees_seq; [apply agrees_fields|]. intro. apply agrees_any. }
  apply X. apply cursor_inv; auto.
Qed.

Lemma word_reads : forall w t pf pre rest, slice_on w (pre ++ rest) ->
  exists r, reading_ty t rest r /\ (forall r', reading_ty t rest r' -> r' = r) /\
  match r with
  | Ok (v, rest') => exists c, rest = c ++ rest' /\ de_of_w w t pf (cursor pre rest) = (cursor (pre ++ c) rest', Ok v)
  | Err e => snd (de_of_w w t pf (cursor pre rest)) = Err e
  | Panic => False
  end.
Proof.
  intros w t pf pre rest S. rewrite (word_same w t pf pre rest S).
  destruct (type_follows t pf pre rest (slice_rust _ _ S)) as (r & T & D). exists r. split; [exact T|].
  split; [intros r' T'; exact (type_single t _ _ _ T' T)|]. destruct r as [[v l]|e|]; auto. exact (proj2 D).
Qed.
Lemma word_macro : forall w ts M (new : fields ts -> Result M) pf pre rest, slice_on w (pre ++ rest) ->
  exists r, reading_fields ts rest r /\ (forall r', reading_fields ts rest r' -> r' = r) /\
  match r with
  | Ok (v, rest') => exists c, rest = c ++ rest' /\ im_de_w w ts new pf (cursor pre rest) = (cursor (pre ++ c) rest', new v)
  | Err e => snd (im_de_w w ts new pf (cursor pre rest)) = Err e
  | Panic => False
  end.
Proof.
  intros w ts M new pf pre rest S. rewrite (word_fields w ts M new pf pre rest S).
  destruct (im_reads ts M new pf pre rest (slice_rust _ _ S)) as (r & T & U & D). exists r. split; [exact T|].
  split; [exact U|]. destruct r as [[v l]|e|]; auto. exact (proj2 D).
Qed.
Lemma word_machines : forall t pf pre rest, slice_on W32 (pre ++ rest) ->
  de_of_w W32 t pf (cursor pre rest) = de_of_w W64 t pf (cursor pre rest).
Proof.
  intros t pf pre rest S. rewrite (word_same W32 t pf pre rest S). symmetry. apply word_same.
  cbn [slice_on] in *. lia.
Qed.
Lemma word_unframe_is : forall w k pf m, slice_on w (m_payload m) -> unframe_w w k pf m = unframe (frameable_of k) pf m.
Proof.
  intros w k pf m S. unfold unframe_w, unframe. destruct (negb _); [reflexivity|]. unfold deserialize.
  change (mkParser (m_payload m) 0) with (cursor [] (m_payload m)).
  change (de_kind_w w k) with (de_of_w w (T_msg k)). rewrite word_same; [reflexivity|exact S].
Qed.
Lemma word_unframe : forall w k pf m, slice_on w (m_payload m) ->
  (fr_type (frameable_of k) <> m_type m ->
     unframe_w w k pf m = Err (UnexpectedMessageType 0 (fst (spec_code (fr_type (frameable_of k)))))) /\
  (fr_type (frameable_of k) = m_type m ->
     (forall v, unframe_w w k pf m = Ok v <-> exists left, reading_of k (m_payload m) (Ok (v, left))) /\
     (forall e, unframe_w w k pf m = Err e <-> reading_of k (m_payload m) (Err e))).
Proof.
  intros w k pf m S. rewrite (word_unframe_is w k pf m S). split; intro H.
  - rewrite (unframe_refuses k pf m H), mt_ext_0, mt_msg_code. reflexivity.
  - apply unframe_outcome; [exact (slice_rust _ _ S)|exact H].
Qed.
Lemma word_64 : forall m, let announced := len (m_payload m) mod 4294967296 in
  (16777216 <= announced -> forall W (wr : writer W) x, run wr (ser_message_w W64 m) x = (x, Err RequirementError)) /\
  (announced < 16777216 -> exists enc, wire enc = frame_layout m /\
     forall x, run vec_writer (ser_message_w W64 m) x = (x ++ enc, Ok (6 + len (m_payload m)))).
Proof.
  intros m. cbv zeta. pose proof (frame_every_length m) as X. cbv zeta in X. change (2 ^ 32) with 4294967296 in X.
  change (ser_message_w W64 m) with (ser_message m). destruct X as [X1 X2]. split; intro H; [apply X1|apply X2]; lia.
Qed.
Lemma word_frame : forall m, slice_on W32 (m_payload m) ->
  (16777216 <= len (m_payload m) -> forall W (wr : writer W) x, run wr (ser_message_w W32 m) x = (x, Err RequirementError)) /\
  (len (m_payload m) < 16777216 -> exists enc, wire enc = frame_layout m /\
     forall x, run vec_writer (ser_message_w W32 m) x = (x ++ enc, Ok (6 + len (m_payload m)))) /\
  (forall W (wr : writer W) x, run wr (ser_message_w W32 m) x = run wr (ser_message_w W64 m) x).
Proof.
  intros m S. cbn [slice_on] in S.
  assert (L : len (m_payload m) < 2 ^ 32) by (change (2 ^ 32) with 4294967296; lia).
  assert (E : ser_message_w W32 m = ser_message m).
  { unfold ser_message_w, ser_message, as_u32. rewrite (N.mod_small _ _ L). reflexivity. }
  pose proof (frame_every_length m) as X. cbv zeta in X. rewrite (N.mod_small _ _ L) in X. destruct X as [X1 X2].
  rewrite E. split; [|split].
  - intros H W wr x. apply X1. lia.
  - intros H. destruct X2 as (enc & Y1 & Y2); [lia|]. exists enc. split; [exact Y1|exact Y2].
  - intros W wr x. reflexivity.
Qed.

Lemma usize_end_is : forall w, usize_mod w = usize_end w.
Proof. intros []; reflexivity. Qed.
Lemma word_next : forall w pf bs start step, slice_on w bs -> start < usize_end w -> step < usize_end w ->
  (start + step <= len bs -> exists a b c, bs = a ++ b ++ c /\ len a = start /\ len b = step /\
     next_by_w w step pf (mkParser bs start) = (mkParser bs (start + step), Ok b)) /\
  (len bs < start + step ->
     next_by_w w step pf (mkParser bs start) =
       (mkParser bs start, if (usize_end w <=? start + step) && match pf with Debug => true | Release => false end then Panic else Err ParseError)).
Proof.
  intros w pf bs start step S H1 H2.
  assert (S' : len bs < usize_end w) by (destruct w; cbn [slice_on usize_end] in *; lia).
  unfold next_by_w, usize_add_w. rewrite usize_end_is. cbn [p_start p_bytes]. split; intros L.
  - assert (B : (start + step <? usize_end w) = true) by lia. rewrite B. unfold slice_get.
    assert (B1 : (start <=? start + step) && (start + step <=? len bs) = true) by lia. rewrite B1.
    destruct (split_at _ start bs) as (a & r & -> & La); [lia|]. rewrite len_app in L.
    destruct (split_at _ step r) as (b & c & -> & Lb); [lia|].
    exists a, b, c. repeat (split; [reflexivity || assumption|]).
    rewrite <- La. replace (len a + step - len a) with step by lia. rewrite skipn_len_app, <- Lb, firstn_len_app. reflexivity.
  - destruct (start + step <? usize_end w) eqn:B.
    + assert (B0 : (usize_end w <=? start + step) = false) by lia. rewrite B0. cbn [andb]. unfold slice_get.
      assert (B1 : (start <=? start + step) && (start + step <=? len bs) = false) by lia. rewrite B1. reflexivity.
    + assert (B0 : (usize_end w <=? start + step) = true) by lia. rewrite B0. destruct pf; cbn [andb]; [reflexivity|].
      unfold slice_get. assert (B1 : (start <=? (start + step) mod usize_end w) = false).
      { apply N.leb_gt. rewrite N.mod_eq by lia.
        replace ((start + step) / usize_end w) with 1 by (apply N.div_unique with (r := start + step - usize_end w); lia). lia. }
      rewrite B1. reflexivity.
Qed.

(** ** Nested messages *)
Lemma agrees_shape : forall w,
  (forall A (s : shape A), agrees w any (shape_de_w w s) (shape_de s)) /\
  (forall F (fs : shapes F), agrees w any (shapes_de_w w fs) (shapes_de fs)).
Proof.
  intro w. apply shape_both; cbn [shape_de_w shapes_de_w shape_de shapes_de].
  - intros t. apply agrees_of.
  - intros F M fs IH open new. eapply agrees_seq; [exact IH|]. intro. apply agrees_any.
  - apply agrees_reta.
  - intros A F s IHs fs IHf. eapply agrees_seq; [exact IHs|]. intro. eapply agrees_seq; [exact IHf|]. intro. apply agrees_reta.
Qed.
Lemma word_shape : forall w A (s : shape A) pf pre rest, slice_on w (pre ++ rest) ->
  shape_de_w w s pf (cursor pre rest) = shape_de s pf (cursor pre rest).
Proof. intros. apply (proj1 (agrees_shape w) A s pf). apply cursor_inv; auto. Qed.
Lemma word_nested : forall w A (s : shape A), storing s -> forall pf pre rest, slice_on w (pre ++ rest) ->
  exists r, shape_reading s rest r /\ (forall r', shape_reading s rest r' -> r' = r) /\
  match r with
  | Ok (v, rest') => shape_ok s v /\
      exists c, rest = c ++ rest' /\ shape_de_w w s pf (cursor pre rest) = (cursor (pre ++ c) rest', Ok v)
  | Err e => snd (shape_de_w w s pf (cursor pre rest)) = Err e
  | Panic => False
  end.
Proof.
  intros w A s St pf pre rest S. rewrite (word_shape w A s pf pre rest S). exact (nest_table A s St pf pre rest (slice_rust _ _ S)).
Qed.
Lemma word_nested_machines : forall A (s : shape A) pf pre rest, slice_on W32 (pre ++ rest) ->
  shape_de_w W32 s pf (cursor pre rest) = shape_de_w W64 s pf (cursor pre rest).
Proof.
  intros A s pf pre rest S. rewrite (word_shape W32 A s pf pre rest S). symmetry. apply word_shape.
  cbn [slice_on] in *. lia.
Qed.
