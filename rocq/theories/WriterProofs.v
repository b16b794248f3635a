(** * WriterProofs: lemmas behind C16 and C21 for arbitrary writers. *)
From Verif Require Import Base Codec Types Messages Frame Catalog SpecWire SpecTypes
  BaseFacts CodecFacts Utf8Facts TypesFacts MessagesFacts FrameFacts CodecProofs MsgProofs TypesProofs.
Ltac Zify.zify_post_hook ::= Z.div_mod_to_equations.

(** What a serializer does next does not depend on the counts. *)
Inductive blind {A} : wprog A -> Prop :=
| blind_ret : forall r, blind (WRet r)
| blind_write : forall buf k, (forall n, k n = k (len buf)) -> blind (k (len buf)) -> blind (WWrite buf k).

Lemma blind_bind : forall A B (m : wprog A) (f : A -> wprog B), blind m -> (forall a, blind (f a)) -> blind (wbind m f).
Proof.
  intros A B m f H Hf. induction H as [r|buf k E H IH]; cbn [wbind].
  - destruct r; [apply Hf|constructor|constructor].
  - constructor; [|exact IH]. intros n. rewrite E. reflexivity.
Qed.
Lemma blind_uint : forall k v, blind (ser_uint k v).
Proof. intros. unfold ser_uint, wwrite, wok. cbn [wbind]. constructor; [reflexivity|constructor]. Qed.
Lemma blind_u24 : forall v, blind (ser_u24 v).
Proof. intros. unfold ser_u24, wwrite, wok. cbn [wbind]. constructor; [reflexivity|constructor]. Qed.
Lemma blind_u256 : forall v, blind (ser_u256 v).
Proof. intros. unfold ser_u256, wwrite, wok. cbn [wbind]. constructor; [reflexivity|constructor]. Qed.
Lemma blind_bool : forall v, blind (ser_bool v).
Proof. intros. unfold ser_bool, wwrite, wok. cbn [wbind]. constructor; [reflexivity|constructor]. Qed.
Lemma blind_str0 : forall v, blind (ser_str0 v).
Proof.
  intros. unfold ser_str0. apply blind_bind; [apply blind_uint|]. intros a. unfold wwrite, wok. cbn [wbind].
  constructor; [reflexivity|constructor].
Qed.
Lemma blind_b0 : forall t v, blind (ser_b0 t v).
Proof.
  intros. unfold ser_b0. apply blind_bind; [destruct t; first [apply blind_uint|apply blind_u24]|]. intros a.
  unfold wwrite, wok. cbn [wbind]. constructor; [reflexivity|constructor].
Qed.
Ltac blinds := repeat (apply blind_bind; [first [apply blind_uint|apply blind_str0|apply blind_b0|apply blind_u256]|intros ?]);
  try constructor.
Lemma blind_sc : forall m, blind (ser_sc m).
Proof. intros m. unfold ser_sc. blinds. Qed.
Lemma blind_msg : forall k m, blind (fr_ser (frameable_of k) m).
Proof.
  destruct k; cbn [frameable_of fr_ser]; intros m; try apply blind_sc; cbv delta [ser_scs ser_sce ser_cec ser_osmc ser_osmcs ser_oemc ser_oemcs ser_omce ser_uc] beta;
    try blinds.
  destruct m; cbn [ser_csc]; (apply blind_bind; [apply blind_uint|intros]); (apply blind_bind; [apply blind_sc|intros]); constructor.
Qed.
Lemma blind_of : forall t v, t <> T_frame -> blind (ser_of t v).
Proof.
  destruct t; cbn [ser_of]; intros v H; first [apply blind_uint|apply blind_u24|apply blind_u256|apply blind_bool|apply blind_b0
    |apply blind_str0|apply blind_msg|contradiction].
Qed.

Lemma blind_run : forall A (m : wprog A) cs a, emits m cs a -> blind m -> forall W (wr : writer W) w,
  run wr m w = match offer wr cs w with (w', Some _) => (w', Ok a) | (w', None) => (w', Err IOError) end.
Proof.
  intros A m cs a H. induction H as [a|buf k cs a H IH]; intros B W wr w; cbn [run offer]; [reflexivity|].
  inversion B as [|? ? E B']; subst. destruct (wr w buf) as [w' [n|]]; [|reflexivity].
  rewrite E, (IH B'). destruct (offer wr cs w') as [w'' [ns|]]; reflexivity.
Qed.

Theorem any_writer : forall t v, ok t v -> exists cs, wire (concat cs) = lay t v /\
  forall W (wr : writer W) w,
    run wr (ser_of t v) w =
      match offer wr cs w with
      | (w', None) => (w', Err IOError)
      | (w', Some counts) => (w', Ok (match t with T_frame => 6 + last counts 0 | _ => len (concat cs) end))
      end.
Proof.
  intros t v H. destruct (ty_encodes t) as (E & _ & _). destruct (E v H) as (cs & He & Hw).
  destruct t; try (exists cs; split; [exact Hw|]; intros W wr w; rewrite (blind_run _ _ _ _ He ltac:(apply blind_of; discriminate));
    destruct (offer wr cs w) as [w' [c|]]; reflexivity).
  cbn [val] in v. cbn [ok] in H. destruct v as [t p]. cbn [m_payload] in H.
  exists [to_le 2 (hdr_ext t); to_le 1 (fst (spec_code t)); firstn 3 (to_le 4 (len p)); p].
  assert (R : forall W (wr : writer W) w, run wr (ser_of T_frame (mkMessage t p)) w =
    match offer wr [to_le 2 (hdr_ext t); to_le 1 (fst (spec_code t)); firstn 3 (to_le 4 (len p)); p] w with
    | (w', None) => (w', Err IOError)
    | (w', Some counts) => (w', Ok (6 + last counts 0))
    end).
  { intros W wr w. cbn [ser_of]. unfold ser_message. rewrite ser_ext, mt_msg_code. cbn [m_type m_payload].
    rewrite N.mod_small by lia. rewrite u24_new_ok by lia.
    unfold ser_u16, ser_u8, ser_u24, ser_uint, wwrite, wok. cbn [wbind run offer].
    rewrite !len_to_le.
    destruct (wr w _) as [w1 [n1|]]; [|reflexivity]. destruct (wr w1 _) as [w2 [n2|]]; [|reflexivity].
    destruct (wr w2 _) as [w3 [n3|]]; [|reflexivity]. destruct (wr w3 _) as [w4 [n4|]]; reflexivity. }
  split; [|exact R].
  pose proof (R _ vec_writer []) as R1. rewrite (emits_run_vec _ _ _ _ [] He) in R1. cbn [app] in R1. rewrite <- Hw. f_equal.
  cbn [offer vec_writer] in R1. injection R1 as R1 _. rewrite R1. cbn [concat app]. rewrite ?app_nil_r, <- ?app_assoc. reflexivity.
Qed.

(** ** C21 *)
Lemma le3_mod : forall v, spec_le 3 (v mod 2 ^ 32) = spec_le 3 v.
Proof.
  intros v. unfold spec_le. cbn [seq map]. change (2 ^ 32) with 4294967296.
  change (256 ^ N.of_nat 0) with 1. change (256 ^ N.of_nat 1) with 256. change (256 ^ N.of_nat 2) with 65536.
  f_equal; [lia|]. f_equal; [lia|]. f_equal. lia.
Qed.
Theorem frame_every_length : forall m,
  let announced := len (m_payload m) mod 2 ^ 32 in
  (16777215 < announced -> forall W (wr : writer W) w, run wr (ser_message m) w = (w, Err RequirementError)) /\
  (announced <= 16777215 -> exists enc, wire enc = frame_layout m /\
     forall w, run vec_writer (ser_message m) w = (w ++ enc, Ok (6 + len (m_payload m)))).
Proof.
  intros [t p] a. subst a. cbn [m_payload]. split; intros H.
  - intros W wr w. unfold ser_message. cbn [m_payload]. rewrite u24_new_err by lia. reflexivity.
  - exists (to_le 2 (hdr_ext t) ++ to_le 1 (fst (spec_code t)) ++ firstn 3 (to_le 4 (len p mod 2 ^ 32)) ++ p). split.
    + rewrite frame_layout_eq. cbn [m_type m_payload]. unfold wire. rewrite !map_app. fold (wire (to_le 2 (hdr_ext t))).
      fold (wire (to_le 1 (fst (spec_code t)))). fold (wire (firstn 3 (to_le 4 (len p mod 2 ^ 32)))). rewrite !wire_to_le.
      rewrite firstn_to_le by lia. rewrite wire_to_le. rewrite le3_mod. reflexivity.
    + intros w. unfold ser_message. rewrite ser_ext, mt_msg_code. cbn [m_type m_payload]. rewrite u24_new_ok by lia.
      unfold ser_u16, ser_u8, ser_u24, ser_uint, wwrite, wok. cbn [wbind run vec_writer].
      rewrite !len_to_le, <- !app_assoc. reflexivity.
Qed.
