(** * NestProofs: declared messages as fields of declared messages. *)
From Verif Require Import Base Codec Types Messages Frame Catalog SpecWire SpecTypes SpecDecode Macro SpecMacro SpecPieces Nest SpecNest
  BaseFacts CodecFacts Utf8Facts TypesFacts MessagesFacts FrameFacts CodecProofs MsgProofs TypesProofs DecodeProofs MacroProofs PieceProofs.
Ltac Zify.zify_post_hook ::= Z.div_mod_to_equations.

Scheme shape_mut := Induction for shape Sort Prop with shapes_mut := Induction for shapes Sort Prop.
Combined Scheme shape_both from shape_mut, shapes_mut.

(** ** Writing *)
Lemma nest_emits :
  (forall A (s : shape A) a, shape_ok s a -> exists cs, emits (shape_ser s a) cs (len (concat cs)) /\ wire (concat cs) = shape_lay s a) /\
  (forall F (fs : shapes F) v, shapes_ok fs v -> exists cs ns, emits (shapes_ser fs v) cs ns /\
     fold_right N.add 0 ns = len (concat cs) /\ wire (concat cs) = shapes_lay fs v).
Proof.
  apply shape_both; cbn [shape_ok shapes_ok shape_lay shapes_lay shape_ser shapes_ser].
  - intros t a H. destruct (ty_encodes t) as (E & _ & _). exact (E a H).
  - intros F M fs IH open new m (H & _). destruct (IH _ H) as (cs & ns & E & S & W). exists cs. split; [|exact W].
    rewrite <- (app_nil_r cs) at 1. eapply emits_bind; [exact E|]. rewrite sum_left, S, N.add_0_l. constructor.
  - intros v _. exists [], []. split; [constructor|]. split; reflexivity.
  - intros A F s IHs fs IHf [x xs] (H1 & H2). cbn [fst snd] in *.
    destruct (IHs x H1) as (cs1 & E1 & W1). destruct (IHf xs H2) as (cs2 & ns & E2 & S2 & W2).
    exists (cs1 ++ cs2), (len (concat cs1) :: ns). split; [|split].
    + eapply emits_bind; [exact E1|]. rewrite <- (app_nil_r cs2). eapply emits_bind; [exact E2|constructor].
    + cbn [fold_right]. rewrite S2, concat_app, len_app. reflexivity.
    + rewrite concat_app, wire_app, W1, W2. reflexivity.
Qed.

(** ** Reading back *)
Lemma nest_reads :
  (forall A (s : shape A) a c, shape_ok s a -> wire c = shape_lay s a -> reads (shape_de s) c a) /\
  (forall F (fs : shapes F) v c, shapes_ok fs v -> wire c = shapes_lay fs v -> reads (shapes_de fs) c v).
Proof.
  apply shape_both; cbn [shape_ok shapes_ok shape_lay shapes_lay shape_de shapes_de].
  - intros t a c H W. destruct (ty_encodes t) as (_ & R & _). exact (R a c H W).
  - intros F M fs IH open new m c (H & N) W. rewrite <- (app_nil_r c). eapply reads_bind; [exact (IH _ c H W)|].
    apply reads_lift, N.
  - intros [] c _ W. destruct c; [|discriminate]. apply reads_ret.
  - intros A F s IHs fs IHf [x xs] c (H1 & H2) W. cbn [fst snd] in *.
    apply wire_split in W as (c1 & c2 & -> & W1 & W2). eapply reads_bind; [exact (IHs x c1 H1 W1)|].
    rewrite <- (app_nil_r c2). eapply reads_bind; [exact (IHf xs c2 H2 W2)|]. apply reads_ret.
Qed.

Lemma nest_good :
  (forall A (s : shape A), storing s -> good (shape_de s) (fun a c => shape_ok s a /\ (no_bool s -> wire c = shape_lay s a))) /\
  (forall F (fs : shapes F), all_storing fs -> good (shapes_de fs) (fun v c => shapes_ok fs v /\ (all_no_bool fs -> wire c = shapes_lay fs v))).
Proof.
  apply shape_both; cbn [shape_ok shapes_ok shape_lay shapes_lay shape_de shapes_de storing all_storing no_bool all_no_bool].
  - intros t _. assert (D : t = T_bool \/ t <> T_bool) by (destruct t; (left; reflexivity) || (right; discriminate)).
    destruct D as [->|D].
    + destruct (ty_encodes T_bool) as (_ & _ & G). eapply good_weaken; [exact G|]. cbn beta. intros a c H. split; [exact H|].
      intros N. contradiction (N eq_refl).
    + destruct (ty_field t D) as (_ & _ & G). eapply good_weaken; [exact G|]. cbn beta. intros a c (H & W). split; auto.
  - intros F M fs IH open new (S & N). eapply good_bind; [exact (IH S)|]. cbn beta. intros v c (H & W).
    destruct (N v H) as (NP & O). apply good_lift; [exact NP|]. intros m E. rewrite (O m E). rewrite app_nil_r.
    split; [split; [exact H|exact E]|exact W].
  - intros _. apply good_ret. split; [exact I|reflexivity].
  - intros A F s IHs fs IHf (S1 & S2). eapply good_bind; [exact (IHs S1)|]. cbn beta. intros x c (H & W).
    eapply good_bind; [exact (IHf S2)|]. cbn beta. intros xs c2 (H2 & W2). apply good_ret. cbn [fst snd].
    rewrite app_nil_r. split; [split; assumption|]. intros (B1 & B2). rewrite wire_app, W, W2 by assumption. reflexivity.
Qed.

Lemma nest_roundtrip : forall A (s : shape A) v, shape_ok s v -> exists enc, wire enc = shape_lay s v /\
  serialize (shape_ser s v) = Ok enc /\
  (forall w, run vec_writer (shape_ser s v) w = (w ++ enc, Ok (len enc))) /\
  (forall W (wr : writer W) taken failed w w' r,
     whole_writer wr taken failed -> failed w = false -> run wr (shape_ser s v) w = (w', r) ->
     (r = Ok (len enc) /\ failed w' = false /\ taken w' = taken w ++ enc) \/
     (r = Err IOError /\ failed w' = true /\ exists p t, enc = p ++ t /\ taken w' = taken w ++ p)) /\
  (forall pf pre rest, rust_slice (pre ++ enc ++ rest) ->
     shape_de s pf (cursor pre (enc ++ rest)) = (cursor (pre ++ enc) rest, Ok v)).
Proof.
  intros A s v H. destruct (proj1 nest_emits A s v H) as (cs & E & W). exists (concat cs). split; [exact W|].
  split; [eapply emits_serialize, E|]. split; [intros w; apply emits_run_vec, E|]. split.
  - intros W0 wr taken failed w w' r Hw Hf Hr.
    destruct (emits_whole W0 wr taken failed Hw _ _ _ _ E _ _ _ Hr Hf) as [(A1 & A2 & A3)|B]; [left; auto|right; exact B].
  - intros pf pre rest Hs. exact (proj1 nest_reads A s v (concat cs) H W pf pre rest Hs).
Qed.

Lemma nest_unambiguous : forall A (s : shape A) v1 v2 e1 e2 s1 s2, shape_ok s v1 -> shape_ok s v2 ->
  serialize (shape_ser s v1) = Ok e1 -> serialize (shape_ser s v2) = Ok e2 -> rust_slice (e1 ++ s1) ->
  e1 ++ s1 = e2 ++ s2 -> v1 = v2 /\ s1 = s2.
Proof.
  intros A s v1 v2 e1 e2 s1 s2 H1 H2 S1 S2 Hs E.
  destruct (nest_roundtrip A s v1 H1) as (e1' & _ & S1' & _ & _ & D1). rewrite S1 in S1'. injection S1' as <-.
  destruct (nest_roundtrip A s v2 H2) as (e2' & _ & S2' & _ & _ & D2). rewrite S2 in S2'. injection S2' as <-.
  specialize (D1 Debug [] s1 Hs). specialize (D2 Debug [] s2 ltac:(cbn [app]; rewrite <- E; exact Hs)).
  rewrite E, D2 in D1. injection D1 as _ L ->. cbn [app] in L. split; [reflexivity|].
  apply app_inj_len in E as [_ ->]; [reflexivity|exact (eq_sym L)].
Qed.

Lemma nest_canonical : forall A (s : shape A), storing s -> no_bool s -> forall pf pre rest p v, rust_slice (pre ++ rest) ->
  shape_de s pf (cursor pre rest) = (p, Ok v) ->
  exists c rest', rest = c ++ rest' /\ p = cursor (pre ++ c) rest' /\ shape_ok s v /\ serialize (shape_ser s v) = Ok c.
Proof.
  intros A s St B pf pre rest p v Hs E. destruct (proj1 nest_good A s St pf pre rest Hs) as (c & l & r & -> & E2 & _ & _ & Q).
  change (P pre (c ++ l)) with (cursor pre (c ++ l)) in E2. rewrite E in E2. injection E2 as -> <-.
  destruct (Q v eq_refl) as (K & W). exists c, l. repeat (split; [reflexivity || assumption|]).
  destruct (proj1 nest_emits A s v K) as (cs & Em & Wc). rewrite (emits_serialize _ _ _ Em). f_equal.
  apply wire_inj. rewrite Wc, (W B). reflexivity.
Qed.

(** ** The reading *)
Lemma nest_follows :
  (forall A (s : shape A), storing s -> follows (shape_ok s) (shape_de s) (shape_reading s)) /\
  (forall F (fs : shapes F), all_storing fs -> follows (shapes_ok fs) (shapes_de fs) (shapes_reading fs)).
Proof.
  apply shape_both; cbn [shape_ok shapes_ok shape_de shapes_de storing all_storing shape_reading shapes_reading].
  - intros t _. apply type_follows.
  - intros F M fs IH open new (S & N). eapply follows_next; [exact (IH S)|]. intros v H. destruct (N v H) as (NP & O).
    destruct (new v) as [m|e|] eqn:E; [| |contradiction].
    + intros pf pre rest Hs. eexists. split; [reflexivity|]. cbn beta. specialize (O m eq_refl).
      split; [split; [rewrite O; exact H|rewrite O; exact E]|]. exists []. rewrite app_nil_r. split; reflexivity.
    + intros pf pre rest Hs. eexists. split; [reflexivity|]. reflexivity.
  - intros _. apply follows_lift; [reflexivity|exact I].
  - intros A F s IHs fs IHf (S1 & S2). eapply follows_next; [exact (IHs S1)|]. intros x Hx.
    eapply follows_next; [exact (IHf S2)|]. intros xs Hxs. apply follows_lift; [reflexivity|]. split; assumption.
Qed.
Lemma nest_single : (forall A (s : shape A), single (shape_reading s)) /\ (forall F (fs : shapes F), single (shapes_reading fs)).
Proof.
  apply shape_both; cbn [shape_reading shapes_reading].
  - intros t. apply type_single.
  - intros F M fs IH open new. apply next_single; [exact IH|]. intros v rest r1 r2 -> ->. reflexivity.
  - apply gives_single.
  - intros A F s IHs fs IHf. apply next_single; [exact IHs|]. intros x. apply next_single; [exact IHf|]. intros; apply gives_single.
Qed.
Lemma nest_table : forall A (s : shape A), storing s -> forall pf pre rest, rust_slice (pre ++ rest) ->
  exists r, shape_reading s rest r /\ (forall r', shape_reading s rest r' -> r' = r) /\
  match r with
  | Ok (v, rest') => shape_ok s v /\ exists c, rest = c ++ rest' /\ shape_de s pf (cursor pre rest) = (cursor (pre ++ c) rest', Ok v)
  | Err e => snd (shape_de s pf (cursor pre rest)) = Err e
  | Panic => False
  end.
Proof.
  intros A s St pf pre rest Hs. destruct (proj1 nest_follows A s St pf pre rest Hs) as (r & T & D).
  exists r. split; [exact T|]. split; [intros r' T'; exact (proj1 nest_single A s _ _ _ T' T)|exact D].
Qed.

(** ** Missing bytes *)
Definition enough_s {A} (K : N) (t : reading A) : Prop := forall rest r, rust_slice rest -> t rest r -> K <= len rest ->
  match r with Ok (_, l) => len rest <= len l + K | Err e => e <> ParseError | Panic => False end.
Lemma es_next : forall A B (Q : A -> Prop) d (a : reading A) (f : A -> reading B) Ka Kb,
  follows Q d a -> single a -> enough_s Ka a -> (forall x, Q x -> enough_s Kb (f x)) -> enough_s (Ka + Kb) (next a f).
Proof.
  intros A B Q d a f Ka Kb Fo Si Ha Hf rest r Hs (ra & Ra & Rb) H. pose proof (Ha rest ra Hs Ra ltac:(lia)) as P.
  destruct (Fo Debug [] rest Hs) as (ra' & Ra' & D). rewrite (Si _ _ _ Ra' Ra) in D.
  destruct ra as [[x l]|e|]; [|subst r; exact P|contradiction]. destruct D as (Qx & c & -> & _).
  assert (Hl : rust_slice l) by (unfold rust_slice in *; rewrite len_app in Hs; lia).
  pose proof (Hf x Qx l r Hl Rb ltac:(lia)) as G. destruct r as [[y l2]|e|]; auto. lia.
Qed.
Lemma nest_enough :
  (forall A (s : shape A), storing s -> no_parse_error s -> enough_s (shape_enough s) (shape_reading s)) /\
  (forall F (fs : shapes F), all_storing fs -> all_no_parse_error fs -> enough_s (shapes_enough fs) (shapes_reading fs)).
Proof.
  apply shape_both; cbn [storing all_storing no_parse_error all_no_parse_error shape_enough shapes_enough shape_reading shapes_reading].
  - intros t _ _ rest r _. apply en_ty.
  - intros F M fs IH open new (S & N) (NP & Nn). rewrite <- (N.add_0_r (shapes_enough fs)).
    eapply es_next; [exact (proj2 nest_follows F fs S)|apply (proj2 nest_single)|exact (IH S NP)|].
    intros v Hv rest r _ -> _. destruct (N v Hv) as (P & _). pose proof (Nn v Hv) as E.
    destruct (new v) as [m|e|]; [lia|congruence|contradiction].
  - intros _ _ rest r _. apply en_gives.
  - intros A F s IHs fs IHf (S1 & S2) (N1 & N2).
    eapply es_next; [exact (proj1 nest_follows A s S1)|apply (proj1 nest_single)|exact (IHs S1 N1)|]. intros x _.
    rewrite <- (N.add_0_r (shapes_enough fs)).
    eapply es_next; [exact (proj2 nest_follows F fs S2)|apply (proj2 nest_single)|exact (IHf S2 N2)|].
    intros xs _ rest r _. apply en_gives.
Qed.

Lemma nest_missing : forall A (s : shape A), storing s -> no_parse_error s -> forall pf bs, len bs + shape_enough s <= 2 ^ 63 - 1 ->
  deserialize (shape_de s) pf bs = Err ParseError <->
  exists t, rust_slice (bs ++ t) /\ deserialize (shape_de s) pf (bs ++ t) <> deserialize (shape_de s) pf bs.
Proof.
  intros A s S N pf bs Hb. split.
  - intros E. exists (repeat x00 (N.to_nat (shape_enough s))).
    assert (Hs : rust_slice (bs ++ repeat x00 (N.to_nat (shape_enough s)))) by (unfold rust_slice; rewrite len_app, len_zeros; exact Hb).
    split; [exact Hs|]. rewrite E. unfold deserialize. rewrite cursor_0.
    destruct (nest_table A s S pf [] _ Hs) as (r & R & _ & D).
    pose proof (proj1 nest_enough A s S N _ r Hs R ltac:(rewrite len_app, len_zeros; lia)) as P.
    destruct r as [[v l]|e|]; [| |contradiction].
    + destruct D as (_ & c & _ & E2). rewrite E2. discriminate.
    + rewrite D. congruence.
  - intros (t & Hs & H).
    assert (D : deserialize (shape_de s) pf bs = Err ParseError \/ deserialize (shape_de s) pf bs <> Err ParseError).
    { destruct (deserialize (shape_de s) pf bs) as [v|e|]; [right; discriminate| |right; discriminate].
      destruct e; try (right; discriminate). left. reflexivity. }
    destruct D as [D|D]; [exact D|]. exfalso. apply H. clear H. revert D. unfold deserialize. rewrite !cursor_0.
    assert (Hb2 : rust_slice bs) by (unfold rust_slice in *; rewrite len_app in Hs; lia).
    destruct (proj1 nest_good A s S pf [] bs Hb2) as (c & l & r & -> & E & _ & L & _).
    change (P [] (c ++ l)) with (cursor [] (c ++ l)) in E. rewrite E. cbn [snd]. intros H. destruct (L H) as (L1 & _).
    rewrite <- app_assoc in *. specialize (L1 pf [] (l ++ t) Hs).
    change (P [] (c ++ l ++ t)) with (cursor [] (c ++ l ++ t)) in L1. rewrite L1. reflexivity.
Qed.

(** ** Frames *)
Lemma nest_frames : forall A (s : shape A) T m, shape_ok s m -> len (shape_lay s m) < 16777216 ->
  let F := nest_frameable s T in
  exists fr enc, frame F m = Ok fr /\ m_type fr = T /\ wire (m_payload fr) = shape_lay s m /\
    serialize (ser_message fr) = Ok enc /\ wire enc = frame_layout fr /\
    (forall pf pre rest, rust_slice (pre ++ enc ++ rest) ->
      de_message pf (cursor pre (enc ++ rest)) = (cursor (pre ++ enc) rest, Ok fr)) /\
    (forall pf, unframe F pf fr = Ok m).
Proof.
  intros A s T m H L F. destruct (nest_roundtrip A s m H) as (bs & W & S & _ & _ & D).
  assert (Lb : len bs < 16777216) by (rewrite <- (len_wire bs), W; exact L).
  destruct (roundtrip T_frame (mkMessage T bs) Lb) as (enc & We & Hs & _ & Hd).
  exists (mkMessage T bs), enc. unfold frame, F, nest_frameable. cbn [fr_ser fr_type]. rewrite S. split; [reflexivity|].
  split; [reflexivity|]. split; [exact W|]. split; [exact Hs|]. split; [exact We|]. split; [exact Hd|].
  intros pf. unfold unframe. cbn [fr_type m_type m_payload fr_de].
  assert (Et : mt_eqb T T = true) by (apply mt_eqb_iff; reflexivity). rewrite Et. cbn [negb]. unfold deserialize. rewrite cursor_0.
  specialize (D pf [] []). rewrite app_nil_r in D. rewrite D by (unfold rust_slice; cbn [app]; lia). reflexivity.
Qed.

(** ** Messages with wire types for fields *)
Lemma flat_ser : forall ts v, shapes_ser (flat ts) v = ser_counts ts v.
Proof.
  induction ts as [|t ts IH]; cbn [flat shapes_ser ser_counts fields]; [reflexivity|]. intros [x xs].
  cbn [fst snd shape_ser]. rewrite IH. reflexivity.
Qed.
Lemma flat_de : forall ts, shapes_de (flat ts) = de_fields ts.
Proof.
  induction ts as [|t ts IH]; cbn [flat shapes_de de_fields fields shape_de]; [reflexivity|]. rewrite IH. reflexivity.
Qed.
Lemma flat_ok : forall ts v, shapes_ok (flat ts) v <-> fields_ok ts v.
Proof.
  induction ts as [|t ts IH]; cbn [flat shapes_ok fields_ok fields shape_ok]; intros v; [tauto|]. rewrite IH. tauto.
Qed.
Lemma flat_lay : forall ts v, shapes_lay (flat ts) v = fields_lay ts v.
Proof.
  induction ts as [|t ts IH]; cbn [flat shapes_lay fields_lay fields shape_lay]; intros v; [reflexivity|]. rewrite IH. reflexivity.
Qed.
Lemma flat_macro : forall ts M (open : M -> fields ts) (new : fields ts -> Result M) T,
  let s := S_msg (flat ts) open new in
  (forall m, fr_ser (nest_frameable s T) m = fr_ser (im_frameable ts open new T) m) /\
  fr_de (nest_frameable s T) = fr_de (im_frameable ts open new T) /\
  (forall m, shape_ok s m <-> fields_ok ts (open m) /\ new (open m) = Ok m) /\
  (forall m, shape_lay s m = fields_lay ts (open m)).
Proof.
  intros ts M open new T s. unfold nest_frameable, im_frameable, s, im_ser, im_de. cbn [fr_ser fr_de shape_ser shape_de shape_ok shape_lay].
  split; [intros m; rewrite flat_ser; reflexivity|]. split; [rewrite flat_de; reflexivity|].
  split; [intros m; rewrite flat_ok; tauto|]. intros m. apply flat_lay.
Qed.

(** A message of a tag and the message one level down; the constructor wants the tag 7.  At depth [n] the image is [n]
    sevens and the two bytes of the number. *)
Definition level (s : shape N) : shape N :=
  S_msg (S_cons (S_lib T_u8) (S_cons s S_nil)) (fun m : N => (7, (m, tt)))
    (fun v : N * (N * unit) => if fst v =? 7 then Ok (fst (snd v)) else Err RequirementError).
Fixpoint tower (n : nat) : shape N := match n with O => S_lib T_u16 | S n' => level (tower n') end.
Lemma tower_facts : forall n, storing (tower n) /\ no_bool (tower n) /\ no_parse_error (tower n) /\
  shape_ok (tower n) 513 /\ shape_lay (tower n) 513 = repeat 7 n ++ [1; 2].
Proof.
  induction n as [|n (A & B & C & D & E)]; [repeat split; cbn; discriminate || lia|].
  cbn [tower level storing all_storing no_bool all_no_bool no_parse_error all_no_parse_error shape_ok shapes_ok shape_lay shapes_lay
       fst snd ok lay N.eqb Pos.eqb repeat].
  repeat (split; try assumption; try discriminate; try exact I).
  - destruct v as [t [m []]]. cbn [fst snd]. destruct (t =? 7); discriminate.
  - destruct v as [t [m []]]. cbn [fst snd]. destruct (t =? 7) eqn:F; [|discriminate]. intros m' [= <-]. apply N.eqb_eq in F. cbn [fst] in F. rewrite F. reflexivity.
  - intros [t [m []]] _. cbn [fst snd]. destruct (t =? 7); discriminate.
  - rewrite E. change (spec_le 1 7) with [7]. rewrite app_nil_r. reflexivity.
Qed.
