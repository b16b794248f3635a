(** * MacroProofs: messages with any list of field types. *)
From Verif Require Import Base Codec Types Messages Frame Catalog SpecWire SpecTypes SpecDecode Macro SpecMacro
  BaseFacts CodecFacts Utf8Facts TypesFacts MessagesFacts FrameFacts CodecProofs MsgProofs TypesProofs DecodeProofs.
Ltac Zify.zify_post_hook ::= Z.div_mod_to_equations.

(** ** Writing *)
Lemma counts_emit : forall ts v, fields_ok ts v -> exists cs ns,
  emits (ser_counts ts v) cs ns /\ fold_right N.add 0 ns = len (concat cs) /\ wire (concat cs) = fields_lay ts v.
Proof.
  induction ts as [|t ts IH]; cbn [fields fields_ok fields_lay ser_counts].
  - intros v _. exists [], []. split; [constructor|]. split; reflexivity.
  - intros [x xs] (H1 & H2). cbn [fst snd] in *. destruct (ty_encodes t) as (E & _ & _).
    destruct (E x H1) as (cs1 & E1 & W1). destruct (IH xs H2) as (cs2 & ns & E2 & S2 & W2).
    exists (cs1 ++ cs2), (len (concat cs1) :: ns). split; [|split].
    + eapply emits_bind; [exact E1|]. rewrite <- (app_nil_r cs2). eapply emits_bind; [exact E2|constructor].
    + cbn [fold_right]. rewrite S2, concat_app, len_app. reflexivity.
    + rewrite concat_app, wire_app, W1, W2. reflexivity.
Qed.
Lemma sum_left : forall ns a, fold_left N.add ns a = a + fold_right N.add 0 ns.
Proof.
  induction ns as [|n ns IH]; intros a; cbn [fold_left fold_right]; [lia|]. rewrite IH. lia.
Qed.
Lemma im_emit : forall ts v, fields_ok ts v -> exists cs,
  emits (im_ser ts v) cs (len (concat cs)) /\ wire (concat cs) = fields_lay ts v.
Proof.
  intros ts v H. destruct (counts_emit ts v H) as (cs & ns & E & S & W). exists cs. split; [|exact W].
  rewrite <- (app_nil_r cs) at 1. eapply emits_bind; [exact E|]. rewrite sum_left, S, N.add_0_l. constructor.
Qed.

Lemma im_writes : forall ts v, fields_ok ts v -> exists enc, wire enc = fields_lay ts v /\
  serialize (im_ser ts v) = Ok enc /\
  (forall w, run vec_writer (im_ser ts v) w = (w ++ enc, Ok (len enc))) /\
  (forall W (wr : writer W) taken failed w w' r,
     whole_writer wr taken failed -> failed w = false -> run wr (im_ser ts v) w = (w', r) ->
     (r = Ok (len enc) /\ failed w' = false /\ taken w' = taken w ++ enc) \/
     (r = Err IOError /\ failed w' = true /\ exists p s, enc = p ++ s /\ taken w' = taken w ++ p)).
Proof.
  intros ts v H. destruct (im_emit ts v H) as (cs & E & W). exists (concat cs). split; [exact W|].
  split; [eapply emits_serialize, E|]. split; [intros w; apply emits_run_vec, E|].
  intros W0 wr taken failed w w' r Hw Hf Hr.
  destruct (emits_whole W0 wr taken failed Hw _ _ _ _ E _ _ _ Hr Hf) as [(A1 & A2 & A3)|A]; [left; auto|right; exact A].
Qed.

(** ** The messages of the crate are instances *)
Lemma run_wbind : forall A B (m : wprog A) (f : A -> wprog B) W (wr : writer W) w,
  run wr (wbind m f) w =
    match run wr m w with (w', Ok a) => run wr (f a) w' | (w', Err e) => (w', Err e) | (w', Panic) => (w', Panic) end.
Proof.
  intros A B m f W wr. induction m as [[a|e|]|buf k IH]; intros w; cbn [wbind run]; try reflexivity.
  destruct (wr w buf) as [w' [n|]]; [apply IH|reflexivity].
Qed.

Ltac runs := repeat (rewrite !run_wbind;
  match goal with |- context[run ?wr ?m ?w] => lazymatch m with wbind _ _ => fail | wok _ => fail | _ =>
    destruct (run wr m w) as [? [?|?|]]; cbn [run wok wbind]; try reflexivity end end).

Definition opened (k : kind) : msg_of k -> fields (declaration k) :=
  match k return msg_of k -> fields (declaration k) with
  | K_CommonSetupConnection => fun _ => tt
  | K_MiningSetupConnection | K_JnSetupConnection => fun m : setup_connection =>
      (sc_min_version m, (sc_max_version m, (sc_flags m, (sc_endpoint_host m, (sc_endpoint_port m, (sc_vendor m,
       (sc_hardware_version m, (sc_firmware m, (sc_device_id m, tt)))))))))
  | K_MiningSetupConnectionSuccess | K_JnSetupConnectionSuccess => fun m : setup_connection_success =>
      (scs_used_version m, (scs_flags m, tt))
  | K_MiningSetupConnectionError | K_JnSetupConnectionError => fun m : setup_connection_error =>
      (sce_flags m, (sce_error_code m, tt))
  | K_ChannelEndpointChanged => fun m => (cec_channel_id m, tt)
  | K_OpenStandardMiningChannel => fun m =>
      (osmc_request_id m, (osmc_user_identity m, (osmc_nominal_hash_rate m, (osmc_max_target m, tt))))
  | K_OpenStandardMiningChannelSuccess => fun m =>
      (osmcs_request_id m, (osmcs_channel_id m, (osmcs_target m, (osmcs_extranonce_prefix m, (osmcs_group_channel_id m, tt)))))
  | K_OpenStandardMiningChannelError | K_OpenExtendedMiningChannelError => fun m : open_mining_channel_error =>
      (omce_request_id m, (omce_error_code m, tt))
  | K_OpenExtendedMiningChannel => fun m =>
      (oemc_request_id m, (oemc_user_identity m, (oemc_nominal_hash_rate m, (oemc_max_target m, (oemc_min_extranonce_size m, tt)))))
  | K_OpenExtendedMiningChannelSuccess => fun m =>
      (oemcs_request_id m, (oemcs_channel_id m, (oemcs_target m, (oemcs_extranonce_size m, (oemcs_extranonce_prefix m, tt)))))
  | K_UpdateChannel => fun m => (uc_channel_id m, (uc_nominal_hash_rate m, (uc_max_target m, tt)))
  end.

Definition newed (k : kind) : fields (declaration k) -> Result (msg_of k) :=
  match k return fields (declaration k) -> Result (msg_of k) with
  | K_CommonSetupConnection => fun _ => Panic
  | K_MiningSetupConnection | K_JnSetupConnection =>
      fun '(a, (b, (c, (d, (e, (f, (g, (h, (i, _))))))))) =>
        sc_new a b c (str0_data d) e (str0_data f) (str0_data g) (str0_data h) (str0_data i)
  | K_MiningSetupConnectionSuccess | K_JnSetupConnectionSuccess => fun '(a, (b, _)) => scs_new a b
  | K_MiningSetupConnectionError | K_JnSetupConnectionError => fun '(a, (b, _)) => sce_new a b
  | K_ChannelEndpointChanged => fun '(a, _) => cec_new a
  | K_OpenStandardMiningChannel => fun '(a, (b, (c, (d, _)))) => osmc_new a (str0_data b) c d
  | K_OpenStandardMiningChannelSuccess => fun '(a, (b, (c, (d, (e, _))))) => osmcs_new a b c (b0_data d) e
  | K_OpenStandardMiningChannelError | K_OpenExtendedMiningChannelError => fun '(a, (b, _)) => omce_new a b
  | K_OpenExtendedMiningChannel => fun '(a, (b, (c, (d, (e, _))))) => oemc_new a (str0_data b) c d e
  | K_OpenExtendedMiningChannelSuccess => fun '(a, (b, (c, (d, (e, _))))) => oemcs_new a b c d (b0_data e)
  | K_UpdateChannel => fun '(a, (b, (c, _))) => uc_new a b c
  end.

Lemma library_ser : forall k, k <> K_CommonSetupConnection -> forall m W (wr : writer W) w,
  run wr (fr_ser (frameable_of k) m) w = run wr (im_ser (declaration k) (opened k m)) w.
Proof.
  destruct k; intros Hk m W wr w; try contradiction;
    cbn [frameable_of fr_ser opened declaration]; unfold im_ser; cbn [ser_counts ser_of fst snd];
    unfold ser_sc, ser_scs, ser_sce, ser_cec, ser_osmc, ser_osmcs, ser_oemc, ser_oemcs, ser_omce, ser_uc;
    runs; cbn [fold_left]; rewrite ?N.add_0_l; reflexivity.
Qed.

Lemma library_de : forall k, k <> K_CommonSetupConnection -> forall pf p,
  fr_de (frameable_of k) pf p = im_de (declaration k) (newed k) pf p.
Proof.
  destruct k; intros Hk; try contradiction; intros pf p;
    cbn [frameable_of fr_de newed declaration]; unfold im_de; cbn [de_fields de_of];
    unfold de_sc, de_scs, de_sce, de_cec, de_osmc, de_osmcs, de_oemc, de_oemcs, de_omce, de_uc;
    cbv beta delta [de_bind de_lift de_ret];
    repeat (match goal with |- context[match ?d pf ?q with (_, _) => _ end] =>
      first [is_var q | constr_eq q p]; destruct (d pf q) as [? [?|?|]]; try reflexivity end); reflexivity.
Qed.
Lemma opened_inj : forall k, k <> K_CommonSetupConnection -> forall a b, opened k a = opened k b -> a = b.
Proof.
  destruct k; intros Hk a b; try contradiction; destruct a, b; cbn; intros E; congruence.
Qed.
Lemma library : forall k, k <> K_CommonSetupConnection ->
  exists (open : msg_of k -> fields (declaration k)) (new : fields (declaration k) -> Result (msg_of k)),
    (forall a b, open a = open b -> a = b) /\
    (forall v m, fields_ok (declaration k) v -> new v = Ok m -> open m = v) /\
    (forall m, msg_ok k m -> fields_ok (declaration k) (open m) /\ new (open m) = Ok m) /\
    (forall m, layout k m = fields_lay (declaration k) (open m)) /\
    (forall m W (wr : writer W) w,
       run wr (fr_ser (frameable_of k) m) w = run wr (fr_ser (im_frameable (declaration k) open new (fr_type (frameable_of k))) m) w) /\
    (forall pf p, fr_de (frameable_of k) pf p = fr_de (im_frameable (declaration k) open new (fr_type (frameable_of k))) pf p).
Proof.
  intros k Hk. exists (opened k), (newed k). split; [apply opened_inj, Hk|].
  split; [|split; [|split; [|split; [apply library_ser, Hk|apply library_de, Hk]]]].
  - assert (SC : forall (mi ma fl ep : N) (eh ve hv fw di : str0) m, str_ok 255 eh -> str_ok 255 ve -> str_ok 255 hv ->
      str_ok 255 fw -> str_ok 255 di ->
      sc_new mi ma fl (str0_data eh) ep (str0_data ve) (str0_data hv) (str0_data fw) (str0_data di) = Ok m ->
      m = mkSC mi ma fl eh ep ve hv fw di).
    { intros mi ma fl ep eh ve hv fw di m H1 H2 H3 H4 H5. unfold sc_new.
      destruct (is_empty (str0_data ve)), (is_empty (str0_data fw)), (mi <? 2), (ma <? 2); try discriminate.
      rewrite !str_new_same by assumption. cbn [obind]. congruence. }
    destruct k; try contradiction; cbn [declaration fields newed opened]; intros v m H;
      repeat match goal with v : (_ * _)%type |- _ => destruct v | v : unit |- _ => destruct v end;
      cbn [fields_ok ok fst snd spec_str_limit spec_b0_limit] in H;
      repeat match goal with H : _ /\ _ |- _ => destruct H end;
      unfold scs_new, sce_new, cec_new, osmc_new, osmcs_new, oemc_new, oemcs_new, omce_new, uc_new;
      try (intros E; apply SC in E; [rewrite E; reflexivity|assumption..]);
      rewrite ?str_new_same, ?(b0_new_same B0_32) by assumption; cbn [obind];
      try (destruct (_ && _); try discriminate); intros E; injection E as <-; reflexivity.
  - intros m Hm. split.
    + destruct k; try contradiction; cbn [declaration fields_ok opened fst snd ok spec_str_limit spec_b0_limit] in *;
        cbn [msg_ok] in Hm; unfold sc_ok in Hm; tauto.
    + destruct k; try contradiction; cbn [msg_of newed opened] in *;
        try (eapply sc_ok_new; exact Hm); cbn [msg_ok] in Hm;
        unfold scs_new, sce_new, cec_new, osmc_new, osmcs_new, oemc_new, oemcs_new, omce_new, uc_new;
        rewrite ?str_new_same, ?(b0_new_same B0_32) by apply Hm; cbn [obind]; try (destruct m; reflexivity);
        destruct Hm as (_ & Hm); unfold flags_is_empty;
        destruct (sce_flags m =? 0) eqn:E, (sc_code_eqb (sce_error_code m) UnsupportedFeatureFlags) eqn:F; cbn [andb];
        try (destruct m; reflexivity); apply sc_code_eqb_iff in F; apply N.eqb_eq in E; exact (False_ind _ (Hm F E)).
  - destruct k; try contradiction; intros m; cbn [layout declaration fields_lay opened fst snd lay spec_b0_hdr];
      rewrite ?app_nil_r, <- ?app_assoc; reflexivity.
Qed.

(** ** Reading *)
Lemma protocol_reading : forall pf p, de_protocol pf p = de_bind de_u8 (fun b => match b with
   | 0 => de_ret PMining | 1 => de_ret PJobNegotiation | 2 => de_ret PTemplateDistribution | 3 => de_ret PJobDistribution
   | _ => de_lift (Err DeserializationError) end) pf p.
Proof.
  intros pf p. unfold de_protocol, de_bind. destruct (de_u8 pf p) as [p' [b|e|]]; try reflexivity.
  unfold de_lift. destruct b as [|[[b|b|]|[b|b|]|]]; reflexivity.
Qed.

(** A table with byte counts; that the counts stay inside the input follows from [decode_total]. *)
Lemma follows_tabled : forall t pf pre rest (r0 : Result (val t * N)), rust_slice (pre ++ rest) ->
  match r0 with
  | Ok (v, n) => de_of t pf (cursor pre rest) = (mkParser (pre ++ rest) (len pre + n), Ok v)
  | Err e => snd (de_of t pf (cursor pre rest)) = Err e
  | Panic => False
  end ->
  match tabled rest r0 with
  | Ok (v, rest') => True /\ exists c, rest = c ++ rest' /\ de_of t pf (cursor pre rest) = (cursor (pre ++ c) rest', Ok v)
  | Err e => snd (de_of t pf (cursor pre rest)) = Err e
  | Panic => False
  end.
Proof.
  intros t pf pre rest r0 Hs H. destruct r0 as [[v n]|e|]; cbn [tabled]; auto. split; [exact I|].
  destruct (decode_total t pf pre rest Hs) as (c & rest' & r & -> & E & _). rewrite E in H |- *.
  injection H as _ L ->. rewrite len_app in L. assert (n = len c) as -> by lia.
  exists c. unfold len. rewrite Nat2N.id, skipn_app, skipn_all, Nat.sub_diag. cbn [skipn app]. split; reflexivity.
Qed.

Lemma type_follows0 : forall t, follows (fun _ => True) (de_of t) (reading_ty t).
Proof.
  assert (I : forall A (Q : A -> Prop) d t, follows Q d t -> follows (fun _ => True) d t).
  { intros A Q d t H pf pre rest Hs. destruct (H pf pre rest Hs) as (r & T & D). exists r. split; [exact T|].
    destruct r as [[v l]|e|]; auto. split; [exact I|apply D]. }
  assert (B : forall pf p, de_bool pf p = de_bind (de_uint 1) (fun v => de_ret (N.odd v)) pf p).
  { intros pf p. unfold de_bool, de_uint, de_bind. change (N.of_nat 1) with 1. destruct (next_by 1 pf p) as [p' [b|e|]]; try reflexivity.
    unfold de_lift, de_ret, clone_from_slice. destruct (_ =? _) eqn:E; [|reflexivity]. rewrite land_1.
    destruct b as [|x [|y b]]; [discriminate| |]; cbn [hd of_le].
    - rewrite N.mul_0_r, N.add_0_r. reflexivity.
    - rewrite !len_cons in E. apply N.eqb_eq in E. lia. }
  destruct t; cbn [de_of reading_ty val].
  - eapply I, (follows_int 1); lia.
  - eapply I, (follows_int 2); lia.
  - eapply I, (follows_int 4); lia.
  - eapply I, (follows_int 4); lia.
  - intros pf pre rest Hs. rewrite B. revert pf pre rest Hs. eapply follows_next; [apply (follows_int 1); lia|].
    intros v _. apply follows_lift; auto.
  - intros pf pre rest Hs. destruct (follows_raw 3 ltac:(lia) pf pre rest Hs) as (r & T & D).
    destruct r as [[c l]|e|]; [| |contradiction].
    + exists (Ok (spec_val (wire c), l)). split; [exists (Ok (c, l)); split; [exact T|reflexivity]|].
      destruct D as (L & c' & -> & E). split; [exact Coq.Init.Logic.I|]. exists c'. split; [reflexivity|].
      assert (c' = c) as ->.
      { destruct T as [(_ & T)|(L2 & T)]; [discriminate|]. injection T as -> Tl.
        apply (f_equal (app (firstn 3 (c' ++ l)))) in Tl. rewrite firstn_skipn in Tl.
        apply app_inv_tail in Tl. exact (eq_sym Tl). }
      rewrite val_of_le. apply de_u24_bytes; [exact L|exact Hs].
    + exists (Err e). split; [exists (Err e); split; [exact T|reflexivity]|].
      destruct T as [(L & T)|(_ & T)]; [|discriminate]. rewrite de_u24_short by (exact L || exact Hs). cbn [snd]. congruence.
  - eapply I, follows_u256.
  - intros pf pre rest Hs. eexists. split; [reflexivity|]. apply (follows_tabled (T_B0 t)); [exact Hs|].
    exact (b0_table t pf pre rest Hs).
  - intros pf pre rest Hs. destruct (str_table t pf pre rest Hs) as (r & T & D).
    exists (tabled rest r). split; [eauto|]. apply (follows_tabled (T_STR0 t)); [exact Hs|exact D].
  - eapply I, follows_flags.
  - apply follows_sc_code.
  - apply follows_omc_code.
  - intros pf pre rest Hs. rewrite protocol_reading. revert pf pre rest Hs.
    eapply follows_next; [apply (follows_int 1); lia|]. cbn beta. intros p _.
    destruct p as [|[[p|p|]|[p|p|]|]]; first [apply follows_fail; reflexivity | apply follows_lift; auto].
  - apply decoder_follows.
  - intros pf pre rest Hs. eexists. split; [reflexivity|]. apply (follows_tabled T_frame); [exact Hs|].
    exact (frame_table pf pre rest Hs).
Qed.
Lemma type_follows : forall t, follows (ok t) (de_of t) (reading_ty t).
Proof.
  intros t pf pre rest Hs. destruct (type_follows0 t pf pre rest Hs) as (r & T & D). exists r. split; [exact T|].
  destruct r as [[v l]|e|]; auto. destruct D as (_ & D). split; [|exact D].
  destruct D as (c & -> & E). destruct (decode_total t pf pre (c ++ l) Hs) as (c2 & l2 & r2 & _ & E2 & _ & _ & K).
  rewrite E in E2. injection E2 as _ _ <-. apply K. reflexivity.
Qed.
Lemma type_single : forall t, single (reading_ty t).
Proof.
  destruct t; cbn [reading_ty]; try apply int_single; try apply raw_single; try apply flag_bits_single.
  - apply next_single; [apply int_single|intros; apply gives_single].
  - intros rest r1 r2 -> ->. reflexivity.
  - intros rest r1 r2 (x & Ax & ->) (y & Ay & ->). rewrite (spec_decode_str_functional _ _ _ _ Ax Ay). reflexivity.
  - apply code_single, lay_sc_code_inj.
  - apply code_single, lay_omc_code_inj.
  - apply next_single; [apply int_single|]. intros p. destruct p as [|[[p|p|]|[p|p|]|]]; first [apply gives_single|apply fails_single].
  - apply reading_single.
  - intros rest r1 r2 -> ->. reflexivity.
Qed.

Lemma fields_single : forall ts, single (reading_fields ts).
Proof.
  induction ts as [|t ts IH]; cbn [reading_fields]; [apply gives_single|].
  apply next_single; [apply type_single|]. intros x. apply next_single; [exact IH|]. intros; apply gives_single.
Qed.
Lemma fields_follow : forall ts, follows (fields_ok ts) (de_fields ts) (reading_fields ts).
Proof.
  induction ts as [|t ts IH]; cbn [reading_fields de_fields fields fields_ok].
  - apply follows_lift; [reflexivity|exact I].
  - eapply follows_next; [apply type_follows|]. intros x Hx. eapply follows_next; [exact IH|]. intros xs Hxs.
    apply follows_lift; [reflexivity|]. split; assumption.
Qed.

Lemma im_reads : forall ts M (new : fields ts -> Result M) pf pre rest, rust_slice (pre ++ rest) ->
  exists r, reading_fields ts rest r /\ (forall r', reading_fields ts rest r' -> r' = r) /\
  match r with
  | Ok (v, rest') => fields_ok ts v /\ exists c, rest = c ++ rest' /\
      im_de ts new pf (cursor pre rest) = (cursor (pre ++ c) rest', new v)
  | Err e => snd (im_de ts new pf (cursor pre rest)) = Err e
  | Panic => False
  end.
Proof.
  intros ts M new pf pre rest Hs. destruct (fields_follow ts pf pre rest Hs) as (r & T & D).
  exists r. split; [exact T|]. split; [intros r' T'; exact (fields_single ts _ _ _ T' T)|].
  unfold im_de, de_bind. destruct r as [[v l]|e|]; auto.
  - destruct D as (Q & c & -> & E). split; [exact Q|]. exists c. split; [reflexivity|]. rewrite E. reflexivity.
  - destruct (de_fields ts pf (cursor pre rest)) as [p [y|e'|]]; cbn [snd] in *; congruence.
Qed.

Lemma fields_decoded : forall ts v enc, fields_ok ts v -> wire enc = fields_lay ts v -> forall pf pre rest,
  rust_slice (pre ++ enc ++ rest) -> de_fields ts pf (cursor pre (enc ++ rest)) = (cursor (pre ++ enc) rest, Ok v).
Proof.
  induction ts as [|t ts IH]; cbn [fields fields_ok fields_lay de_fields].
  - intros [] enc _ W pf pre rest Hs. destruct enc; [|discriminate]. cbn [app]. rewrite app_nil_r. reflexivity.
  - intros [x xs] enc (H1 & H2) W pf pre rest Hs. cbn [fst snd] in *.
    apply wire_split in W as (c1 & c2 & -> & W1 & W2). rewrite <- app_assoc in *.
    rewrite (de_bind_ok _ _ _ _ _ _ _ _ (decode_encoded t x c1 H1 W1 pf pre (c2 ++ rest) Hs)).
    assert (Hs2 : rust_slice ((pre ++ c1) ++ c2 ++ rest)) by (rewrite <- app_assoc; exact Hs).
    rewrite (de_bind_ok _ _ _ _ _ _ _ _ (IH xs c2 H2 W2 pf (pre ++ c1) rest Hs2)).
    rewrite <- app_assoc. reflexivity.
Qed.
Lemma im_decoded : forall ts M (new : fields ts -> Result M) v enc, fields_ok ts v -> serialize (im_ser ts v) = Ok enc ->
  forall pf pre rest, rust_slice (pre ++ enc ++ rest) ->
  im_de ts new pf (cursor pre (enc ++ rest)) = (cursor (pre ++ enc) rest, new v).
Proof.
  intros ts M new v enc H S pf pre rest Hs. destruct (im_writes ts v H) as (enc' & W & S' & _).
  rewrite S in S'. injection S' as <-. unfold im_de.
  rewrite (de_bind_ok _ _ _ _ _ _ _ _ (fields_decoded ts v enc H W pf pre rest Hs)). reflexivity.
Qed.

Lemma reading_layout : forall ts v rest rest', ~ In T_bool ts -> rust_slice rest ->
  reading_fields ts rest (Ok (v, rest')) <->
  fields_ok ts v /\ exists c, rest = c ++ rest' /\ wire c = fields_lay ts v.
Proof.
  intros ts v rest rest' NB Hs. split.
  - revert v rest rest' NB Hs. induction ts as [|t ts IH]; cbn [fields reading_fields fields_ok fields_lay].
    + intros [] rest rest' _ _ E. injection E as ->. split; [exact I|]. exists []. split; reflexivity.
    + intros [x xs] rest rest' NB Hs (ra & Ra & Rb). destruct ra as [[y l]|e|]; [|discriminate|contradiction].
      destruct Rb as (rb & Rb & Rc). destruct rb as [[ys l2]|e|]; [|discriminate|contradiction].
      injection Rc as -> -> ->. destruct (type_follows t Debug [] rest Hs) as (r & T & D).
      rewrite (type_single t _ _ _ T Ra) in D. destruct D as (K & c & -> & E).
      apply decode_canonical in E as (c' & l' & X & Y & _ & S); [|intros ->; apply NB; left; reflexivity|exact Hs].
      injection Y as _ L. cbn [app] in L. apply app_inj_len in X as [-> ->]; [|exact L].
      assert (Hs2 : rust_slice l') by (unfold rust_slice in *; rewrite len_app in Hs; lia).
      destruct (IH ys l' l2 ltac:(intros G; apply NB; right; exact G) Hs2 Rb) as (K2 & c2 & -> & W2).
      cbn [fst snd]. split; [split; assumption|]. exists (c' ++ c2). rewrite app_assoc. split; [reflexivity|].
      rewrite wire_app, W2. f_equal. apply serialize_layout; assumption.
  - intros (K & c & -> & W). destruct (fields_follow ts Debug [] (c ++ rest') Hs) as (r & T & D).
    pose proof (fields_decoded ts v c K W Debug [] rest' Hs) as E. cbn [app] in E. rewrite E in D.
    destruct r as [[w l]|e|]; [|discriminate|contradiction].
    destruct D as (_ & c2 & X & Y). injection Y as _ L <-. cbn [app] in L.
    apply app_inj_len in X as [<- <-]; [exact T|exact L].
Qed.

Lemma fields_unambiguous : forall ts v1 v2 e1 e2 s1 s2, fields_ok ts v1 -> fields_ok ts v2 ->
  serialize (im_ser ts v1) = Ok e1 -> serialize (im_ser ts v2) = Ok e2 -> rust_slice (e1 ++ s1) ->
  e1 ++ s1 = e2 ++ s2 -> v1 = v2 /\ s1 = s2.
Proof.
  intros ts v1 v2 e1 e2 s1 s2 H1 H2 S1 S2 Hs E.
  pose proof (im_decoded ts _ Ok v1 e1 H1 S1 Debug [] s1 Hs) as D1.
  pose proof (im_decoded ts _ Ok v2 e2 H2 S2 Debug [] s2 ltac:(cbn [app]; rewrite <- E; exact Hs)) as D2.
  rewrite E, D2 in D1. injection D1 as _ L ->. cbn [app] in L. split; [reflexivity|].
  apply app_inj_len in E as [_ ->]; [reflexivity|exact (eq_sym L)].
Qed.

(** ** Frames *)
Lemma im_frames : forall ts M (open : M -> fields ts) (new : fields ts -> Result M) T m,
  fields_ok ts (open m) -> len (fields_lay ts (open m)) < 16777216 ->
  let F := im_frameable ts open new T in
  exists fr enc, frame F m = Ok fr /\ m_type fr = T /\ wire (m_payload fr) = fields_lay ts (open m) /\
    serialize (ser_message fr) = Ok enc /\ wire enc = frame_layout fr /\
    (forall pf pre rest, rust_slice (pre ++ enc ++ rest) ->
      de_message pf (cursor pre (enc ++ rest)) = (cursor (pre ++ enc) rest, Ok fr)) /\
    (forall pf, unframe F pf fr = new (open m)).
Proof.
  intros ts M open new T m H L F. destruct (im_writes ts (open m) H) as (bs & W & S & _).
  assert (Lb : len bs < 16777216) by (rewrite <- (len_wire bs), W; exact L).
  destruct (roundtrip T_frame (mkMessage T bs) Lb) as (enc & We & Hs & _ & Hd).
  exists (mkMessage T bs), enc. unfold frame, F, im_frameable. cbn [fr_ser fr_type]. rewrite S. split; [reflexivity|].
  split; [reflexivity|]. split; [exact W|]. split; [exact Hs|]. split; [exact We|]. split; [exact Hd|].
  intros pf. unfold unframe. cbn [fr_type m_type m_payload fr_de].
  assert (Et : mt_eqb T T = true) by (apply mt_eqb_iff; reflexivity). rewrite Et. cbn [negb]. unfold deserialize. rewrite cursor_0.
  pose proof (im_decoded ts M new (open m) bs H S pf [] []) as D. rewrite app_nil_r in D.
  rewrite D by (unfold rust_slice; cbn [app]; lia). reflexivity.
Qed.

Lemma im_unframe : forall ts M (open : M -> fields ts) (new : fields ts -> Result M) T pf fr,
  rust_slice (m_payload fr) -> let F := im_frameable ts open new T in
  (T <> m_type fr -> unframe F pf fr = Err (UnexpectedMessageType 0 (fst (spec_code T)))) /\
  (T = m_type fr -> forall r, unframe F pf fr = r <->
     (exists v left, reading_fields ts (m_payload fr) (Ok (v, left)) /\ r = new v) \/
     (exists e, reading_fields ts (m_payload fr) (Err e) /\ r = Err e)).
Proof.
  intros ts M open new T pf fr Hs F. unfold unframe, F, im_frameable. cbn [fr_type fr_de]. split.
  - intros H. destruct (mt_eqb T (m_type fr)) eqn:E; [apply mt_eqb_iff in E; contradiction|].
    cbn [negb]. rewrite mt_ext_0, mt_msg_code. reflexivity.
  - intros H. assert (Et : mt_eqb T (m_type fr) = true) by (apply mt_eqb_iff; exact H). rewrite Et. cbn [negb].
    unfold deserialize. rewrite cursor_0.
    destruct (im_reads ts M new pf [] (m_payload fr) Hs) as (x & R & U & D). intros r.
    destruct x as [[v l]|e|]; [| |contradiction].
    + destruct D as (_ & c & _ & E). rewrite E. cbn [snd]. split.
      * intros <-. left. eauto.
      * intros [(v' & l' & R' & ->)|(e & R' & ->)]; apply U in R'; [injection R' as -> _; reflexivity|discriminate].
    + rewrite D. split.
      * intros <-. right. eauto.
      * intros [(v' & l' & R' & ->)|(e' & R' & ->)]; apply U in R'; [discriminate|congruence].
Qed.

Lemma frame_refused : forall ts M (open : M -> fields ts) (new : fields ts -> Result M) T m,
  fields_ok ts (open m) -> 16777216 <= len (fields_lay ts (open m)) -> len (fields_lay ts (open m)) < 2 ^ 32 ->
  exists fr, frame (im_frameable ts open new T) m = Ok fr /\
    forall W (wr : writer W) w, run wr (ser_message fr) w = (w, Err RequirementError).
Proof.
  intros ts M open new T m H L1 L2. destruct (im_writes ts (open m) H) as (bs & W & S & _).
  exists (mkMessage T bs). unfold frame, im_frameable. cbn [fr_ser fr_type]. rewrite S. split; [reflexivity|].
  intros W0 wr w. rewrite <- W, len_wire in L1, L2. apply oversized; cbn [m_payload]; assumption.
Qed.

Lemma b0_full : exists v : b0, ok (T_B0 B0_16M) v /\ len (lay (T_B0 B0_16M) v) = 16777218.
Proof.
  pose proof (len_repeat byte x00 16777215) as L. set (d := repeat x00 (N.to_nat 16777215)) in *. clearbody d.
  exists (mkB0 16777215 d). cbn [ok lay]. unfold b0_ok, spec_b0_limit. cbn [b0_data b0_length].
  rewrite L. split; [split; [lia|reflexivity]|].
  rewrite len_lay_b0. cbn [b0_data spec_b0_hdr]. rewrite L. reflexivity.
Qed.
Lemma frame_refused_example : exists ts (v : fields ts) fr, fields_ok ts v /\
  frame (im_frameable ts (fun m => m) Ok MT_TestMessage1) v = Ok fr /\ serialize (ser_message fr) = Err RequirementError.
Proof.
  destruct b0_full as (v & K & L). exists [T_B0 B0_16M], (v, tt). cbn [fields_ok fields_lay fst snd].
  destruct (frame_refused [T_B0 B0_16M] _ (fun m => m) Ok MT_TestMessage1 (v, tt)) as (fr & F & R).
  - cbn [fields_ok fst snd]. auto.
  - cbn [fields_lay fst snd]. rewrite app_nil_r, L. lia.
  - cbn [fields_lay fst snd]. rewrite app_nil_r, L. lia.
  - exists fr. split; [auto|]. split; [exact F|]. unfold serialize. rewrite R. reflexivity.
Qed.
