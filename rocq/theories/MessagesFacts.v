(** * MessagesFacts: every message is a correct, canonical codec. *)
From Verif Require Import Base Codec Types Messages Frame SpecWire BaseFacts CodecFacts Utf8Facts TypesFacts.
Ltac Zify.zify_post_hook ::= Z.div_mod_to_equations.

(** ** Composition *)
Definition emitsL (base : N) (m : wprog N) (L : list N) : Prop :=
  exists cs, emits m cs (base + len (concat cs)) /\ wire (concat cs) = L.
Definition readsL {A} (m : De A) (L : list N) (a : A) : Prop := forall c, wire c = L -> reads m c a.
Definition goodL {A} (m : De A) (Q : A -> list N -> Prop) : Prop := good m (fun a c => Q a (wire c)).

Lemma em_cons : forall A (ser : A -> wprog N) de ok lay v f base L2,
  field ser de ok lay -> ok v -> (forall n, emitsL (base + n) (f n) L2) ->
  emitsL base (wbind (ser v) f) (lay v ++ L2).
Proof.
  intros A ser de ok lay v f base L2 (Le & _ & _) Hv Hf.
  destruct (Le v Hv) as (cs & He & Hw). destruct (Hf (len (concat cs))) as (cs2 & He2 & Hw2).
  exists (cs ++ cs2). rewrite concat_app, len_app, wire_app, Hw, Hw2. split; [|reflexivity].
  eapply emits_bind; [exact He|]. rewrite N.add_assoc. exact He2.
Qed.
Lemma em_nil : forall base r, base = r -> emitsL base (wok r) [].
Proof. intros base r ->. exists []. cbn [concat]. rewrite len_nil, N.add_0_r. split; constructor. Qed.
Lemma em_last : forall A (ser : A -> wprog N) de ok lay v f base,
  field ser de ok lay -> ok v -> (forall n, emitsL (base + n) (f n) []) ->
  emitsL base (wbind (ser v) f) (lay v).
Proof. intros. rewrite <- (app_nil_r (lay v)). eapply em_cons; eauto. Qed.

Lemma rd_cons : forall A B (ser : A -> wprog N) de ok lay v (f : A -> De B) L2 b,
  field ser de ok lay -> ok v -> readsL (f v) L2 b -> readsL (de_bind de f) (lay v ++ L2) b.
Proof.
  intros A B ser de ok lay v f L2 b (_ & Lr & _) Hv Hf c Hc.
  apply wire_split in Hc as (c1 & c2 & -> & H1 & H2). eapply reads_bind; [apply Lr; eassumption|].
  apply Hf, H2.
Qed.
Lemma rd_nil : forall A o (b : A), o = Ok b -> readsL (de_lift o) [] b.
Proof. intros A o b E c Hc. destruct c; [|discriminate]. apply reads_lift, E. Qed.
Lemma rd_last : forall A B (ser : A -> wprog N) de ok lay v (f : A -> De B) b,
  field ser de ok lay -> ok v -> readsL (f v) [] b -> readsL (de_bind de f) (lay v) b.
Proof. intros. rewrite <- (app_nil_r (lay v)). eapply rd_cons; eauto. Qed.

Lemma gd_cons : forall A B (ser : A -> wprog N) de ok lay (f : A -> De B) (Q : B -> list N -> Prop),
  field ser de ok lay -> (forall a, ok a -> goodL (f a) (fun b L => Q b (lay a ++ L))) ->
  goodL (de_bind de f) Q.
Proof.
  intros A B ser de ok lay f Q (_ & _ & Lg) Hf. eapply good_bind; [exact Lg|].
  intros a ca [Ha Hc]. eapply good_weaken; [exact (Hf a Ha)|].
  intros b cb H. cbn beta in *. rewrite wire_app, Hc. exact H.
Qed.
Lemma gd_nil : forall A (o : Result A) (Q : A -> list N -> Prop),
  o <> Panic -> (forall a, o = Ok a -> Q a []) -> goodL (de_lift o) Q.
Proof. intros A o Q H1 H2. apply good_lift; assumption. Qed.

Lemma mk_field : forall A (ser : A -> wprog N) de (ok : A -> Prop) lay,
  (forall a, ok a -> emitsL 0 (ser a) (lay a)) ->
  (forall a, ok a -> readsL de (lay a) a) ->
  goodL de (fun a L => ok a /\ L = lay a) ->
  field ser de ok lay.
Proof.
  intros A ser de ok lay H1 H2 H3. split; [|split].
  - intros a Ha. destruct (H1 a Ha) as (cs & He & Hw). rewrite N.add_0_l in He. eauto.
  - intros a c Ha Hc. apply (H2 a Ha c Hc).
  - exact H3.
Qed.

Ltac fl := lazymatch goal with
  | |- field ser_u8 _ _ _ => exact u8_field
  | |- field ser_u16 _ _ _ => exact u16_field
  | |- field ser_u32 _ _ _ => exact u32_field
  | |- field ser_f32 _ _ _ => exact f32_field
  | |- field ser_u256 _ _ _ => exact u256_field
  | |- field ser_flags _ _ _ => apply flags_field
  | |- field ser_str0 _ _ _ => exact (str0_field STR0_255)
  | |- field (ser_b0 B0_32) _ _ _ => exact (b0_field B0_32)
  | |- field ser_sc_code _ _ _ => exact sc_code_field
  | |- field ser_omc_code _ _ _ => exact omc_code_field
  | |- field _ de_u8 _ _ => exact u8_field
  | |- field _ de_u16 _ _ => exact u16_field
  | |- field _ de_u32 _ _ => exact u32_field
  | |- field _ de_f32 _ _ => exact f32_field
  | |- field _ de_u256 _ _ => exact u256_field
  | |- field _ (de_flags ?fs) _ _ => exact (flags_field fs)
  | |- field _ (de_str0 ?t) _ _ => exact (str0_field t)
  | |- field _ (de_b0 ?t) _ _ => exact (b0_field t)
  | |- field _ de_sc_code _ _ => exact sc_code_field
  | |- field _ de_omc_code _ _ => exact omc_code_field
  end.
Ltac em := repeat first
  [ apply em_nil; lia
  | eapply em_cons; [fl | cbn beta; first [eassumption | exact I] | intros ?]
  | eapply em_last; [fl | cbn beta; first [eassumption | exact I] | intros ?] ].
Ltac rd := repeat first
  [ apply rd_nil
  | eapply rd_cons; [fl | cbn beta; first [eassumption | exact I] | ]
  | eapply rd_last; [fl | cbn beta; first [eassumption | exact I] | ] ].
Ltac gd := repeat (eapply gd_cons; [fl | intros ? ?]); apply gd_nil.

(** ** Constructors *)
Lemma str_new_inv : forall t v s, str0_new t v = Ok s -> len v <= str0_max t /\ s = mkStr0 (len v) v.
Proof.
  intros t v s H. destruct (N.le_gt_cases (len v) (str0_max t)) as [L|L].
  - rewrite str0_new_ok in H by exact L. injection H as <-. auto.
  - rewrite str0_new_err in H by exact L. discriminate.
Qed.
Lemma str_new_same : forall s, str_ok 255 s -> str0_new STR0_255 (str0_data s) = Ok s.
Proof.
  intros [l d] (_ & H & E). cbn [str0_data str0_length] in *. subst l. apply str0_new_ok. exact H.
Qed.
Lemma b0_new_inv : forall t v s, b0_new t v = Ok s -> len v <= b0_max t /\ s = mkB0 (len v) v.
Proof.
  intros t v s H. destruct (N.le_gt_cases (len v) (b0_max t)) as [L|L].
  - rewrite b0_new_ok in H by exact L. injection H as <-. auto.
  - rewrite b0_new_err in H by exact L. discriminate.
Qed.
Lemma b0_new_same : forall t s, b0_ok (b0_max t) s -> b0_new t (b0_data s) = Ok s.
Proof.
  intros t [l d] (H & E). cbn [b0_data b0_length] in *. subst l. apply b0_new_ok. exact H.
Qed.

Lemma is_empty_iff : forall s, is_empty s = true <-> s = [].
Proof.
  intros s. unfold is_empty. split; intros H.
  - apply N.eqb_eq in H. destruct s; [reflexivity|]. rewrite len_cons in H. lia.
  - subst s. reflexivity.
Qed.
Lemma is_empty_false : forall s, is_empty s = false <-> s <> [].
Proof.
  intros s. rewrite <- Bool.not_true_iff_false, is_empty_iff. reflexivity.
Qed.

Definition mk_str (s : bytes) : str0 := mkStr0 (len s) s.

(** What [sc_new] does, exhaustively. *)
Lemma sc_new_cases : forall mi ma fl eh ep ve hv fw di,
  sc_new mi ma fl eh ep ve hv fw di =
    if (len ve =? 0) || (len fw =? 0) then Err RequirementError
    else if (mi <? 2) || (ma <? 2) then Err VersionError
    else if (255 <? len eh) || (255 <? len ve) || (255 <? len hv) || (255 <? len fw) || (255 <? len di)
    then Err RequirementError
    else Ok (mkSC mi ma fl (mk_str eh) ep (mk_str ve) (mk_str hv) (mk_str fw) (mk_str di)).
Proof.
  intros. unfold sc_new, is_empty.
  destruct (len ve =? 0); [reflexivity|]. destruct (len fw =? 0); [reflexivity|]. cbn [orb].
  destruct (mi <? 2); [reflexivity|]. destruct (ma <? 2); [reflexivity|]. cbn [orb].
  assert (S : forall s, str0_new STR0_255 s = if 255 <? len s then Err RequirementError else Ok (mk_str s)).
  { intros s. destruct (255 <? len s) eqn:E.
    - apply str0_new_err. cbn. lia.
    - apply str0_new_ok. cbn. lia. }
  rewrite !S.
  destruct (255 <? len eh); [reflexivity|]. destruct (255 <? len ve); [reflexivity|].
  destruct (255 <? len hv); [reflexivity|]. destruct (255 <? len fw); [reflexivity|].
  destruct (255 <? len di); reflexivity.
Qed.

Lemma sc_new_ok_iff : forall mi ma fl eh ep ve hv fw di m,
  sc_new mi ma fl eh ep ve hv fw di = Ok m <->
  ve <> [] /\ fw <> [] /\ 2 <= mi /\ 2 <= ma /\
  len eh <= 255 /\ len ve <= 255 /\ len hv <= 255 /\ len fw <= 255 /\ len di <= 255 /\
  m = mkSC mi ma fl (mk_str eh) ep (mk_str ve) (mk_str hv) (mk_str fw) (mk_str di).
Proof.
  intros. rewrite sc_new_cases.
  assert (Z : forall s : bytes, s <> [] <-> (len s =? 0) = false).
  { intros s. symmetry. apply is_empty_false. }
  rewrite !Z.
  destruct (len ve =? 0) eqn:E1; [split; [discriminate|intros (A & _); discriminate]|].
  destruct (len fw =? 0) eqn:E2; [split; [discriminate|intros (_ & A & _); discriminate]|]. cbn [orb].
  destruct ((mi <? 2) || (ma <? 2)) eqn:E3; [split; [discriminate|lia]|].
  match goal with |- context [if ?b then _ else _] => destruct b eqn:E4 end; [split; [discriminate|lia]|].
  split.
  - intros H; injection H as <-. repeat split; auto; lia.
  - intros (_ & _ & _ & _ & _ & _ & _ & _ & _ & ->). reflexivity.
Qed.

Lemma str_ok_mk : forall s, utf8_text s -> len s <= 255 -> str_ok 255 (mk_str s).
Proof. intros s H1 H2. repeat split; assumption. Qed.

Lemma sc_field : forall fs, field ser_sc (de_sc fs) (sc_ok fs) lay_sc.
Proof.
  intros fs. apply mk_field.
  - intros m (H1 & H2 & H3 & H4 & H5 & H6 & H7 & H8 & H9 & _). unfold ser_sc, lay_sc. em.
  - intros m (H1 & H2 & H3 & H4 & H5 & H6 & H7 & H8 & H9 & H10 & H11 & H12 & H13).
    unfold de_sc, lay_sc. rd. apply sc_new_ok_iff.
    destruct m as [mi ma fl [ehl eh] ep [vel ve] [hvl hv] [fwl fw] [dil di]]. cbn in *.
    destruct H4 as (? & ? & E4), H6 as (? & ? & E6), H7 as (? & ? & E7), H8 as (? & ? & E8),
      H9 as (? & ? & E9). cbn in *. subst. repeat split; auto.
  - unfold de_sc. gd.
    + rewrite sc_new_cases. repeat destruct (_ || _); discriminate.
    + intros m Hm. apply sc_new_ok_iff in Hm as (A1 & A2 & A3 & A4 & A5 & A6 & A7 & A8 & A9 & ->).
      repeat match goal with H : str_ok _ _ |- _ => destruct H as (? & ? & ?) end.
      split.
      * unfold sc_ok. cbn. repeat (split; [first [assumption | apply str_ok_mk; assumption] |]). assumption.
      * unfold lay_sc, lay_str, mk_str. cbn. rewrite <- ?app_assoc, ?app_nil_r. reflexivity.
Qed.

Lemma scs_field : forall fs, field ser_scs (de_scs fs)
  (fun m => u16_ok (scs_used_version m) /\ flags_ok fs (scs_flags m))
  (fun m => spec_le 2 (scs_used_version m) ++ spec_le 4 (scs_flags m)).
Proof.
  intros fs. apply mk_field.
  - intros m (H1 & H2). unfold ser_scs. em.
  - intros m (H1 & H2). unfold de_scs. rd. destruct m. reflexivity.
  - unfold de_scs. gd; [discriminate|]. intros m H'; injection H' as <-. cbn.
    rewrite ?app_nil_r. auto.
Qed.

Lemma sce_new_ok_iff : forall f c m,
  sce_new f c = Ok m <-> m = mkSCE f c /\ (c = UnsupportedFeatureFlags -> f <> 0).
Proof.
  intros f c m. unfold sce_new, flags_is_empty.
  destruct (f =? 0) eqn:E, c; cbn; (split; [intros H; try discriminate; injection H as <- |]);
    try (split; [reflexivity|]; intros; try discriminate; lia);
    intros [-> H]; try reflexivity. specialize (H eq_refl). lia.
Qed.

Lemma sce_field : forall fs, field ser_sce (de_sce fs)
  (fun m => flags_ok fs (sce_flags m) /\ (sce_error_code m = UnsupportedFeatureFlags -> sce_flags m <> 0))
  (fun m => spec_le 4 (sce_flags m) ++ lay_sc_code (sce_error_code m)).
Proof.
  intros fs. apply mk_field.
  - intros m (H1 & H2). unfold ser_sce. em.
  - intros m (H1 & H2). unfold de_sce. rd. apply sce_new_ok_iff. destruct m. auto.
  - unfold de_sce. gd.
    + unfold sce_new. destruct (_ && _); discriminate.
    + intros m Hm. apply sce_new_ok_iff in Hm as [-> Hm]. cbn in *. rewrite ?app_nil_r. auto.
Qed.

Lemma csc_field : field ser_csc de_csc (msg_ok K_CommonSetupConnection) (layout K_CommonSetupConnection).
Proof.
  apply mk_field.
  - intros [v|v] Hv; cbn [msg_ok layout ser_csc] in *.
    + change [0] with ((fun p => [protocol_to_u8 p]) PMining).
      eapply em_cons; [exact protocol_field | exact I | intros n].
      eapply em_last; [apply sc_field | exact Hv | intros n2]. apply em_nil. lia.
    + change [1] with ((fun p => [protocol_to_u8 p]) PJobNegotiation).
      eapply em_cons; [exact protocol_field | exact I | intros n].
      eapply em_last; [apply sc_field | exact Hv | intros n2]. apply em_nil. lia.
  - intros [v|v] Hv; cbn [msg_ok layout] in *; unfold de_csc.
    + change [0] with ((fun p => [protocol_to_u8 p]) PMining).
      eapply rd_cons; [exact protocol_field | exact I |].
      eapply rd_last; [apply sc_field | exact Hv |]. apply (rd_nil _ (Ok (CSC_Mining v))). reflexivity.
    + change [1] with ((fun p => [protocol_to_u8 p]) PJobNegotiation).
      eapply rd_cons; [exact protocol_field | exact I |].
      eapply rd_last; [apply sc_field | exact Hv |]. apply (rd_nil _ (Ok (CSC_JobNegotiation v))). reflexivity.
  - unfold de_csc. eapply gd_cons; [exact protocol_field|]. intros [] _.
    + eapply gd_cons; [apply sc_field|]. intros v Hv. apply (gd_nil _ (Ok (CSC_Mining v))); [discriminate|].
      intros a E; injection E as <-. cbn [msg_ok layout]. rewrite app_nil_r. auto.
    + eapply gd_cons; [apply sc_field|]. intros v Hv. apply (gd_nil _ (Ok (CSC_JobNegotiation v))); [discriminate|].
      intros a E; injection E as <-. cbn [msg_ok layout]. rewrite app_nil_r. auto.
    + apply gd_nil; discriminate.
    + apply gd_nil; discriminate.
Qed.

Lemma cec_field : field ser_cec de_cec (msg_ok K_ChannelEndpointChanged) (layout K_ChannelEndpointChanged).
Proof.
  apply mk_field; cbn [msg_ok layout].
  - intros m H1. unfold ser_cec. em.
  - intros m H1. unfold de_cec. rd. destruct m. reflexivity.
  - unfold de_cec. gd; [discriminate|]. intros m H'; injection H' as <-. cbn. rewrite ?app_nil_r. auto.
Qed.

Lemma osmc_field : field ser_osmc de_osmc (msg_ok K_OpenStandardMiningChannel) (layout K_OpenStandardMiningChannel).
Proof.
  apply mk_field; cbn [msg_ok layout].
  - intros m (H1 & H2 & H3 & H4). unfold ser_osmc. em.
  - intros m (H1 & H2 & H3 & H4). unfold de_osmc. rd. unfold osmc_new.
    rewrite str_new_same by exact H2. destruct m. reflexivity.
  - unfold de_osmc. gd; unfold osmc_new.
    + rewrite str_new_same by assumption. discriminate.
    + intros m Hm. rewrite str_new_same in Hm by assumption. injection Hm as <-. cbn. rewrite ?app_nil_r. auto.
Qed.

Lemma oemc_field : field ser_oemc de_oemc (msg_ok K_OpenExtendedMiningChannel) (layout K_OpenExtendedMiningChannel).
Proof.
  apply mk_field; cbn [msg_ok layout].
  - intros m (H1 & H2 & H3 & H4 & H5). unfold ser_oemc. em.
  - intros m (H1 & H2 & H3 & H4 & H5). unfold de_oemc. rd. unfold oemc_new.
    rewrite str_new_same by exact H2. destruct m. reflexivity.
  - unfold de_oemc. gd; unfold oemc_new.
    + rewrite str_new_same by assumption. discriminate.
    + intros m Hm. rewrite str_new_same in Hm by assumption. injection Hm as <-.
      cbn [oemc_request_id oemc_user_identity oemc_nominal_hash_rate oemc_max_target oemc_min_extranonce_size].
      rewrite ?app_nil_r. split; [|reflexivity]. repeat (split; [assumption|]). assumption.
Qed.

Lemma osmcs_field : field ser_osmcs de_osmcs
  (msg_ok K_OpenStandardMiningChannelSuccess) (layout K_OpenStandardMiningChannelSuccess).
Proof.
  apply mk_field; cbn [msg_ok layout].
  - intros m (H1 & H2 & H3 & H4 & H5). unfold ser_osmcs. em.
  - intros m (H1 & H2 & H3 & H4 & H5). unfold de_osmcs.
    rd. unfold osmcs_new.
    rewrite b0_new_same by exact H4. destruct m. reflexivity.
  - unfold de_osmcs. gd; unfold osmcs_new.
    + rewrite b0_new_same by assumption. discriminate.
    + intros m Hm. rewrite b0_new_same in Hm by assumption. injection Hm as <-.
      cbn [osmcs_request_id osmcs_channel_id osmcs_target osmcs_extranonce_prefix osmcs_group_channel_id].
      rewrite ?app_nil_r. split; [|reflexivity]. repeat (split; [assumption|]). assumption.
Qed.

Lemma oemcs_field : field ser_oemcs de_oemcs
  (msg_ok K_OpenExtendedMiningChannelSuccess) (layout K_OpenExtendedMiningChannelSuccess).
Proof.
  apply mk_field; cbn [msg_ok layout].
  - intros m (H1 & H2 & H3 & H4 & H5). unfold ser_oemcs. em.
  - intros m (H1 & H2 & H3 & H4 & H5). unfold de_oemcs.
    rd. unfold oemcs_new.
    rewrite b0_new_same by exact H5. destruct m. reflexivity.
  - unfold de_oemcs. gd; unfold oemcs_new.
    + rewrite b0_new_same by assumption. discriminate.
    + intros m Hm. rewrite b0_new_same in Hm by assumption. injection Hm as <-.
      cbn [oemcs_request_id oemcs_channel_id oemcs_target oemcs_extranonce_prefix oemcs_extranonce_size].
      rewrite ?app_nil_r. split; [|reflexivity]. repeat (split; [assumption|]). assumption.
Qed.

Lemma omce_field : field ser_omce de_omce
  (fun m => u32_ok (omce_request_id m))
  (fun m => spec_le 4 (omce_request_id m) ++ lay_omc_code (omce_error_code m)).
Proof.
  apply mk_field.
  - intros m H1. unfold ser_omce. em.
  - intros m H1. unfold de_omce. rd. destruct m. reflexivity.
  - unfold de_omce. gd; [discriminate|]. intros m H'; injection H' as <-. cbn. rewrite ?app_nil_r. auto.
Qed.

Lemma uc_field : field ser_uc de_uc (msg_ok K_UpdateChannel) (layout K_UpdateChannel).
Proof.
  apply mk_field; cbn [msg_ok layout].
  - intros m (H1 & H2 & H3). unfold ser_uc. em.
  - intros m (H1 & H2 & H3). unfold de_uc. rd. destruct m. reflexivity.
  - unfold de_uc. gd; [discriminate|]. intros m H'; injection H' as <-. cbn. rewrite ?app_nil_r. auto.
Qed.

(** Every message kind is a correct, canonical codec. *)
Lemma msg_field : forall k, field (fr_ser (frameable_of k)) (fr_de (frameable_of k)) (msg_ok k) (layout k).
Proof.
  destruct k; cbn [frameable_of fr_ser fr_de msg_of].
  - exact csc_field.
  - apply sc_field.
  - apply scs_field.
  - apply sce_field.
  - apply sc_field.
  - apply scs_field.
  - apply sce_field.
  - exact cec_field.
  - exact osmc_field.
  - exact osmcs_field.
  - exact omce_field.
  - exact oemc_field.
  - exact oemcs_field.
  - exact omce_field.
  - exact uc_field.
Qed.
