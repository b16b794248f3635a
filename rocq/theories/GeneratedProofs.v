(** * GeneratedProofs: what the generated tests establish. *)
From Coq Require Import Lia ZifyBool ZifyNat ZifyN.
From Verif Require Import Base Codec Types Messages Frame Catalog Macro Generated SpecWire SpecTypes SpecDecode SpecMacro SpecGenerated
  BaseFacts CodecFacts TypesFacts FrameFacts CodecProofs MsgProofs WriterProofs FrameProofs TypesProofs MacroProofs.

Lemma unwraps_iff : forall A (eqb : A -> A -> bool) r v, unwraps_to eqb r v = true <-> exists a, r = Ok a /\ eqb a v = true.
Proof.
  intros A eqb [a|e|] v; cbn [unwraps_to]; split; intros H.
  - eauto.
  - destruct H as (b & E & H). inversion E; subst; exact H.
  - discriminate.
  - destruct H as (b & E & H); discriminate.
  - discriminate.
  - destruct H as (b & E & H); discriminate.
Qed.
Lemma unwraps_bytes : forall r v, unwraps_to bytes_eqb r v = true <-> r = Ok v.
Proof.
  intros r v. rewrite unwraps_iff. split.
  - intros (a & -> & H). apply bytes_eqb_iff in H. congruence.
  - intros ->. exists v. split; [reflexivity|apply bytes_eqb_refl].
Qed.
Lemma message_eqb_iff : forall a b, message_eqb a b = true <-> a = b.
Proof.
  intros [t p] [t' p']. unfold message_eqb. cbn [m_type m_payload]. rewrite andb_true_iff, mt_eqb_iff, bytes_eqb_iff.
  split; [intros [-> ->]; reflexivity|intros E; injection E; auto].
Qed.
Lemma unwraps_message : forall r v, unwraps_to message_eqb r v = true <-> r = Ok v.
Proof.
  intros r v. rewrite unwraps_iff. split.
  - intros (a & -> & H). apply message_eqb_iff in H. congruence.
  - intros ->. exists v. split; [reflexivity|apply message_eqb_iff; reflexivity].
Qed.

Lemma frame_bytes : forall M (F : frameable M) s, wire (make_serialized_frame F s) = frame_layout (mkMessage (fr_type F) s).
Proof.
  intros M F s. rewrite frame_layout_eq. unfold make_serialized_frame. cbn [m_type m_payload].
  rewrite ser_ext, mt_msg_code, !wire_app. change (firstn 3 (to_le 8 (len s))) with (to_le 3 (len s)). rewrite !wire_to_le. reflexivity.
Qed.
Lemma frame_test : forall M (F : frameable M) pf s, len s + 6 <= 2 ^ 63 - 1 ->
  message_frame_serde F pf s = true <-> len s < 16777216.
Proof.
  intros M F pf s L. pose proof (frame_bytes M F s) as FB. set (b := make_serialized_frame F s) in *.
  assert (Lb : len b = len s + 6).
  { rewrite <- (len_wire b), FB. unfold frame_layout. destruct (spec_code _). cbn [m_payload]. rewrite !len_app, len_wire.
    unfold spec_le. unfold len at 3. rewrite map_length, seq_length. unfold len. cbn [length]. lia. }
  assert (Rb : rust_slice b) by (unfold rust_slice; lia).
  destruct message_field as (_ & _ & G).
  unfold message_frame_serde. fold b. rewrite andb_true_iff, unwraps_bytes, unwraps_message. split.
  - intros (_ & D). destruct (G pf [] b Rb) as (c & rest & r & _ & E & _ & _ & Q).
    unfold deserialize in D. change (mkParser b 0) with (P [] b) in D. rewrite E in D. cbn [snd] in D. subst r.
    destruct (Q _ eq_refl) as (H & _). exact H.
  - intros H. destruct (frame_roundtrip (mkMessage (fr_type F) s)) as (enc & E & R); [cbn [m_payload]; lia|].
    assert (W : wire enc = frame_layout (mkMessage (fr_type F) s)).
    { destruct (encode_vec T_frame (mkMessage (fr_type F) s)) as (enc' & W & S & _); [exact H|]. cbn [ser_of lay] in *. congruence. }
    assert (B : enc = b) by (apply wire_inj; congruence). subst enc. split; [exact E|].
    unfold deserialize. change (mkParser b 0) with (cursor [] b). rewrite <- (app_nil_r b) at 1. rewrite R; [reflexivity|].
    cbn [app]. rewrite app_nil_r. exact Rb.
Qed.

(** Any implementation that writes [d] as [enc] and reads [enc] to [r]. *)
Lemma tests_of : forall M (F : frameable M) eqb pf s d enc r, len s + 6 <= 2 ^ 63 - 1 ->
  serialize (fr_ser F d) = Ok enc -> (s = enc -> deserialize (fr_de F) pf s = r) ->
  Forall (fun t => t = true) (generated_tests F eqb (fr_type F) pf s d) <->
  s = enc /\ unwraps_to eqb r d = true /\ len s < 16777216.
Proof.
  intros M F eqb pf s d enc r L E D. rewrite <- (frame_test M F pf s L). unfold generated_tests.
  rewrite !Forall_cons_iff, Forall_nil_iff. unfold message_serde_identity, message_type_tautology, message_frame_identity.
  rewrite !andb_true_iff, unwraps_bytes, unwraps_message, mt_eqb_iff. unfold frame, unframe. rewrite E. cbn [obind m_type m_payload].
  assert (X : mt_eqb (fr_type F) (fr_type F) = true) by (apply mt_eqb_iff; reflexivity). rewrite X. cbn [negb].
  split.
  - intros ((H1 & H2) & _ & (H3 & H4) & H5 & _). injection H1 as <-. rewrite (D eq_refl) in H2. auto.
  - intros (-> & H2 & H3). rewrite (D eq_refl). repeat split; auto.
Qed.

Lemma tests_each : forall ts M (open : M -> fields ts) (new : fields ts -> Result M) eqb T T' pf s d,
  fields_ok ts (open d) -> len s + 6 <= 2 ^ 63 - 1 ->
  let F := im_frameable ts open new T in
  let right := wire s = fields_lay ts (open d) /\ exists m, new (open d) = Ok m /\ eqb m d = true in
  (message_serde_identity F eqb pf s d = true <-> right) /\
  (message_type_tautology F T' = true <-> T' = T) /\
  (message_frame_identity F eqb T' pf s d = true <-> T' = T /\ right) /\
  (message_frame_serde F pf s = true <-> len s < 16777216).
Proof.
  intros ts M open new eqb T T' pf s d H L F right. destruct (im_writes ts (open d) H) as (enc & W & S & _).
  assert (D : s = enc -> deserialize (fr_de F) pf s = new (open d)).
  { intros ->. unfold F. cbn [im_frameable fr_de]. unfold deserialize. change (mkParser enc 0) with (cursor [] enc).
    rewrite <- (app_nil_r enc) at 1. rewrite (im_decoded ts M new (open d) enc H S); [reflexivity|].
    cbn [app]. rewrite app_nil_r. unfold rust_slice. lia. }
  assert (R : right <-> s = enc /\ unwraps_to eqb (new (open d)) d = true).
  { unfold right. rewrite unwraps_iff, <- W. split; intros (A & B); (split; [|exact B]); [apply wire_inj, A|congruence]. }
  change (fr_ser F d) with (im_ser ts (open d)) in *.
  split; [|split; [|split; [|apply frame_test, L]]].
  - unfold message_serde_identity. rewrite andb_true_iff, unwraps_bytes, R. change (fr_ser F d) with (im_ser ts (open d)). rewrite S.
    split; intros (A & B).
    + injection A as A. symmetry in A. rewrite (D A) in B. auto.
    + rewrite (D A). subst s. auto.
  - unfold message_type_tautology. rewrite mt_eqb_iff. unfold F. cbn [im_frameable fr_type]. split; congruence.
  - unfold message_frame_identity. cbv zeta. rewrite andb_true_iff, unwraps_message, R. unfold frame, unframe.
    change (fr_ser F d) with (im_ser ts (open d)). rewrite S. cbn [obind m_type m_payload]. change (fr_type F) with T. split.
    + intros (A & B). injection A as -> <-. split; [reflexivity|]. split; [reflexivity|].
      rewrite (proj2 (mt_eqb_iff T' T') eq_refl) in B. cbn [negb] in B. rewrite (D eq_refl) in B. exact B.
    + intros (-> & -> & B). split; [reflexivity|]. rewrite (proj2 (mt_eqb_iff T T) eq_refl). cbn [negb]. rewrite (D eq_refl). exact B.
Qed.
Lemma tests_exactly : forall ts M (open : M -> fields ts) (new : fields ts -> Result M) eqb T pf s d,
  fields_ok ts (open d) -> len s + 6 <= 2 ^ 63 - 1 ->
  Forall (fun t => t = true) (generated_tests (im_frameable ts open new T) eqb T pf s d) <->
  wire s = fields_lay ts (open d) /\ (exists m, new (open d) = Ok m /\ eqb m d = true) /\ len s < 16777216.
Proof.
  intros ts M open new eqb T pf s d H L. destruct (im_writes ts (open d) H) as (enc & W & S & _).
  rewrite <- unwraps_iff.
  rewrite (tests_of M (im_frameable ts open new T) eqb pf s d enc (new (open d)) L S).
  - rewrite <- W. split; intros (A & B); (split; [|exact B]); [congruence|apply wire_inj, A].
  - intros ->. cbn [im_frameable fr_de]. unfold deserialize. change (mkParser enc 0) with (cursor [] enc).
    rewrite <- (app_nil_r enc) at 1. rewrite (im_decoded ts M new (open d) enc H S); [reflexivity|].
    cbn [app]. rewrite app_nil_r. unfold rust_slice. lia.
Qed.

Lemma tests_library : forall k pf s d, constructed k d -> len s + 6 <= 2 ^ 63 - 1 ->
  Forall (fun t => t = true) (generated_tests (frameable_of k) (msg_eqb k) (fr_type (frameable_of k)) pf s d) <->
  wire s = layout k d /\ Forall (fun x => ~ is_nan_bits x) (hash_rates k d).
Proof.
  intros k pf s d C L. apply constructed_iff in C. rewrite <- (eq_refl_iff k d C).
  destruct (encode_vec (T_msg k) d C) as (enc & W & S & _). cbn [ser_of lay] in *.
  rewrite (tests_of _ (frameable_of k) (msg_eqb k) pf s d enc (Ok d) L S).
  - cbn [unwraps_to]. rewrite <- W. split.
    + intros (A & B & _). split; [congruence|exact B].
    + intros (A & B). apply wire_inj in A. split; [exact A|]. split; [exact B|]. subst s.
      pose proof (layout_size k d C) as X. rewrite <- W, len_wire in X. lia.
  - intros ->. destruct (ty_encodes (T_msg k)) as (_ & R & _). cbn [ok lay de_of] in R.
    unfold deserialize. change (mkParser enc 0) with (P [] enc). rewrite <- (app_nil_r enc) at 1.
    rewrite (R d enc C W pf [] []); [reflexivity|]. cbn [app]. rewrite app_nil_r. unfold rust_slice. lia.
Qed.

(** ** Two fields exchanged *)
Lemma put_get : forall l t r x (v : fields (l ++ t :: r)), field_after l (put_after l x v) = x.
Proof. induction l as [|y l IH]; intros t r x v; cbn [field_after put_after app snd fst] in *; [reflexivity|apply IH]. Qed.
Lemma put_put : forall l t r x y (v : fields (l ++ t :: r)), put_after l x (put_after l y v) = put_after l x v.
Proof. induction l as [|z l IH]; intros t r x y v; cbn [put_after app snd fst] in *; [reflexivity|]. rewrite IH. reflexivity. Qed.
Lemma put_same : forall l t r (v : fields (l ++ t :: r)), put_after l (field_after l v) v = v.
Proof. induction l as [|z l IH]; intros t r [a v]; cbn [put_after field_after app snd fst] in *; [reflexivity|]. rewrite IH. reflexivity. Qed.
Lemma ok_get : forall l t r (v : fields (l ++ t :: r)), fields_ok (l ++ t :: r) v -> ok t (field_after l v).
Proof. induction l as [|z l IH]; intros t r v H; cbn [field_after app fields_ok] in *; [exact (proj1 H)|]. apply IH, H. Qed.
Lemma ok_put : forall l t r x (v : fields (l ++ t :: r)), fields_ok (l ++ t :: r) v -> ok t x -> fields_ok (l ++ t :: r) (put_after l x v).
Proof.
  induction l as [|z l IH]; intros t r x v H X; cbn [put_after app fields_ok fst snd] in *; [split; [exact X|exact (proj2 H)]|].
  split; [exact (proj1 H)|]. apply IH; [exact (proj2 H)|exact X].
Qed.
Lemma exchange_twice : forall l t m r (v : fields (l ++ t :: m ++ t :: r)), exchange l (exchange l v) = v.
Proof.
  induction l as [|z l IH]; intros t m r v; cbn [exchange app] in *.
  - destruct v as [a v]. cbn [fst snd]. rewrite put_get, put_put, put_same. reflexivity.
  - destruct v as [a v]. cbn [fst snd]. rewrite IH. reflexivity.
Qed.
Lemma exchange_ok : forall l t m r (v : fields (l ++ t :: m ++ t :: r)),
  fields_ok (l ++ t :: m ++ t :: r) v -> fields_ok (l ++ t :: m ++ t :: r) (exchange l v).
Proof.
  induction l as [|z l IH]; intros t m r [a v] H; cbn [exchange app fields_ok fst snd] in *.
  - split; [apply ok_get, H|]. apply ok_put; apply H.
  - split; [apply H|]. apply IH, H.
Qed.
Lemma exchange_same : forall l t m r (v : fields (l ++ t :: m ++ t :: r)), exchange l v = v <-> first_of l v = second_of l v.
Proof.
  unfold first_of. induction l as [|z l IH]; intros t m r [a v]; cbn [exchange second_of field_after app fst snd] in *.
  - split; [intros E; injection E as E _; congruence|]. intros ->. rewrite put_same. reflexivity.
  - rewrite <- IH. split; [intros E; injection E as E; exact E|intros ->; reflexivity].
Qed.

Lemma tests_exchange : forall l t m r M (open : M -> fields (l ++ t :: m ++ t :: r)) new eqb T pf s d,
  fields_ok _ (open d) -> len s + 6 <= 2 ^ 63 - 1 ->
  let written := im_frameable _ open new T in
  let exchanged := im_frameable _ (fun x => exchange l (open x)) (fun v => new (exchange l v)) T in
  Forall (fun t => t = true) (generated_tests written eqb T pf s d) ->
  (Forall (fun t => t = true) (generated_tests exchanged eqb T pf s d) <-> first_of l (open d) = second_of l (open d)).
Proof.
  intros l t m r M open new eqb T pf s d H L written exchanged P. unfold written in P. apply tests_exactly in P; [|exact H|exact L].
  destruct P as (W & N & Z). unfold exchanged. rewrite tests_exactly; [|apply exchange_ok, H|exact L].
  rewrite exchange_twice, <- exchange_same. split.
  - intros (W' & _). pose proof (exchange_ok l t m r _ H) as H'.
    destruct (im_writes _ _ H) as (e & We & Se & _). destruct (im_writes _ _ H') as (e' & We' & Se' & _).
    assert (E1 : e = s) by (apply wire_inj; congruence). assert (E2 : e' = s) by (apply wire_inj; congruence).
    destruct (fields_unambiguous _ _ _ e' e [] [] H' H Se' Se) as (X & _).
    + rewrite app_nil_r. subst. unfold rust_slice. lia.
    + subst. reflexivity.
    + exact X.
  - intros E. rewrite E. auto.
Qed.

Definition exchanged_frameable : frameable setup_connection :=
  mkFrameable MT_SetupConnection (fun m => ser_sc (versions_exchanged m))
    (v <- de_sc MiningSetupFlags ;; de_ret (versions_exchanged v))%de.
Definition given_with (mi ma : N) : setup_connection :=
  mkSC mi ma (sc_flags given_deserialized) (sc_endpoint_host given_deserialized) (sc_endpoint_port given_deserialized)
    (sc_vendor given_deserialized) (sc_hardware_version given_deserialized) (sc_firmware given_deserialized) (sc_device_id given_deserialized).
Lemma given_ok : forall mi ma, 2 <= mi < 65536 -> 2 <= ma < 65536 -> constructed K_MiningSetupConnection (given_with mi ma).
Proof.
  assert (T : forall s, forallb (fun b => Byte.to_N b <=? 127) s = true -> utf8_text s).
  { intros s H. apply utf8_ascii, Forall_forall. intros b Hb. apply N.leb_le. revert b Hb. apply forallb_forall, H. }
  assert (S : forall n s, len s <=? n = true -> forallb (fun b => Byte.to_N b <=? 127) s = true -> str_ok n (mkStr0 (len s) s)).
  { intros n s H1 H2. split; [apply T, H2|]. split; [apply N.leb_le, H1|reflexivity]. }
  intros mi ma H1 H2. apply constructed_iff. cbn [msg_ok]. unfold sc_ok, given_with, given_deserialized. cbv zeta.
  cbn [sc_min_version sc_max_version sc_flags sc_endpoint_host sc_endpoint_port sc_vendor sc_hardware_version sc_firmware sc_device_id].
  assert (F : flags_ok MiningSetupFlags 7).
  { intros i H. change 7 with (N.ones 3) in H. destruct (N.lt_ge_cases i 3) as [X|X]; [exact X|]. rewrite N.ones_spec_high in H by exact X. discriminate. }
  unfold u16_ok. change (2 ^ 16) with 65536. split; [lia|]. split; [lia|]. split; [exact F|]. split; [apply S; reflexivity|]. split; [reflexivity|].
  do 4 (split; [apply S; reflexivity|]). split; [lia|]. split; [lia|]. split; discriminate.
Qed.
Lemma tests_order : exists F : frameable setup_connection,
  (forall m, fr_ser F m = ser_sc (versions_exchanged m)) /\
  (forall pf bs, deserialize (fr_de F) pf bs =
     match deserialize (de_sc MiningSetupFlags) pf bs with Ok m => Ok (versions_exchanged m) | Err e => Err e | Panic => Panic end) /\
  (forall pf, Forall (fun t => t = true) (generated_tests F sc_eqb MT_SetupConnection pf given_serialized given_deserialized)) /\
  exists m enc, constructed K_MiningSetupConnection m /\ serialize (fr_ser F m) = Ok enc /\ wire enc <> layout K_MiningSetupConnection m.
Proof.
  exists exchanged_frameable. split; [reflexivity|]. split; [|split].
  - intros pf bs. unfold deserialize. cbn [exchanged_frameable fr_de]. unfold de_bind.
    destruct (de_sc MiningSetupFlags pf (mkParser bs 0)) as [p [m|e|]]; reflexivity.
  - intros []; vm_compute; repeat constructor.
  - exists (given_with 2 3). eexists. split; [apply given_ok; lia|]. split; [vm_compute; reflexivity|]. vm_compute. discriminate.
Qed.
