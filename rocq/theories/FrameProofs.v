(** * FrameProofs: lemmas behind PropFrame and PropMessages. *)
From Verif Require Import Base Codec Types Messages Frame Catalog SpecWire SpecTypes
  BaseFacts CodecFacts Utf8Facts TypesFacts MessagesFacts FrameFacts CodecProofs MsgProofs Samples TypesProofs.

Lemma frame_serialized : forall m, len (m_payload m) <= 16777215 -> exists enc,
  wire enc = frame_layout m /\
  forall w, run vec_writer (ser_message m) w = (w ++ enc, Ok (6 + len (m_payload m))).
Proof.
  intros m H. assert (O : ok T_frame m) by (cbn [ok]; lia).
  destruct (count_written T_frame m O) as (enc & Hw & Hr). cbn [lay] in Hw. exists enc. split; [exact Hw|].
  intros w. cbn [ser_of] in Hr. rewrite Hr. f_equal. f_equal.
  rewrite <- len_wire, Hw. unfold frame_layout. destruct (spec_code (m_type m)) as [c b].
  rewrite !len_app, len_spec_le, len_wire. destruct b; cbn [len]; unfold len at 1 2; cbn [length]; lia.
Qed.

Lemma frame_roundtrip : forall m, len (m_payload m) <= 16777215 -> exists enc,
  serialize (ser_message m) = Ok enc /\
  forall pf pre rest, rust_slice (pre ++ enc ++ rest) ->
    de_message pf (cursor pre (enc ++ rest)) = (cursor (pre ++ enc) rest, Ok m).
Proof.
  intros m H. assert (O : ok T_frame m) by (cbn [ok]; lia).
  destruct (encode_vec T_frame m O) as (enc & Hw & Hs & _). exists enc. split; [exact Hs|].
  intros pf pre rest Hr. apply (decode_encoded T_frame); [exact O|exact Hw|exact Hr].
Qed.

(** With 2^32 payload bytes the announced length is 0. *)
Lemma oversized_refuted : exists m enc, 16777215 < len (m_payload m) /\
  serialize (ser_message m) = Ok enc /\
  forall pf, exists m', deserialize de_message pf enc = Ok m' /\ m' <> m /\ m_payload m' = [].
Proof.
  assert (exists p : bytes, len p = 2 ^ 32) as [p Hp] by (eexists; apply (len_repeat _ x41)).
  exists (mkMessage MT_SetupConnection p).
  pose proof (oversized_truncated MT_SetupConnection p Hp) as R.
  exists ([x00; x00; x00; x00; x00; x00] ++ p). split; [cbn [m_payload]; rewrite Hp; reflexivity|]. split.
  - unfold serialize. rewrite R. reflexivity.
  - intros pf. exists (mkMessage MT_SetupConnection []). split; [|split; [|reflexivity]].
    + unfold deserialize. rewrite cursor_0.
      assert (E : de_message pf (cursor [] ([x00; x00; x00; x00; x00; x00] ++ p)) =
                  (cursor ([] ++ [x00; x00; x00; x00; x00; x00]) p, Ok (mkMessage MT_SetupConnection []))).
      { apply (decode_encoded T_frame); [reflexivity|reflexivity|]. unfold rust_slice.
        cbn [app]. rewrite !len_cons, Hp. vm_compute. discriminate. }
      rewrite E. reflexivity.
    + intros E. injection E as E. rewrite <- E in Hp. discriminate.
Qed.

(** ** Type table *)
Lemma mt_roundtrip : forall t, mt_new (mt_ext_type t) (mt_msg_type t) = Ok t /\ mt_ext_type t < 2 ^ 15.
Proof. destruct t; split; reflexivity. Qed.
Lemma mt_exact : forall e m, 
  (forall t, mt_new e m = Ok t <-> mt_ext_type t = e /\ mt_msg_type t = m) /\
  ((forall t, ~ (mt_ext_type t = e /\ mt_msg_type t = m)) -> mt_new e m = Err UnknownMessageType).
Proof.
  intros e m. rewrite mt_new_spec. 
  assert (A : forall t, spec_lookup e m = Some t <-> mt_ext_type t = e /\ mt_msg_type t = m).
  { intros t. rewrite mt_ext_0, mt_msg_code. split.
    - intros H. apply spec_lookup_inv in H as [<- H]. split; [reflexivity|]. symmetry. exact H.
    - intros [<- <-]. apply spec_lookup_self. }
  split.
  - intros t. rewrite <- A. destruct (spec_lookup e m); split; congruence.
  - intros H. destruct (spec_lookup e m) as [t|] eqn:E; [|reflexivity].
    exfalso. apply (H t), A. reflexivity.
Qed.
Lemma mt_spec : forall t, mt_ext_type t = 0 /\ (mt_msg_type t, mt_channel_bit t) = spec_code t.
Proof. destruct t; split; reflexivity. Qed.
Lemma mt_distinct : forall t1 t2, mt_ext_type t1 = mt_ext_type t2 -> mt_msg_type t1 = mt_msg_type t2 -> t1 = t2.
Proof.
  intros t1 t2 E1 E2. destruct (mt_roundtrip t1) as [A _]. destruct (mt_roundtrip t2) as [B _].
  rewrite E1, E2 in A. congruence.
Qed.

(** ** frame / unframe *)
Lemma unframe_error_carries_expected : exists k pf m e t,
  unframe (frameable_of k) pf m = Err (UnexpectedMessageType e t) /\
  (e, t) <> (mt_ext_type (m_type m), mt_msg_type (m_type m)).
Proof.
  exists K_UpdateChannel, Debug, sample_frame, 0, 0x16. split; [reflexivity|]. discriminate.
Qed.
Lemma unframe_refuses : forall k pf m, fr_type (frameable_of k) <> m_type m ->
  unframe (frameable_of k) pf m =
    Err (UnexpectedMessageType (mt_ext_type (fr_type (frameable_of k))) (mt_msg_type (fr_type (frameable_of k)))).
Proof.
  intros k pf m H. destruct (unframe_other k pf m H) as (e & t & E & -> & ->).
  rewrite E, mt_ext_0, mt_msg_code. reflexivity.
Qed.

Lemma two_types : exists m k1 k2 v1 v2, k1 <> k2 /\
  unframe (frameable_of k1) Debug m = Ok v1 /\ unframe (frameable_of k2) Debug m = Ok v2.
Proof.
  exists (mkMessage MT_SetupConnectionSuccess [x02; x00; x00; x00; x00; x00]),
    K_MiningSetupConnectionSuccess, K_JnSetupConnectionSuccess, (mkSCS 2 0), (mkSCS 2 0).
  split; [discriminate|]. split; reflexivity.
Qed.

(** The families of Rust types that share a message type. *)
Definition family (k : kind) : list kind :=
  match k with
  | K_CommonSetupConnection | K_MiningSetupConnection | K_JnSetupConnection =>
      [K_CommonSetupConnection; K_MiningSetupConnection; K_JnSetupConnection]
  | K_MiningSetupConnectionSuccess | K_JnSetupConnectionSuccess =>
      [K_MiningSetupConnectionSuccess; K_JnSetupConnectionSuccess]
  | K_MiningSetupConnectionError | K_JnSetupConnectionError =>
      [K_MiningSetupConnectionError; K_JnSetupConnectionError]
  | k => [k]
  end.
Lemma only_family : forall m k1 k2 pf1 pf2 v1 v2,
  unframe (frameable_of k1) pf1 m = Ok v1 -> unframe (frameable_of k2) pf2 m = Ok v2 -> In k2 (family k1).
Proof.
  intros m k1 k2 pf1 pf2 v1 v2 H1 H2. apply unframe_ok_type in H1, H2. rewrite H1 in H2.
  destruct k1, k2; cbn in *; try discriminate; tauto.
Qed.

(** ** Messages *)
Lemma message_layout : forall k m, constructed k m -> exists enc,
  serialize (fr_ser (frameable_of k) m) = Ok enc /\ wire enc = layout k m.
Proof.
  intros k m H. apply constructed_iff in H. destruct (encode_vec (T_msg k) m H) as (enc & Hw & Hs & _). eauto.
Qed.

Lemma sc_new_classified : forall mi ma fl eh ep ve hv fw di,
  ((ve = [] \/ fw = []) -> sc_new mi ma fl eh ep ve hv fw di = Err RequirementError) /\
  (ve <> [] -> fw <> [] -> mi < 2 \/ ma < 2 -> sc_new mi ma fl eh ep ve hv fw di = Err VersionError) /\
  (ve <> [] -> fw <> [] -> 2 <= mi -> 2 <= ma ->
     (exists s, In s [eh; ve; hv; fw; di] /\ 255 < len s) ->
     sc_new mi ma fl eh ep ve hv fw di = Err RequirementError) /\
  (ve <> [] -> fw <> [] -> 2 <= mi -> 2 <= ma -> (forall s, In s [eh; ve; hv; fw; di] -> len s <= 255) ->
     exists m, sc_new mi ma fl eh ep ve hv fw di = Ok m /\
       sc_min_version m = mi /\ sc_max_version m = ma /\ sc_flags m = fl /\ sc_endpoint_port m = ep /\
       str0_data (sc_endpoint_host m) = eh /\ str0_data (sc_vendor m) = ve /\
       str0_data (sc_hardware_version m) = hv /\ str0_data (sc_firmware m) = fw /\
       str0_data (sc_device_id m) = di).
Proof.
  intros. rewrite sc_new_cases.
  assert (Z : forall s : bytes, s <> [] -> (len s =? 0) = false) by (intros s; apply is_empty_false).
  split; [|split; [|split]].
  - intros [-> | ->]; cbn [orb]; change (len (@nil byte) =? 0) with true; rewrite ?orb_true_r; reflexivity.
  - intros A B C. rewrite (Z _ A), (Z _ B). cbn [orb].
    assert (E : (mi <? 2) || (ma <? 2) = true) by lia. rewrite E. reflexivity.
  - intros A B C D (s & Hs & Hl). rewrite (Z _ A), (Z _ B). cbn [orb].
    assert (E : (mi <? 2) || (ma <? 2) = false) by lia. rewrite E.
    match goal with |- (if ?b then _ else _) = _ => assert (E2 : b = true) end.
    { cbn [In] in Hs. destruct Hs as [<-|[<-|[<-|[<-|[<-|[]]]]]]; lia. }
    rewrite E2. reflexivity.
  - intros A B C D H. rewrite (Z _ A), (Z _ B). cbn [orb].
    assert (E : (mi <? 2) || (ma <? 2) = false) by lia. rewrite E.
    match goal with |- exists m, (if ?b then _ else _) = _ /\ _ => assert (E2 : b = false) end.
    { assert (len eh <= 255 /\ len ve <= 255 /\ len hv <= 255 /\ len fw <= 255 /\ len di <= 255)
        by (repeat split; apply H; cbn [In]; tauto). lia. }
    rewrite E2. eexists. split; [reflexivity|]. repeat split.
Qed.

Lemma sc_decoded : forall fs, fs = MiningSetupFlags \/ fs = JnSetupFlags ->
  forall pf bs m, rust_slice bs -> deserialize (de_sc fs) pf bs = Ok m ->
  2 <= sc_min_version m /\ 2 <= sc_max_version m /\
  str0_data (sc_vendor m) <> [] /\ str0_data (sc_firmware m) <> [] /\
  forall s, In s [sc_endpoint_host m; sc_vendor m; sc_hardware_version m; sc_firmware m; sc_device_id m] ->
    len (str0_data s) <= 255 /\ utf8_text (str0_data s) /\ str0_length s = len (str0_data s).
Proof.
  intros fs Hfs pf bs m Hs H.
  assert (O : sc_ok fs m).
  { destruct Hfs as [-> | ->].
    - apply (deserialize_ok (T_msg K_MiningSetupConnection) pf bs m Hs H).
    - apply (deserialize_ok (T_msg K_JnSetupConnection) pf bs m Hs H). }
  destruct O as (H1 & H2 & H3 & H4 & H5 & H6 & H7 & H8 & H9 & H10 & H11 & H12 & H13).
  repeat (split; [assumption|]). intros s Hin. unfold str_ok in *. cbn [In] in Hin.
  destruct Hin as [<-|[<-|[<-|[<-|[<-|[]]]]]]; tauto.
Qed.

Lemma csc_decoded : forall pf bs m, rust_slice bs -> deserialize de_csc pf bs = Ok m ->
  exists v, (m = CSC_Mining v \/ m = CSC_JobNegotiation v) /\
  2 <= sc_min_version v /\ 2 <= sc_max_version v /\
  str0_data (sc_vendor v) <> [] /\ str0_data (sc_firmware v) <> [] /\
  forall s, In s [sc_endpoint_host v; sc_vendor v; sc_hardware_version v; sc_firmware v; sc_device_id v] ->
    len (str0_data s) <= 255.
Proof.
  intros pf bs m Hs H. pose proof (deserialize_ok (T_msg K_CommonSetupConnection) pf bs m Hs H) as O.
  cbn [ok msg_ok] in O.
  assert (G : forall fs v, sc_ok fs v -> 2 <= sc_min_version v /\ 2 <= sc_max_version v /\
    str0_data (sc_vendor v) <> [] /\ str0_data (sc_firmware v) <> [] /\
    forall s, In s [sc_endpoint_host v; sc_vendor v; sc_hardware_version v; sc_firmware v; sc_device_id v] ->
    len (str0_data s) <= 255).
  { intros fs v (H1 & H2 & H3 & H4 & H5 & H6 & H7 & H8 & H9 & H10 & H11 & H12 & H13).
    repeat (split; [assumption|]). intros s Hin. unfold str_ok in *. cbn [In] in Hin.
    destruct Hin as [<-|[<-|[<-|[<-|[<-|[]]]]]]; tauto. }
  destruct m as [v|v]; exists v; (split; [auto|]); eapply G; exact O.
Qed.

Lemma csc_constructors : forall mk new,
  (mk = CSC_Mining /\ new = csc_new_mining) \/ (mk = CSC_JobNegotiation /\ new = csc_new_job_negotation) ->
  forall mi ma fl eh ep ve hv fw di,
  ((ve = [] \/ fw = []) -> new mi ma fl eh ep ve hv fw di = Err RequirementError) /\
  (ve <> [] -> fw <> [] -> mi < 2 \/ ma < 2 -> new mi ma fl eh ep ve hv fw di = Err VersionError) /\
  (ve <> [] -> fw <> [] -> 2 <= mi -> 2 <= ma ->
     (exists s, In s [eh; ve; hv; fw; di] /\ 255 < len s) ->
     new mi ma fl eh ep ve hv fw di = Err RequirementError) /\
  (ve <> [] -> fw <> [] -> 2 <= mi -> 2 <= ma -> (forall s, In s [eh; ve; hv; fw; di] -> len s <= 255) ->
     exists m, new mi ma fl eh ep ve hv fw di = Ok (mk m) /\
       sc_min_version m = mi /\ sc_max_version m = ma /\ sc_flags m = fl /\ sc_endpoint_port m = ep /\
       str0_data (sc_endpoint_host m) = eh /\ str0_data (sc_vendor m) = ve /\
       str0_data (sc_hardware_version m) = hv /\ str0_data (sc_firmware m) = fw /\
       str0_data (sc_device_id m) = di).
Proof.
  intros mk new Hn mi ma fl eh ep ve hv fw di.
  assert (E : new mi ma fl eh ep ve hv fw di = obind (sc_new mi ma fl eh ep ve hv fw di) (fun v => Ok (mk v))).
  { destruct Hn as [[-> ->]|[-> ->]]; reflexivity. }
  rewrite E. destruct (sc_new_classified mi ma fl eh ep ve hv fw di) as (A & B & C & D).
  split; [intros H; rewrite (A H); reflexivity|].
  split; [intros H1 H2 H3; rewrite (B H1 H2 H3); reflexivity|].
  split; [intros H1 H2 H3 H4 H5; rewrite (C H1 H2 H3 H4 H5); reflexivity|].
  intros H1 H2 H3 H4 H5. destruct (D H1 H2 H3 H4 H5) as (m & F & G). exists m. rewrite F. split; [reflexivity|exact G].
Qed.

Lemma min_above_max : exists m, constructed K_MiningSetupConnection m /\ sc_max_version m < sc_min_version m /\
  exists enc, serialize (ser_sc m) = Ok enc /\ deserialize (de_sc MiningSetupFlags) Debug enc = Ok m.
Proof.
  set (m := mkSC 9 2 0 (mk_str []) 0 (mk_str [x41]) (mk_str []) (mk_str [x42]) (mk_str [])).
  assert (H : msg_ok K_MiningSetupConnection m).
  { assert (U : forall s, utf8_valid s = true -> len s <= 255 -> str_ok 255 (mk_str s)).
    { intros s H1 H2. apply str_ok_mk; [apply utf8_valid_iff; exact H1|exact H2]. }
    cbn [msg_ok]. unfold sc_ok, m. cbn [sc_min_version sc_max_version sc_flags sc_endpoint_host sc_endpoint_port
      sc_vendor sc_hardware_version sc_firmware sc_device_id].
    split; [reflexivity|]. split; [reflexivity|].
    split; [apply (proj1 (flags_from_bits_iff MiningSetupFlags 0 0)); reflexivity|].
    split; [apply U; [reflexivity|vm_compute; discriminate]|]. split; [reflexivity|].
    repeat (split; [apply U; [reflexivity|vm_compute; discriminate]|]).
    split; [vm_compute; discriminate|]. split; [vm_compute; discriminate|]. split; discriminate. }
  exists m. split; [apply constructed_iff; exact H|]. split; [reflexivity|].
  eexists. split; reflexivity.
Qed.

Lemma sce_rule : forall f c,
  ((c = UnsupportedFeatureFlags /\ f = 0) -> sce_new f c = Err RequirementError) /\
  (~ (c = UnsupportedFeatureFlags /\ f = 0) -> sce_new f c = Ok (mkSCE f c)).
Proof.
  intros f c. split.
  - intros [-> ->]. reflexivity.
  - intros H. apply sce_new_ok_iff. split; [reflexivity|]. intros -> ->. apply H. auto.
Qed.
Lemma sce_decoded : forall fs, fs = MiningSetupFlags \/ fs = JnSetupFlags ->
  forall pf bs m, rust_slice bs -> deserialize (de_sce fs) pf bs = Ok m ->
  ~ (sce_error_code m = UnsupportedFeatureFlags /\ sce_flags m = 0).
Proof.
  intros fs Hfs pf bs m Hs H [A B].
  assert (O : sce_error_code m = UnsupportedFeatureFlags -> sce_flags m <> 0).
  { destruct Hfs as [-> | ->].
    - apply (deserialize_ok (T_msg K_MiningSetupConnectionError) pf bs m Hs H).
    - apply (deserialize_ok (T_msg K_JnSetupConnectionError) pf bs m Hs H). }
  exact (O A B).
Qed.
Lemma sce_accepted : forall fs, fs = MiningSetupFlags \/ fs = JnSetupFlags -> forall f c, flags_ok fs f ->
  ~ (c = UnsupportedFeatureFlags /\ f = 0) -> exists enc,
  serialize (ser_sce (mkSCE f c)) = Ok enc /\
  forall pf rest, rust_slice (enc ++ rest) -> deserialize (de_sce fs) pf (enc ++ rest) = Ok (mkSCE f c).
Proof.
  assert (G : forall k (m : msg_of k), msg_ok k m -> exists enc,
    serialize (ser_of (T_msg k) m) = Ok enc /\
    forall pf rest, rust_slice (enc ++ rest) -> deserialize (de_of (T_msg k)) pf (enc ++ rest) = Ok m).
  { intros k m H. destruct (encode_vec (T_msg k) m H) as (enc & Hw & Hsr & _). exists enc. split; [exact Hsr|].
    intros pf rest Hr. unfold deserialize. rewrite cursor_0, (decode_encoded (T_msg k) m enc H Hw pf [] rest Hr). reflexivity. }
  intros fs Hfs f c Hf Hc.
  assert (O : flags_ok fs (sce_flags (mkSCE f c)) /\
    (sce_error_code (mkSCE f c) = UnsupportedFeatureFlags -> sce_flags (mkSCE f c) <> 0)).
  { cbn. split; [exact Hf|]. intros -> ->. apply Hc. auto. }
  destruct Hfs as [-> | ->].
  - exact (G K_MiningSetupConnectionError (mkSCE f c) O).
  - exact (G K_JnSetupConnectionError (mkSCE f c) O).
Qed.

Lemma flags_wire : forall fs bits, flags_ok fs bits ->
  exists enc, serialize (ser_flags bits) = Ok enc /\ wire enc = spec_le 4 bits /\
  forall pf rest, rust_slice (enc ++ rest) -> deserialize (de_flags fs) pf (enc ++ rest) = Ok bits.
Proof.
  intros fs bits H. destruct (encode_vec (T_flags fs) bits H) as (enc & Hw & Hs & _).
  exists enc. split; [exact Hs|]. split; [exact Hw|]. intros pf rest Hr.
  unfold deserialize. rewrite cursor_0. exact (f_equal snd (decode_encoded (T_flags fs) bits enc H Hw pf [] rest Hr)).
Qed.

Lemma flags_decode_iff : forall fs pf b0 b1 b2 b3 rest,
  rust_slice (b0 :: b1 :: b2 :: b3 :: rest) ->
  let bits := spec_val (wire [b0; b1; b2; b3]) in
  (flags_ok fs bits -> deserialize (de_flags fs) pf (b0 :: b1 :: b2 :: b3 :: rest) = Ok bits) /\
  (~ flags_ok fs bits -> deserialize (de_flags fs) pf (b0 :: b1 :: b2 :: b3 :: rest) = Err UnknownFlags).
Proof.
  intros fs pf b0 b1 b2 b3 rest Hs bits.
  assert (E : of_le [b0; b1; b2; b3] = bits) by (unfold bits; reflexivity).
  assert (B : bits < 2 ^ 32).
  { rewrite <- E. pose proof (of_le_bound [b0; b1; b2; b3]) as X. exact X. }
  assert (T : to_le 4 bits = [b0; b1; b2; b3]).
  { apply wire_inj. rewrite wire_to_le, <- E. apply (spec_le_of_le 4 [b0; b1; b2; b3]). reflexivity. }
  change (b0 :: b1 :: b2 :: b3 :: rest) with ([b0; b1; b2; b3] ++ rest) in *. rewrite <- T in *.
  destruct (flags_decode fs pf bits rest Hs B) as [F1 F2]. unfold deserialize. rewrite cursor_0. split; intros H.
  - rewrite (F1 H). reflexivity.
  - exact (F2 H).
Qed.

(** ** Equality *)
Lemma eq_nan : exists m, constructed K_UpdateChannel m /\ msg_eqb K_UpdateChannel m m = false /\
  exists enc, serialize (ser_uc m) = Ok enc /\
    exists m', deserialize de_uc Debug enc = Ok m' /\ msg_eqb K_UpdateChannel m m' = false.
Proof.
  exists (mkUC 7 0x7fc00000 sample_target). split.
  - apply constructed_iff. repeat split.
  - split; [reflexivity|]. eexists. split; [reflexivity|]. eexists. split; reflexivity.
Qed.
Lemma eq_negzero : exists a b, constructed K_UpdateChannel a /\ constructed K_UpdateChannel b /\
  msg_eqb K_UpdateChannel a b = true /\ serialize (ser_uc a) <> serialize (ser_uc b).
Proof.
  exists (mkUC 7 0 sample_target), (mkUC 7 0x80000000 sample_target).
  split; [apply constructed_iff; repeat split|]. split; [apply constructed_iff; repeat split|].
  split; [reflexivity|]. vm_compute. discriminate.
Qed.

Lemma f32_eqb_exact : forall x y, f32_eqb x y = true <-> same_rate x y.
Proof.
  intros x y. unfold f32_eqb, same_rate.
  rewrite !andb_true_iff, !negb_true_iff, orb_true_iff, andb_true_iff, !f32_is_zero_iff, N.eqb_eq.
  rewrite <- !f32_is_nan_iff, !Bool.not_true_iff_false. change (2 ^ 31) with 0x80000000. tauto.
Qed.

Lemma eq_exact : forall k a b, msg_ok k a -> msg_ok k b ->
  (msg_eqb k a b = true <->
   Forall2 same_rate (hash_rates k a) (hash_rates k b) /\
   serialize (fr_ser (frameable_of k) (zero_rate k a)) = serialize (fr_ser (frameable_of k) (zero_rate k b))).
Proof.
  intros k a b Ha Hb.
  assert (Za : msg_ok k (zero_rate k a)) by (destruct k; cbn [zero_rate msg_ok] in *; try exact Ha; cbn; intuition; reflexivity).
  assert (Zb : msg_ok k (zero_rate k b)) by (destruct k; cbn [zero_rate msg_ok] in *; try exact Hb; cbn; intuition; reflexivity).
  assert (Z0 : forall x, x = 0 -> ~ is_nan_bits x /\ x <> neg_zero_bits).
  { intros x ->. split; [intros H; vm_compute in H; discriminate|discriminate]. }
  assert (Ra : Forall (fun x => ~ is_nan_bits x /\ x <> neg_zero_bits) (hash_rates k (zero_rate k a))).
  { destruct k; cbn [zero_rate hash_rates]; repeat constructor; apply Z0; reflexivity. }
  assert (Rb : Forall (fun x => ~ is_nan_bits x /\ x <> neg_zero_bits) (hash_rates k (zero_rate k b))).
  { destruct k; cbn [zero_rate hash_rates]; repeat constructor; apply Z0; reflexivity. }
  rewrite <- (eq_wire k _ _ Za Zb Ra Rb).
  assert (F : forall x y, Forall2 same_rate [x] [y] <-> f32_eqb x y = true).
  { intros x y. rewrite f32_eqb_exact. split; [intros H; inversion H; assumption|intros H; constructor; auto]. }
  assert (Z : f32_eqb 0 0 = true) by reflexivity.
  destruct k; cbn [zero_rate hash_rates];
    try (split; [intros H; split; [constructor|exact H]|intros [_ H]; exact H]); rewrite F; cbn [msg_eqb].
  - unfold osmc_eqb. cbn [osmc_request_id osmc_user_identity osmc_nominal_hash_rate osmc_max_target].
    rewrite Z. rewrite !andb_true_iff. tauto.
  - unfold oemc_eqb. cbn [oemc_request_id oemc_user_identity oemc_nominal_hash_rate oemc_max_target oemc_min_extranonce_size].
    rewrite Z. rewrite !andb_true_iff. tauto.
  - unfold uc_eqb. cbn [uc_channel_id uc_nominal_hash_rate uc_max_target].
    rewrite Z. rewrite !andb_true_iff. tauto.
Qed.
