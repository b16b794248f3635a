(** * PropMessages: C26-C34, protocol messages. *)
From Verif Require Import Base Codec Types Messages Frame Catalog SpecWire SpecTypes
  BaseFacts CodecFacts Utf8Facts TypesFacts MessagesFacts FrameFacts CodecProofs MsgProofs Samples TypesProofs FrameProofs SpecSetup PartialProofs.

(** C26. *)
Theorem C26_message_layout : forall k m, constructed k m -> exists enc,
  serialize (fr_ser (frameable_of k) m) = Ok enc /\ wire enc = layout k m.
Proof. exact message_layout. Qed.
Print Assumptions C26_message_layout.

Example C26_ex : constructed K_UpdateChannel sample_uc /\
  layout K_UpdateChannel sample_uc = [7; 0; 0; 0; 0; 0; 0x46; 0x41] ++ repeat 42 32.
Proof. split; [apply constructed_iff; exact sample_uc_ok|reflexivity]. Qed.

(** C27. *)
Theorem C27_setup_connection_new : forall mi ma fl eh ep ve hv fw di,
  ((ve = [] \/ fw = []) -> sc_new mi ma fl eh ep ve hv fw di = Err RequirementError) /\
  (ve <> [] -> fw <> [] -> mi < 2 \/ ma < 2 -> sc_new mi ma fl eh ep ve hv fw di = Err VersionError) /\
  (ve <> [] -> fw <> [] -> 2 <= mi -> 2 <= ma ->
     (exists s, In s [eh; ve; hv; fw; di] /\ 255 < len s) ->
     sc_new mi ma fl eh ep ve hv fw di = Err RequirementError) /\
  (ve <> [] -> fw <> [] -> 2 <= mi -> 2 <= ma -> (forall s, In s [eh; ve; hv; fw; di] -> len s <= 255) ->
     exists m, sc_new mi ma fl eh ep ve hv fw di = Ok m /\
       sc_min_version m = mi /\ sc_max_version m = ma /\ sc_flags m = fl /\ sc_endpoint_port m = ep /\
       str0_data (sc_endpoint_host m) = eh /\ str0_data (sc_vendor m) = ve /\
       str0_data (sc_hardware_version m) = hv /\ str0_data (sc_firmware m) = fw /\
       str0_data (sc_device_id m) = di).
Proof. exact sc_new_classified. Qed.
Print Assumptions C27_setup_connection_new.

(** The constructors of the common message go through the same validation. *)
Theorem C27_common_constructors : forall mk new,
  (mk = CSC_Mining /\ new = csc_new_mining) \/ (mk = CSC_JobNegotiation /\ new = csc_new_job_negotation) ->
  forall mi ma fl eh ep ve hv fw di,
  ((ve = [] \/ fw = []) -> new mi ma fl eh ep ve hv fw di = Err RequirementError) /\
  (ve <> [] -> fw <> [] -> mi < 2 \/ ma < 2 -> new mi ma fl eh ep ve hv fw di = Err VersionError) /\
  (ve <> [] -> fw <> [] -> 2 <= mi -> 2 <= ma ->
     (exists s, In s [eh; ve; hv; fw; di] /\ 255 < len s) ->
     new mi ma fl eh ep ve hv fw di = Err RequirementError) /\
  (ve <> [] -> fw <> [] -> 2 <= mi -> 2 <= ma -> (forall s, In s [eh; ve; hv; fw; di] -> len s <= 255) ->
     exists m, new mi ma fl eh ep ve hv fw di = Ok (mk m) /\
       sc_min_version m = mi /\ sc_max_version m = ma /\ sc_flags m = fl /\ sc_endpoint_port m = ep /\
       str0_data (sc_endpoint_host m) = eh /\ str0_data (sc_vendor m) = ve /\
       str0_data (sc_hardware_version m) = hv /\ str0_data (sc_firmware m) = fw /\
       str0_data (sc_device_id m) = di).
Proof. exact csc_constructors. Qed.
Print Assumptions C27_common_constructors.

Theorem C27_setup_connection_decoded : forall fs, fs = MiningSetupFlags \/ fs = JnSetupFlags ->
  forall pf bs m, rust_slice bs -> deserialize (de_sc fs) pf bs = Ok m ->
  2 <= sc_min_version m /\ 2 <= sc_max_version m /\
  str0_data (sc_vendor m) <> [] /\ str0_data (sc_firmware m) <> [] /\
  forall s, In s [sc_endpoint_host m; sc_vendor m; sc_hardware_version m; sc_firmware m; sc_device_id m] ->
    len (str0_data s) <= 255 /\ utf8_text (str0_data s) /\ str0_length s = len (str0_data s).
Proof. exact sc_decoded. Qed.
Print Assumptions C27_setup_connection_decoded.

Theorem C27_common_decoded : forall pf bs m, rust_slice bs -> deserialize de_csc pf bs = Ok m ->
  exists v, (m = CSC_Mining v \/ m = CSC_JobNegotiation v) /\
  2 <= sc_min_version v /\ 2 <= sc_max_version v /\
  str0_data (sc_vendor v) <> [] /\ str0_data (sc_firmware v) <> [] /\
  forall s, In s [sc_endpoint_host v; sc_vendor v; sc_hardware_version v; sc_firmware v; sc_device_id v] ->
    len (str0_data s) <= 255.
Proof. exact csc_decoded. Qed.
Print Assumptions C27_common_decoded.

Example C27_ex : sc_new 2 3 5 s_host 8545 s_vendor s_hw s_fw s_dev = Ok sample_sc /\
  sc_new 1 3 5 s_host 8545 s_vendor s_hw s_fw s_dev = Err VersionError /\
  sc_new 1 3 5 s_host 8545 [] s_hw s_fw s_dev = Err RequirementError /\
  (exists enc, serialize (ser_sc sample_sc) = Ok enc /\ deserialize (de_sc MiningSetupFlags) Debug enc = Ok sample_sc).
Proof. repeat split. eexists. split; reflexivity. Qed.

(** C28.  Full statement: every constructed or decoded setup message has min_version <= max_version.  Refuted:
    min_version > max_version is accepted, and survives the wire.  Below: of all pairs of versions, exactly those
    with both at least 2 are accepted by the constructor, and all of these by the decoder. *)
Theorem C28_version_range_refuted : exists m, constructed K_MiningSetupConnection m /\
  sc_max_version m < sc_min_version m /\
  exists enc, serialize (ser_sc m) = Ok enc /\ deserialize (de_sc MiningSetupFlags) Debug enc = Ok m.
Proof. exact min_above_max. Qed.
Print Assumptions C28_version_range_refuted.
Theorem C28_mining_versions_partial : forall m mi ma, constructed K_MiningSetupConnection m -> mi < 2 ^ 16 -> ma < 2 ^ 16 ->
  (constructed K_MiningSetupConnection (with_versions mi ma m) <-> 2 <= mi /\ 2 <= ma) /\
  (2 <= mi -> 2 <= ma -> exists enc, serialize (ser_sc (with_versions mi ma m)) = Ok enc /\
     forall pf rest, rust_slice (enc ++ rest) ->
       deserialize (de_sc MiningSetupFlags) pf (enc ++ rest) = Ok (with_versions mi ma m)).
Proof. exact mining_versions. Qed.
Print Assumptions C28_mining_versions_partial.
Theorem C28_jn_versions_partial : forall m mi ma, constructed K_JnSetupConnection m -> mi < 2 ^ 16 -> ma < 2 ^ 16 ->
  (constructed K_JnSetupConnection (with_versions mi ma m) <-> 2 <= mi /\ 2 <= ma) /\
  (2 <= mi -> 2 <= ma -> exists enc, serialize (ser_sc (with_versions mi ma m)) = Ok enc /\
     forall pf rest, rust_slice (enc ++ rest) ->
       deserialize (de_sc JnSetupFlags) pf (enc ++ rest) = Ok (with_versions mi ma m)).
Proof. exact jn_versions. Qed.
Print Assumptions C28_jn_versions_partial.

Example C28_ex : sc_new 2 3 5 s_host 8545 s_vendor s_hw s_fw s_dev = Ok sample_sc /\
  sc_new 9 2 5 s_host 8545 s_vendor s_hw s_fw s_dev = Ok (with_versions 9 2 sample_sc) /\
  sc_new 9 1 5 s_host 8545 s_vendor s_hw s_fw s_dev = Err VersionError.
Proof. repeat split. Qed.

(** C29. *)
Theorem C29_setup_error_new : forall f c,
  ((c = UnsupportedFeatureFlags /\ f = 0) -> sce_new f c = Err RequirementError) /\
  (~ (c = UnsupportedFeatureFlags /\ f = 0) -> sce_new f c = Ok (mkSCE f c)).
Proof. exact sce_rule. Qed.
Print Assumptions C29_setup_error_new.
Theorem C29_setup_error_decoded : forall fs, fs = MiningSetupFlags \/ fs = JnSetupFlags ->
  forall pf bs m, rust_slice bs -> deserialize (de_sce fs) pf bs = Ok m ->
  ~ (sce_error_code m = UnsupportedFeatureFlags /\ sce_flags m = 0).
Proof. exact sce_decoded. Qed.
Print Assumptions C29_setup_error_decoded.
Theorem C29_setup_error_accepted : forall fs, fs = MiningSetupFlags \/ fs = JnSetupFlags ->
  forall f c, flags_ok fs f -> ~ (c = UnsupportedFeatureFlags /\ f = 0) -> exists enc,
  serialize (ser_sce (mkSCE f c)) = Ok enc /\
  forall pf rest, rust_slice (enc ++ rest) -> deserialize (de_sce fs) pf (enc ++ rest) = Ok (mkSCE f c).
Proof. exact sce_accepted. Qed.
Print Assumptions C29_setup_error_accepted.

Example C29_ex : sce_new 0 UnsupportedProtocol = Ok (mkSCE 0 UnsupportedProtocol) /\
  ~ (UnsupportedProtocol = UnsupportedFeatureFlags /\ 0 = 0) /\ flags_ok JnSetupFlags 1.
Proof. split; [reflexivity|]. split; [intros [H _]; discriminate|].
  apply (proj1 (flags_from_bits_iff JnSetupFlags 1 1)); reflexivity. Qed.

(** C30. *)
Theorem C30_flags_decode : forall fs pf b0 b1 b2 b3 rest,
  rust_slice (b0 :: b1 :: b2 :: b3 :: rest) ->
  let bits := spec_val (wire [b0; b1; b2; b3]) in
  (flags_ok fs bits -> deserialize (de_flags fs) pf (b0 :: b1 :: b2 :: b3 :: rest) = Ok bits) /\
  (~ flags_ok fs bits -> deserialize (de_flags fs) pf (b0 :: b1 :: b2 :: b3 :: rest) = Err UnknownFlags).
Proof. exact flags_decode_iff. Qed.
Print Assumptions C30_flags_decode.
Theorem C30_flags_wire : forall fs bits, flags_ok fs bits ->
  exists enc, serialize (ser_flags bits) = Ok enc /\ wire enc = spec_le 4 bits /\
  forall pf rest, rust_slice (enc ++ rest) -> deserialize (de_flags fs) pf (enc ++ rest) = Ok bits.
Proof. exact flags_wire. Qed.
Print Assumptions C30_flags_wire.
Theorem C30_flags_operations : forall fs a b, flags_ok fs a -> flags_ok fs b ->
  flags_ok fs (flags_union a b) /\ flags_ok fs (flags_inter a b) /\ flags_ok fs (flags_diff a b) /\
  flags_ok fs (flags_symdiff a b) /\ flags_ok fs (flags_complement fs a).
Proof. exact flags_ops. Qed.
Print Assumptions C30_flags_operations.
Theorem C30_flags_operation_bits : forall fs a b i,
  N.testbit (flags_union a b) i = N.testbit a i || N.testbit b i /\
  N.testbit (flags_inter a b) i = N.testbit a i && N.testbit b i /\
  N.testbit (flags_diff a b) i = N.testbit a i && negb (N.testbit b i) /\
  N.testbit (flags_symdiff a b) i = xorb (N.testbit a i) (N.testbit b i) /\
  (flags_ok fs a -> N.testbit (flags_complement fs a) i = negb (N.testbit a i) && (i <? flag_width fs)).
Proof. exact flags_ops_bits. Qed.
Print Assumptions C30_flags_operation_bits.

Example C30_ex : flags_ok MiningSetupFlags 5 /\ ~ flags_ok MiningSetupFlags 8 /\
  deserialize (de_flags MiningSetupFlags) Debug [x08; x00; x00; x00] = Err UnknownFlags /\
  flags_complement MiningSetupFlags 5 = 2.
Proof.
  split; [apply (proj1 (flags_from_bits_iff MiningSetupFlags 5 5)); reflexivity|].
  split; [|split; reflexivity]. intros H. specialize (H 3 eq_refl). discriminate.
Qed.

(** C31. *)
Theorem C31_setup_code_exact : forall s,
  (forall c, len s :: wire s = lay_sc_code c -> sc_code_from_str s = Ok c) /\
  ((forall c, len s :: wire s <> lay_sc_code c) -> sc_code_from_str s = Err UnknownErrorCode).
Proof. exact sc_code_exact. Qed.
Print Assumptions C31_setup_code_exact.
Theorem C31_channel_code_exact : forall s,
  (forall c, len s :: wire s = lay_omc_code c -> omc_code_from_str s = Ok c) /\
  ((forall c, len s :: wire s <> lay_omc_code c) -> omc_code_from_str s = Err UnknownErrorCode).
Proof. exact omc_code_exact. Qed.
Print Assumptions C31_channel_code_exact.
Theorem C31_setup_code_string : forall c, len (sc_code_str c) :: wire (sc_code_str c) = lay_sc_code c /\
  len (sc_code_str c) <= 32 /\ sc_code_from_str (sc_code_str c) = Ok c.
Proof. exact sc_code_string. Qed.
Print Assumptions C31_setup_code_string.
Theorem C31_channel_code_string : forall c, len (omc_code_str c) :: wire (omc_code_str c) = lay_omc_code c /\
  len (omc_code_str c) <= 32 /\ omc_code_from_str (omc_code_str c) = Ok c.
Proof. exact omc_code_string. Qed.
Print Assumptions C31_channel_code_string.
Theorem C31_code_strings_injective :
  (forall a b, sc_code_str a = sc_code_str b -> a = b) /\ (forall a b, omc_code_str a = omc_code_str b -> a = b).
Proof. exact (conj sc_code_str_inj omc_code_str_inj). Qed.
Print Assumptions C31_code_strings_injective.

Example C31_ex : sc_code_from_str (omc_code_str UnknownUser) = Err UnknownErrorCode /\
  omc_code_from_str (omc_code_str UnknownUser) = Ok UnknownUser.
Proof. split; reflexivity. Qed.

(** C32. *)
Theorem C32_dispatch : forall pf pre b rest, rust_slice (pre ++ b :: rest) ->
  snd (de_csc pf (cursor pre (b :: rest))) =
  match Byte.to_N b with
  | 0 => match snd (de_sc MiningSetupFlags pf (cursor (pre ++ [b]) rest)) with
         | Ok v => Ok (CSC_Mining v) | Err e => Err e | Panic => Panic end
  | 1 => match snd (de_sc JnSetupFlags pf (cursor (pre ++ [b]) rest)) with
         | Ok v => Ok (CSC_JobNegotiation v) | Err e => Err e | Panic => Panic end
  | 2 | 3 => Err Unimplemented
  | _ => Err DeserializationError
  end.
Proof. exact csc_dispatch. Qed.
Print Assumptions C32_dispatch.
Theorem C32_protocol_byte : forall m enc, serialize (ser_csc m) = Ok enc -> msg_ok K_CommonSetupConnection m ->
  exists rest, wire enc = match m with CSC_Mining v => 0 :: rest | CSC_JobNegotiation v => 1 :: rest end.
Proof. exact csc_first_byte. Qed.
Print Assumptions C32_protocol_byte.

Example C32_ex : deserialize de_csc Debug [x02; x00] = Err Unimplemented /\
  deserialize de_csc Debug [x04; x00] = Err DeserializationError /\
  msg_ok K_CommonSetupConnection (CSC_Mining sample_sc) /\
  (exists enc, serialize (ser_csc (CSC_Mining sample_sc)) = Ok (x00 :: enc) /\
     deserialize de_csc Debug (x00 :: enc) = Ok (CSC_Mining sample_sc) /\
     (* flags 5 is not a job negotiation flag *)
     deserialize de_csc Debug (x01 :: enc) = Err UnknownFlags).
Proof.
  split; [reflexivity|]. split; [reflexivity|]. split; [exact sample_sc_ok|].
  eexists. split; [reflexivity|]. split; reflexivity.
Qed.

(** C33.  Refuted twice: a message with a NaN hash rate is not == to itself after a round trip, and
    0.0 and -0.0 are == with different encodings. *)
Theorem C33_equality_nan_refuted : exists m, constructed K_UpdateChannel m /\ msg_eqb K_UpdateChannel m m = false /\
  exists enc, serialize (ser_uc m) = Ok enc /\
    exists m', deserialize de_uc Debug enc = Ok m' /\ msg_eqb K_UpdateChannel m m' = false.
Proof. exact eq_nan. Qed.
Print Assumptions C33_equality_nan_refuted.
Theorem C33_equality_zero_refuted : exists a b, constructed K_UpdateChannel a /\ constructed K_UpdateChannel b /\
  msg_eqb K_UpdateChannel a b = true /\ serialize (ser_uc a) <> serialize (ser_uc b).
Proof. exact eq_negzero. Qed.
Print Assumptions C33_equality_zero_refuted.
(** Without NaN and -0.0 equality is equality of encodings. *)
Theorem C33_equality_partial : forall k a b, msg_ok k a -> msg_ok k b ->
  Forall (fun x => ~ is_nan_bits x /\ x <> neg_zero_bits) (hash_rates k a) ->
  Forall (fun x => ~ is_nan_bits x /\ x <> neg_zero_bits) (hash_rates k b) ->
  (msg_eqb k a b = true <->
   serialize (fr_ser (frameable_of k) a) = serialize (fr_ser (frameable_of k) b)).
Proof. exact eq_wire. Qed.
Print Assumptions C33_equality_partial.
(** What == decides, with no restriction: hash rates compare as numbers, the rest as on the wire. *)
Theorem C33_equality_exact_partial : forall k a b, msg_ok k a -> msg_ok k b ->
  (msg_eqb k a b = true <->
   Forall2 same_rate (hash_rates k a) (hash_rates k b) /\
   serialize (fr_ser (frameable_of k) (zero_rate k a)) = serialize (fr_ser (frameable_of k) (zero_rate k b))).
Proof. exact eq_exact. Qed.
Print Assumptions C33_equality_exact_partial.

Example C33_ex : msg_ok K_UpdateChannel sample_uc /\
  Forall (fun x => ~ is_nan_bits x /\ x <> neg_zero_bits) (hash_rates K_UpdateChannel sample_uc) /\
  same_rate 0 0x80000000 /\ ~ same_rate 0x7fc00000 0x7fc00000.
Proof.
  split; [exact sample_uc_ok|]. split.
  - constructor; [|constructor]. split; [intros H; vm_compute in H|]; discriminate.
  - split.
    + repeat split; try (intros H; vm_compute in H; discriminate). right. split; reflexivity.
    + intros (H & _). apply H. reflexivity.
Qed.

(** C34. *)
Theorem C34_unix_time : forall t : Z,
  ((t < 0)%Z -> system_unix_time_to_u32 t = Err SystemTimeError) /\
  ((0 <= t)%Z -> exists n, system_unix_time_to_u32 t = Ok n /\ n < 2 ^ 32 /\
     ((t < 2 ^ 32 * 10 ^ 9)%Z -> (Z.of_N n * 10 ^ 9 <= t < (Z.of_N n + 1) * 10 ^ 9)%Z)).
Proof. exact unix_time. Qed.
Print Assumptions C34_unix_time.

Example C34_ex : system_unix_time_to_u32 1600000000999999999%Z = Ok 1600000000 /\
  system_unix_time_to_u32 (-1)%Z = Err SystemTimeError.
Proof. split; reflexivity. Qed.
