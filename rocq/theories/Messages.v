(** * Messages: the protocol messages, [impl_message!] expanded by hand.  Definitions only.

    [impl_message!] is stratumv2/src/macro_message/message.rs:11-54: [serialize] writes the fields in
    declaration order and returns the sum of the counts (30-38); [deserialize] reads the fields in
    declaration order and passes them to [new] (40-46); [Frameable] gives the message type (48-52).
    Simplified: the sum of the counts is not bounded by usize (Sum.v has it exactly, C136). *)
From Verif Require Import Base Codec Types.

(** ** SetupConnection of one sub protocol: macro_message/setup_connection.rs:70-101.
    The macro is instantiated in mining/setup_connection.rs:22 and job_negotiation/setup_connection.rs:16;
    the flag type is the parameter [fs]. *)
Record setup_connection := mkSC {
  sc_min_version : N;
  sc_max_version : N;
  sc_flags : N;
  sc_endpoint_host : str0;
  sc_endpoint_port : N;
  sc_vendor : str0;
  sc_hardware_version : str0;
  sc_firmware : str0;
  sc_device_id : str0 }.

(** [String::is_empty]. *)
Definition is_empty (s : bytes) : bool := len s =? 0.

(** macro_message/setup_connection.rs:103-149 [SetupConnection::new]. *)
Definition sc_new (min_version max_version flags : N) (endpoint_host : bytes) (endpoint_port : N)
    (vendor hardware_version firmware device_id : bytes) : Result setup_connection :=
  if is_empty vendor then Err RequirementError
  else if is_empty firmware then Err RequirementError
  else if min_version <? 2 then Err VersionError
  else if max_version <? 2 then Err VersionError
  else
    obind (str0_new STR0_255 endpoint_host) (fun endpoint_host' =>
    obind (str0_new STR0_255 vendor) (fun vendor' =>
    obind (str0_new STR0_255 hardware_version) (fun hardware_version' =>
    obind (str0_new STR0_255 firmware) (fun firmware' =>
    obind (str0_new STR0_255 device_id) (fun device_id' =>
    Ok (mkSC min_version max_version flags endpoint_host' endpoint_port vendor'
             hardware_version' firmware' device_id')))))).

Definition ser_sc (m : setup_connection) : wprog N :=
  (n1 <- ser_u16 (sc_min_version m) ;;
   n2 <- ser_u16 (sc_max_version m) ;;
   n3 <- ser_flags (sc_flags m) ;;
   n4 <- ser_str0 (sc_endpoint_host m) ;;
   n5 <- ser_u16 (sc_endpoint_port m) ;;
   n6 <- ser_str0 (sc_vendor m) ;;
   n7 <- ser_str0 (sc_hardware_version m) ;;
   n8 <- ser_str0 (sc_firmware m) ;;
   n9 <- ser_str0 (sc_device_id m) ;;
   wok (n1 + n2 + n3 + n4 + n5 + n6 + n7 + n8 + n9))%ser.

Definition de_sc (fs : flagset) : De setup_connection :=
  (min_version <- de_u16 ;;
   max_version <- de_u16 ;;
   flags <- de_flags fs ;;
   endpoint_host <- de_str0 STR0_255 ;;
   endpoint_port <- de_u16 ;;
   vendor <- de_str0 STR0_255 ;;
   hardware_version <- de_str0 STR0_255 ;;
   firmware <- de_str0 STR0_255 ;;
   device_id <- de_str0 STR0_255 ;;
   de_lift (sc_new min_version max_version flags (str0_data endpoint_host) endpoint_port
                   (str0_data vendor) (str0_data hardware_version) (str0_data firmware)
                   (str0_data device_id)))%de.

(** ** SetupConnectionSuccess: macro_message/setup_connection_success.rs:33-52 *)
Record setup_connection_success := mkSCS { scs_used_version : N; scs_flags : N }.

Definition scs_new (used_version flags : N) : Result setup_connection_success :=
  Ok (mkSCS used_version flags).

Definition ser_scs (m : setup_connection_success) : wprog N :=
  (n1 <- ser_u16 (scs_used_version m) ;;
   n2 <- ser_flags (scs_flags m) ;;
   wok (n1 + n2))%ser.

Definition de_scs (fs : flagset) : De setup_connection_success :=
  (used_version <- de_u16 ;;
   flags <- de_flags fs ;;
   de_lift (scs_new used_version flags))%de.

(** ** SetupConnectionError: macro_message/setup_connection_error.rs:43-67 *)
Record setup_connection_error := mkSCE {
  sce_flags : N;
  sce_error_code : setup_connection_error_code }.

Definition sce_new (flags : N) (error_code : setup_connection_error_code)
  : Result setup_connection_error :=
  if flags_is_empty flags && sc_code_eqb error_code UnsupportedFeatureFlags
  then Err RequirementError
  else Ok (mkSCE flags error_code).

Definition ser_sce (m : setup_connection_error) : wprog N :=
  (n1 <- ser_flags (sce_flags m) ;;
   n2 <- ser_sc_code (sce_error_code m) ;;
   wok (n1 + n2))%ser.

Definition de_sce (fs : flagset) : De setup_connection_error :=
  (flags <- de_flags fs ;;
   error_code <- de_sc_code ;;
   de_lift (sce_new flags error_code))%de.

(** ** common SetupConnection: common/setup_connection.rs:81-227 *)
Inductive common_setup_connection :=
| CSC_Mining (v : setup_connection)
| CSC_JobNegotiation (v : setup_connection).

(** common/setup_connection.rs:109-131 [new_mining]; flags are a mining::SetupConnectionFlags. *)
Definition csc_new_mining (min_version max_version flags : N) (endpoint_host : bytes)
    (endpoint_port : N) (vendor hardware_version firmware device_id : bytes)
  : Result common_setup_connection :=
  obind (sc_new min_version max_version flags endpoint_host endpoint_port vendor
                hardware_version firmware device_id)
        (fun v => Ok (CSC_Mining v)).

(** common/setup_connection.rs:153-177 [new_job_negotation]. *)
Definition csc_new_job_negotation (min_version max_version flags : N) (endpoint_host : bytes)
    (endpoint_port : N) (vendor hardware_version firmware device_id : bytes)
  : Result common_setup_connection :=
  obind (sc_new min_version max_version flags endpoint_host endpoint_port vendor
                hardware_version firmware device_id)
        (fun v => Ok (CSC_JobNegotiation v)).

(** common/setup_connection.rs:180-198. *)
Definition ser_csc (m : common_setup_connection) : wprog N :=
  match m with
  | CSC_Mining v =>
      (n1 <- ser_protocol PMining ;; n2 <- ser_sc v ;; wok (n1 + n2))%ser
  | CSC_JobNegotiation v =>
      (n1 <- ser_protocol PJobNegotiation ;; n2 <- ser_sc v ;; wok (n1 + n2))%ser
  end.

(** common/setup_connection.rs:200-221. *)
Definition de_csc : De common_setup_connection :=
  (p <- de_protocol ;;
   match p with
   | PMining => v <- de_sc MiningSetupFlags ;; de_ret (CSC_Mining v)
   | PJobNegotiation => v <- de_sc JnSetupFlags ;; de_ret (CSC_JobNegotiation v)
   | _ => de_lift (Err Unimplemented)
   end)%de.

(** ** ChannelEndpointChanged: common/channel_endpoint_changed.rs:9-25 *)
Record channel_endpoint_changed := mkCEC { cec_channel_id : N }.

Definition cec_new (channel_id : N) : Result channel_endpoint_changed := Ok (mkCEC channel_id).

Definition ser_cec (m : channel_endpoint_changed) : wprog N :=
  (n1 <- ser_u32 (cec_channel_id m) ;; wok n1)%ser.

Definition de_cec : De channel_endpoint_changed :=
  (channel_id <- de_u32 ;; de_lift (cec_new channel_id))%de.

(** ** OpenStandardMiningChannel: mining/open_standard_mining_channel.rs:5-48 *)
Record open_standard_mining_channel := mkOSMC {
  osmc_request_id : N;
  osmc_user_identity : str0;
  osmc_nominal_hash_rate : N;   (* f32 bit pattern *)
  osmc_max_target : bytes }.

Definition osmc_new (request_id : N) (user_identity : bytes) (nominal_hash_rate : N)
    (max_target : bytes) : Result open_standard_mining_channel :=
  obind (str0_new STR0_255 user_identity) (fun user_identity' =>
  Ok (mkOSMC request_id user_identity' nominal_hash_rate max_target)).

Definition ser_osmc (m : open_standard_mining_channel) : wprog N :=
  (n1 <- ser_u32 (osmc_request_id m) ;;
   n2 <- ser_str0 (osmc_user_identity m) ;;
   n3 <- ser_f32 (osmc_nominal_hash_rate m) ;;
   n4 <- ser_u256 (osmc_max_target m) ;;
   wok (n1 + n2 + n3 + n4))%ser.

Definition de_osmc : De open_standard_mining_channel :=
  (request_id <- de_u32 ;;
   user_identity <- de_str0 STR0_255 ;;
   nominal_hash_rate <- de_f32 ;;
   max_target <- de_u256 ;;
   de_lift (osmc_new request_id (str0_data user_identity) nominal_hash_rate max_target))%de.

(** ** OpenExtendedMiningChannel: mining/open_extended_mining_channel.rs:6-53 *)
Record open_extended_mining_channel := mkOEMC {
  oemc_request_id : N;
  oemc_user_identity : str0;
  oemc_nominal_hash_rate : N;
  oemc_max_target : bytes;
  oemc_min_extranonce_size : N }.

Definition oemc_new (request_id : N) (user_identity : bytes) (nominal_hash_rate : N)
    (max_target : bytes) (min_extranonce_size : N) : Result open_extended_mining_channel :=
  obind (str0_new STR0_255 user_identity) (fun user_identity' =>
  Ok (mkOEMC request_id user_identity' nominal_hash_rate max_target min_extranonce_size)).

Definition ser_oemc (m : open_extended_mining_channel) : wprog N :=
  (n1 <- ser_u32 (oemc_request_id m) ;;
   n2 <- ser_str0 (oemc_user_identity m) ;;
   n3 <- ser_f32 (oemc_nominal_hash_rate m) ;;
   n4 <- ser_u256 (oemc_max_target m) ;;
   n5 <- ser_u16 (oemc_min_extranonce_size m) ;;
   wok (n1 + n2 + n3 + n4 + n5))%ser.

Definition de_oemc : De open_extended_mining_channel :=
  (request_id <- de_u32 ;;
   user_identity <- de_str0 STR0_255 ;;
   nominal_hash_rate <- de_f32 ;;
   max_target <- de_u256 ;;
   min_extranonce_size <- de_u16 ;;
   de_lift (oemc_new request_id (str0_data user_identity) nominal_hash_rate max_target
                     min_extranonce_size))%de.

(** ** OpenStandardMiningChannelSuccess: mining/open_standard_mining_channel_success.rs:5-45 *)
Record open_standard_mining_channel_success := mkOSMCS {
  osmcs_request_id : N;
  osmcs_channel_id : N;
  osmcs_target : bytes;
  osmcs_extranonce_prefix : b0;
  osmcs_group_channel_id : N }.

Definition osmcs_new (request_id channel_id : N) (target extranonce_prefix : bytes)
    (group_channel_id : N) : Result open_standard_mining_channel_success :=
  obind (b0_new B0_32 extranonce_prefix) (fun extranonce_prefix' =>
  Ok (mkOSMCS request_id channel_id target extranonce_prefix' group_channel_id)).

Definition ser_osmcs (m : open_standard_mining_channel_success) : wprog N :=
  (n1 <- ser_u32 (osmcs_request_id m) ;;
   n2 <- ser_u32 (osmcs_channel_id m) ;;
   n3 <- ser_u256 (osmcs_target m) ;;
   n4 <- ser_b0 B0_32 (osmcs_extranonce_prefix m) ;;
   n5 <- ser_u32 (osmcs_group_channel_id m) ;;
   wok (n1 + n2 + n3 + n4 + n5))%ser.

Definition de_osmcs : De open_standard_mining_channel_success :=
  (request_id <- de_u32 ;;
   channel_id <- de_u32 ;;
   target <- de_u256 ;;
   extranonce_prefix <- de_b0 B0_32 ;;
   group_channel_id <- de_u32 ;;
   de_lift (osmcs_new request_id channel_id target (b0_data extranonce_prefix)
                      group_channel_id))%de.

(** ** OpenExtendedMiningChannelSuccess: mining/open_extended_mining_channel_success.rs:5-46 *)
Record open_extended_mining_channel_success := mkOEMCS {
  oemcs_request_id : N;
  oemcs_channel_id : N;
  oemcs_target : bytes;
  oemcs_extranonce_size : N;
  oemcs_extranonce_prefix : b0 }.

Definition oemcs_new (request_id channel_id : N) (target : bytes) (extranonce_size : N)
    (extranonce_prefix : bytes) : Result open_extended_mining_channel_success :=
  obind (b0_new B0_32 extranonce_prefix) (fun extranonce_prefix' =>
  Ok (mkOEMCS request_id channel_id target extranonce_size extranonce_prefix')).

Definition ser_oemcs (m : open_extended_mining_channel_success) : wprog N :=
  (n1 <- ser_u32 (oemcs_request_id m) ;;
   n2 <- ser_u32 (oemcs_channel_id m) ;;
   n3 <- ser_u256 (oemcs_target m) ;;
   n4 <- ser_u16 (oemcs_extranonce_size m) ;;
   n5 <- ser_b0 B0_32 (oemcs_extranonce_prefix m) ;;
   wok (n1 + n2 + n3 + n4 + n5))%ser.

Definition de_oemcs : De open_extended_mining_channel_success :=
  (request_id <- de_u32 ;;
   channel_id <- de_u32 ;;
   target <- de_u256 ;;
   extranonce_size <- de_u16 ;;
   extranonce_prefix <- de_b0 B0_32 ;;
   de_lift (oemcs_new request_id channel_id target extranonce_size
                      (b0_data extranonce_prefix)))%de.

(** ** Open{Standard,Extended}MiningChannelError: mining/open_mining_channel_error.rs:27-53,
    instantiated in open_standard_mining_channel_error.rs:5 and open_extended_mining_channel_error.rs:6 *)
Record open_mining_channel_error := mkOMCE {
  omce_request_id : N;
  omce_error_code : open_mining_channel_error_code }.

Definition omce_new (request_id : N) (error_code : open_mining_channel_error_code)
  : Result open_mining_channel_error := Ok (mkOMCE request_id error_code).

Definition ser_omce (m : open_mining_channel_error) : wprog N :=
  (n1 <- ser_u32 (omce_request_id m) ;;
   n2 <- ser_omc_code (omce_error_code m) ;;
   wok (n1 + n2))%ser.

Definition de_omce : De open_mining_channel_error :=
  (request_id <- de_u32 ;;
   error_code <- de_omc_code ;;
   de_lift (omce_new request_id error_code))%de.

(** ** UpdateChannel: mining/update_channel.rs:3-36 *)
Record update_channel := mkUC {
  uc_channel_id : N;
  uc_nominal_hash_rate : N;
  uc_max_target : bytes }.

Definition uc_new (channel_id nominal_hash_rate : N) (max_target : bytes) : Result update_channel :=
  Ok (mkUC channel_id nominal_hash_rate max_target).

Definition ser_uc (m : update_channel) : wprog N :=
  (n1 <- ser_u32 (uc_channel_id m) ;;
   n2 <- ser_f32 (uc_nominal_hash_rate m) ;;
   n3 <- ser_u256 (uc_max_target m) ;;
   wok (n1 + n2 + n3))%ser.

Definition de_uc : De update_channel :=
  (channel_id <- de_u32 ;;
   nominal_hash_rate <- de_f32 ;;
   max_target <- de_u256 ;;
   de_lift (uc_new channel_id nominal_hash_rate max_target))%de.

(** ** Derived [PartialEq] *)

(** IEEE-754 binary32 equality on bit patterns ([f32: PartialEq]). *)
Definition f32_is_nan (x : N) : bool :=
  (N.land x 0x7f800000 =? 0x7f800000) && negb (N.land x 0x7fffff =? 0).
Definition f32_is_zero (x : N) : bool := N.land x 0x7fffffff =? 0.
Definition f32_eqb (x y : N) : bool :=
  negb (f32_is_nan x) && negb (f32_is_nan y) &&
  ((x =? y) || (f32_is_zero x && f32_is_zero y)).

(** derive(PartialEq): types/strings.rs:8, types/bytes.rs:12, types/fixed.rs:87. *)
Definition str0_eqb (a b : str0) : bool :=
  (str0_length a =? str0_length b) && bytes_eqb (str0_data a) (str0_data b).
Definition b0_eqb (a b : b0) : bool :=
  (b0_length a =? b0_length b) && bytes_eqb (b0_data a) (b0_data b).

(** derive(PartialEq) of the messages: macro_message/message.rs:22. *)
Definition sc_eqb (a b : setup_connection) : bool :=
  (sc_min_version a =? sc_min_version b) && (sc_max_version a =? sc_max_version b)
  && (sc_flags a =? sc_flags b) && str0_eqb (sc_endpoint_host a) (sc_endpoint_host b)
  && (sc_endpoint_port a =? sc_endpoint_port b) && str0_eqb (sc_vendor a) (sc_vendor b)
  && str0_eqb (sc_hardware_version a) (sc_hardware_version b)
  && str0_eqb (sc_firmware a) (sc_firmware b) && str0_eqb (sc_device_id a) (sc_device_id b).
Definition scs_eqb (a b : setup_connection_success) : bool :=
  (scs_used_version a =? scs_used_version b) && (scs_flags a =? scs_flags b).
Definition sce_eqb (a b : setup_connection_error) : bool :=
  (sce_flags a =? sce_flags b) && sc_code_eqb (sce_error_code a) (sce_error_code b).
Definition cec_eqb (a b : channel_endpoint_changed) : bool := cec_channel_id a =? cec_channel_id b.
Definition osmc_eqb (a b : open_standard_mining_channel) : bool :=
  (osmc_request_id a =? osmc_request_id b) && str0_eqb (osmc_user_identity a) (osmc_user_identity b)
  && f32_eqb (osmc_nominal_hash_rate a) (osmc_nominal_hash_rate b)
  && bytes_eqb (osmc_max_target a) (osmc_max_target b).
Definition oemc_eqb (a b : open_extended_mining_channel) : bool :=
  (oemc_request_id a =? oemc_request_id b) && str0_eqb (oemc_user_identity a) (oemc_user_identity b)
  && f32_eqb (oemc_nominal_hash_rate a) (oemc_nominal_hash_rate b)
  && bytes_eqb (oemc_max_target a) (oemc_max_target b)
  && (oemc_min_extranonce_size a =? oemc_min_extranonce_size b).
Definition osmcs_eqb (a b : open_standard_mining_channel_success) : bool :=
  (osmcs_request_id a =? osmcs_request_id b) && (osmcs_channel_id a =? osmcs_channel_id b)
  && bytes_eqb (osmcs_target a) (osmcs_target b)
  && b0_eqb (osmcs_extranonce_prefix a) (osmcs_extranonce_prefix b)
  && (osmcs_group_channel_id a =? osmcs_group_channel_id b).
Definition oemcs_eqb (a b : open_extended_mining_channel_success) : bool :=
  (oemcs_request_id a =? oemcs_request_id b) && (oemcs_channel_id a =? oemcs_channel_id b)
  && bytes_eqb (oemcs_target a) (oemcs_target b)
  && (oemcs_extranonce_size a =? oemcs_extranonce_size b)
  && b0_eqb (oemcs_extranonce_prefix a) (oemcs_extranonce_prefix b).
Definition omce_eqb (a b : open_mining_channel_error) : bool :=
  (omce_request_id a =? omce_request_id b) && omc_code_eqb (omce_error_code a) (omce_error_code b).
Definition uc_eqb (a b : update_channel) : bool :=
  (uc_channel_id a =? uc_channel_id b)
  && f32_eqb (uc_nominal_hash_rate a) (uc_nominal_hash_rate b)
  && bytes_eqb (uc_max_target a) (uc_max_target b).
