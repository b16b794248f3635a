(** * SpecWire: what the wire should look like, written without the model's encoders.

    The wire is a list of numbers below 256.  Nothing here refers to [to_le], [of_le], the
    serializers or the parser; only the message records (their fields) are shared with the model. *)
From Verif Require Import Base Types Messages Frame.

(** A byte vector seen as numbers. *)
Definition wire (bs : bytes) : list N := map Byte.to_N bs.

(** Byte number [i] of [v] in base 256, and [v] as [k] little-endian bytes. *)
Definition spec_le (k : nat) (v : N) : list N :=
  map (fun i => (v / 256 ^ N.of_nat i) mod 256) (seq 0 k).

(** The number denoted by little-endian digits. *)
Definition spec_val (ds : list N) : N := fold_right (fun d acc => d + 256 * acc) 0 ds.

(** Every Rust slice or Vec has at most isize::MAX bytes (64-bit target). *)
Definition rust_slice (bs : bytes) : Prop := len bs <= 2 ^ 63 - 1.

(** ** Unicode (RFC 3629) *)
Definition scalar_value (c : N) : Prop := c <= 0xD7FF \/ (0xE000 <= c /\ c <= 0x10FFFF).

Definition utf8_encode (c : N) : list N :=
  if c <=? 0x7F then [c]
  else if c <=? 0x7FF then [0xC0 + c / 64; 0x80 + c mod 64]
  else if c <=? 0xFFFF then [0xE0 + c / 4096; 0x80 + c / 64 mod 64; 0x80 + c mod 64]
  else [0xF0 + c / 262144; 0x80 + c / 4096 mod 64; 0x80 + c / 64 mod 64; 0x80 + c mod 64].

(** The byte vector is the UTF-8 encoding of a sequence of Unicode scalar values (a Rust String). *)
Definition utf8_text (bs : bytes) : Prop :=
  exists cs, Forall scalar_value cs /\ wire bs = flat_map utf8_encode cs.

(** ** Values that the Rust types / constructors allow *)
Definition u8_ok (v : N) := v < 2 ^ 8.
Definition u16_ok (v : N) := v < 2 ^ 16.
Definition u32_ok (v : N) := v < 2 ^ 32.
Definition u256_ok (v : bytes) := length v = 32%nat.

Definition str_ok (max : N) (s : str0) : Prop :=
  utf8_text (str0_data s) /\ len (str0_data s) <= max /\ str0_length s = len (str0_data s).
Definition b0_ok (max : N) (v : b0) : Prop :=
  len (b0_data v) <= max /\ b0_length v = len (b0_data v).

(** Number of the highest flag bit defined for each flag type, plus one (the defined bits are 0..k-1). *)
Definition flag_width (fs : flagset) : N :=
  match fs with
  | MiningSetupFlags => 3 | MiningSuccessFlags => 2 | JnSetupFlags => 1 | JnSuccessFlags => 0
  end.
Definition flags_ok (fs : flagset) (bits : N) : Prop :=
  forall i, N.testbit bits i = true -> i < flag_width fs.

Definition sc_ok (fs : flagset) (m : setup_connection) : Prop :=
  u16_ok (sc_min_version m) /\ u16_ok (sc_max_version m) /\ flags_ok fs (sc_flags m) /\
  str_ok 255 (sc_endpoint_host m) /\ u16_ok (sc_endpoint_port m) /\
  str_ok 255 (sc_vendor m) /\ str_ok 255 (sc_hardware_version m) /\
  str_ok 255 (sc_firmware m) /\ str_ok 255 (sc_device_id m) /\
  2 <= sc_min_version m /\ 2 <= sc_max_version m /\
  str0_data (sc_vendor m) <> [] /\ str0_data (sc_firmware m) <> [].

Definition msg_ok (k : kind) : msg_of k -> Prop :=
  match k with
  | K_CommonSetupConnection => fun m =>
      match m with
      | CSC_Mining v => sc_ok MiningSetupFlags v
      | CSC_JobNegotiation v => sc_ok JnSetupFlags v
      end
  | K_MiningSetupConnection => sc_ok MiningSetupFlags
  | K_JnSetupConnection => sc_ok JnSetupFlags
  | K_MiningSetupConnectionSuccess => fun m =>
      u16_ok (scs_used_version m) /\ flags_ok MiningSuccessFlags (scs_flags m)
  | K_JnSetupConnectionSuccess => fun m =>
      u16_ok (scs_used_version m) /\ flags_ok JnSuccessFlags (scs_flags m)
  | K_MiningSetupConnectionError => fun m =>
      flags_ok MiningSetupFlags (sce_flags m) /\
      (sce_error_code m = UnsupportedFeatureFlags -> sce_flags m <> 0)
  | K_JnSetupConnectionError => fun m =>
      flags_ok JnSetupFlags (sce_flags m) /\
      (sce_error_code m = UnsupportedFeatureFlags -> sce_flags m <> 0)
  | K_ChannelEndpointChanged => fun m => u32_ok (cec_channel_id m)
  | K_OpenStandardMiningChannel => fun m =>
      u32_ok (osmc_request_id m) /\ str_ok 255 (osmc_user_identity m) /\
      u32_ok (osmc_nominal_hash_rate m) /\ u256_ok (osmc_max_target m)
  | K_OpenStandardMiningChannelSuccess => fun m =>
      u32_ok (osmcs_request_id m) /\ u32_ok (osmcs_channel_id m) /\ u256_ok (osmcs_target m) /\
      b0_ok 32 (osmcs_extranonce_prefix m) /\ u32_ok (osmcs_group_channel_id m)
  | K_OpenExtendedMiningChannel => fun m =>
      u32_ok (oemc_request_id m) /\ str_ok 255 (oemc_user_identity m) /\
      u32_ok (oemc_nominal_hash_rate m) /\ u256_ok (oemc_max_target m) /\
      u16_ok (oemc_min_extranonce_size m)
  | K_OpenExtendedMiningChannelSuccess => fun m =>
      u32_ok (oemcs_request_id m) /\ u32_ok (oemcs_channel_id m) /\ u256_ok (oemcs_target m) /\
      u16_ok (oemcs_extranonce_size m) /\ b0_ok 32 (oemcs_extranonce_prefix m)
  | K_OpenStandardMiningChannelError | K_OpenExtendedMiningChannelError => fun m =>
      u32_ok (omce_request_id m)
  | K_UpdateChannel => fun m =>
      u32_ok (uc_channel_id m) /\ u32_ok (uc_nominal_hash_rate m) /\ u256_ok (uc_max_target m)
  end.

(** ** Field and message layouts *)
Definition lay_str (s : str0) : list N := spec_le 1 (len (str0_data s)) ++ wire (str0_data s).
Definition lay_b0 (hdr : nat) (v : b0) : list N := spec_le hdr (len (b0_data v)) ++ wire (b0_data v).

(** Registered error code strings as ASCII codes. *)
Definition lay_sc_code (c : setup_connection_error_code) : list N :=
  match c with
  | UnsupportedFeatureFlags => (* "unsupported-feature-flags" *)
      [25; 117;110;115;117;112;112;111;114;116;101;100;45;102;101;97;116;117;114;101;45;102;108;97;103;115]
  | UnsupportedProtocol => (* "unsupported-protocol" *)
      [20; 117;110;115;117;112;112;111;114;116;101;100;45;112;114;111;116;111;99;111;108]
  | ProtocolVersionMismatch => (* "protocol-version-mismatch" *)
      [25; 112;114;111;116;111;99;111;108;45;118;101;114;115;105;111;110;45;109;105;115;109;97;116;99;104]
  end.
Definition lay_omc_code (c : open_mining_channel_error_code) : list N :=
  match c with
  | UnknownUser => (* "unknown-user" *) [12; 117;110;107;110;111;119;110;45;117;115;101;114]
  | MaxTargetOutOfRange => (* "max-target-out-of-range" *)
      [23; 109;97;120;45;116;97;114;103;101;116;45;111;117;116;45;111;102;45;114;97;110;103;101]
  end.

Definition lay_sc (m : setup_connection) : list N :=
  spec_le 2 (sc_min_version m) ++ spec_le 2 (sc_max_version m) ++ spec_le 4 (sc_flags m) ++
  lay_str (sc_endpoint_host m) ++ spec_le 2 (sc_endpoint_port m) ++ lay_str (sc_vendor m) ++
  lay_str (sc_hardware_version m) ++ lay_str (sc_firmware m) ++ lay_str (sc_device_id m).

Definition layout (k : kind) : msg_of k -> list N :=
  match k with
  | K_CommonSetupConnection => fun m =>
      match m with
      | CSC_Mining v => [0] ++ lay_sc v
      | CSC_JobNegotiation v => [1] ++ lay_sc v
      end
  | K_MiningSetupConnection | K_JnSetupConnection => lay_sc
  | K_MiningSetupConnectionSuccess | K_JnSetupConnectionSuccess => fun m =>
      spec_le 2 (scs_used_version m) ++ spec_le 4 (scs_flags m)
  | K_MiningSetupConnectionError | K_JnSetupConnectionError => fun m =>
      spec_le 4 (sce_flags m) ++ lay_sc_code (sce_error_code m)
  | K_ChannelEndpointChanged => fun m => spec_le 4 (cec_channel_id m)
  | K_OpenStandardMiningChannel => fun m =>
      spec_le 4 (osmc_request_id m) ++ lay_str (osmc_user_identity m) ++
      spec_le 4 (osmc_nominal_hash_rate m) ++ wire (osmc_max_target m)
  | K_OpenStandardMiningChannelSuccess => fun m =>
      spec_le 4 (osmcs_request_id m) ++ spec_le 4 (osmcs_channel_id m) ++ wire (osmcs_target m) ++
      lay_b0 1 (osmcs_extranonce_prefix m) ++ spec_le 4 (osmcs_group_channel_id m)
  | K_OpenExtendedMiningChannel => fun m =>
      spec_le 4 (oemc_request_id m) ++ lay_str (oemc_user_identity m) ++
      spec_le 4 (oemc_nominal_hash_rate m) ++ wire (oemc_max_target m) ++
      spec_le 2 (oemc_min_extranonce_size m)
  | K_OpenExtendedMiningChannelSuccess => fun m =>
      spec_le 4 (oemcs_request_id m) ++ spec_le 4 (oemcs_channel_id m) ++ wire (oemcs_target m) ++
      spec_le 2 (oemcs_extranonce_size m) ++ lay_b0 1 (oemcs_extranonce_prefix m)
  | K_OpenStandardMiningChannelError | K_OpenExtendedMiningChannelError => fun m =>
      spec_le 4 (omce_request_id m) ++ lay_omc_code (omce_error_code m)
  | K_UpdateChannel => fun m =>
      spec_le 4 (uc_channel_id m) ++ spec_le 4 (uc_nominal_hash_rate m) ++ wire (uc_max_target m)
  end.

(** ** Frames *)

(** (message type byte, channel bit) of each message type; all extension types are 0. *)
Definition spec_code (t : message_type) : N * bool :=
  match t with
  | MT_SetupConnection => (0x00, false) | MT_SetupConnectionSuccess => (0x01, false)
  | MT_SetupConnectionError => (0x02, false) | MT_ChannelEndpointChanged => (0x03, true)
  | MT_OpenStandardMiningChannel => (0x10, false)
  | MT_OpenStandardMiningChannelSuccess => (0x11, false)
  | MT_OpenStandardMiningChannelError => (0x12, false)
  | MT_OpenExtendedMiningChannel => (0x13, false)
  | MT_OpenExtendedMiningChannelSuccess => (0x14, false)
  | MT_OpenExtendedMiningChannelError => (0x15, false)
  | MT_UpdateChannel => (0x16, true) | MT_UpdateChannelError => (0x17, true)
  | MT_CloseChannel => (0x18, true) | MT_SetExtranoncePrefix => (0x19, true)
  | MT_SubmitSharesStandard => (0x1a, true) | MT_SubmitSharesExtended => (0x1b, true)
  | MT_SubmitSharesSuccess => (0x1c, true) | MT_SubmitSharesError => (0x1d, true)
  | MT_NewMiningJob => (0x1e, true) | MT_NewExtendedMiningJob => (0x1f, true)
  | MT_SetNewPrevHash => (0x20, true) | MT_SetTarget => (0x21, true)
  | MT_SetCustomMiningJob => (0x22, false) | MT_SetCustomMiningJobSuccess => (0x23, false)
  | MT_SetCustomMiningJobError => (0x24, false) | MT_Reconnect => (0x25, false)
  | MT_SetGroupChannel => (0x26, false)
  | MT_TestMessage1 => (0xfe, false) | MT_TestMessage2 => (0xff, true)
  end.

(** Six-byte header (15-bit extension type 0, channel bit on top, type byte, 24-bit length), payload. *)
Definition frame_layout (m : message) : list N :=
  let '(code, chan) := spec_code (m_type m) in
  [0; if chan then 128 else 0] ++ [code] ++ spec_le 3 (len (m_payload m)) ++ wire (m_payload m).
