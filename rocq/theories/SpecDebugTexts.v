(** * SpecDebugTexts: what the text of a message tells. *)
From Coq Require Import Strings.String.
From Verif Require Import Base Codec Types Messages Frame SpecWire SpecTypes SpecTexts DebugTexts.
Local Open Scope N_scope.
Local Open Scope list_scope.

(** The Debug of f32 in the standard library (assumed): numbers that can be told apart have different texts, all NaN
    have the same text, and no text contains a comma or a space. *)
Definition f32_text_ok (f32_text : N -> bytes) : Prop :=
  (forall x y, u32_ok x -> u32_ok y -> (f32_text x = f32_text y <-> x = y \/ (is_nan_bits x /\ is_nan_bits y))) /\
  (forall x, u32_ok x -> ~ In x2c (f32_text x) /\ ~ In x20 (f32_text x)).

(** The same message but for which NaN its hash rate is. *)
Definition same_but_nan (k : kind) (a b : msg_of k) : Prop :=
  zero_rate k a = zero_rate k b /\
  Forall2 (fun x y => x = y \/ (is_nan_bits x /\ is_nan_bits y)) (hash_rates k a) (hash_rates k b).

(** The name of the struct of a message, without the module it is in. *)
Definition struct_name (k : kind) : string :=
  match k with
  | K_CommonSetupConnection => ""
  | K_MiningSetupConnection | K_JnSetupConnection => "SetupConnection"
  | K_MiningSetupConnectionSuccess | K_JnSetupConnectionSuccess => "SetupConnectionSuccess"
  | K_MiningSetupConnectionError | K_JnSetupConnectionError => "SetupConnectionError"
  | K_ChannelEndpointChanged => "ChannelEndpointChanged"
  | K_OpenStandardMiningChannel => "OpenStandardMiningChannel"
  | K_OpenStandardMiningChannelSuccess => "OpenStandardMiningChannelSuccess"
  | K_OpenStandardMiningChannelError => "OpenStandardMiningChannelError"
  | K_OpenExtendedMiningChannel => "OpenExtendedMiningChannel"
  | K_OpenExtendedMiningChannelSuccess => "OpenExtendedMiningChannelSuccess"
  | K_OpenExtendedMiningChannelError => "OpenExtendedMiningChannelError"
  | K_UpdateChannel => "UpdateChannel"
  end%string.

(** Hexadecimal digits, lower case, the most significant first, no leading zero. *)
Definition hexadecimal (ds : list N) (n : N) : Prop :=
  ds <> [] /\ Forall (fun d => 48 <= d <= 57 \/ 97 <= d <= 102) ds /\
  fold_left (fun acc d => 16 * acc + (if d <=? 57 then d - 48 else d - 87)) ds 0 = n /\
  (hd_error ds = Some 48 -> ds = [48]).
(** How a code point is shown inside quotes: six have a backslash and a letter or themselves, those called special
    are shown by their number, and the others as they are. *)
Definition own_escapes : list (N * N) := [(0, 48); (9, 116); (10, 110); (13, 114); (34, 34); (92, 92)].
Inductive shown_as (special : N -> bool) : N -> list N -> Prop :=
| sa_own : forall c z, In (c, z) own_escapes -> shown_as special c [92; z]
| sa_hex : forall c ds, ~ In c (map fst own_escapes) -> special c = true -> hexadecimal ds c ->
    shown_as special c ([92; 117; 123] ++ ds ++ [125])
| sa_self : forall c, ~ In c (map fst own_escapes) -> special c = false -> shown_as special c (utf8_encode c).

(** ** The whole text of a message *)
Definition between (sep : bytes) (l : list bytes) : bytes :=
  match l with
  | [] => []
  | x :: l' => x ++ flat_map (fun y => sep ++ y) l'
  end.
Definition string_text (special : N -> bool) (s : bytes) (t : bytes) : Prop :=
  exists cs ps, Forall scalar_value cs /\ wire s = flat_map utf8_encode cs /\ Forall2 (shown_as special) cs ps /\
  wire t = 34 :: concat ps ++ [34].
Definition bytes_text (bs t : bytes) : Prop :=
  exists ds, Forall2 (fun d b => decimal d (Byte.to_N b)) ds bs /\
  t = list_byte_of_string "[" ++ between (list_byte_of_string ", ") ds ++ list_byte_of_string "]".
(** A struct: its name and, for each field, the name of the field and what its text must be. *)
Definition record_text (name : string) (fs : list (string * (bytes -> Prop))) (t : bytes) : Prop :=
  exists ts, Forall2 (fun x f => snd f x) ts fs /\
  t = list_byte_of_string name ++ list_byte_of_string " { " ++
      between (list_byte_of_string ", ")
        (map (fun p => list_byte_of_string (fst (snd p)) ++ list_byte_of_string ": " ++ fst p) (combine ts fs)) ++
      list_byte_of_string " }".
Definition number (n : N) (t : bytes) : Prop := decimal t n.
Definition str255 (special : N -> bool) (v : str0) : bytes -> Prop :=
  record_text "STR0_255" [("length", number (str0_length v)); ("data", string_text special (str0_data v))]%string.
Definition b032 (v : b0) : bytes -> Prop :=
  record_text "B0_32" [("length", number (b0_length v)); ("data", bytes_text (b0_data v))]%string.
Definition u256 (v t : bytes) : Prop := exists x, bytes_text v x /\ t = list_byte_of_string "U256(" ++ x ++ list_byte_of_string ")".
Definition exactly (s : bytes) (t : bytes) : Prop := t = s.
Definition variant (s : string) : bytes -> Prop := exactly (list_byte_of_string s).
Definition sc_reason (c : setup_connection_error_code) : string :=
  match c with
  | UnsupportedFeatureFlags => "UnsupportedFeatureFlags" | UnsupportedProtocol => "UnsupportedProtocol"
  | ProtocolVersionMismatch => "ProtocolVersionMismatch"
  end%string.
Definition omc_reason (c : open_mining_channel_error_code) : string :=
  match c with UnknownUser => "UnknownUser" | MaxTargetOutOfRange => "MaxTargetOutOfRange" end%string.
Definition setup_fields (special : N -> bool) (fs : flagset) (m : setup_connection) : list (string * (bytes -> Prop)) :=
  [("min_version", number (sc_min_version m)); ("max_version", number (sc_max_version m));
   ("flags", exactly (flags_text fs (sc_flags m))); ("endpoint_host", str255 special (sc_endpoint_host m));
   ("endpoint_port", number (sc_endpoint_port m)); ("vendor", str255 special (sc_vendor m));
   ("hardware_version", str255 special (sc_hardware_version m)); ("firmware", str255 special (sc_firmware m));
   ("device_id", str255 special (sc_device_id m))]%string.
Definition fields_shown (special : N -> bool) (f32_text : N -> bytes) (k : kind) : msg_of k -> list (string * (bytes -> Prop)) :=
  match k with
  | K_CommonSetupConnection => fun _ => []
  | K_MiningSetupConnection => setup_fields special MiningSetupFlags
  | K_JnSetupConnection => setup_fields special JnSetupFlags
  | K_MiningSetupConnectionSuccess => fun m =>
      [("used_version", number (scs_used_version m)); ("flags", exactly (flags_text MiningSuccessFlags (scs_flags m)))]
  | K_JnSetupConnectionSuccess => fun m =>
      [("used_version", number (scs_used_version m)); ("flags", exactly (flags_text JnSuccessFlags (scs_flags m)))]
  | K_MiningSetupConnectionError => fun m =>
      [("flags", exactly (flags_text MiningSetupFlags (sce_flags m))); ("error_code", variant (sc_reason (sce_error_code m)))]
  | K_JnSetupConnectionError => fun m =>
      [("flags", exactly (flags_text JnSetupFlags (sce_flags m))); ("error_code", variant (sc_reason (sce_error_code m)))]
  | K_ChannelEndpointChanged => fun m => [("channel_id", number (cec_channel_id m))]
  | K_OpenStandardMiningChannel => fun m =>
      [("request_id", number (osmc_request_id m)); ("user_identity", str255 special (osmc_user_identity m));
       ("nominal_hash_rate", exactly (f32_text (osmc_nominal_hash_rate m))); ("max_target", u256 (osmc_max_target m))]
  | K_OpenStandardMiningChannelSuccess => fun m =>
      [("request_id", number (osmcs_request_id m)); ("channel_id", number (osmcs_channel_id m));
       ("target", u256 (osmcs_target m)); ("extranonce_prefix", b032 (osmcs_extranonce_prefix m));
       ("group_channel_id", number (osmcs_group_channel_id m))]
  | K_OpenExtendedMiningChannel => fun m =>
      [("request_id", number (oemc_request_id m)); ("user_identity", str255 special (oemc_user_identity m));
       ("nominal_hash_rate", exactly (f32_text (oemc_nominal_hash_rate m))); ("max_target", u256 (oemc_max_target m));
       ("min_extranonce_size", number (oemc_min_extranonce_size m))]
  | K_OpenExtendedMiningChannelSuccess => fun m =>
      [("request_id", number (oemcs_request_id m)); ("channel_id", number (oemcs_channel_id m));
       ("target", u256 (oemcs_target m)); ("extranonce_size", number (oemcs_extranonce_size m));
       ("extranonce_prefix", b032 (oemcs_extranonce_prefix m))]
  | K_OpenStandardMiningChannelError | K_OpenExtendedMiningChannelError => fun m =>
      [("request_id", number (omce_request_id m)); ("error_code", variant (omc_reason (omce_error_code m)))]
  | K_UpdateChannel => fun m =>
      [("channel_id", number (uc_channel_id m)); ("nominal_hash_rate", exactly (f32_text (uc_nominal_hash_rate m)));
       ("max_target", u256 (uc_max_target m))]
  end%string.
(** A frame shows the name of its type as it is declared. *)
Definition type_variant (t : message_type) : string :=
  match t with
  | MT_SetupConnection => "SetupConnection"
  | MT_SetupConnectionSuccess => "SetupConnectionSuccess"
  | MT_SetupConnectionError => "SetupConnectionError"
  | MT_ChannelEndpointChanged => "ChannelEndpointChanged"
  | MT_OpenStandardMiningChannel => "OpenStandardMiningChannel"
  | MT_OpenStandardMiningChannelSuccess => "OpenStandardMiningChannelSuccess"
  | MT_OpenStandardMiningChannelError => "OpenStandardMiningChannelError"
  | MT_OpenExtendedMiningChannel => "OpenExtendedMiningChannel"
  | MT_OpenExtendedMiningChannelSuccess => "OpenExtendedMiningChannelSuccess"
  | MT_OpenExtendedMiningChannelError => "OpenExtendedMiningChannelError"
  | MT_UpdateChannel => "UpdateChannel"
  | MT_UpdateChannelError => "UpdateChannelError"
  | MT_CloseChannel => "CloseChannel"
  | MT_SetExtranoncePrefix => "SetExtranoncePrefix"
  | MT_SubmitSharesStandard => "SubmitSharesStandard"
  | MT_SubmitSharesExtended => "SubmitSharesExtended"
  | MT_SubmitSharesSuccess => "SubmitSharesSuccess"
  | MT_SubmitSharesError => "SubmitSharesError"
  | MT_NewMiningJob => "NewMiningJob"
  | MT_NewExtendedMiningJob => "NewExtendedMiningJob"
  | MT_SetNewPrevHash => "SetNewPrevHash"
  | MT_SetTarget => "SetTarget"
  | MT_SetCustomMiningJob => "SetCustomMiningJob"
  | MT_SetCustomMiningJobSuccess => "SetCustomMiningJobSuccess"
  | MT_SetCustomMiningJobError => "SetCustomMiningJobError"
  | MT_Reconnect => "Reconnect"
  | MT_SetGroupChannel => "SetGroupChannel"
  | MT_TestMessage1 => "TestMessage1"
  | MT_TestMessage2 => "TestMessage2"
  end%string.
