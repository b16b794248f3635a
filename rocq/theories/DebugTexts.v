(** * DebugTexts: the texts that derive(Debug) gives messages and frames.  Definitions only.

    [{:?}], not the pretty form.  The derived code is that of the standard library, which is not part of /repo:
    a struct is printed as [Name { field: value, field: value }], a tuple struct as [Name(value)], a unit variant
    as its name, a slice as [[a, b]], an integer in decimal. *)
From Coq Require Import Strings.String.
From Verif Require Import Base Codec Types Messages Frame Display.
Local Open Scope N_scope.
Local Open Scope list_scope.

Fixpoint debug_fields (first : bool) (l : list (string * bytes)) : bytes :=
  match l with
  | [] => lit " }"
  | (f, t) :: l' => (if first then lit " { " else lit ", ") ++ lit f ++ lit ": " ++ t ++ debug_fields false l'
  end.
Definition debug_struct (name : string) (l : list (string * bytes)) : bytes := lit name ++ debug_fields true l.
Definition debug_tuple (name : string) (t : bytes) : bytes := lit name ++ lit "(" ++ t ++ lit ")".
(** [Vec<u8>], [[u8; 32]]. *)
Definition debug_list (bs : bytes) : bytes := lit "[" ++ join (lit ", ") (map (fun b => dec (Byte.to_N b)) bs) ++ lit "]".

(** [str]: the characters one by one, some of them escaped ([char::escape_debug_ext] with escape_single_quote off).
    [special] are the code points that are escaped because they cannot be printed or extend the character before
    them: a table of the standard library, left open. *)
Fixpoint chars (bs : bytes) : list bytes :=
  match bs with
  | [] => []
  | b :: r =>
      let cs := chars r in
      match r with
      | b' :: _ => if is_cont b' then match cs with c :: cs' => (b :: c) :: cs' | [] => [[b]] end else [b] :: cs
      | [] => [[b]]
      end
  end.
Definition code_point (c : bytes) : N :=
  match map Byte.to_N c with
  | [x] => x
  | [x; y] => (x - 192) * 64 + (y - 128)
  | [x; y; z] => (x - 224) * 4096 + (y - 128) * 64 + (z - 128)
  | [x; y; z; w] => (x - 240) * 262144 + (y - 128) * 4096 + (z - 128) * 64 + (w - 128)
  | _ => 0
  end.
Fixpoint no_zeros (l : list N) : list N :=
  match l with
  | x :: (_ :: _) as t => if x =? 0 then no_zeros t else l
  | _ => l
  end.
Definition hex_digit (d : N) : byte := nth (N.to_nat d) (lit "0123456789abcdef") x30.
Definition hex (n : N) : bytes :=
  map hex_digit (no_zeros [n / 1048576 mod 16; n / 65536 mod 16; n / 4096 mod 16; n / 256 mod 16; n / 16 mod 16; n mod 16]).

Section Debug.
Variable special : N -> bool.
(** The text of an f32 with these bits; its laws are in SpecDebugTexts. *)
Variable f32_text : N -> bytes.

Definition debug_char (c : bytes) : bytes :=
  let n := code_point c in
  if n =? 0 then [x5c; x30] else if n =? 9 then [x5c; x74] else if n =? 10 then [x5c; x6e] else if n =? 13 then [x5c; x72]
  else if n =? 34 then [x5c; x22] else if n =? 92 then [x5c; x5c]
  else if special n then [x5c; x75; x7b] ++ hex n ++ [x7d] else c.
Definition debug_str (s : bytes) : bytes := [x22] ++ flat_map debug_char (chars s) ++ [x22].

(** derive(Debug): types/strings.rs:8-12, types/bytes.rs:12-16, types/fixed.rs:9-10 and 87-88. *)
Definition str0_name (t : str0type) : string := match t with STR0_32 => "STR0_32" | STR0_255 => "STR0_255" end.
Definition debug_str0 (t : str0type) (v : str0) : bytes :=
  debug_struct (str0_name t) [("length", dec (str0_length v)); ("data", debug_str (str0_data v))]%string.
Definition b0_name (t : b0type) : string :=
  match t with B0_31 => "B0_31" | B0_32 => "B0_32" | B0_255 => "B0_255" | B0_64K => "B0_64K" | B0_16M => "B0_16M" end.
Definition debug_u24 (n : N) : bytes := debug_tuple "U24" (dec n).
Definition debug_b0 (t : b0type) (v : b0) : bytes :=
  debug_struct (b0_name t)
    [("length", match b0_lentype t with LU24 => debug_u24 (b0_length v) | _ => dec (b0_length v) end);
     ("data", debug_list (b0_data v))]%string.
Definition debug_u256 (v : bytes) : bytes := debug_tuple "U256" (debug_list v).

(** derive(Debug): common/setup_connection_error_code.rs:5-18, mining/open_mining_channel_error.rs:7-11. *)
Definition sc_code_name (c : setup_connection_error_code) : bytes :=
  match c with
  | UnsupportedFeatureFlags => lit "UnsupportedFeatureFlags"
  | UnsupportedProtocol => lit "UnsupportedProtocol"
  | ProtocolVersionMismatch => lit "ProtocolVersionMismatch"
  end.
Definition omc_code_name (c : open_mining_channel_error_code) : bytes :=
  match c with UnknownUser => lit "UnknownUser" | MaxTargetOutOfRange => lit "MaxTargetOutOfRange" end.

(** derive(Debug) of the messages, macro_message/message.rs:22-28, with the fields of
    macro_message/setup_connection.rs, setup_connection_success.rs and setup_connection_error.rs,
    common/channel_endpoint_changed.rs:15-18, mining/open_standard_mining_channel.rs:10-31 and _success.rs:8-26,
    mining/open_extended_mining_channel.rs:10-34 and _success.rs:8-27, mining/open_mining_channel_error.rs:37-40,
    mining/update_channel.rs:6-21.  common::SetupConnection (common/setup_connection.rs) has no Debug. *)
Definition debug_sc (fs : flagset) (m : setup_connection) : bytes :=
  debug_struct "SetupConnection"
    [("min_version", dec (sc_min_version m)); ("max_version", dec (sc_max_version m)); ("flags", flags_debug fs (sc_flags m));
     ("endpoint_host", debug_str0 STR0_255 (sc_endpoint_host m)); ("endpoint_port", dec (sc_endpoint_port m));
     ("vendor", debug_str0 STR0_255 (sc_vendor m)); ("hardware_version", debug_str0 STR0_255 (sc_hardware_version m));
     ("firmware", debug_str0 STR0_255 (sc_firmware m)); ("device_id", debug_str0 STR0_255 (sc_device_id m))]%string.
Definition debug_scs (fs : flagset) (m : setup_connection_success) : bytes :=
  debug_struct "SetupConnectionSuccess"
    [("used_version", dec (scs_used_version m)); ("flags", flags_debug fs (scs_flags m))]%string.
Definition debug_sce (fs : flagset) (m : setup_connection_error) : bytes :=
  debug_struct "SetupConnectionError"
    [("flags", flags_debug fs (sce_flags m)); ("error_code", sc_code_name (sce_error_code m))]%string.
Definition debug_omce (name : string) (m : open_mining_channel_error) : bytes :=
  debug_struct name [("request_id", dec (omce_request_id m)); ("error_code", omc_code_name (omce_error_code m))]%string.
Definition debug_message (k : kind) : option (msg_of k -> bytes) :=
  match k with
  | K_CommonSetupConnection => None
  | K_MiningSetupConnection => Some (debug_sc MiningSetupFlags)
  | K_JnSetupConnection => Some (debug_sc JnSetupFlags)
  | K_MiningSetupConnectionSuccess => Some (debug_scs MiningSuccessFlags)
  | K_JnSetupConnectionSuccess => Some (debug_scs JnSuccessFlags)
  | K_MiningSetupConnectionError => Some (debug_sce MiningSetupFlags)
  | K_JnSetupConnectionError => Some (debug_sce JnSetupFlags)
  | K_ChannelEndpointChanged => Some (fun m =>
      debug_struct "ChannelEndpointChanged" [("channel_id", dec (cec_channel_id m))])%string
  | K_OpenStandardMiningChannel => Some (fun m =>
      debug_struct "OpenStandardMiningChannel"
        [("request_id", dec (osmc_request_id m)); ("user_identity", debug_str0 STR0_255 (osmc_user_identity m));
         ("nominal_hash_rate", f32_text (osmc_nominal_hash_rate m)); ("max_target", debug_u256 (osmc_max_target m))])%string
  | K_OpenStandardMiningChannelSuccess => Some (fun m =>
      debug_struct "OpenStandardMiningChannelSuccess"
        [("request_id", dec (osmcs_request_id m)); ("channel_id", dec (osmcs_channel_id m));
         ("target", debug_u256 (osmcs_target m)); ("extranonce_prefix", debug_b0 B0_32 (osmcs_extranonce_prefix m));
         ("group_channel_id", dec (osmcs_group_channel_id m))])%string
  | K_OpenStandardMiningChannelError => Some (debug_omce "OpenStandardMiningChannelError")
  | K_OpenExtendedMiningChannel => Some (fun m =>
      debug_struct "OpenExtendedMiningChannel"
        [("request_id", dec (oemc_request_id m)); ("user_identity", debug_str0 STR0_255 (oemc_user_identity m));
         ("nominal_hash_rate", f32_text (oemc_nominal_hash_rate m)); ("max_target", debug_u256 (oemc_max_target m));
         ("min_extranonce_size", dec (oemc_min_extranonce_size m))])%string
  | K_OpenExtendedMiningChannelSuccess => Some (fun m =>
      debug_struct "OpenExtendedMiningChannelSuccess"
        [("request_id", dec (oemcs_request_id m)); ("channel_id", dec (oemcs_channel_id m));
         ("target", debug_u256 (oemcs_target m)); ("extranonce_size", dec (oemcs_extranonce_size m));
         ("extranonce_prefix", debug_b0 B0_32 (oemcs_extranonce_prefix m))])%string
  | K_OpenExtendedMiningChannelError => Some (debug_omce "OpenExtendedMiningChannelError")
  | K_UpdateChannel => Some (fun m =>
      debug_struct "UpdateChannel"
        [("channel_id", dec (uc_channel_id m)); ("nominal_hash_rate", f32_text (uc_nominal_hash_rate m));
         ("max_target", debug_u256 (uc_max_target m))])%string
  end.
End Debug.

(** derive(Debug), types/message_type.rs:5-42. *)
Definition message_type_name (t : message_type) : bytes :=
  match t with
  | MT_SetupConnection => lit "SetupConnection"
  | MT_SetupConnectionSuccess => lit "SetupConnectionSuccess"
  | MT_SetupConnectionError => lit "SetupConnectionError"
  | MT_ChannelEndpointChanged => lit "ChannelEndpointChanged"
  | MT_OpenStandardMiningChannel => lit "OpenStandardMiningChannel"
  | MT_OpenStandardMiningChannelSuccess => lit "OpenStandardMiningChannelSuccess"
  | MT_OpenStandardMiningChannelError => lit "OpenStandardMiningChannelError"
  | MT_OpenExtendedMiningChannel => lit "OpenExtendedMiningChannel"
  | MT_OpenExtendedMiningChannelSuccess => lit "OpenExtendedMiningChannelSuccess"
  | MT_OpenExtendedMiningChannelError => lit "OpenExtendedMiningChannelError"
  | MT_UpdateChannel => lit "UpdateChannel"
  | MT_UpdateChannelError => lit "UpdateChannelError"
  | MT_CloseChannel => lit "CloseChannel"
  | MT_SetExtranoncePrefix => lit "SetExtranoncePrefix"
  | MT_SubmitSharesStandard => lit "SubmitSharesStandard"
  | MT_SubmitSharesExtended => lit "SubmitSharesExtended"
  | MT_SubmitSharesSuccess => lit "SubmitSharesSuccess"
  | MT_SubmitSharesError => lit "SubmitSharesError"
  | MT_NewMiningJob => lit "NewMiningJob"
  | MT_NewExtendedMiningJob => lit "NewExtendedMiningJob"
  | MT_SetNewPrevHash => lit "SetNewPrevHash"
  | MT_SetTarget => lit "SetTarget"
  | MT_SetCustomMiningJob => lit "SetCustomMiningJob"
  | MT_SetCustomMiningJobSuccess => lit "SetCustomMiningJobSuccess"
  | MT_SetCustomMiningJobError => lit "SetCustomMiningJobError"
  | MT_Reconnect => lit "Reconnect"
  | MT_SetGroupChannel => lit "SetGroupChannel"
  | MT_TestMessage1 => lit "TestMessage1"
  | MT_TestMessage2 => lit "TestMessage2"
  end.
(** derive(Debug), codec/frame.rs:18-22. *)
Definition debug_frame (m : message) : bytes :=
  debug_struct "Message" [("message_type", message_type_name (m_type m)); ("payload", debug_list (m_payload m))]%string.
