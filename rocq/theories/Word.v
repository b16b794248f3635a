(** * Word: decoding and framing on a machine whose [usize] has 32 or 64 bits.  Definitions only.

    Codec, Types, Messages and Frame are the 64-bit machine.  What depends on the width of [usize] in the code:
    the addition in [ByteParser::next_by] and the cast of a payload's length to u32 in [Message::serialize].  All other
    casts (u8, u16 and u32 to usize: types/bytes.rs:67, types/fixed.rs:44 and 50, types/strings.rs:65,
    codec/frame.rs:69) lose nothing on either machine.  The crate needs std, which no 16-bit target has. *)
From Verif Require Import Base Codec Types Messages Frame Catalog Macro Nest.

Inductive width := W32 | W64.
Definition usize_mod (w : width) : N := match w with W32 => 2 ^ 32 | W64 => 2 ^ 64 end.

(** [a + b] on usize: panics with overflow checks, wraps without. *)
Definition usize_add_w (w : width) (pf : profile) (a b : N) : option N :=
  if a + b <? usize_mod w then Some (a + b)
  else match pf with Debug => None | Release => Some ((a + b) mod usize_mod w) end.

Section Word.
Variable w : width.

(** codec/parser.rs:16-26. *)
Definition next_by_w (step : N) : De bytes :=
  fun pf p =>
    match usize_add_w w pf (p_start p) step with
    | None => (p, Panic)
    | Some offset =>
        match slice_get (p_bytes p) (p_start p) offset with
        | None => (p, Err ParseError)
        | Some b => (mkParser (p_bytes p) offset, Ok b)
        end
    end.

(** types/primitives.rs:62-96. *)
Definition de_uint_w (k : nat) : De N :=
  (b <- next_by_w (N.of_nat k) ;;
   buffer <- de_lift (clone_from_slice (N.of_nat k) b) ;;
   de_ret (of_le buffer))%de.
(** types/primitives.rs:62-69. *)
Definition de_u8_w := de_uint_w 1.
(** types/primitives.rs:71-78. *)
Definition de_u16_w := de_uint_w 2.
(** types/primitives.rs:80-87. *)
Definition de_u32_w := de_uint_w 4.
(** types/primitives.rs:89-96. *)
Definition de_f32_w := de_uint_w 4.
(** types/primitives.rs:53-60. *)
Definition de_bool_w : De bool :=
  (b <- next_by_w 1 ;;
   buffer <- de_lift (clone_from_slice 1 b) ;;
   de_ret (N.eqb (N.land (Byte.to_N (hd x00 buffer)) 1) 1))%de.
(** types/fixed.rs:68-76. *)
Definition de_u24_w : De N :=
  (b <- next_by_w 3 ;;
   buffer <- de_lift (clone_from_slice 3 b) ;;
   de_lift (u24_new (of_le (buffer ++ [x00]))))%de.
(** types/fixed.rs:90-96. *)
Definition de_u256_w : De bytes :=
  (b <- next_by_w 32 ;;
   de_lift (clone_from_slice 32 b))%de.
(** types/bytes.rs:65. *)
Definition de_len_w (lt : lentype) : De N :=
  match lt with LU8 => de_u8_w | LU16 => de_u16_w | LU24 => de_u24_w end.
(** types/bytes.rs:62-71. *)
Definition de_b0_w (t : b0type) : De b0 :=
  (header_length <- de_len_w (b0_lentype t) ;;
   bs <- next_by_w header_length ;;
   de_lift (b0_new t bs))%de.
(** types/strings.rs:58-69. *)
Definition de_str0_w (t : str0type) : De str0 :=
  (header_length <- de_u8_w ;;
   data_buffer <- next_by_w header_length ;;
   s <- de_lift (string_from_utf8 data_buffer) ;;
   de_lift (str0_new t s))%de.
(** types/flags.rs:23-27. *)
Definition de_flags_w (fs : flagset) : De N :=
  (b <- de_u32_w ;;
   de_lift (match flags_from_bits fs b with Some f => Ok f | None => Err UnknownFlags end))%de.
(** types/error_code.rs:77-83. *)
Definition de_sc_code_w : De setup_connection_error_code :=
  (s <- de_str0_w STR0_255 ;; de_lift (sc_code_from_str (str0_data s)))%de.
(** types/error_code.rs:77-83. *)
Definition de_omc_code_w : De open_mining_channel_error_code :=
  (s <- de_str0_w STR0_255 ;; de_lift (omc_code_from_str (str0_data s)))%de.
(** common/setup_connection.rs:72-76. *)
Definition de_protocol_w : De protocol :=
  (b <- de_u8_w ;; de_lift (protocol_try_from b))%de.
(** macro_message/setup_connection.rs:70-101. *)
Definition de_sc_w (fs : flagset) : De setup_connection :=
  (min_version <- de_u16_w ;;
   max_version <- de_u16_w ;;
   flags <- de_flags_w fs ;;
   endpoint_host <- de_str0_w STR0_255 ;;
   endpoint_port <- de_u16_w ;;
   vendor <- de_str0_w STR0_255 ;;
   hardware_version <- de_str0_w STR0_255 ;;
   firmware <- de_str0_w STR0_255 ;;
   device_id <- de_str0_w STR0_255 ;;
   de_lift (sc_new min_version max_version flags (str0_data endpoint_host) endpoint_port
                   (str0_data vendor) (str0_data hardware_version) (str0_data firmware)
                   (str0_data device_id)))%de.
(** macro_message/setup_connection_success.rs:33-52. *)
Definition de_scs_w (fs : flagset) : De setup_connection_success :=
  (used_version <- de_u16_w ;;
   flags <- de_flags_w fs ;;
   de_lift (scs_new used_version flags))%de.
(** macro_message/setup_connection_error.rs:43-67. *)
Definition de_sce_w (fs : flagset) : De setup_connection_error :=
  (flags <- de_flags_w fs ;;
   error_code <- de_sc_code_w ;;
   de_lift (sce_new flags error_code))%de.
(** common/setup_connection.rs:200-221. *)
Definition de_csc_w : De common_setup_connection :=
  (p <- de_protocol_w ;;
   match p with
   | PMining => v <- de_sc_w MiningSetupFlags ;; de_ret (CSC_Mining v)
   | PJobNegotiation => v <- de_sc_w JnSetupFlags ;; de_ret (CSC_JobNegotiation v)
   | _ => de_lift (Err Unimplemented)
   end)%de.
(** common/channel_endpoint_changed.rs:9-25. *)
Definition de_cec_w : De channel_endpoint_changed :=
  (channel_id <- de_u32_w ;; de_lift (cec_new channel_id))%de.
(** mining/open_standard_mining_channel.rs:5-48. *)
Definition de_osmc_w : De open_standard_mining_channel :=
  (request_id <- de_u32_w ;;
   user_identity <- de_str0_w STR0_255 ;;
   nominal_hash_rate <- de_f32_w ;;
   max_target <- de_u256_w ;;
   de_lift (osmc_new request_id (str0_data user_identity) nominal_hash_rate max_target))%de.
(** mining/open_extended_mining_channel.rs:6-53. *)
Definition de_oemc_w : De open_extended_mining_channel :=
  (request_id <- de_u32_w ;;
   user_identity <- de_str0_w STR0_255 ;;
   nominal_hash_rate <- de_f32_w ;;
   max_target <- de_u256_w ;;
   min_extranonce_size <- de_u16_w ;;
   de_lift (oemc_new request_id (str0_data user_identity) nominal_hash_rate max_target
                     min_extranonce_size))%de.
(** mining/open_standard_mining_channel_success.rs:5-45. *)
Definition de_osmcs_w : De open_standard_mining_channel_success :=
  (request_id <- de_u32_w ;;
   channel_id <- de_u32_w ;;
   target <- de_u256_w ;;
   extranonce_prefix <- de_b0_w B0_32 ;;
   group_channel_id <- de_u32_w ;;
   de_lift (osmcs_new request_id channel_id target (b0_data extranonce_prefix)
                      group_channel_id))%de.
(** mining/open_extended_mining_channel_success.rs:5-46. *)
Definition de_oemcs_w : De open_extended_mining_channel_success :=
  (request_id <- de_u32_w ;;
   channel_id <- de_u32_w ;;
   target <- de_u256_w ;;
   extranonce_size <- de_u16_w ;;
   extranonce_prefix <- de_b0_w B0_32 ;;
   de_lift (oemcs_new request_id channel_id target extranonce_size
                      (b0_data extranonce_prefix)))%de.
(** mining/open_mining_channel_error.rs:27-53. *)
Definition de_omce_w : De open_mining_channel_error :=
  (request_id <- de_u32_w ;;
   error_code <- de_omc_code_w ;;
   de_lift (omce_new request_id error_code))%de.
(** mining/update_channel.rs:3-36. *)
Definition de_uc_w : De update_channel :=
  (channel_id <- de_u32_w ;;
   nominal_hash_rate <- de_f32_w ;;
   max_target <- de_u256_w ;;
   de_lift (uc_new channel_id nominal_hash_rate max_target))%de.
(** codec/frame.rs:56-74. *)
Definition de_message_w : De message :=
  (ext <- de_u16_w ;;
   let channel_bit := negb (N.land ext CHANNEL_BIT_MASK =? 0) in
   let ext := N.land ext EXTENSION_TYPE_MASK in
   msg <- de_u8_w ;;
   mt <- de_lift (mt_new ext msg) ;;
   if negb (Bool.eqb (mt_channel_bit mt) channel_bit)
   then de_lift (Err (UnexpectedChannelBit channel_bit))
   else
     message_length <- de_u24_w ;;
     payload <- next_by_w message_length ;;
     de_ret (mkMessage mt payload))%de.
(** The Frameable types (Frame.v), decoded. *)
Definition de_kind_w (k : kind) : De (msg_of k) :=
  match k return De (msg_of k) with
  | K_CommonSetupConnection => de_csc_w
  | K_MiningSetupConnection => de_sc_w MiningSetupFlags
  | K_MiningSetupConnectionSuccess => de_scs_w MiningSuccessFlags
  | K_MiningSetupConnectionError => de_sce_w MiningSetupFlags
  | K_JnSetupConnection => de_sc_w JnSetupFlags
  | K_JnSetupConnectionSuccess => de_scs_w JnSuccessFlags
  | K_JnSetupConnectionError => de_sce_w JnSetupFlags
  | K_ChannelEndpointChanged => de_cec_w
  | K_OpenStandardMiningChannel => de_osmc_w
  | K_OpenStandardMiningChannelSuccess => de_osmcs_w
  | K_OpenStandardMiningChannelError => de_omce_w
  | K_OpenExtendedMiningChannel => de_oemc_w
  | K_OpenExtendedMiningChannelSuccess => de_oemcs_w
  | K_OpenExtendedMiningChannelError => de_omce_w
  | K_UpdateChannel => de_uc_w
  end.
(** Every wire type (Catalog.v). *)
Definition de_of_w (t : ty) : De (val t) :=
  match t return De (val t) with
  | T_u8 => de_u8_w | T_u16 => de_u16_w | T_u32 => de_u32_w | T_f32 => de_f32_w | T_bool => de_bool_w
  | T_U24 => de_u24_w | T_U256 => de_u256_w
  | T_B0 t => de_b0_w t
  | T_STR0 t => de_str0_w t
  | T_flags fs => de_flags_w fs
  | T_sc_code => de_sc_code_w | T_omc_code => de_omc_code_w
  | T_protocol => de_protocol_w
  | T_msg k => de_kind_w k
  | T_frame => de_message_w
  end.

(** [usize as u32], codec/frame.rs:43: nothing to cut where usize has 32 bits. *)
Definition as_u32 (n : N) : N := match w with W32 => n | W64 => n mod 2 ^ 32 end.

(** codec/frame.rs:33-54.  Simplified as in Frame.v: the sum of the counts is not cut to usize (Sum.v, C136). *)
Definition ser_message_w (m : message) : wprog N :=
  let msg := mt_msg_type (m_type m) in
  let ext := mt_ext_type (m_type m) in
  let ext := if mt_channel_bit (m_type m) then N.lor ext CHANNEL_BIT_MASK else ext in
  (message_length <- WRet (u24_new (as_u32 (len (m_payload m)))) ;;
   n1 <- ser_u16 ext ;;
   n2 <- ser_u8 msg ;;
   n3 <- ser_u24 message_length ;;
   n4 <- wwrite (m_payload m) ;;
   wok (n1 + n2 + n3 + n4))%ser.

(** codec/frame.rs:89-101. *)
Definition unframe_w (k : kind) (pf : profile) (m : message) : Result (msg_of k) :=
  if negb (mt_eqb (fr_type (frameable_of k)) (m_type m))
  then Err (UnexpectedMessageType (mt_ext_type (fr_type (frameable_of k))) (mt_msg_type (fr_type (frameable_of k))))
  else deserialize (de_kind_w k) pf (m_payload m).

(** macro_message/message.rs:40-46, as in Macro.v. *)
Fixpoint de_fields_w (ts : list ty) : De (fields ts) :=
  match ts with
  | [] => de_ret tt
  | t :: ts' =>
      (x <- de_of_w t ;;
       xs <- de_fields_w ts' ;;
       de_ret (x, xs))%de
  end.
Definition im_de_w (ts : list ty) {M : Type} (new : fields ts -> Result M) : De M :=
  (v <- de_fields_w ts ;; de_lift (new v))%de.

(** macro_message/message.rs:40-46, nested as in Nest.v. *)
Fixpoint shape_de_w {A} (s : shape A) : De A :=
  match s with
  | S_lib t => de_of_w t
  | S_msg fs _ new => (v <- shapes_de_w fs ;; de_lift (new v))%de
  end
with shapes_de_w {F} (fs : shapes F) : De F :=
  match fs with
  | S_nil => de_ret tt
  | S_cons s fs' => (x <- shape_de_w s ;; xs <- shapes_de_w fs' ;; de_ret (x, xs))%de
  end.
End Word.
