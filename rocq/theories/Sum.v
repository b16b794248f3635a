(** * Sum: the number of bytes that [serialize] reports, with the additions of a 32-bit or 64-bit machine.  Definitions only.

    Types, Messages, Frame, Macro and Nest add the counts as natural numbers.  Here every addition of the serializers is
    an addition on usize: it panics with overflow checks and wraps without ([iter().sum()] takes the checks of the
    crate that calls it). *)
From Verif Require Import Base Codec Types Messages Frame Catalog Nest Word.

Section Sum.
Variable w : width.
Variable pf : profile.

(** [a + b]. *)
Definition wadd (a b : N) : wprog N := match usize_add_w w pf a b with Some n => wok n | None => WRet Panic end.
(** [[..].iter().sum()]: from 0, first to last. *)
Fixpoint wsum_from (acc : N) (ns : list N) : wprog N :=
  match ns with
  | [] => wok acc
  | n :: ns' => (acc' <- wadd acc n ;; wsum_from acc' ns')%ser
  end.
(** An array of calls [field.serialize(writer)?], evaluated first to last. *)
Fixpoint counts (ps : list (wprog N)) : wprog (list N) :=
  match ps with
  | [] => wok []
  | p :: ps' => (n <- p ;; ns <- counts ps' ;; wok (n :: ns))%ser
  end.
Definition array_sum (ps : list (wprog N)) : wprog N := (ns <- counts ps ;; wsum_from 0 ns)%ser.

(** types/bytes.rs:74-82. *)
Definition ser_b0_x (t : b0type) (v : b0) : wprog N :=
  (header_length <- ser_len (b0_lentype t) (b0_length v) ;;
   _ <- wwrite (b0_data v) ;;
   wadd header_length (len (b0_data v)))%ser.
(** types/strings.rs:72-80. *)
Definition ser_str0_x (v : str0) : wprog N :=
  (header_length <- ser_u8 (str0_length v) ;;
   _ <- wwrite (str0_data v) ;;
   wadd header_length (str0_length v))%ser.
(** types/error_code.rs:71-75. *)
Definition ser_sc_code_x (c : setup_connection_error_code) : wprog N := ser_str0_x (code_str0 (sc_code_str c)).
Definition ser_omc_code_x (c : open_mining_channel_error_code) : wprog N := ser_str0_x (code_str0 (omc_code_str c)).

(** macro_message/message.rs:30-38 for the declarations macro_message/setup_connection.rs:71-101,
    setup_connection_success.rs, setup_connection_error.rs, common/channel_endpoint_changed.rs, mining/open_*.rs and
    mining/update_channel.rs. *)
Definition ser_sc_x (m : setup_connection) : wprog N :=
  array_sum [ser_u16 (sc_min_version m); ser_u16 (sc_max_version m); ser_flags (sc_flags m); ser_str0_x (sc_endpoint_host m);
             ser_u16 (sc_endpoint_port m); ser_str0_x (sc_vendor m); ser_str0_x (sc_hardware_version m);
             ser_str0_x (sc_firmware m); ser_str0_x (sc_device_id m)].
(** common/setup_connection.rs:180-198. *)
Definition ser_csc_x (m : common_setup_connection) : wprog N :=
  match m with
  | CSC_Mining v => (n1 <- ser_protocol PMining ;; n2 <- ser_sc_x v ;; wadd n1 n2)%ser
  | CSC_JobNegotiation v => (n1 <- ser_protocol PJobNegotiation ;; n2 <- ser_sc_x v ;; wadd n1 n2)%ser
  end.
Definition ser_scs_x (m : setup_connection_success) : wprog N :=
  array_sum [ser_u16 (scs_used_version m); ser_flags (scs_flags m)].
Definition ser_sce_x (m : setup_connection_error) : wprog N :=
  array_sum [ser_flags (sce_flags m); ser_sc_code_x (sce_error_code m)].
Definition ser_omce_x (m : open_mining_channel_error) : wprog N :=
  array_sum [ser_u32 (omce_request_id m); ser_omc_code_x (omce_error_code m)].
Definition ser_kind_x (k : kind) : msg_of k -> wprog N :=
  match k return msg_of k -> wprog N with
  | K_CommonSetupConnection => ser_csc_x
  | K_MiningSetupConnection | K_JnSetupConnection => ser_sc_x
  | K_MiningSetupConnectionSuccess | K_JnSetupConnectionSuccess => ser_scs_x
  | K_MiningSetupConnectionError | K_JnSetupConnectionError => ser_sce_x
  | K_ChannelEndpointChanged => fun m => array_sum [ser_u32 (cec_channel_id m)]
  | K_OpenStandardMiningChannel => fun m =>
      array_sum [ser_u32 (osmc_request_id m); ser_str0_x (osmc_user_identity m); ser_f32 (osmc_nominal_hash_rate m);
                 ser_u256 (osmc_max_target m)]
  | K_OpenStandardMiningChannelSuccess => fun m =>
      array_sum [ser_u32 (osmcs_request_id m); ser_u32 (osmcs_channel_id m); ser_u256 (osmcs_target m);
                 ser_b0_x B0_32 (osmcs_extranonce_prefix m); ser_u32 (osmcs_group_channel_id m)]
  | K_OpenStandardMiningChannelError | K_OpenExtendedMiningChannelError => ser_omce_x
  | K_OpenExtendedMiningChannel => fun m =>
      array_sum [ser_u32 (oemc_request_id m); ser_str0_x (oemc_user_identity m); ser_f32 (oemc_nominal_hash_rate m);
                 ser_u256 (oemc_max_target m); ser_u16 (oemc_min_extranonce_size m)]
  | K_OpenExtendedMiningChannelSuccess => fun m =>
      array_sum [ser_u32 (oemcs_request_id m); ser_u32 (oemcs_channel_id m); ser_u256 (oemcs_target m);
                 ser_u16 (oemcs_extranonce_size m); ser_b0_x B0_32 (oemcs_extranonce_prefix m)]
  | K_UpdateChannel => fun m =>
      array_sum [ser_u32 (uc_channel_id m); ser_f32 (uc_nominal_hash_rate m); ser_u256 (uc_max_target m)]
  end.

(** codec/frame.rs:33-54.  [as u32] keeps the low 32 bits; a usize of 32 bits has no others. *)
Definition ser_message_x (m : message) : wprog N :=
  let msg := mt_msg_type (m_type m) in
  let ext := mt_ext_type (m_type m) in
  let ext := if mt_channel_bit (m_type m) then N.lor ext CHANNEL_BIT_MASK else ext in
  (message_length <- WRet (u24_new (len (m_payload m) mod 2 ^ 32)) ;;
   array_sum [ser_u16 ext; ser_u8 msg; ser_u24 message_length; wwrite (m_payload m)])%ser.

(** All types with a [Serializable] implementation outside of noise/. *)
Definition ser_of_x (t : ty) : val t -> wprog N :=
  match t return val t -> wprog N with
  | T_u8 => ser_u8 | T_u16 => ser_u16 | T_u32 => ser_u32 | T_f32 => ser_f32 | T_bool => ser_bool
  | T_U24 => ser_u24 | T_U256 => ser_u256
  | T_B0 t => ser_b0_x t
  | T_STR0 _ => ser_str0_x
  | T_flags _ => ser_flags
  | T_sc_code => ser_sc_code_x | T_omc_code => ser_omc_code_x
  | T_protocol => ser_protocol
  | T_msg k => ser_kind_x k
  | T_frame => ser_message_x
  end.

(** macro_message/message.rs:30-38, for any declaration, nested as in Nest.v. *)
Fixpoint shape_ser_x {A} (s : shape A) : A -> wprog N :=
  match s with
  | S_lib t => ser_of_x t
  | S_msg fs open _ => fun m => (ns <- shapes_ser_x fs (open m) ;; wsum_from 0 ns)%ser
  end
with shapes_ser_x {F} (fs : shapes F) : F -> wprog (list N) :=
  match fs with
  | S_nil => fun _ => wok []
  | S_cons s fs' => fun v => (n <- shape_ser_x s (fst v) ;; ns <- shapes_ser_x fs' (snd v) ;; wok (n :: ns))%ser
  end.
End Sum.
