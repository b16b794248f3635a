(** * Frame: network frames.  Definitions only.  stratumv2/src/codec/frame.rs *)
From Verif Require Import Base Codec Types Messages.

Definition CHANNEL_BIT_MASK : N := 0x8000.     (* frame.rs:8 *)
Definition EXTENSION_TYPE_MASK : N := 0x7FFF.  (* frame.rs:12 *)

(** frame.rs:18-31. *)
Record message := mkMessage { m_type : message_type; m_payload : bytes }.

(** frame.rs:33-54.  [self.payload.len() as u32] truncates; the last count is the one returned by
    [writer.write].  Simplified: the sum is not cut to usize; it overflows only for a writer that reports
    2^64 - 6 bytes or more, against the contract of io::Write (Sum.v has it exactly, C136). *)
Definition ser_message (m : message) : wprog N :=
  let msg := mt_msg_type (m_type m) in
  let ext := mt_ext_type (m_type m) in
  let ext := if mt_channel_bit (m_type m) then N.lor ext CHANNEL_BIT_MASK else ext in
  (message_length <- WRet (u24_new (len (m_payload m) mod 2 ^ 32)) ;;
   n1 <- ser_u16 ext ;;
   n2 <- ser_u8 msg ;;
   n3 <- ser_u24 message_length ;;
   n4 <- wwrite (m_payload m) ;;
   wok (n1 + n2 + n3 + n4))%ser.

(** frame.rs:56-74. *)
Definition de_message : De message :=
  (ext <- de_u16 ;;
   let channel_bit := negb (N.land ext CHANNEL_BIT_MASK =? 0) in
   let ext := N.land ext EXTENSION_TYPE_MASK in
   msg <- de_u8 ;;
   mt <- de_lift (mt_new ext msg) ;;
   if negb (Bool.eqb (mt_channel_bit mt) channel_bit)
   then de_lift (Err (UnexpectedChannelBit channel_bit))
   else
     message_length <- de_u24 ;;
     payload <- next_by message_length ;;
     de_ret (mkMessage mt payload))%de.

(** frame.rs:77-79 [trait Frameable] as a record. *)
Record frameable (A : Type) := mkFrameable {
  fr_type : message_type;
  fr_ser : A -> wprog N;
  fr_de : De A }.
Arguments mkFrameable {A} _ _ _.
Arguments fr_type {A} _.
Arguments fr_ser {A} _ _.
Arguments fr_de {A} _.

(** frame.rs:83-85. *)
Definition frame {A} (F : frameable A) (payload : A) : Result message :=
  obind (serialize (fr_ser F payload)) (fun bs => Ok (mkMessage (fr_type F) bs)).

(** frame.rs:89-101. *)
Definition unframe {A} (F : frameable A) (pf : profile) (m : message) : Result A :=
  if negb (mt_eqb (fr_type F) (m_type m))
  then Err (UnexpectedMessageType (mt_ext_type (fr_type F)) (mt_msg_type (fr_type F)))
  else deserialize (fr_de F) pf (m_payload m).

(** The Frameable types of the crate: [impl_message!] uses (macro_message/message.rs:48-52) and
    common/setup_connection.rs:223-227. *)
Inductive kind :=
| K_CommonSetupConnection
| K_MiningSetupConnection | K_MiningSetupConnectionSuccess | K_MiningSetupConnectionError
| K_JnSetupConnection | K_JnSetupConnectionSuccess | K_JnSetupConnectionError
| K_ChannelEndpointChanged
| K_OpenStandardMiningChannel | K_OpenStandardMiningChannelSuccess
| K_OpenStandardMiningChannelError
| K_OpenExtendedMiningChannel | K_OpenExtendedMiningChannelSuccess
| K_OpenExtendedMiningChannelError
| K_UpdateChannel.

Definition msg_of (k : kind) : Type :=
  match k with
  | K_CommonSetupConnection => common_setup_connection
  | K_MiningSetupConnection | K_JnSetupConnection => setup_connection
  | K_MiningSetupConnectionSuccess | K_JnSetupConnectionSuccess => setup_connection_success
  | K_MiningSetupConnectionError | K_JnSetupConnectionError => setup_connection_error
  | K_ChannelEndpointChanged => channel_endpoint_changed
  | K_OpenStandardMiningChannel => open_standard_mining_channel
  | K_OpenStandardMiningChannelSuccess => open_standard_mining_channel_success
  | K_OpenStandardMiningChannelError => open_mining_channel_error
  | K_OpenExtendedMiningChannel => open_extended_mining_channel
  | K_OpenExtendedMiningChannelSuccess => open_extended_mining_channel_success
  | K_OpenExtendedMiningChannelError => open_mining_channel_error
  | K_UpdateChannel => update_channel
  end.

Definition frameable_of (k : kind) : frameable (msg_of k) :=
  match k with
  | K_CommonSetupConnection => mkFrameable MT_SetupConnection ser_csc de_csc
  | K_MiningSetupConnection => mkFrameable MT_SetupConnection ser_sc (de_sc MiningSetupFlags)
  | K_MiningSetupConnectionSuccess =>
      mkFrameable MT_SetupConnectionSuccess ser_scs (de_scs MiningSuccessFlags)
  | K_MiningSetupConnectionError =>
      mkFrameable MT_SetupConnectionError ser_sce (de_sce MiningSetupFlags)
  | K_JnSetupConnection => mkFrameable MT_SetupConnection ser_sc (de_sc JnSetupFlags)
  | K_JnSetupConnectionSuccess =>
      mkFrameable MT_SetupConnectionSuccess ser_scs (de_scs JnSuccessFlags)
  | K_JnSetupConnectionError =>
      mkFrameable MT_SetupConnectionError ser_sce (de_sce JnSetupFlags)
  | K_ChannelEndpointChanged => mkFrameable MT_ChannelEndpointChanged ser_cec de_cec
  | K_OpenStandardMiningChannel => mkFrameable MT_OpenStandardMiningChannel ser_osmc de_osmc
  | K_OpenStandardMiningChannelSuccess =>
      mkFrameable MT_OpenStandardMiningChannelSuccess ser_osmcs de_osmcs
  | K_OpenStandardMiningChannelError =>
      mkFrameable MT_OpenStandardMiningChannelError ser_omce de_omce
  | K_OpenExtendedMiningChannel => mkFrameable MT_OpenExtendedMiningChannel ser_oemc de_oemc
  | K_OpenExtendedMiningChannelSuccess =>
      mkFrameable MT_OpenExtendedMiningChannelSuccess ser_oemcs de_oemcs
  | K_OpenExtendedMiningChannelError =>
      mkFrameable MT_OpenExtendedMiningChannelError ser_omce de_omce
  | K_UpdateChannel => mkFrameable MT_UpdateChannel ser_uc de_uc
  end.

(** derive(PartialEq) per kind; the common SetupConnection enum has none in Rust
    (common/setup_connection.rs:81), its variants are compared field by field. *)
Definition msg_eqb (k : kind) : msg_of k -> msg_of k -> bool :=
  match k with
  | K_CommonSetupConnection => fun a b =>
      match a, b with
      | CSC_Mining x, CSC_Mining y => sc_eqb x y
      | CSC_JobNegotiation x, CSC_JobNegotiation y => sc_eqb x y
      | _, _ => false
      end
  | K_MiningSetupConnection | K_JnSetupConnection => sc_eqb
  | K_MiningSetupConnectionSuccess | K_JnSetupConnectionSuccess => scs_eqb
  | K_MiningSetupConnectionError | K_JnSetupConnectionError => sce_eqb
  | K_ChannelEndpointChanged => cec_eqb
  | K_OpenStandardMiningChannel => osmc_eqb
  | K_OpenStandardMiningChannelSuccess => osmcs_eqb
  | K_OpenStandardMiningChannelError => omce_eqb
  | K_OpenExtendedMiningChannel => oemc_eqb
  | K_OpenExtendedMiningChannelSuccess => oemcs_eqb
  | K_OpenExtendedMiningChannelError => omce_eqb
  | K_UpdateChannel => uc_eqb
  end.
