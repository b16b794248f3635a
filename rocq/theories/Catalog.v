(** * Catalog: the types of the crate that implement Serializable / Deserializable.  Definitions only.

    Only an enumeration, so that statements can range over "every wire type".  Implementations:
    types/primitives.rs, types/fixed.rs, types/bytes.rs, types/strings.rs, types/flags.rs,
    types/error_code.rs, common/setup_connection.rs:66-76, codec/frame.rs, macro_message/message.rs
    (all under stratumv2/src).  The noise types are in Certs.v. *)
From Verif Require Import Base Codec Types Messages Frame.

Inductive ty :=
| T_u8 | T_u16 | T_u32 | T_f32 | T_bool
| T_U24 | T_U256
| T_B0 (t : b0type)
| T_STR0 (t : str0type)
| T_flags (fs : flagset)
| T_sc_code | T_omc_code
| T_protocol
| T_msg (k : kind)
| T_frame.

Definition val (t : ty) : Type :=
  match t with
  | T_u8 | T_u16 | T_u32 | T_f32 | T_U24 => N
  | T_bool => bool
  | T_U256 => bytes
  | T_B0 _ => b0
  | T_STR0 _ => str0
  | T_flags _ => N
  | T_sc_code => setup_connection_error_code
  | T_omc_code => open_mining_channel_error_code
  | T_protocol => protocol
  | T_msg k => msg_of k
  | T_frame => message
  end.

Definition ser_of (t : ty) : val t -> wprog N :=
  match t with
  | T_u8 => ser_u8 | T_u16 => ser_u16 | T_u32 => ser_u32 | T_f32 => ser_f32 | T_bool => ser_bool
  | T_U24 => ser_u24 | T_U256 => ser_u256
  | T_B0 t => ser_b0 t
  | T_STR0 _ => ser_str0
  | T_flags _ => ser_flags
  | T_sc_code => ser_sc_code | T_omc_code => ser_omc_code
  | T_protocol => ser_protocol
  | T_msg k => fr_ser (frameable_of k)
  | T_frame => ser_message
  end.

Definition de_of (t : ty) : De (val t) :=
  match t with
  | T_u8 => de_u8 | T_u16 => de_u16 | T_u32 => de_u32 | T_f32 => de_f32 | T_bool => de_bool
  | T_U24 => de_u24 | T_U256 => de_u256
  | T_B0 t => de_b0 t
  | T_STR0 t => de_str0 t
  | T_flags fs => de_flags fs
  | T_sc_code => de_sc_code | T_omc_code => de_omc_code
  | T_protocol => de_protocol
  | T_msg k => fr_de (frameable_of k)
  | T_frame => de_message
  end.
