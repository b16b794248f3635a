(** * SpecHeap: what decoding may cost.

    Nothing here refers to the parser or the decoders of the model. *)
From Verif Require Import Base Types Messages Frame Catalog Nest Heap.

(** The bytes of all buffers made, whether kept or dropped; the number of reads; the bytes asked for. *)
Fixpoint buffered (ev : list event) : N :=
  match ev with [] => 0 | Buffer n :: ev' => n + buffered ev' | Ask _ :: ev' => buffered ev' end.
Fixpoint asks (ev : list event) : N :=
  match ev with [] => 0 | Buffer _ :: ev' => asks ev' | Ask _ :: ev' => 1 + asks ev' end.
Fixpoint asked (ev : list event) : N :=
  match ev with [] => 0 | Buffer _ :: ev' => asked ev' | Ask n :: ev' => n + asked ev' end.

(** The bytes of a type on the wire that are there for every value: numbers, flags and length fields. *)
Definition fixed_part (t : ty) : N :=
  match t with
  | T_u8 | T_bool | T_protocol => 1
  | T_u16 => 2
  | T_U24 => 3
  | T_u32 | T_f32 | T_flags _ => 4
  | T_U256 => 32
  | T_B0 t => match b0_lentype t with LU8 => 1 | LU16 => 2 | LU24 => 3 end
  | T_STR0 _ | T_sc_code | T_omc_code => 1
  | T_msg k =>
      match k with
      | K_CommonSetupConnection => 16
      | K_MiningSetupConnection | K_JnSetupConnection => 15
      | K_MiningSetupConnectionSuccess | K_JnSetupConnectionSuccess => 6
      | K_MiningSetupConnectionError | K_JnSetupConnectionError => 5
      | K_ChannelEndpointChanged => 4
      | K_OpenStandardMiningChannel => 41
      | K_OpenStandardMiningChannelSuccess => 45
      | K_OpenExtendedMiningChannel => 43
      | K_OpenExtendedMiningChannelSuccess => 43
      | K_OpenStandardMiningChannelError | K_OpenExtendedMiningChannelError => 5
      | K_UpdateChannel => 40
      end
  | T_frame => 6
  end.
(** One read for each number, two for each value with a length field. *)
Definition parts (t : ty) : N :=
  match t with
  | T_B0 _ | T_STR0 _ | T_sc_code | T_omc_code => 2
  | T_msg k =>
      match k with
      | K_CommonSetupConnection => 15
      | K_MiningSetupConnection | K_JnSetupConnection => 14
      | K_MiningSetupConnectionSuccess | K_JnSetupConnectionSuccess => 2
      | K_MiningSetupConnectionError | K_JnSetupConnectionError => 3
      | K_ChannelEndpointChanged => 1
      | K_OpenStandardMiningChannel => 5
      | K_OpenStandardMiningChannelSuccess => 6
      | K_OpenExtendedMiningChannel => 6
      | K_OpenExtendedMiningChannelSuccess => 6
      | K_OpenStandardMiningChannelError | K_OpenExtendedMiningChannelError => 3
      | K_UpdateChannel => 3
      end
  | T_frame => 4
  | _ => 1
  end.
(** The same for nested messages: the sums over the innermost fields. *)
Fixpoint shape_fixed {A} (s : shape A) : N :=
  match s with S_lib t => fixed_part t | S_msg fs _ _ => shapes_fixed fs end
with shapes_fixed {F} (fs : shapes F) : N :=
  match fs with S_nil => 0 | S_cons s fs' => shape_fixed s + shapes_fixed fs' end.
Fixpoint shape_parts {A} (s : shape A) : N :=
  match s with S_lib t => parts t | S_msg fs _ _ => shapes_parts fs end
with shapes_parts {F} (fs : shapes F) : N :=
  match fs with S_nil => 0 | S_cons s fs' => shape_parts s + shapes_parts fs' end.

(** The longest text that an error of the decoders carries: "a full set of unsupported flags MUST be returned to the
    client". *)
Definition longest_text : N := 62.
