(** * SpecMacro: what a message with given field types should look like on the wire.

    Nothing here refers to the parser, the encoders or the decoders of the model. *)
From Verif Require Import Base Types Messages Frame Catalog SpecWire SpecTypes SpecDecode Macro.

(** Every field holds a value of its type. *)
Fixpoint fields_ok (ts : list ty) : fields ts -> Prop :=
  match ts with
  | [] => fun _ => True
  | t :: ts' => fun v => ok t (fst v) /\ fields_ok ts' (snd v)
  end.

(** The images of the fields, one after the other, nothing between them. *)
Fixpoint fields_lay (ts : list ty) : fields ts -> list N :=
  match ts with
  | [] => fun _ => []
  | t :: ts' => fun v => lay t (fst v) ++ fields_lay ts' (snd v)
  end.

(** A table that counts the bytes of the value, as a reading. *)
Definition tabled {A} (rest : bytes) (r : Result (A * N)) : Result (A * bytes) :=
  match r with
  | Ok (v, n) => Ok (v, skipn (N.to_nat n) rest)
  | Err e => Err e
  | Panic => Panic
  end.

(** What the bytes in front of the reader give, for every field type. *)
Definition reading_ty (t : ty) : reading (val t) :=
  match t return reading (val t) with
  | T_u8 => int 1 | T_u16 => int 2 | T_u32 => int 4 | T_f32 => int 4
  | T_bool => next (int 1) (fun v => gives (N.odd v))
  | T_U24 => int 3
  | T_U256 => raw 32
  | T_B0 b => fun rest r => r = tabled rest (spec_decode_b0 b rest)
  | T_STR0 s => fun rest r => exists r0, spec_decode_str s rest r0 /\ r = tabled rest r0
  | T_flags fs => flag_bits fs
  | T_sc_code => code lay_sc_code
  | T_omc_code => code lay_omc_code
  | T_protocol => next (int 1) (fun v =>
      match v with
      | 0 => gives PMining | 1 => gives PJobNegotiation
      | 2 => gives PTemplateDistribution | 3 => gives PJobDistribution
      | _ => fails DeserializationError
      end)
  | T_msg k => reading_of k
  | T_frame => fun rest r => r = tabled rest (spec_decode_frame rest)
  end.

(** The fields in the order of the declaration; the first error is the error. *)
Fixpoint reading_fields (ts : list ty) : reading (fields ts) :=
  match ts return reading (fields ts) with
  | [] => gives tt
  | t :: ts' => next (reading_ty t) (fun x => next (reading_fields ts') (fun xs => gives (x, xs)))
  end.

(** The messages of the crate: declared field types, in order.
    macro_message/setup_connection.rs:18, setup_connection_success.rs:14, setup_connection_error.rs:16,
    common/channel_endpoint_changed.rs:9, mining/open_standard_mining_channel.rs:5,
    open_standard_mining_channel_success.rs:5, open_extended_mining_channel.rs:6,
    open_extended_mining_channel_success.rs:5, open_mining_channel_error.rs:31, update_channel.rs:3. *)
Definition declaration (k : kind) : list ty :=
  match k with
  | K_CommonSetupConnection => []
  | K_MiningSetupConnection =>
      [T_u16; T_u16; T_flags MiningSetupFlags; T_STR0 STR0_255; T_u16; T_STR0 STR0_255; T_STR0 STR0_255;
       T_STR0 STR0_255; T_STR0 STR0_255]
  | K_JnSetupConnection =>
      [T_u16; T_u16; T_flags JnSetupFlags; T_STR0 STR0_255; T_u16; T_STR0 STR0_255; T_STR0 STR0_255;
       T_STR0 STR0_255; T_STR0 STR0_255]
  | K_MiningSetupConnectionSuccess => [T_u16; T_flags MiningSuccessFlags]
  | K_JnSetupConnectionSuccess => [T_u16; T_flags JnSuccessFlags]
  | K_MiningSetupConnectionError => [T_flags MiningSetupFlags; T_sc_code]
  | K_JnSetupConnectionError => [T_flags JnSetupFlags; T_sc_code]
  | K_ChannelEndpointChanged => [T_u32]
  | K_OpenStandardMiningChannel => [T_u32; T_STR0 STR0_255; T_f32; T_U256]
  | K_OpenStandardMiningChannelSuccess => [T_u32; T_u32; T_U256; T_B0 B0_32; T_u32]
  | K_OpenStandardMiningChannelError => [T_u32; T_omc_code]
  | K_OpenExtendedMiningChannel => [T_u32; T_STR0 STR0_255; T_f32; T_U256; T_u16]
  | K_OpenExtendedMiningChannelSuccess => [T_u32; T_u32; T_U256; T_u16; T_B0 B0_32]
  | K_OpenExtendedMiningChannelError => [T_u32; T_omc_code]
  | K_UpdateChannel => [T_u32; T_f32; T_U256]
  end.
