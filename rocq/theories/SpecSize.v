(** * SpecSize: how many bytes values take and readers ask for. *)
From Verif Require Import Base Codec Types Messages Frame Catalog Macro SpecTypes SpecPieces.

(** The smallest and the largest size of a value, in bytes. *)
Definition fewest (t : ty) : N :=
  match t with
  | T_u8 => 1 | T_u16 => 2 | T_u32 => 4 | T_f32 => 4 | T_bool => 1
  | T_U24 => 3 | T_U256 => 32
  | T_B0 B0_31 | T_B0 B0_32 | T_B0 B0_255 => 1
  | T_B0 B0_64K => 2
  | T_B0 B0_16M => 3
  | T_STR0 _ => 1
  | T_flags _ => 4
  | T_sc_code => 1 + 20                      (* "unsupported-protocol" *)
  | T_omc_code => 1 + 12                     (* "unknown-user" *)
  | T_protocol => 1
  | T_msg k =>
      match k with
      | K_CommonSetupConnection => 18        (* vendor and firmware are not empty *)
      | K_MiningSetupConnection | K_JnSetupConnection => 17
      | K_MiningSetupConnectionSuccess | K_JnSetupConnectionSuccess => 6
      | K_MiningSetupConnectionError | K_JnSetupConnectionError => 4 + 21
      | K_ChannelEndpointChanged => 4
      | K_OpenStandardMiningChannel => 41
      | K_OpenStandardMiningChannelSuccess => 45
      | K_OpenStandardMiningChannelError | K_OpenExtendedMiningChannelError => 4 + 13
      | K_OpenExtendedMiningChannel => 43
      | K_OpenExtendedMiningChannelSuccess => 43
      | K_UpdateChannel => 40
      end
  | T_frame => 6
  end.
Definition most (t : ty) : N :=
  match t with
  | T_u8 => 1 | T_u16 => 2 | T_u32 => 4 | T_f32 => 4 | T_bool => 1
  | T_U24 => 3 | T_U256 => 32
  | T_B0 B0_31 => 1 + 31
  | T_B0 B0_32 => 1 + 32
  | T_B0 B0_255 => 1 + 255
  | T_B0 B0_64K => 2 + 65535
  | T_B0 B0_16M => 3 + 16777215
  | T_STR0 STR0_32 => 1 + 32
  | T_STR0 STR0_255 => 1 + 255
  | T_flags _ => 4
  | T_sc_code => 1 + 25                      (* "unsupported-feature-flags" *)
  | T_omc_code => 1 + 23                     (* "max-target-out-of-range" *)
  | T_protocol => 1
  | T_msg k =>
      match k with
      | K_CommonSetupConnection => 1291
      | K_MiningSetupConnection | K_JnSetupConnection => 1290
      | K_MiningSetupConnectionSuccess | K_JnSetupConnectionSuccess => 6
      | K_MiningSetupConnectionError | K_JnSetupConnectionError => 4 + 26
      | K_ChannelEndpointChanged => 4
      | K_OpenStandardMiningChannel => 296
      | K_OpenStandardMiningChannelSuccess => 77
      | K_OpenStandardMiningChannelError | K_OpenExtendedMiningChannelError => 4 + 24
      | K_OpenExtendedMiningChannel => 298
      | K_OpenExtendedMiningChannelSuccess => 75
      | K_UpdateChannel => 40
      end
  | T_frame => 6 + 16777215
  end.
Definition total (f : ty -> N) (ts : list ty) : N := fold_right (fun t n => f t + n) 0 ts.

(** A reader of several fields asks for all that a field may ask for behind the largest fields before it. *)
Fixpoint asks (ts : list ty) : N :=
  match ts with
  | [] => 0
  | t :: ts' => N.max (enough_for t) (most t + asks ts')
  end.
