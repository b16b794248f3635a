(** * SpecTalk: protocol messages over an established session. *)
From Verif Require Import Base Codec Types Messages Frame SpecWire SpecTypes.
Local Open Scope N_scope.

(** A message of some kind. *)
Definition said := {k : kind & msg_of k}.
Definition proper (m : said) : Prop := constructed (projT1 m) (projT2 m).
(** [pt] is what a sender makes of [m]: it is framed and the frame serialized. *)
Definition carries (m : said) (pt : bytes) : Prop :=
  exists fr, frame (frameable_of (projT1 m)) (projT2 m) = Ok fr /\ serialize (ser_message fr) = Ok pt.
(** A reader whose buffer begins with [pt] decodes the frame and takes [m] out of it, whatever is left in the rest
    of the buffer. *)
Definition understood (m : said) (pt : bytes) : Prop :=
  forall pf rest, rust_slice (pt ++ rest) -> exists fr, deserialize de_message pf (pt ++ rest) = Ok fr /\
    unframe (frameable_of (projT1 m)) pf fr = Ok (projT2 m).
(** The longest frame of each kind: 6 bytes of header, 255 bytes of text for each string after its length byte,
    32 bytes of extranonce prefix after its length byte, the longest registered error code. *)
Definition longest (k : kind) : N :=
  match k with
  | K_CommonSetupConnection => 6 + 1 + (2 + 2 + 4 + 2 + 5 * (1 + 255))
  | K_MiningSetupConnection | K_JnSetupConnection => 6 + (2 + 2 + 4 + 2 + 5 * (1 + 255))
  | K_MiningSetupConnectionSuccess | K_JnSetupConnectionSuccess => 6 + (2 + 4)
  | K_MiningSetupConnectionError | K_JnSetupConnectionError => 6 + (4 + (1 + 25))
  | K_ChannelEndpointChanged => 6 + 4
  | K_OpenStandardMiningChannel => 6 + (4 + (1 + 255) + 4 + 32)
  | K_OpenStandardMiningChannelSuccess => 6 + (4 + 4 + 32 + (1 + 32) + 4)
  | K_OpenExtendedMiningChannel => 6 + (4 + (1 + 255) + 4 + 32 + 2)
  | K_OpenExtendedMiningChannelSuccess => 6 + (4 + 4 + 32 + 2 + (1 + 32))
  | K_OpenStandardMiningChannelError | K_OpenExtendedMiningChannelError => 6 + (4 + (1 + 23))
  | K_UpdateChannel => 6 + (4 + 4 + 32)
  end.
