(** * SpecPieces: bytes that arrive in pieces.

    [waiting] is how a program that receives frames uses [deserialize]: as long as the answer is ParseError it waits for
    more bytes.  No such program is in the repository; the definitions only say what it is given. *)
From Verif Require Import Base Codec Types Messages Frame Catalog Macro.

(** This many bytes are enough for any value of the type, and no smaller number is.  Lengths are read before they are
    checked, so a string of any type may ask for 255 bytes; after a prefix of the right size 4 more bytes do not count. *)
Definition enough_for (t : ty) : N :=
  match t with
  | T_u8 => 1 | T_u16 => 2 | T_u32 => 4 | T_f32 => 4 | T_bool => 1
  | T_U24 => 3 | T_U256 => 32
  | T_B0 B0_31 | T_B0 B0_32 | T_B0 B0_255 => 1 + 255
  | T_B0 B0_64K => 2 + 65535
  | T_B0 B0_16M => 3 + 16777215
  | T_STR0 _ => 1 + 255
  | T_flags _ => 4
  | T_sc_code | T_omc_code => 1 + 255
  | T_protocol => 1
  | T_msg k =>
      match k with
      | K_CommonSetupConnection => 1291
      | K_MiningSetupConnection | K_JnSetupConnection => 1290
      | K_MiningSetupConnectionSuccess | K_JnSetupConnectionSuccess => 6
      | K_MiningSetupConnectionError | K_JnSetupConnectionError => 260
      | K_ChannelEndpointChanged => 4
      | K_OpenStandardMiningChannel => 296
      | K_OpenStandardMiningChannelSuccess => 296
      | K_OpenStandardMiningChannelError | K_OpenExtendedMiningChannelError => 260
      | K_OpenExtendedMiningChannel => 298
      | K_OpenExtendedMiningChannelSuccess => 298
      | K_UpdateChannel => 40
      end
  | T_frame => 6 + 16777215
  end.
Definition enough_for_all (ts : list ty) : N := fold_right (fun t n => enough_for t + n) 0 ts.

(** Taking frames from the front of a buffer as long as there are whole ones.  A frame with [n] bytes of payload takes
    [6 + n] bytes away.  [None]: more bytes are awaited; [Some e]: the buffer starts with something that is no frame. *)
Inductive waiting (pf : profile) : bytes -> list message -> bytes -> option error -> Prop :=
| W_more : forall buf, deserialize de_message pf buf = Err ParseError -> waiting pf buf [] buf None
| W_stop : forall buf e, deserialize de_message pf buf = Err e -> e <> ParseError -> waiting pf buf [] buf (Some e)
| W_take : forall buf m ms buf' st, deserialize de_message pf buf = Ok m ->
    waiting pf (skipn (6 + length (m_payload m)) buf) ms buf' st -> waiting pf buf (m :: ms) buf' st.

(** Pieces arrive one after the other and are put behind what is left in the buffer. *)
Inductive receiving (pf : profile) : bytes -> list bytes -> list message -> bytes -> option error -> Prop :=
| R_end : forall buf, receiving pf buf [] [] buf None
| R_stop : forall buf piece pieces ms buf' e, waiting pf (buf ++ piece) ms buf' (Some e) ->
    receiving pf buf (piece :: pieces) ms buf' (Some e)
| R_piece : forall buf piece pieces ms buf' ms' buf'' st, waiting pf (buf ++ piece) ms buf' None ->
    receiving pf buf' pieces ms' buf'' st -> receiving pf buf (piece :: pieces) (ms ++ ms') buf'' st.
