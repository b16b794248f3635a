(** * PropFrame: C18-C25, frames. *)
From Verif Require Import Base Codec Types Messages Frame Catalog SpecWire SpecTypes
  BaseFacts CodecFacts Utf8Facts TypesFacts MessagesFacts FrameFacts CodecProofs MsgProofs Samples TypesProofs FrameProofs WriterProofs.

(** C18. *)
Theorem C18_frame_layout : forall m, len (m_payload m) <= 16777215 -> exists enc,
  wire enc = frame_layout m /\
  forall w, run vec_writer (ser_message m) w = (w ++ enc, Ok (6 + len (m_payload m))).
Proof. exact frame_serialized. Qed.
Print Assumptions C18_frame_layout.

Example C18_ex : len (m_payload sample_frame) <= 16777215 /\
  frame_layout sample_frame = [0; 128; 3; 4; 0; 0; 7; 0; 0; 0] /\
  serialize (ser_message sample_frame) = Ok [x00; x80; x03; x04; x00; x00; x07; x00; x00; x00].
Proof. repeat split. vm_compute. discriminate. Qed.

(** C19. *)
Theorem C19_frame_roundtrip : forall m, len (m_payload m) <= 16777215 -> exists enc,
  serialize (ser_message m) = Ok enc /\
  forall pf pre rest, rust_slice (pre ++ enc ++ rest) ->
    de_message pf (cursor pre (enc ++ rest)) = (cursor (pre ++ enc) rest, Ok m).
Proof. exact frame_roundtrip. Qed.
Print Assumptions C19_frame_roundtrip.

Example C19_ex : len (m_payload sample_frame) <= 16777215 /\
  de_message Debug (cursor [xaa] ([x00; x80; x03; x04; x00; x00; x07; x00; x00; x00] ++ [xbb; xcc])) =
  (cursor ([xaa] ++ [x00; x80; x03; x04; x00; x00; x07; x00; x00; x00]) [xbb; xcc], Ok sample_frame).
Proof. split; [vm_compute; discriminate|reflexivity]. Qed.

(** C20.  The outcome on every byte sequence. *)
Theorem C20_frame_rejection_exact : forall pf pre rest, rust_slice (pre ++ rest) ->
  match spec_decode_frame rest with
  | Ok (m, n) => de_message pf (cursor pre rest) = (mkParser (pre ++ rest) (len pre + n), Ok m)
  | Err e => snd (de_message pf (cursor pre rest)) = Err e
  | Panic => False
  end.
Proof. exact frame_table. Qed.
Print Assumptions C20_frame_rejection_exact.

Example C20_ex :
  spec_decode_frame [x00; x80; x03; x01; x00; x00; x07; xff] = Ok (mkMessage MT_ChannelEndpointChanged [x07], 7) /\
  spec_decode_frame [x00; x00; x03; x01; x00; x00; x07] = Err (UnexpectedChannelBit false) /\
  spec_decode_frame [x01; x80; x03; x01; x00; x00; x07] = Err UnknownMessageType /\
  spec_decode_frame [x00; x80; x03; x02; x00; x00; x07] = Err ParseError /\
  spec_decode_frame [x00; x80] = Err ParseError.
Proof. repeat split. Qed.

(** C21.  Oversized payloads.  Refuted from 2^32 bytes on: the length is truncated to 32 bits before
    it is checked.  The witness is accepted, and decoding what was written yields another frame. *)
Theorem C21_oversized_refuted : exists m enc, 16777215 < len (m_payload m) /\
  serialize (ser_message m) = Ok enc /\
  forall pf, exists m', deserialize de_message pf enc = Ok m' /\ m' <> m /\ m_payload m' = [].
Proof. exact oversized_refuted. Qed.
Print Assumptions C21_oversized_refuted.

(** Refused without writing anything, for any writer, below 2^32 bytes.  Missing: longer payloads. *)
Theorem C21_oversized_partial : forall W (wr : writer W) w m,
  16777216 <= len (m_payload m) -> len (m_payload m) < 2 ^ 32 ->
  run wr (ser_message m) w = (w, Err RequirementError).
Proof. exact oversized. Qed.
Print Assumptions C21_oversized_partial.
(** Every length: what counts is the length modulo 2^32; where it fits 24 bits the frame is written with the
    whole payload, announcing only the low 24 bits of its length. *)
Theorem C21_every_length : forall m,
  let announced := len (m_payload m) mod 2 ^ 32 in
  (16777215 < announced -> forall W (wr : writer W) w, run wr (ser_message m) w = (w, Err RequirementError)) /\
  (announced <= 16777215 -> exists enc, wire enc = frame_layout m /\
     forall w, run vec_writer (ser_message m) w = (w ++ enc, Ok (6 + len (m_payload m)))).
Proof. exact frame_every_length. Qed.
Print Assumptions C21_every_length.

Example C21_ex : exists m, 16777216 <= len (m_payload m) /\ len (m_payload m) < 2 ^ 32.
Proof. exists (mkMessage MT_SetupConnection (repeat x41 (N.to_nat 16777216))). cbn [m_payload].
  rewrite len_repeat. split; vm_compute; congruence. Qed.

(** C22. *)
Theorem C22_type_table_roundtrip : forall t,
  mt_new (mt_ext_type t) (mt_msg_type t) = Ok t /\ mt_ext_type t < 2 ^ 15.
Proof. exact mt_roundtrip. Qed.
Print Assumptions C22_type_table_roundtrip.
Theorem C22_type_table_exact : forall e m,
  (forall t, mt_new e m = Ok t <-> mt_ext_type t = e /\ mt_msg_type t = m) /\
  ((forall t, ~ (mt_ext_type t = e /\ mt_msg_type t = m)) -> mt_new e m = Err UnknownMessageType).
Proof. exact mt_exact. Qed.
Print Assumptions C22_type_table_exact.
Theorem C22_type_table_injective : forall t1 t2,
  mt_ext_type t1 = mt_ext_type t2 -> mt_msg_type t1 = mt_msg_type t2 -> t1 = t2.
Proof. exact mt_distinct. Qed.
Print Assumptions C22_type_table_injective.
Theorem C22_type_table_spec : forall t, mt_ext_type t = 0 /\ (mt_msg_type t, mt_channel_bit t) = spec_code t.
Proof. exact mt_spec. Qed.
Print Assumptions C22_type_table_spec.

Example C22_ex : mt_new 0 0x16 = Ok MT_UpdateChannel /\ mt_new 0 0x27 = Err UnknownMessageType /\
  mt_new 1 0x16 = Err UnknownMessageType.
Proof. repeat split. Qed.

(** C23. *)
Theorem C23_frame_unframe : forall k m, msg_ok k m -> exists fr,
  frame (frameable_of k) m = Ok fr /\
  (forall pf, unframe (frameable_of k) pf fr = Ok m) /\
  exists enc, serialize (ser_message fr) = Ok enc /\
    forall pf pre rest, rust_slice (pre ++ enc ++ rest) ->
      de_message pf (cursor pre (enc ++ rest)) = (cursor (pre ++ enc) rest, Ok fr).
Proof. exact frame_unframe. Qed.
Print Assumptions C23_frame_unframe.

Example C23_ex : msg_ok K_MiningSetupConnection sample_sc /\ msg_ok K_UpdateChannel sample_uc.
Proof. split; [exact sample_sc_ok|exact sample_uc_ok]. Qed.

(** C24.  Refuted: the error names the expected type, not the received one. *)
Theorem C24_unframe_error_refuted : exists k pf m e t,
  unframe (frameable_of k) pf m = Err (UnexpectedMessageType e t) /\
  (e, t) <> (mt_ext_type (m_type m), mt_msg_type (m_type m)).
Proof. exact unframe_error_carries_expected. Qed.
Print Assumptions C24_unframe_error_refuted.
(** Every frame of another type is refused, whatever the payload.  Missing: the error's contents. *)
Theorem C24_unframe_refuses_partial : forall k pf m, fr_type (frameable_of k) <> m_type m ->
  unframe (frameable_of k) pf m =
    Err (UnexpectedMessageType (mt_ext_type (fr_type (frameable_of k))) (mt_msg_type (fr_type (frameable_of k)))).
Proof. exact unframe_refuses. Qed.
Print Assumptions C24_unframe_refuses_partial.

Example C24_ex : fr_type (frameable_of K_UpdateChannel) <> m_type sample_frame.
Proof. discriminate. Qed.

(** C25.  Refuted: the mining and job negotiation messages share message types. *)
Theorem C25_frame_determines_type_refuted : exists m k1 k2 v1 v2, k1 <> k2 /\
  unframe (frameable_of k1) Debug m = Ok v1 /\ unframe (frameable_of k2) Debug m = Ok v2.
Proof. exact two_types. Qed.
Print Assumptions C25_frame_determines_type_refuted.
(** Outside the three SetupConnection families a frame determines its type. *)
Theorem C25_frame_determines_type_partial : forall m k1 k2 pf1 pf2 v1 v2,
  unframe (frameable_of k1) pf1 m = Ok v1 -> unframe (frameable_of k2) pf2 m = Ok v2 -> In k2 (family k1).
Proof. exact only_family. Qed.
Print Assumptions C25_frame_determines_type_partial.

Example C25_ex : unframe (frameable_of K_ChannelEndpointChanged) Debug sample_frame = Ok (mkCEC 7) /\
  family K_ChannelEndpointChanged = [K_ChannelEndpointChanged].
Proof. split; reflexivity. Qed.
