(** * PropDebugTexts: C143, the Debug texts of messages and frames. *)
From Coq Require Import Strings.String.
From Verif Require Import Base Codec Types Messages Frame SpecWire SpecTypes Samples DebugTexts SpecDebugTexts DebugTextProofs.
Local Open Scope N_scope.
Local Open Scope list_scope.

(** C143.  Full claim: two messages of a kind with the same Debug text are the same message.  It fails: all NaN hash rates
    are shown alike. *)
Theorem C143_refuted : forall special f32_text, f32_text_ok f32_text -> exists k show a b, debug_message special f32_text k = Some show /\
  msg_ok k a /\ msg_ok k b /\ a <> b /\ show a = show b.
Proof. exact nan_clash. Qed.
Print Assumptions C143_refuted.

(** Exactly those are shown alike: the texts are the same when and only when the messages are, but for which NaN. *)
Theorem C143_text_partial : forall special f32_text k show a b, f32_text_ok f32_text -> debug_message special f32_text k = Some show ->
  msg_ok k a -> msg_ok k b -> (show a = show b <-> same_but_nan k a b).
Proof. exact message_texts. Qed.
Print Assumptions C143_text_partial.
(** Messages of kinds with different names have different texts, whatever is in them. *)
Theorem C143_name_partial : forall special f32_text k k' show show' a b,
  debug_message special f32_text k = Some show -> debug_message special f32_text k' = Some show' ->
  show a = show' b -> struct_name k = struct_name k'.
Proof. exact name_tells. Qed.
Print Assumptions C143_name_partial.
(** The setup messages of the two protocols have the same names; they are shown alike exactly when they are the same and
    have no flags. *)
Theorem C143_modules_partial : forall special,
  (forall a b, sc_ok MiningSetupFlags a -> sc_ok JnSetupFlags b ->
     (debug_sc special MiningSetupFlags a = debug_sc special JnSetupFlags b <-> a = b /\ sc_flags a = 0)) /\
  (forall a b, flags_ok MiningSuccessFlags (scs_flags a) -> flags_ok JnSuccessFlags (scs_flags b) ->
     (debug_scs MiningSuccessFlags a = debug_scs JnSuccessFlags b <-> a = b /\ scs_flags a = 0)) /\
  (forall a b, flags_ok MiningSetupFlags (sce_flags a) -> flags_ok JnSetupFlags (sce_flags b) ->
     (debug_sce MiningSetupFlags a = debug_sce JnSetupFlags b <-> a = b /\ sce_flags a = 0)).
Proof. exact setup_modules. Qed.
Print Assumptions C143_modules_partial.
(** Frames are always told apart, whatever their payload. *)
Theorem C143_frame : forall a b, debug_frame a = debug_frame b -> a = b.
Proof. exact frame_texts. Qed.
Print Assumptions C143_frame.
(** A string is shown between quotes, code point by code point. *)
Theorem C143_string : forall special s cs, Forall scalar_value cs -> wire s = flat_map utf8_encode cs ->
  exists ps, Forall2 (shown_as special) cs ps /\ wire (debug_str special s) = 34 :: concat ps ++ [34].
Proof. exact str_shown. Qed.
Print Assumptions C143_string.

(** The whole text of every message and of every frame. *)
Theorem C143_whole : forall special f32_text k show m, debug_message special f32_text k = Some show -> msg_ok k m ->
  record_text (struct_name k) (fields_shown special f32_text k m) (show m).
Proof. exact message_shown. Qed.
Print Assumptions C143_whole.
Theorem C143_frame_whole : forall m, record_text "Message"
  [("message_type", variant (type_variant (m_type m))); ("payload", bytes_text (m_payload m))]%string (debug_frame m).
Proof. exact frame_shown. Qed.
Print Assumptions C143_frame_whole.

Example C143_ex : f32_text_ok sample_f32_text /\ msg_ok K_MiningSetupConnection sample_sc /\
  debug_frame sample_frame = list_byte_of_string "Message { message_type: ChannelEndpointChanged, payload: [7, 0, 0, 0] }" /\
  debug_str (fun n => n =? 8364) (x41 :: x09 :: sample_utf8) =
    [x22; x41; x5c; x74; xc3; xa9] ++ list_byte_of_string "\u{20ac}" ++ [xf0; x9f; x98; x80; x22] /\
  debug_scs MiningSuccessFlags sample_scs = list_byte_of_string "SetupConnectionSuccess { used_version: 2, flags: REQUIRES_FIXED_VERSION }".
Proof.
  split; [exact sample_f32_text_ok|]. split; [exact sample_sc_ok|]. vm_compute. repeat split.
Qed.
