(** * PropDecode: C90-C93, exact outcomes of decoding, the pool of examples/setup_connection.rs on any input,
    error texts. *)
From Coq Require Import Strings.String.
From Verif Require Import Base Codec Types Messages Frame Catalog SpecWire SpecTypes SpecDecode SpecPool Apps Display
  TypesFacts MsgProofs TypesProofs FrameProofs Samples DecodeProofs AppProofs PoolProofs CutProofs.
Local Open Scope N_scope.
Local Open Scope list_scope.

(** C90.  Every message type, every input, at any position of the parser: the reading of the bytes in front of
    the cursor says what happens, and it says one thing only. *)
Theorem C90_decode_exact : forall k pf pre rest, rust_slice (pre ++ rest) ->
  exists r, reading_of k rest r /\ (forall r', reading_of k rest r' -> r' = r) /\
  match r with
  | Ok (v, rest') => exists c, rest = c ++ rest' /\
      fr_de (frameable_of k) pf (cursor pre rest) = (cursor (pre ++ c) rest', Ok v)
  | Err e => snd (fr_de (frameable_of k) pf (cursor pre rest)) = Err e
  | Panic => False
  end.
Proof. exact decode_table. Qed.
Print Assumptions C90_decode_exact.
Theorem C90_unframe_exact : forall k pf m, rust_slice (m_payload m) -> fr_type (frameable_of k) = m_type m ->
  (forall v, unframe (frameable_of k) pf m = Ok v <-> exists left, reading_of k (m_payload m) (Ok (v, left))) /\
  (forall e, unframe (frameable_of k) pf m = Err e <-> reading_of k (m_payload m) (Err e)).
Proof. exact unframe_outcome. Qed.
Print Assumptions C90_unframe_exact.

(** An unknown flag comes before a missing string; a name that is not UTF-8 before an unknown code. *)
Example C90_ex :
  deserialize (de_sc MiningSetupFlags) Debug [x02; x00; x02; x00; x08; x00; x00; x00] = Err UnknownFlags /\
  deserialize (de_sc MiningSetupFlags) Debug [x02; x00; x02; x00; x07; x00; x00; x00] = Err ParseError /\
  deserialize de_omce Debug [x01; x00; x00; x00; x01; xff] = Err FromUtf8Error /\
  deserialize de_omce Debug [x01; x00; x00; x00; x01; x41] = Err UnknownErrorCode /\
  reading_of K_ChannelEndpointChanged [x07; x00; x00; x00; xaa] (Ok (mkCEC 7, [xaa])).
Proof.
  repeat (split; [reflexivity|]). exists (Ok (7, [xaa])). split; [|reflexivity].
  exists (Ok ([x07; x00; x00; x00], [xaa])). split; [right; split; [vm_compute; discriminate|reflexivity]|reflexivity].
Qed.

(** C91.  Full statement: [forall pf flags bs, sc_pool_recv pf flags (read_1024 bs) <> Panic]: whatever a client
    sends, the pool lives on.  Refuted by a client that closes without sending; below, what happens for any input. *)
Theorem C91_pool_survives_refuted : forall pf flags, exists bs, sc_pool_recv pf flags (read_1024 bs) = Panic.
Proof. exact pool_dies. Qed.
Print Assumptions C91_pool_survives_refuted.
Theorem C91_pool_exact_partial : forall pf flags bs, flags_ok MiningSuccessFlags flags ->
  padded bs (read_1024 bs) /\ pool_does flags (read_1024 bs) (sc_pool_recv pf flags (read_1024 bs)) /\
  forall r, pool_does flags (read_1024 bs) r -> r = sc_pool_recv pf flags (read_1024 bs).
Proof. exact pool_on_read. Qed.
Print Assumptions C91_pool_exact_partial.

Example C91_ex : flags_ok MiningSuccessFlags REQUIRES_FIXED_VERSION /\
  sc_pool_recv Debug REQUIRES_FIXED_VERSION (read_1024 []) = Panic /\
  sc_pool_recv Debug REQUIRES_FIXED_VERSION (read_1024 [x00; x00; x01]) = Ok None.
Proof.
  split; [apply (proj1 (flags_from_bits_iff MiningSuccessFlags 1 1)); reflexivity|]. split; vm_compute; reflexivity.
Qed.

(** C92.  Full statement: the pool answers a mining SetupConnection only if all of its frame had arrived.
    Refuted; below, for which prefixes it answers, and that all others crash it. *)
Theorem C92_whole_frame_refuted : exists v bs i reply, constructed K_CommonSetupConnection (CSC_Mining v) /\
  sc_miner_send (CSC_Mining v) = Ok bs /\ i < len bs /\ len bs <= 1024 /\
  sc_pool_recv Debug REQUIRES_FIXED_VERSION (read_1024 (firstn (N.to_nat i) bs)) = Ok (Some reply).
Proof. exact answered_early. Qed.
Print Assumptions C92_whole_frame_refuted.
Theorem C92_prefix_exact_partial : forall v flags, constructed K_CommonSetupConnection (CSC_Mining v) ->
  flags_ok MiningSuccessFlags flags ->
  exists bs, sc_miner_send (CSC_Mining v) = Ok bs /\
    forall pf i, i <= len bs ->
     let r := sc_pool_recv pf flags (read_1024 (firstn (N.to_nat i) bs)) in
     let readable := len bs <= 1024 /\ firmware_at v < i /\ utf8_text (remains (firmware_at v) i (sc_firmware v)) /\
                     utf8_text (remains (device_at v) i (sc_device_id v)) in
     (readable -> exists reply, r = Ok (Some reply) /\ wire reply = success_frame (sc_min_version v) flags) /\
     (~ readable -> r = Panic).
Proof. exact cut_any. Qed.
Print Assumptions C92_prefix_exact_partial.

Example C92_ex : constructed K_CommonSetupConnection (CSC_Mining sample_sc) /\
  exists bs reply, sc_miner_send (CSC_Mining sample_sc) = Ok bs /\ firmware_at sample_sc + 1 < len bs /\
    sc_pool_recv Debug REQUIRES_FIXED_VERSION (read_1024 (firstn (N.to_nat (firmware_at sample_sc)) bs)) = Panic /\
    sc_pool_recv Debug REQUIRES_FIXED_VERSION (read_1024 (firstn (N.to_nat (firmware_at sample_sc + 1)) bs)) = Ok (Some reply).
Proof.
  split; [apply constructed_iff; exact sample_sc_ok|].
  do 2 eexists. split; [vm_compute; reflexivity|]. split; [vm_compute; reflexivity|]. split; vm_compute; reflexivity.
Qed.

(** C93.  Full statement: [forall a b, noise_display hex a = noise_display hex b -> a = b].  Refuted; below,
    exactly which errors share a text. *)
Definition missing (e : noise_error) : Prop :=
  In e [MissingnsError; MissingneError; MissingHsMacError; MissingrsError; MissingreError].
Theorem C93_text_identifies_refuted : forall hex, exists a b, a <> b /\ noise_display hex a = noise_display hex b.
Proof. exact texts_clash. Qed.
Print Assumptions C93_text_identifies_refuted.
Theorem C93_text_exact_partial : forall hex a b, a <> HexError -> b <> HexError ->
  noise_display hex a = noise_display hex b <-> a = b \/ (missing a /\ missing b).
Proof. exact texts_equal. Qed.
Print Assumptions C93_text_exact_partial.

Example C93_ex : missing MissingreError /\ ~ missing InvalidInputError /\
  noise_display [] MissingreError = lit "Invalid message length." /\ noise_display [] InvalidInputError = lit "Invalid input length.".
Proof. split; [cbn; tauto|]. split; [cbn; intuition discriminate|]. split; reflexivity. Qed.
