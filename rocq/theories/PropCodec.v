(** * PropCodec: C09-C17 and C69, deserialization, serialization, writers. *)
From Verif Require Import Base Codec Types Messages Frame Catalog SpecWire SpecTypes
  BaseFacts CodecFacts Utf8Facts TypesFacts MessagesFacts FrameFacts CodecProofs MsgProofs TypesProofs WriterProofs Samples.

(** C09.  Deserialization never panics: every type, every slice, both build profiles, any cursor. *)
Theorem C09_deserialize_never_panics : forall t pf pre rest, rust_slice (pre ++ rest) ->
  snd (de_of t pf (cursor pre rest)) <> Panic.
Proof. exact no_panic_cursor. Qed.
Print Assumptions C09_deserialize_never_panics.

Corollary C09_deserialize : forall t pf bs, rust_slice bs -> deserialize (de_of t) pf bs <> Panic.
Proof. exact no_panic. Qed.
Print Assumptions C09_deserialize.

Example C09_ex : rust_slice (repeat xff 100) /\
  deserialize (de_of T_frame) Debug (repeat xff 100) = Err UnknownMessageType /\
  deserialize (de_of (T_B0 B0_16M)) Release (repeat xff 100) = Err ParseError.
Proof. repeat split; vm_compute; discriminate. Qed.

(** C10.  One call of [next_by]: exactly the next [step] bytes, or ParseError and an unmoved cursor.
    The sum start + step must fit a usize, except in release builds. *)
Theorem C10_next_by_exact : forall pf bs start step,
  start + step < 2 ^ 64 \/ (pf = Release /\ start < 2 ^ 64 /\ step < 2 ^ 64 /\ rust_slice bs) ->
  (start + step <= len bs -> exists a b c, bs = a ++ b ++ c /\ len a = start /\ len b = step /\
     next_by step pf (mkParser bs start) = (mkParser bs (start + step), Ok b)) /\
  (len bs < start + step -> next_by step pf (mkParser bs start) = (mkParser bs start, Err ParseError)).
Proof. exact next_by_exact. Qed.
Print Assumptions C10_next_by_exact.

(** Any sequence of successful calls returns consecutive segments of the input. *)
Theorem C10_next_by_sequence : forall steps pf bs start p segs,
  start + sum steps < 2 ^ 64 ->
  take_steps steps pf (mkParser bs start) = (p, Ok segs) ->
  map len segs = steps /\ p = mkParser bs (start + sum steps) /\
  (steps <> [] -> start + sum steps <= len bs) /\
  concat segs = firstn (N.to_nat (sum steps)) (skipn (N.to_nat start) bs).
Proof. exact take_steps_ok. Qed.
Print Assumptions C10_next_by_sequence.

Example C10_ex : take_steps [2; 0; 3] Debug (mkParser [x00; x01; x02; x03; x04; x05; x06] 1) =
  (mkParser [x00; x01; x02; x03; x04; x05; x06] 6, Ok [[x01; x02]; []; [x03; x04; x05]]) /\
  next_by 3 Debug (mkParser [x00; x01] 0) = (mkParser [x00; x01] 0, Err ParseError) /\
  next_by (2 ^ 64 - 1) Release (mkParser [x00; x01] 1) = (mkParser [x00; x01] 1, Err ParseError).
Proof. repeat split. Qed.

(** C69.  next_by should never panic.  Refuted in debug builds: the addition overflows. *)
Theorem C69_next_by_no_panic_refuted : exists bs start step, rust_slice bs /\ start <= len bs /\ step < 2 ^ 64 /\
  snd (next_by step Debug (mkParser bs start)) = Panic.
Proof. exact next_by_panics. Qed.
Print Assumptions C69_next_by_no_panic_refuted.

Theorem C69_next_by_no_panic_partial : forall pf bs start step,
  (snd (next_by step pf (mkParser bs start)) = Panic <-> pf = Debug /\ 2 ^ 64 <= start + step).
Proof. exact next_by_panic_iff. Qed.
Print Assumptions C69_next_by_no_panic_partial.

Example C69_ex : snd (next_by (2 ^ 64 - 1) Debug (mkParser [x00; x01] 1)) = Panic /\
  snd (next_by (2 ^ 64 - 2) Debug (mkParser [x00; x01] 1)) = Err ParseError.
Proof. split; reflexivity. Qed.

(** C11.  Whether it succeeds or fails, a deserializer leaves the cursor between its old position and
    the end; a successful result depends only on the bytes consumed. *)
Theorem C11_forward_in_bounds_local : forall t pf pre rest, rust_slice (pre ++ rest) ->
  exists c rest' r, rest = c ++ rest' /\
    de_of t pf (cursor pre rest) = (mkParser (pre ++ rest) (len pre + len c), r) /\
    (forall v, r = Ok v -> forall pf2 pre2 rest2, rust_slice (pre2 ++ c ++ rest2) ->
       de_of t pf2 (cursor pre2 (c ++ rest2)) = (cursor (pre2 ++ c) rest2, Ok v)).
Proof. exact forward_local. Qed.
Print Assumptions C11_forward_in_bounds_local.

(** And a truncated encoding is always refused with ParseError. *)
Theorem C11_truncated : forall t pf pre c rest v, rust_slice (pre ++ c ++ rest) ->
  de_of t pf (cursor pre (c ++ rest)) = (cursor (pre ++ c) rest, Ok v) ->
  forall pf2 pre2 c1 c2, c = c1 ++ c2 -> c2 <> [] -> rust_slice (pre2 ++ c1) ->
  snd (de_of t pf2 (cursor pre2 c1)) = Err ParseError.
Proof. exact truncated. Qed.
Print Assumptions C11_truncated.

Example C11_ex : de_of (T_msg K_MiningSetupConnectionSuccess) Debug (cursor [] [x02; x00; x01; x00; x00; x00; xff])
  = (cursor [x02; x00; x01; x00; x00; x00] [xff], Ok sample_scs) /\
  snd (de_of (T_msg K_MiningSetupConnectionSuccess) Debug (cursor [xaa] [x02; x00; x01])) = Err ParseError.
Proof. split; reflexivity. Qed.

(** C12.  Canonical decoding: re-encoding an accepted value reproduces the bytes consumed. *)
Theorem C12_canonical : forall t pf pre rest p v, t <> T_bool -> rust_slice (pre ++ rest) ->
  de_of t pf (cursor pre rest) = (p, Ok v) ->
  exists c rest', rest = c ++ rest' /\ p = cursor (pre ++ c) rest' /\ ok t v /\
                  serialize (ser_of t v) = Ok c.
Proof. exact decode_canonical. Qed.
Print Assumptions C12_canonical.

Theorem C12_injective : forall t pf1 pf2 b1 r1 b2 r2 v, t <> T_bool ->
  rust_slice (b1 ++ r1) -> rust_slice (b2 ++ r2) ->
  de_of t pf1 (cursor [] (b1 ++ r1)) = (cursor b1 r1, Ok v) ->
  de_of t pf2 (cursor [] (b2 ++ r2)) = (cursor b2 r2, Ok v) -> b1 = b2.
Proof. exact decode_injective. Qed.
Print Assumptions C12_injective.

Example C12_ex : T_frame <> T_bool /\
  de_of T_frame Debug (cursor [] [x00; x80; x03; x04; x00; x00; x07; x00; x00; x00; xee]) =
    (cursor [x00; x80; x03; x04; x00; x00; x07; x00; x00; x00] [xee], Ok sample_frame) /\
  serialize (ser_message sample_frame) = Ok [x00; x80; x03; x04; x00; x00; x07; x00; x00; x00] /\
  (* bool is not canonical, and therefore excluded *)
  deserialize de_bool Debug [x03] = deserialize de_bool Debug [x01].
Proof. split; [discriminate|]. repeat split. Qed.

(** C13.  Streams of frames (and of any other type) split uniquely. *)
Theorem C13_stream : forall t vs encs, Forall (ok t) vs ->
  Forall2 (fun v e => serialize (ser_of t v) = Ok e) vs encs ->
  forall pf pre rest, rust_slice (pre ++ concat encs ++ rest) ->
  read_many (de_of t) (length vs) pf (cursor pre (concat encs ++ rest))
    = (cursor (pre ++ concat encs) rest, Ok vs).
Proof. exact stream. Qed.
Print Assumptions C13_stream.

Theorem C13_prefix_free : forall t v1 v2 e1 s, ok t v1 -> ok t v2 ->
  serialize (ser_of t v1) = Ok e1 -> serialize (ser_of t v2) = Ok (e1 ++ s) ->
  rust_slice (e1 ++ s) -> v1 = v2 /\ s = [].
Proof. exact prefix_free. Qed.
Print Assumptions C13_prefix_free.

Example C13_ex : Forall (ok T_frame) [sample_frame; mkMessage MT_TestMessage1 []; sample_frame] /\
  exists encs, Forall2 (fun v e => serialize (ser_of T_frame v) = Ok e)
    [sample_frame; mkMessage MT_TestMessage1 []; sample_frame] encs /\ len (concat encs) = 26.
Proof.
  split; [repeat constructor|].
  eexists [_; _; _]. split; [repeat (constructor; [reflexivity|]); constructor|reflexivity].
Qed.

(** C14.  The reported count is the number of bytes appended, for every value a constructor or a
    decoder can produce. *)
Theorem C14_count : forall t v, ok t v -> exists enc, wire enc = lay t v /\
  forall w, run vec_writer (ser_of t v) w = (w ++ enc, Ok (len enc)).
Proof. exact count_written. Qed.
Print Assumptions C14_count.

(** [ok] is exactly what the constructors produce, and contains everything the decoders produce. *)
Theorem C14_constructed_iff : forall k m, constructed k m <-> msg_ok k m.
Proof. exact constructed_iff. Qed.
Print Assumptions C14_constructed_iff.

Theorem C14_decoded : forall t pf bs v, rust_slice bs -> deserialize (de_of t) pf bs = Ok v -> ok t v.
Proof. exact deserialize_ok. Qed.
Print Assumptions C14_decoded.

Example C14_ex : constructed K_MiningSetupConnection sample_sc /\
  let '(w, r) := run vec_writer (ser_sc sample_sc) [xff] in r = Ok (len w - 1) /\ len w = 66.
Proof.
  split; [apply constructed_iff; exact sample_sc_ok|]. vm_compute. auto.
Qed.

(** C15.  Count of hand-built STR0 values (public fields): refuted. *)
Theorem C15_hand_built_count_refuted : exists s w n, utf8_text (str0_data s) /\ u8_ok (str0_length s) /\
  run vec_writer (ser_str0 s) [] = (w, Ok n) /\ n <> len w.
Proof. exact hand_built_count. Qed.
Print Assumptions C15_hand_built_count_refuted.

(** The count is right exactly when the public length field agrees with the data. *)
Theorem C15_hand_built_count_partial : forall s w, u8_ok (str0_length s) ->
  exists n, run vec_writer (ser_str0 s) w = (w ++ to_le 1 (str0_length s) ++ str0_data s, Ok n) /\
  (n = len (to_le 1 (str0_length s) ++ str0_data s) <-> str0_length s = len (str0_data s)).
Proof. exact hand_built_count_iff. Qed.
Print Assumptions C15_hand_built_count_partial.

Example C15_ex : run vec_writer (ser_str0 (mkStr0 5 [x41; x42])) [] = ([x05; x41; x42], Ok 6).
Proof. reflexivity. Qed.

(** C16.  "Ok means the writer took everything": refuted for writers that take part of a buffer,
    which io::Write allows. *)
Theorem C16_ok_means_complete_refuted : exists (wr : writer bytes) t v enc w n,
  (forall w buf w' n, wr w buf = (w', Some n) -> n <= len buf /\ w' = w ++ firstn (N.to_nat n) buf) /\
  ok t v /\ serialize (ser_of t v) = Ok enc /\
  run wr (ser_of t v) [] = (w, Ok n) /\ n = len enc /\ w <> enc.
Proof. exact short_writer. Qed.
Print Assumptions C16_ok_means_complete_refuted.

(** It holds for writers that take whole buffers. *)
Theorem C16_ok_means_complete_partial : forall t v W (wr : writer W) taken failed w w' n,
  ok t v -> whole_writer wr taken failed -> failed w = false -> run wr (ser_of t v) w = (w', Ok n) ->
  exists enc, serialize (ser_of t v) = Ok enc /\ n = len enc /\ taken w' = taken w ++ enc.
Proof. exact whole_writer_complete. Qed.
Print Assumptions C16_ok_means_complete_partial.
(** Every writer, whatever it takes (and whatever count below 2^64 - 6 it reports): the encoding is offered in pieces, one call each and never
    again, up to the first failing call; the counts it returns are ignored, except that a frame reports the
    count of its last call, the payload. *)
Theorem C16_every_writer : forall t v, ok t v -> exists cs, wire (concat cs) = lay t v /\
  forall W (wr : writer W) w,
    run wr (ser_of t v) w =
      match offer wr cs w with
      | (w', None) => (w', Err IOError)
      | (w', Some counts) => (w', Ok (match t with T_frame => 6 + last counts 0 | _ => len (concat cs) end))
      end.
Proof. exact any_writer. Qed.
Print Assumptions C16_every_writer.

(** A writer that takes the first byte of each buffer. *)
Example C16_ex : ok T_frame sample_frame /\
  run one_byte_writer (ser_message sample_frame) [] = ([x00; x03; x04; x07], Ok 7).
Proof. split; vm_compute; reflexivity. Qed.

(** C17.  A failing writer surfaces as IOError with a prefix of the encoding taken. *)
Theorem C17_failing_writer : forall t v W (wr : writer W) taken failed w w' r,
  ok t v -> whole_writer wr taken failed -> failed w = false -> run wr (ser_of t v) w = (w', r) ->
  exists enc, serialize (ser_of t v) = Ok enc /\
   ((r = Ok (len enc) /\ failed w' = false /\ taken w' = taken w ++ enc) \/
    (r = Err IOError /\ failed w' = true /\ exists p s, enc = p ++ s /\ taken w' = taken w ++ p)).
Proof. exact failing_writer. Qed.
Print Assumptions C17_failing_writer.

(** A writer with room for a fixed number of calls. *)
Definition budget_writer : writer (nat * bool * bytes) := fun '(k, f, w) buf =>
  match k with
  | O => ((O, true, w), None)
  | S k' => ((k', f, w ++ buf), Some (len buf))
  end.
Example C17_ex : whole_writer budget_writer (fun s => snd s) (fun s => snd (fst s)) /\
  ok (T_msg K_MiningSetupConnectionSuccess) sample_scs /\
  run budget_writer (ser_scs sample_scs) (1%nat, false, []) = ((O, true, [x02; x00]), Err IOError) /\
  run budget_writer (ser_scs sample_scs) (2%nat, false, []) = ((O, false, [x02; x00; x01; x00; x00; x00]), Ok 6).
Proof.
  split.
  - split.
    + intros [[[|k] f] w] buf w' n E; cbn in E; [discriminate|]. injection E as <- <-. auto.
    + intros [[[|k] f] w] buf w' E; cbn in E; [|discriminate]. injection E as <-. cbn. split; [|reflexivity].
      exists [], buf. rewrite app_nil_r. auto.
  - split; [|split; reflexivity]. split; [reflexivity|].
    apply (proj1 (flags_from_bits_iff MiningSuccessFlags 1 1)); reflexivity.
Qed.
