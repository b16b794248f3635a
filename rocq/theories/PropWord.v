(** * PropWord: C132, the same bytes mean the same on 32-bit and 64-bit machines. *)
From Verif Require Import Base Codec Types Messages Frame Catalog Macro Nest Word SpecWord SpecWire SpecTypes SpecDecode SpecMacro SpecNest NestProofs WordProofs.

(** C132.  Every wire type, every slice that the machine can hold, any cursor, with and without overflow checks: the
    result and the cursor are those of the specification, which does not know the machine. *)
Theorem C132_reads : forall w t pf pre rest, slice_on w (pre ++ rest) ->
  exists r, reading_ty t rest r /\ (forall r', reading_ty t rest r' -> r' = r) /\
  match r with
  | Ok (v, rest') => exists c, rest = c ++ rest' /\ de_of_w w t pf (cursor pre rest) = (cursor (pre ++ c) rest', Ok v)
  | Err e => snd (de_of_w w t pf (cursor pre rest)) = Err e
  | Panic => False
  end.
Proof. exact word_reads. Qed.
Print Assumptions C132_reads.
(** A message of any declaration and any constructor. *)
Theorem C132_declared : forall w ts M (new : fields ts -> Result M) pf pre rest, slice_on w (pre ++ rest) ->
  exists r, reading_fields ts rest r /\ (forall r', reading_fields ts rest r' -> r' = r) /\
  match r with
  | Ok (v, rest') => exists c, rest = c ++ rest' /\ im_de_w w ts new pf (cursor pre rest) = (cursor (pre ++ c) rest', new v)
  | Err e => snd (im_de_w w ts new pf (cursor pre rest)) = Err e
  | Panic => False
  end.
Proof. exact word_macro. Qed.
Print Assumptions C132_declared.
(** The two machines side by side, failures with their cursors included. *)
Theorem C132_machines : forall t pf pre rest, slice_on W32 (pre ++ rest) ->
  de_of_w W32 t pf (cursor pre rest) = de_of_w W64 t pf (cursor pre rest).
Proof. exact word_machines. Qed.
Print Assumptions C132_machines.
(** Messages inside messages, to any depth (C124, C125). *)
Theorem C132_nested : forall w A (s : shape A), storing s -> forall pf pre rest, slice_on w (pre ++ rest) ->
  exists r, shape_reading s rest r /\ (forall r', shape_reading s rest r' -> r' = r) /\
  match r with
  | Ok (v, rest') => shape_ok s v /\
      exists c, rest = c ++ rest' /\ shape_de_w w s pf (cursor pre rest) = (cursor (pre ++ c) rest', Ok v)
  | Err e => snd (shape_de_w w s pf (cursor pre rest)) = Err e
  | Panic => False
  end.
Proof. exact word_nested. Qed.
Print Assumptions C132_nested.
Theorem C132_nested_machines : forall A (s : shape A) pf pre rest, slice_on W32 (pre ++ rest) ->
  shape_de_w W32 s pf (cursor pre rest) = shape_de_w W64 s pf (cursor pre rest).
Proof. exact word_nested_machines. Qed.
Print Assumptions C132_nested_machines.
Theorem C132_unframe : forall w k pf m, slice_on w (m_payload m) ->
  (fr_type (frameable_of k) <> m_type m ->
     unframe_w w k pf m = Err (UnexpectedMessageType 0 (fst (spec_code (fr_type (frameable_of k)))))) /\
  (fr_type (frameable_of k) = m_type m ->
     (forall v, unframe_w w k pf m = Ok v <-> exists left, reading_of k (m_payload m) (Ok (v, left))) /\
     (forall e, unframe_w w k pf m = Err e <-> reading_of k (m_payload m) (Err e))).
Proof. exact word_unframe. Qed.
Print Assumptions C132_unframe.
(** Frames: on a 32-bit machine every payload that is too long is refused (on a 64-bit machine not, C21); what both can
    hold they write alike. *)
Theorem C132_frames : forall m, slice_on W32 (m_payload m) ->
  (16777216 <= len (m_payload m) -> forall W (wr : writer W) x, run wr (ser_message_w W32 m) x = (x, Err RequirementError)) /\
  (len (m_payload m) < 16777216 -> exists enc, wire enc = frame_layout m /\
     forall x, run vec_writer (ser_message_w W32 m) x = (x ++ enc, Ok (6 + len (m_payload m)))) /\
  (forall W (wr : writer W) x, run wr (ser_message_w W32 m) x = run wr (ser_message_w W64 m) x).
Proof. exact word_frame. Qed.
Print Assumptions C132_frames.
Theorem C132_frames_64 : forall m, let announced := len (m_payload m) mod 4294967296 in
  (16777216 <= announced -> forall W (wr : writer W) x, run wr (ser_message_w W64 m) x = (x, Err RequirementError)) /\
  (announced < 16777216 -> exists enc, wire enc = frame_layout m /\
     forall x, run vec_writer (ser_message_w W64 m) x = (x ++ enc, Ok (6 + len (m_payload m)))).
Proof. exact word_64. Qed.
Print Assumptions C132_frames_64.
(** [next_by] itself, any start and any step that a usize can hold. *)
Theorem C132_next_by : forall w pf bs start step, slice_on w bs -> start < usize_end w -> step < usize_end w ->
  (start + step <= len bs -> exists a b c, bs = a ++ b ++ c /\ len a = start /\ len b = step /\
     next_by_w w step pf (mkParser bs start) = (mkParser bs (start + step), Ok b)) /\
  (len bs < start + step ->
     next_by_w w step pf (mkParser bs start) =
       (mkParser bs start, if (usize_end w <=? start + step) && match pf with Debug => true | Release => false end then Panic else Err ParseError)).
Proof. exact word_next. Qed.
Print Assumptions C132_next_by.

(** A frame of type UpdateChannelError (0x8000, 0x17) with two bytes, one more byte behind it, read after three others. *)
Example C132_ex :
  let pre := [x01; x02; x03] in let rest := [x00; x80; x17; x02; x00; x00; xaa; xbb; xcc] in
  slice_on W32 (pre ++ rest) /\
  de_of_w W32 T_frame Debug (cursor pre rest) =
    (cursor (pre ++ [x00; x80; x17; x02; x00; x00; xaa; xbb]) [xcc], Ok (mkMessage MT_UpdateChannelError [xaa; xbb])) /\
  snd (de_of_w W32 (T_B0 B0_16M) Debug (cursor [x01] [xff; xff; xff; x00])) = Err ParseError /\
  snd (next_by_w W32 (2 ^ 32 - 1) Debug (mkParser [x00; x01] 1)) = Panic /\
  snd (next_by_w W64 (2 ^ 32 - 1) Debug (mkParser [x00; x01] 1)) = Err ParseError /\
  snd (next_by_w W32 (2 ^ 32 - 1) Release (mkParser [x00; x01] 1)) = Err ParseError.
Proof. repeat split; vm_compute; congruence. Qed.
Example C132_ex_frames : exists m, slice_on W32 (m_payload m) /\ 16777216 <= len (m_payload m).
Proof. exists (mkMessage MT_SetupConnection (repeat x41 (N.to_nat 16777216))). cbn [m_payload slice_on].
  rewrite BaseFacts.len_repeat, Nnat.N2Nat.id. split; vm_compute; congruence. Qed.
(** Four levels (PropNest). *)
Example C132_ex_nested :
  (forall n, storing (tower n)) /\ slice_on W32 ([xaa] ++ [x07; x07; x07; x01; x02; xbb]) /\
  shape_de_w W32 (tower 3) Debug (cursor [xaa] [x07; x07; x07; x01; x02; xbb]) = (cursor [xaa; x07; x07; x07; x01; x02] [xbb], Ok 513).
Proof. split; [intros n; exact (proj1 (tower_facts n))|split; vm_compute; congruence]. Qed.
