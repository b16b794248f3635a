(** * PropMacro: C119-C121, what [impl_message!] generates for any list of field types and any constructor. *)
From Verif Require Import Base Codec Types Messages Frame Catalog SpecWire SpecTypes SpecDecode Macro SpecMacro
  TypesFacts MsgProofs MacroProofs.

(** C119.  A declared message is written as the images of its fields in declared order, nothing between them, and the
    count is the number of bytes; a writer that fails has taken a beginning.  The encoding of one message is never the
    beginning of the encoding of another.  All messages of the crate except the common SetupConnection are instances. *)
Theorem C119_writes : forall ts v, fields_ok ts v -> exists enc, wire enc = fields_lay ts v /\
  serialize (im_ser ts v) = Ok enc /\
  (forall w, run vec_writer (im_ser ts v) w = (w ++ enc, Ok (len enc))) /\
  (forall W (wr : writer W) taken failed w w' r,
     whole_writer wr taken failed -> failed w = false -> run wr (im_ser ts v) w = (w', r) ->
     (r = Ok (len enc) /\ failed w' = false /\ taken w' = taken w ++ enc) \/
     (r = Err IOError /\ failed w' = true /\ exists p s, enc = p ++ s /\ taken w' = taken w ++ p)).
Proof. exact im_writes. Qed.
Print Assumptions C119_writes.
Theorem C119_unambiguous : forall ts v1 v2 e1 e2 s1 s2, fields_ok ts v1 -> fields_ok ts v2 ->
  serialize (im_ser ts v1) = Ok e1 -> serialize (im_ser ts v2) = Ok e2 -> rust_slice (e1 ++ s1) ->
  e1 ++ s1 = e2 ++ s2 -> v1 = v2 /\ s1 = s2.
Proof. exact fields_unambiguous. Qed.
Print Assumptions C119_unambiguous.
Theorem C119_library : forall k, k <> K_CommonSetupConnection ->
  exists (open : msg_of k -> fields (declaration k)) (new : fields (declaration k) -> Result (msg_of k)),
    (forall a b, open a = open b -> a = b) /\
    (forall v m, fields_ok (declaration k) v -> new v = Ok m -> open m = v) /\
    (forall m, msg_ok k m -> fields_ok (declaration k) (open m) /\ new (open m) = Ok m) /\
    (forall m, layout k m = fields_lay (declaration k) (open m)) /\
    (forall m W (wr : writer W) w,
       run wr (fr_ser (frameable_of k) m) w = run wr (fr_ser (im_frameable (declaration k) open new (fr_type (frameable_of k))) m) w) /\
    (forall pf p, fr_de (frameable_of k) pf p = fr_de (im_frameable (declaration k) open new (fr_type (frameable_of k))) pf p).
Proof. exact library. Qed.
Print Assumptions C119_library.

(** The TestMessage1 of macro_message/message.rs:148-219: thirteen fields. *)
Definition test_message1 : list ty :=
  [T_u8; T_u16; T_U24; T_u32; T_U256; T_f32; T_STR0 STR0_32; T_STR0 STR0_255; T_B0 B0_31; T_B0 B0_32; T_B0 B0_255;
   T_B0 B0_64K; T_B0 B0_16M].
Definition test_value : fields test_message1 :=
  (1, (2, (3, (4, (repeat x05 32, (0x40c00000, (mkStr0 5 [x73; x65; x76; x65; x6e], (mkStr0 5 [x65; x69; x67; x68; x74],
   (mkB0 4 (repeat x09 4), (mkB0 4 (repeat x0a 4), (mkB0 4 (repeat x0b 4), (mkB0 4 (repeat x0c 4),
   (mkB0 4 (repeat x0d 4), tt))))))))))))).
Definition test_bytes : bytes :=
  [x01; x02; x00; x03; x00; x00; x04; x00; x00; x00] ++ repeat x05 32 ++ [x00; x00; xc0; x40;
   x05; x73; x65; x76; x65; x6e; x05; x65; x69; x67; x68; x74; x04; x09; x09; x09; x09; x04; x0a; x0a; x0a; x0a;
   x04; x0b; x0b; x0b; x0b; x04; x00; x0c; x0c; x0c; x0c; x04; x00; x00; x0d; x0d; x0d; x0d].
Example C119_ex : fields_ok test_message1 test_value /\ serialize (im_ser test_message1 test_value) = Ok test_bytes.
Proof.
  assert (T : forall s, forallb (fun b => Byte.to_N b <=? 127) s = true -> utf8_text s).
  { intros s H. apply utf8_ascii, Forall_forall. intros b Hb. apply N.leb_le. revert b Hb. apply forallb_forall, H. }
  assert (S : forall n s, len s <=? n = true -> forallb (fun b => Byte.to_N b <=? 127) s = true -> str_ok n (mkStr0 (len s) s)).
  { intros n s H1 H2. split; [apply T, H2|]. split; [apply N.leb_le, H1|reflexivity]. }
  assert (B : forall n d, len d <=? n = true -> b0_ok n (mkB0 (len d) d)).
  { intros n d H. split; [apply N.leb_le, H|reflexivity]. }
  split; [|reflexivity]. cbn [test_message1 test_value fields_ok fst snd ok spec_str_limit spec_b0_limit].
  do 6 (split; [reflexivity|]). do 2 (split; [apply S; reflexivity|]). do 5 (split; [apply B; reflexivity|]). exact I.
Qed.

(** C120.  Reading a declared message: the fields are read in declared order, the first error is the result, and when
    all are read the constructor of the declaring module decides; reading itself never panics.  Without bool fields the
    bytes that read as given fields are exactly their layout, and a written message reads back to what the constructor
    makes of its fields. *)
Theorem C120_reads : forall ts M (new : fields ts -> Result M) pf pre rest, rust_slice (pre ++ rest) ->
  exists r, reading_fields ts rest r /\ (forall r', reading_fields ts rest r' -> r' = r) /\
  match r with
  | Ok (v, rest') => fields_ok ts v /\ exists c, rest = c ++ rest' /\
      im_de ts new pf (cursor pre rest) = (cursor (pre ++ c) rest', new v)
  | Err e => snd (im_de ts new pf (cursor pre rest)) = Err e
  | Panic => False
  end.
Proof. exact im_reads. Qed.
Print Assumptions C120_reads.
Theorem C120_layout : forall ts v rest rest', ~ In T_bool ts -> rust_slice rest ->
  reading_fields ts rest (Ok (v, rest')) <->
  fields_ok ts v /\ exists c, rest = c ++ rest' /\ wire c = fields_lay ts v.
Proof. exact reading_layout. Qed.
Print Assumptions C120_layout.
Theorem C120_round_trip : forall ts M (new : fields ts -> Result M) v enc, fields_ok ts v ->
  serialize (im_ser ts v) = Ok enc -> forall pf pre rest, rust_slice (pre ++ enc ++ rest) ->
  im_de ts new pf (cursor pre (enc ++ rest)) = (cursor (pre ++ enc) rest, new v).
Proof. exact im_decoded. Qed.
Print Assumptions C120_round_trip.

(** The whole message; an unknown flag in the second field comes before the missing third; a constructor that refuses. *)
Example C120_ex : ~ In T_bool test_message1 /\
  im_de test_message1 Ok Debug (cursor [] (test_bytes ++ [xee])) = (cursor test_bytes [xee], Ok test_value) /\
  deserialize (im_de [T_u8; T_flags MiningSuccessFlags; T_u16] Ok) Debug [x07; x04; x00; x00; x00] = Err UnknownFlags /\
  deserialize (im_de [T_u8; T_flags MiningSuccessFlags; T_u16] Ok) Debug [x07; x02; x00; x00; x00; x01] = Err ParseError /\
  deserialize (im_de [T_u8] (fun v => if fst v =? 0 then Err RequirementError else Ok (fst v))) Debug [x00] = Err RequirementError.
Proof.
  split; [intros H; repeat (destruct H as [H|H]; [discriminate|]); exact H|]. repeat split.
Qed.

(** C121.  Full statement: [forall ts open new T m, fields_ok ts (open m) -> exists fr enc, frame F m = Ok fr /\
    serialize (ser_message fr) = Ok enc]: every declared message can be sent in a frame.  Refuted by a message that
    holds one full B0_16M; below, what holds for images below 2^24 bytes, what happens above, and when a frame is
    taken for the message. *)
Theorem C121_frame_refuted : exists ts (v : fields ts) fr, fields_ok ts v /\
  frame (im_frameable ts (fun m => m) Ok MT_TestMessage1) v = Ok fr /\ serialize (ser_message fr) = Err RequirementError.
Proof. exact frame_refused_example. Qed.
Print Assumptions C121_frame_refuted.
Theorem C121_frame_partial : forall ts M (open : M -> fields ts) (new : fields ts -> Result M) T m,
  fields_ok ts (open m) -> len (fields_lay ts (open m)) < 16777216 ->
  let F := im_frameable ts open new T in
  exists fr enc, frame F m = Ok fr /\ m_type fr = T /\ wire (m_payload fr) = fields_lay ts (open m) /\
    serialize (ser_message fr) = Ok enc /\ wire enc = frame_layout fr /\
    (forall pf pre rest, rust_slice (pre ++ enc ++ rest) ->
      de_message pf (cursor pre (enc ++ rest)) = (cursor (pre ++ enc) rest, Ok fr)) /\
    (forall pf, unframe F pf fr = new (open m)).
Proof. exact im_frames. Qed.
Print Assumptions C121_frame_partial.
Theorem C121_oversized_partial : forall ts M (open : M -> fields ts) (new : fields ts -> Result M) T m,
  fields_ok ts (open m) -> 16777216 <= len (fields_lay ts (open m)) -> len (fields_lay ts (open m)) < 2 ^ 32 ->
  exists fr, frame (im_frameable ts open new T) m = Ok fr /\
    forall W (wr : writer W) w, run wr (ser_message fr) w = (w, Err RequirementError).
Proof. exact frame_refused. Qed.
Print Assumptions C121_oversized_partial.
Theorem C121_unframe_exact : forall ts M (open : M -> fields ts) (new : fields ts -> Result M) T pf fr,
  rust_slice (m_payload fr) -> let F := im_frameable ts open new T in
  (T <> m_type fr -> unframe F pf fr = Err (UnexpectedMessageType 0 (fst (spec_code T)))) /\
  (T = m_type fr -> forall r, unframe F pf fr = r <->
     (exists v left, reading_fields ts (m_payload fr) (Ok (v, left)) /\ r = new v) \/
     (exists e, reading_fields ts (m_payload fr) (Err e) /\ r = Err e)).
Proof. exact im_unframe. Qed.
Print Assumptions C121_unframe_exact.

Example C121_ex :
  let F := im_frameable test_message1 (fun m => m) Ok MT_TestMessage1 in
  len (fields_lay test_message1 test_value) = 86 /\
  frame F test_value = Ok (mkMessage MT_TestMessage1 test_bytes) /\
  unframe F Debug (mkMessage MT_TestMessage1 test_bytes) = Ok test_value /\
  unframe F Debug (mkMessage MT_TestMessage2 test_bytes) =
    Err (UnexpectedMessageType 0 (fst (spec_code MT_TestMessage1))).
Proof. repeat split. Qed.
