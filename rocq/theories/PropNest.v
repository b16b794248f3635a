(** * PropNest: C124-C125, declared messages as fields of declared messages, to any depth. *)
From Verif Require Import Base Codec Types Messages Frame Catalog SpecWire SpecTypes SpecDecode Macro SpecMacro SpecPieces Nest SpecNest
  TypesFacts MsgProofs NestProofs.

(** C124.  A declared message can be a field of another, to any depth: the image is that of the innermost fields in
    order, it reads back as the value, and bytes are read as exactly one value. *)
Theorem C124_nested : forall A (s : shape A) v, shape_ok s v -> exists enc, wire enc = shape_lay s v /\
  serialize (shape_ser s v) = Ok enc /\
  (forall w, run vec_writer (shape_ser s v) w = (w ++ enc, Ok (len enc))) /\
  (forall W (wr : writer W) taken failed w w' r,
     whole_writer wr taken failed -> failed w = false -> run wr (shape_ser s v) w = (w', r) ->
     (r = Ok (len enc) /\ failed w' = false /\ taken w' = taken w ++ enc) \/
     (r = Err IOError /\ failed w' = true /\ exists p t, enc = p ++ t /\ taken w' = taken w ++ p)) /\
  (forall pf pre rest, rust_slice (pre ++ enc ++ rest) ->
     shape_de s pf (cursor pre (enc ++ rest)) = (cursor (pre ++ enc) rest, Ok v)).
Proof. exact nest_roundtrip. Qed.
Print Assumptions C124_nested.
Theorem C124_unambiguous : forall A (s : shape A) v1 v2 e1 e2 s1 s2, shape_ok s v1 -> shape_ok s v2 ->
  serialize (shape_ser s v1) = Ok e1 -> serialize (shape_ser s v2) = Ok e2 -> rust_slice (e1 ++ s1) ->
  e1 ++ s1 = e2 ++ s2 -> v1 = v2 /\ s1 = s2.
Proof. exact nest_unambiguous. Qed.
Print Assumptions C124_unambiguous.
Theorem C124_canonical : forall A (s : shape A), storing s -> no_bool s -> forall pf pre rest p v, rust_slice (pre ++ rest) ->
  shape_de s pf (cursor pre rest) = (p, Ok v) ->
  exists c rest', rest = c ++ rest' /\ p = cursor (pre ++ c) rest' /\ shape_ok s v /\ serialize (shape_ser s v) = Ok c.
Proof. exact nest_canonical. Qed.
Print Assumptions C124_canonical.
Theorem C124_framed : forall A (s : shape A) T m, shape_ok s m -> len (shape_lay s m) < 16777216 ->
  let F := nest_frameable s T in
  exists fr enc, frame F m = Ok fr /\ m_type fr = T /\ wire (m_payload fr) = shape_lay s m /\
    serialize (ser_message fr) = Ok enc /\ wire enc = frame_layout fr /\
    (forall pf pre rest, rust_slice (pre ++ enc ++ rest) ->
      de_message pf (cursor pre (enc ++ rest)) = (cursor (pre ++ enc) rest, Ok fr)) /\
    (forall pf, unframe F pf fr = Ok m).
Proof. exact nest_frames. Qed.
Print Assumptions C124_framed.
Theorem C124_flat : forall ts M (open : M -> fields ts) (new : fields ts -> Result M) T,
  let s := S_msg (flat ts) open new in
  (forall m, fr_ser (nest_frameable s T) m = fr_ser (im_frameable ts open new T) m) /\
  fr_de (nest_frameable s T) = fr_de (im_frameable ts open new T) /\
  (forall m, shape_ok s m <-> fields_ok ts (open m) /\ new (open m) = Ok m) /\
  (forall m, shape_lay s m = fields_lay ts (open m)).
Proof. exact flat_macro. Qed.
Print Assumptions C124_flat.

(** [tower n]: a message of a tag and the message one level down, [n] levels deep. *)
Example C124_ex :
  serialize (shape_ser (tower 3) 513) = Ok [x07; x07; x07; x01; x02] /\
  shape_de (tower 3) Debug (cursor [xaa] [x07; x07; x07; x01; x02; xbb]) = (cursor [xaa; x07; x07; x07; x01; x02] [xbb], Ok 513) /\
  (forall n, shape_ok (tower n) 513 /\ storing (tower n) /\ no_bool (tower n)) /\
  len (shape_lay (tower 3) 513) = 5.
Proof.
  split; [vm_compute; reflexivity|]. split; [vm_compute; reflexivity|]. split; [|vm_compute; reflexivity].
  intros n. destruct (tower_facts n) as (A & B & _ & D & _). auto.
Qed.

(** C125.  What nested messages read from any bytes, errors included; ParseError means that bytes are missing. *)
Theorem C125_reads : forall A (s : shape A), storing s -> forall pf pre rest, rust_slice (pre ++ rest) ->
  exists r, shape_reading s rest r /\ (forall r', shape_reading s rest r' -> r' = r) /\
  match r with
  | Ok (v, rest') => shape_ok s v /\ exists c, rest = c ++ rest' /\ shape_de s pf (cursor pre rest) = (cursor (pre ++ c) rest', Ok v)
  | Err e => snd (shape_de s pf (cursor pre rest)) = Err e
  | Panic => False
  end.
Proof. exact nest_table. Qed.
Print Assumptions C125_reads.
Theorem C125_missing : forall A (s : shape A), storing s -> no_parse_error s -> forall pf bs, len bs + shape_enough s <= 2 ^ 63 - 1 ->
  deserialize (shape_de s) pf bs = Err ParseError <->
  exists t, rust_slice (bs ++ t) /\ deserialize (shape_de s) pf (bs ++ t) <> deserialize (shape_de s) pf bs.
Proof. exact nest_missing. Qed.
Print Assumptions C125_missing.

(** The wrong tag at the second level is found only when the levels below have been read. *)
Example C125_ex :
  deserialize (shape_de (tower 3)) Debug [x07; x08; x07; x01] = Err ParseError /\
  deserialize (shape_de (tower 3)) Debug [x07; x08; x07; x01; x02] = Err RequirementError /\
  shape_enough (tower 3) = 5 /\ storing (tower 3) /\ no_parse_error (tower 3).
Proof.
  split; [vm_compute; reflexivity|]. split; [vm_compute; reflexivity|]. split; [reflexivity|].
  destruct (tower_facts 3) as (A & _ & C & _). auto.
Qed.
