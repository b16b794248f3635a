(** * PropTypes: C01-C08, field types. *)
From Verif Require Import Base Codec Types Messages Frame Catalog SpecWire SpecTypes
  BaseFacts CodecFacts Utf8Facts TypesFacts MessagesFacts FrameFacts CodecProofs MsgProofs Samples TypesProofs.

(** C01.  Serializing a scalar appends exactly its little-endian image and returns its size;
    deserializing that image, whatever surrounds it, gives the value back. *)
Definition scalar_size (t : ty) : option N :=
  match t with
  | T_u8 => Some 1 | T_u16 => Some 2 | T_u32 => Some 4 | T_f32 => Some 4 | T_bool => Some 1
  | T_U24 => Some 3 | T_U256 => Some 32 | _ => None
  end.

Theorem C01_scalar_roundtrip : forall t size v, scalar_size t = Some size -> ok t v ->
  exists enc, wire enc = lay t v /\ len enc = size /\
    (forall w, run vec_writer (ser_of t v) w = (w ++ enc, Ok size)) /\
    (forall pf pre rest, rust_slice (pre ++ enc ++ rest) ->
       de_of t pf (cursor pre (enc ++ rest)) = (cursor (pre ++ enc) rest, Ok v)).
Proof. exact scalar_roundtrip. Qed.
Print Assumptions C01_scalar_roundtrip.

Example C01_ex : scalar_size T_U24 = Some 3 /\ ok T_U24 0xABCDEF /\ lay T_U24 0xABCDEF = [0xEF; 0xCD; 0xAB] /\
  rust_slice ([x01] ++ [xef; xcd; xab] ++ [x02]) /\
  de_of T_U24 Debug (cursor [x01] [xef; xcd; xab; x02]) = (cursor [x01; xef; xcd; xab] [x02], Ok 0xABCDEF).
Proof. repeat split; vm_compute; discriminate. Qed.

(** C02.  A bool is decoded from the least significant bit only and encoded as 0 or 1. *)
Theorem C02_bool_lsb : forall b pf pre rest, rust_slice (pre ++ b :: rest) ->
  de_bool pf (cursor pre (b :: rest)) = (cursor (pre ++ [b]) rest, Ok (N.odd (Byte.to_N b))).
Proof. exact bool_lsb. Qed.
Print Assumptions C02_bool_lsb.

Theorem C02_bool_encoding : forall v w,
  run vec_writer (ser_bool v) w = (w ++ [if v then x01 else x00], Ok 1).
Proof. exact bool_encoding. Qed.
Print Assumptions C02_bool_encoding.

Example C02_ex : rust_slice ([] ++ xfe :: [x01]) /\ deserialize de_bool Debug [xfe; x01] = Ok false /\
  deserialize de_bool Release [x83] = Ok true.
Proof. repeat split; vm_compute; discriminate. Qed.

(** C03.  U24 construction accepts exactly the numbers below 2^24. *)
Theorem C03_u24_range : forall v,
  (v <= 16777215 -> u24_new v = Ok v /\ u24_try_from_usize v = Ok v) /\
  (16777215 < v -> u24_new v = Err RequirementError /\ u24_try_from_usize v = Err RequirementError).
Proof. exact u24_range. Qed.
Print Assumptions C03_u24_range.

Theorem C03_u24_wire : forall pf bs v, rust_slice bs -> deserialize de_u24 pf bs = Ok v -> v <= 16777215.
Proof. exact u24_wire. Qed.
Print Assumptions C03_u24_wire.

Example C03_ex : u24_new 16777215 = Ok 16777215 /\ u24_new 16777216 = Err RequirementError /\
  u24_try_from_usize (2 ^ 64 - 1) = Err RequirementError /\
  deserialize de_u24 Debug [xff; xff; xff] = Ok 16777215.
Proof. repeat split. Qed.

(** C04.  B0 construction. *)
Theorem C04_b0_new : forall t v,
  (len v <= spec_b0_limit t -> b0_new t v = Ok (mkB0 (len v) v)) /\
  (spec_b0_limit t < len v -> b0_new t v = Err RequirementError).
Proof. exact b0_new_exact. Qed.
Print Assumptions C04_b0_new.

Example C04_ex : b0_new B0_31 (repeat x01 31) = Ok (mkB0 31 (repeat x01 31)) /\
  b0_new B0_31 (repeat x01 32) = Err RequirementError /\ b0_new B0_32 (repeat x01 32) = Ok (mkB0 32 (repeat x01 32)).
Proof. repeat split. Qed.

(** C05.  B0 wire format, round trip and exact rejection. *)
Theorem C05_b0_roundtrip : forall t v b, b0_new t v = Ok b ->
  exists enc, wire enc = spec_le (spec_b0_hdr t) (len v) ++ wire v /\
    (forall w, run vec_writer (ser_b0 t b) w = (w ++ enc, Ok (len enc))) /\
    (forall pf pre rest, rust_slice (pre ++ enc ++ rest) ->
       de_b0 t pf (cursor pre (enc ++ rest)) = (cursor (pre ++ enc) rest, Ok b)).
Proof. exact b0_roundtrip. Qed.
Print Assumptions C05_b0_roundtrip.

Theorem C05_b0_decode_exact : forall t pf pre rest, rust_slice (pre ++ rest) ->
  match spec_decode_b0 t rest with
  | Ok (v, n) => de_b0 t pf (cursor pre rest) = (mkParser (pre ++ rest) (len pre + n), Ok v)
  | Err e => snd (de_b0 t pf (cursor pre rest)) = Err e
  | Panic => False
  end.
Proof. exact b0_table. Qed.
Print Assumptions C05_b0_decode_exact.

Example C05_ex :
  spec_decode_b0 B0_64K [x02; x00; xaa; xbb; xcc] = Ok (mkB0 2 [xaa; xbb], 4) /\
  spec_decode_b0 B0_31 (x20 :: repeat x00 32) = Err RequirementError /\
  spec_decode_b0 B0_31 (x20 :: repeat x00 31) = Err ParseError /\
  spec_decode_b0 B0_16M [x01; x00] = Err ParseError /\
  b0_new B0_64K [xaa; xbb] = Ok (mkB0 2 [xaa; xbb]).
Proof. repeat split. Qed.

(** C06.  STR0 construction. *)
Theorem C06_str0_new : forall t v,
  (len v <= spec_str_limit t -> str0_new t v = Ok (mkStr0 (len v) v)) /\
  (spec_str_limit t < len v -> str0_new t v = Err RequirementError).
Proof. exact str0_new_exact. Qed.
Print Assumptions C06_str0_new.

Example C06_ex : str0_new STR0_32 (repeat x41 32) = Ok (mkStr0 32 (repeat x41 32)) /\
  str0_new STR0_32 (repeat x41 33) = Err RequirementError /\
  str0_new STR0_255 sample_utf8 = Ok (mkStr0 9 sample_utf8).
Proof. repeat split. Qed.

(** C07.  STR0 wire format, round trip and exact rejection. *)
Theorem C07_str0_roundtrip : forall t v s, utf8_text v -> str0_new t v = Ok s ->
  exists enc, wire enc = spec_le 1 (len v) ++ wire v /\
    (forall w, run vec_writer (ser_str0 s) w = (w ++ enc, Ok (len enc))) /\
    (forall pf pre rest, rust_slice (pre ++ enc ++ rest) ->
       de_str0 t pf (cursor pre (enc ++ rest)) = (cursor (pre ++ enc) rest, Ok s)).
Proof. exact str0_roundtrip. Qed.
Print Assumptions C07_str0_roundtrip.

Theorem C07_str0_decode_exact : forall t pf pre rest, rust_slice (pre ++ rest) ->
  exists r, spec_decode_str t rest r /\
  match r with
  | Ok (v, n) => de_str0 t pf (cursor pre rest) = (mkParser (pre ++ rest) (len pre + n), Ok v)
  | Err e => snd (de_str0 t pf (cursor pre rest)) = Err e
  | Panic => False
  end.
Proof. exact str_table. Qed.
Print Assumptions C07_str0_decode_exact.

(** The table determines the outcome. *)
Theorem C07_str0_table_functional : forall t rest r1 r2,
  spec_decode_str t rest r1 -> spec_decode_str t rest r2 -> r1 = r2.
Proof. exact spec_decode_str_functional. Qed.
Print Assumptions C07_str0_table_functional.

Example C07_ex : utf8_text sample_utf8 /\
  deserialize (de_str0 STR0_32) Debug (x09 :: sample_utf8) = Ok (mkStr0 9 sample_utf8) /\
  deserialize (de_str0 STR0_32) Debug [x02; xc3] = Err ParseError /\
  deserialize (de_str0 STR0_32) Debug [x01; xc3; xa9] = Err FromUtf8Error /\
  deserialize (de_str0 STR0_32) Debug (x21 :: repeat x41 33) = Err RequirementError /\
  deserialize (de_str0 STR0_32) Debug (x21 :: xff :: repeat x41 32) = Err FromUtf8Error.
Proof. split; [exact sample_utf8_text|]. repeat split. Qed.

(** C08.  The strings accepted are exactly the encodings of Unicode scalar values. *)
Theorem C08_utf8_exact : forall t pf n s rest,
  Byte.to_N n = len s -> len s <= spec_str_limit t -> rust_slice (n :: s ++ rest) ->
  (is_ok (deserialize (de_str0 t) pf (n :: s ++ rest)) <->
   exists cs, Forall scalar_value cs /\ wire s = flat_map utf8_encode cs).
Proof. exact utf8_exact. Qed.
Print Assumptions C08_utf8_exact.

Example C08_ex : Byte.to_N x09 = len sample_utf8 /\ len sample_utf8 <= spec_str_limit STR0_32 /\
  wire sample_utf8 = flat_map utf8_encode [0xE9; 0x20AC; 0x1F600] /\
  Forall scalar_value [0xE9; 0x20AC; 0x1F600] /\
  (* overlong, surrogate, above U+10FFFF *)
  utf8_valid [xc0; x80] = false /\ utf8_valid [xed; xa0; x80] = false /\ utf8_valid [xf4; x90; x80; x80] = false.
Proof.
  repeat split; try (vm_compute; discriminate).
  repeat (apply Forall_cons; [unfold scalar_value; (left; vm_compute; discriminate) || (right; split; vm_compute; discriminate)|]).
  apply Forall_nil.
Qed.
