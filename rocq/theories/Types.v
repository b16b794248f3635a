(** * Types: the field types of the protocol.  Definitions only. *)
From Verif Require Import Base Codec.
From Coq Require Import Strings.String ZArith.
Local Open Scope N_scope.
Local Open Scope list_scope.

(** ** Scalars: stratumv2/src/types/primitives.rs *)

(** primitives.rs:15-45: [to_le_bytes], [writer.write(&buffer)?], [Ok(buffer.len())]. *)
Definition ser_uint (k : nat) (v : N) : wprog N :=
  let buffer := to_le k v in
  (_ <- wwrite buffer ;; wok (len buffer))%ser.

(** primitives.rs:62-96: fixed buffer, [clone_from_slice(next_by(k)?)], [from_le_bytes]. *)
Definition de_uint (k : nat) : De N :=
  (b <- next_by (N.of_nat k) ;;
   buffer <- de_lift (clone_from_slice (N.of_nat k) b) ;;
   de_ret (of_le buffer))%de.

Definition ser_u8 := ser_uint 1.    (* primitives.rs:15-21 *)
Definition ser_u16 := ser_uint 2.   (* primitives.rs:23-29 *)
Definition ser_u32 := ser_uint 4.   (* primitives.rs:31-37 *)
Definition de_u8 := de_uint 1.      (* primitives.rs:62-69 *)
Definition de_u16 := de_uint 2.     (* primitives.rs:71-78 *)
Definition de_u32 := de_uint 4.     (* primitives.rs:80-87 *)

(** An [f32] is modelled by its bit pattern ([to_bits]); primitives.rs:39-45 and 89-96. *)
Definition ser_f32 := ser_uint 4.
Definition de_f32 := de_uint 4.

(** primitives.rs:7-13. *)
Definition ser_bool (b : bool) : wprog N :=
  let buffer := if b then [x01] else [x00] in
  (_ <- wwrite buffer ;; wok (len buffer))%ser.

(** primitives.rs:53-60: [buffer[0] & 1 == 1]. *)
Definition de_bool : De bool :=
  (b <- next_by 1 ;;
   buffer <- de_lift (clone_from_slice 1 b) ;;
   de_ret (N.eqb (N.land (Byte.to_N (hd x00 buffer)) 1) 1))%de.

(** ** U24, U256: stratumv2/src/types/fixed.rs *)

Definition U24_MAX : N := 2 ^ 24 - 1. (* fixed.rs:14 *)

(** fixed.rs:54-66 [TryFrom<usize>]; the U24 itself is its (public) u32 field. *)
Definition u24_try_from_usize (v : N) : Result N :=
  if 2 ^ 24 - 1 <? v then Err RequirementError else Ok (v mod 2 ^ 32).

(** fixed.rs:17-19 and 40-46 [U24::new], [TryFrom<u32>]: value as usize (lossless). *)
Definition u24_new (v : N) : Result N := u24_try_from_usize v.

(** fixed.rs:68-76. *)
Definition de_u24 : De N :=
  (b <- next_by 3 ;;
   buffer <- de_lift (clone_from_slice 3 b) ;;
   de_lift (u24_new (of_le (buffer ++ [x00]))))%de.

(** fixed.rs:78-83: the low three of four little-endian bytes. *)
Definition ser_u24 (v : N) : wprog N :=
  (_ <- wwrite (firstn 3 (to_le 4 v)) ;; wok 3)%ser.

(** fixed.rs:90-96. *)
Definition de_u256 : De bytes :=
  (b <- next_by 32 ;;
   de_lift (clone_from_slice 32 b))%de.

(** fixed.rs:98-103. *)
Definition ser_u256 (v : bytes) : wprog N :=
  (_ <- wwrite v ;; wok 32)%ser.

(** ** B0: stratumv2/src/types/bytes.rs *)

(** bytes.rs:13-16; fields are public in Rust. *)
Record b0 := mkB0 { b0_length : N; b0_data : bytes }.

(** The length types used: u8, u16, U24. *)
Inductive lentype := LU8 | LU16 | LU24.

(** bytes.rs:211-215: the five instances (type, length type, maximum). *)
Inductive b0type := B0_31 | B0_32 | B0_255 | B0_64K | B0_16M.
Definition b0_lentype (t : b0type) : lentype :=
  match t with B0_31 | B0_32 | B0_255 => LU8 | B0_64K => LU16 | B0_16M => LU24 end.
Definition b0_max (t : b0type) : N :=
  match t with
  | B0_31 => 31 | B0_32 => 32 | B0_255 => 255 | B0_64K => 65535 | B0_16M => U24_MAX
  end.

(** [usize.try_into().unwrap()] to the length type: panics when out of range (bytes.rs:34). *)
Definition len_try_into_unwrap (lt : lentype) (v : N) : Result N :=
  match lt with
  | LU8 => if v <? 2 ^ 8 then Ok v else Panic
  | LU16 => if v <? 2 ^ 16 then Ok v else Panic
  | LU24 => match u24_try_from_usize v with Ok x => Ok x | _ => Panic end
  end.

Definition de_len (lt : lentype) : De N :=
  match lt with LU8 => de_u8 | LU16 => de_u16 | LU24 => de_u24 end.
Definition ser_len (lt : lentype) (v : N) : wprog N :=
  match lt with LU8 => ser_u8 v | LU16 => ser_u16 v | LU24 => ser_u24 v end.

(** bytes.rs:24-37 [new]. *)
Definition b0_new (t : b0type) (value : bytes) : Result b0 :=
  if b0_max t <? len value then Err RequirementError
  else obind (len_try_into_unwrap (b0_lentype t) (len value))
             (fun l => Ok (mkB0 l value)).

(** bytes.rs:62-71. *)
Definition de_b0 (t : b0type) : De b0 :=
  (header_length <- de_len (b0_lentype t) ;;
   bs <- next_by header_length ;;
   de_lift (b0_new t bs))%de.

(** bytes.rs:74-83. *)
Definition ser_b0 (t : b0type) (v : b0) : wprog N :=
  (header_length <- ser_len (b0_lentype t) (b0_length v) ;;
   _ <- wwrite (b0_data v) ;;
   wok (header_length + len (b0_data v)))%ser.

(** ** Strings: stratumv2/src/types/strings.rs *)

(** [String::from_utf8] accepts exactly what [core::str::from_utf8] accepts; this is the case table
    of core's [run_utf8_validation] (the ASCII block fast path is an optimisation, not modelled). *)
Definition in_range (lo hi : N) (b : byte) : bool :=
  (lo <=? Byte.to_N b) && (Byte.to_N b <=? hi).
Definition is_cont (b : byte) : bool := in_range 128 191 b.

Fixpoint utf8_valid (bs : bytes) : bool :=
  match bs with
  | [] => true
  | b0 :: t =>
      if in_range 0 127 b0 then utf8_valid t
      else if in_range 194 223 b0 then
        match t with
        | b1 :: t1 => is_cont b1 && utf8_valid t1
        | [] => false
        end
      else if in_range 224 239 b0 then
        match t with
        | b1 :: b2 :: t2 =>
            ((in_range 224 224 b0 && in_range 160 191 b1)
             || (in_range 225 236 b0 && in_range 128 191 b1)
             || (in_range 237 237 b0 && in_range 128 159 b1)
             || (in_range 238 239 b0 && in_range 128 191 b1))
            && is_cont b2 && utf8_valid t2
        | _ => false
        end
      else if in_range 240 244 b0 then
        match t with
        | b1 :: b2 :: b3 :: t3 =>
            ((in_range 240 240 b0 && in_range 144 191 b1)
             || (in_range 241 243 b0 && in_range 128 191 b1)
             || (in_range 244 244 b0 && in_range 128 143 b1))
            && is_cont b2 && is_cont b3 && utf8_valid t3
        | _ => false
        end
      else false
  end.

Definition string_from_utf8 (bs : bytes) : Result bytes :=
  if utf8_valid bs then Ok bs else Err FromUtf8Error.

(** strings.rs:9-12; [data] is a Rust String, modelled by its bytes; fields are public. *)
Record str0 := mkStr0 { str0_length : N; str0_data : bytes }.

(** strings.rs:183-184. *)
Inductive str0type := STR0_32 | STR0_255.
Definition str0_max (t : str0type) : N := match t with STR0_32 => 32 | STR0_255 => 255 end.

(** strings.rs:19-32 [new]; [value.len() as u8] truncates. *)
Definition str0_new (t : str0type) (value : bytes) : Result str0 :=
  if str0_max t <? len value then Err RequirementError
  else Ok (mkStr0 (len value mod 2 ^ 8) value).

(** strings.rs:58-69. *)
Definition de_str0 (t : str0type) : De str0 :=
  (header_length <- de_u8 ;;
   data_buffer <- next_by header_length ;;
   s <- de_lift (string_from_utf8 data_buffer) ;;
   de_lift (str0_new t s))%de.

(** strings.rs:72-81: the returned count uses [self.length]. *)
Definition ser_str0 (v : str0) : wprog N :=
  (header_length <- ser_u8 (str0_length v) ;;
   _ <- wwrite (str0_data v) ;;
   wok (header_length + str0_length v))%ser.

(** ** Flags: stratumv2/src/types/flags.rs and the four bitflags! declarations *)

Inductive flagset :=
| MiningSetupFlags     (* mining/setup_connection.rs:3-19 *)
| MiningSuccessFlags   (* mining/setup_connection_success.rs:3-11 *)
| JnSetupFlags         (* job_negotiation/setup_connection.rs:3-13 *)
| JnSuccessFlags.      (* job_negotiation/setup_connection_success.rs:3-9 *)

(** Declared constants, in order. *)
Definition flag_consts (fs : flagset) : list N :=
  match fs with
  | MiningSetupFlags => [N.shiftl 1 0; N.shiftl 1 1; N.shiftl 1 2]
  | MiningSuccessFlags => [0; N.shiftl 1 0; N.shiftl 1 1]
  | JnSetupFlags => [N.shiftl 1 0]
  | JnSuccessFlags => [0]
  end.

(** bitflags 1.x [all()]: union of the constants. *)
Definition flags_all (fs : flagset) : N := fold_left N.lor (flag_consts fs) 0.

(** bitflags 1.x [from_bits]: [if bits & !all == 0 { Some } else { None }]. *)
Definition flags_from_bits (fs : flagset) (bits : N) : option N :=
  if N.ldiff bits (flags_all fs) =? 0 then Some bits else None.

(** bitflags 1.x operators on the stored bits: [|], [&], [-], [^], [!] (the last truncated to all). *)
Definition flags_union (a b : N) : N := N.lor a b.
Definition flags_inter (a b : N) : N := N.land a b.
Definition flags_diff (a b : N) : N := N.ldiff a b.
Definition flags_symdiff (a b : N) : N := N.lxor a b.
Definition flags_complement (fs : flagset) (a : N) : N := N.land (N.lxor a (N.ones 32)) (flags_all fs).
Definition flags_is_empty (a : N) : bool := a =? 0.

(** flags.rs:17-21. *)
Definition ser_flags (bits : N) : wprog N := ser_u32 bits.
(** flags.rs:23-27. *)
Definition de_flags (fs : flagset) : De N :=
  (b <- de_u32 ;;
   de_lift (match flags_from_bits fs b with Some f => Ok f | None => Err UnknownFlags end))%de.

(** ** Error codes: stratumv2/src/types/error_code.rs *)

(** UTF-8 bytes of an (ASCII) string literal. *)
Definition lit (s : string) : bytes := list_byte_of_string s.

(** common/setup_connection_error_code.rs:6-18. *)
Inductive setup_connection_error_code :=
| UnsupportedFeatureFlags
| UnsupportedProtocol
| ProtocolVersionMismatch.

(** common/setup_connection_error_code.rs:20-25, error_code.rs:53-59 [From<&_> for String]. *)
Definition sc_code_str (c : setup_connection_error_code) : bytes :=
  match c with
  | UnsupportedFeatureFlags => lit "unsupported-feature-flags"
  | UnsupportedProtocol => lit "unsupported-protocol"
  | ProtocolVersionMismatch => lit "protocol-version-mismatch"
  end.

(** error_code.rs:26-35 [FromStr] (also used by TryFrom<String>, TryFrom<STR0_255>, 37-51). *)
Definition sc_code_from_str (s : bytes) : Result setup_connection_error_code :=
  if bytes_eqb s (lit "unsupported-feature-flags") then Ok UnsupportedFeatureFlags
  else if bytes_eqb s (lit "unsupported-protocol") then Ok UnsupportedProtocol
  else if bytes_eqb s (lit "protocol-version-mismatch") then Ok ProtocolVersionMismatch
  else Err UnknownErrorCode.

(** derive(PartialEq), common/setup_connection_error_code.rs:5. *)
Definition sc_code_eqb (a b : setup_connection_error_code) : bool :=
  match a, b with
  | UnsupportedFeatureFlags, UnsupportedFeatureFlags
  | UnsupportedProtocol, UnsupportedProtocol
  | ProtocolVersionMismatch, ProtocolVersionMismatch => true
  | _, _ => false
  end.

(** mining/open_mining_channel_error.rs:8-11. *)
Inductive open_mining_channel_error_code :=
| UnknownUser
| MaxTargetOutOfRange.

(** mining/open_mining_channel_error.rs:13-18, error_code.rs:53-59. *)
Definition omc_code_str (c : open_mining_channel_error_code) : bytes :=
  match c with
  | UnknownUser => lit "unknown-user"
  | MaxTargetOutOfRange => lit "max-target-out-of-range"
  end.

(** error_code.rs:26-35 [FromStr]. *)
Definition omc_code_from_str (s : bytes) : Result open_mining_channel_error_code :=
  if bytes_eqb s (lit "unknown-user") then Ok UnknownUser
  else if bytes_eqb s (lit "max-target-out-of-range") then Ok MaxTargetOutOfRange
  else Err UnknownErrorCode.

(** derive(PartialEq), mining/open_mining_channel_error.rs:7. *)
Definition omc_code_eqb (a b : open_mining_channel_error_code) : bool :=
  match a, b with
  | UnknownUser, UnknownUser | MaxTargetOutOfRange, MaxTargetOutOfRange => true
  | _, _ => false
  end.

(** error_code.rs:61-69 [From<&_> for STR0_255]: built directly, [data.len() as u8]. *)
Definition code_str0 (s : bytes) : str0 := mkStr0 (len s mod 2 ^ 8) s.

(** error_code.rs:71-83. *)
Definition ser_sc_code (c : setup_connection_error_code) : wprog N :=
  ser_str0 (code_str0 (sc_code_str c)).
Definition de_sc_code : De setup_connection_error_code :=
  (s <- de_str0 STR0_255 ;; de_lift (sc_code_from_str (str0_data s)))%de.
Definition ser_omc_code (c : open_mining_channel_error_code) : wprog N :=
  ser_str0 (code_str0 (omc_code_str c)).
Definition de_omc_code : De open_mining_channel_error_code :=
  (s <- de_str0 STR0_255 ;; de_lift (omc_code_from_str (str0_data s)))%de.

(** ** Message types: stratumv2/src/types/message_type.rs *)

(** message_type.rs:6-41. *)
Inductive message_type :=
| MT_SetupConnection | MT_SetupConnectionSuccess | MT_SetupConnectionError
| MT_ChannelEndpointChanged
| MT_OpenStandardMiningChannel | MT_OpenStandardMiningChannelSuccess
| MT_OpenStandardMiningChannelError
| MT_OpenExtendedMiningChannel | MT_OpenExtendedMiningChannelSuccess
| MT_OpenExtendedMiningChannelError
| MT_UpdateChannel | MT_UpdateChannelError | MT_CloseChannel | MT_SetExtranoncePrefix
| MT_SubmitSharesStandard | MT_SubmitSharesExtended | MT_SubmitSharesSuccess
| MT_SubmitSharesError | MT_NewMiningJob | MT_NewExtendedMiningJob | MT_SetNewPrevHash
| MT_SetTarget | MT_SetCustomMiningJob | MT_SetCustomMiningJobSuccess
| MT_SetCustomMiningJobError | MT_Reconnect | MT_SetGroupChannel
| MT_TestMessage1 | MT_TestMessage2.

(** message_type.rs:74-105: the rows of the table, in order. *)
Definition mt_table : list (message_type * (N * N * bool)) :=
  [ (MT_SetupConnection, (0, 0x00, false));
    (MT_SetupConnectionSuccess, (0, 0x01, false));
    (MT_SetupConnectionError, (0, 0x02, false));
    (MT_ChannelEndpointChanged, (0, 0x03, true));
    (MT_OpenStandardMiningChannel, (0, 0x10, false));
    (MT_OpenStandardMiningChannelSuccess, (0, 0x11, false));
    (MT_OpenStandardMiningChannelError, (0, 0x12, false));
    (MT_OpenExtendedMiningChannel, (0, 0x13, false));
    (MT_OpenExtendedMiningChannelSuccess, (0, 0x14, false));
    (MT_OpenExtendedMiningChannelError, (0, 0x15, false));
    (MT_UpdateChannel, (0, 0x16, true));
    (MT_UpdateChannelError, (0, 0x17, true));
    (MT_CloseChannel, (0, 0x18, true));
    (MT_SetExtranoncePrefix, (0, 0x19, true));
    (MT_SubmitSharesStandard, (0, 0x1a, true));
    (MT_SubmitSharesExtended, (0, 0x1b, true));
    (MT_SubmitSharesSuccess, (0, 0x1c, true));
    (MT_SubmitSharesError, (0, 0x1d, true));
    (MT_NewMiningJob, (0, 0x1e, true));
    (MT_NewExtendedMiningJob, (0, 0x1f, true));
    (MT_SetNewPrevHash, (0, 0x20, true));
    (MT_SetTarget, (0, 0x21, true));
    (MT_SetCustomMiningJob, (0, 0x22, false));
    (MT_SetCustomMiningJobSuccess, (0, 0x23, false));
    (MT_SetCustomMiningJobError, (0, 0x24, false));
    (MT_Reconnect, (0, 0x25, false));
    (MT_SetGroupChannel, (0, 0x26, false));
    (MT_TestMessage1, (0, 0xfe, false));
    (MT_TestMessage2, (0, 0xff, true)) ].

(** derive(PartialEq), message_type.rs:5. *)
Scheme Equality for message_type.
Definition mt_eqb : message_type -> message_type -> bool := message_type_beq.

Definition mt_row (t : message_type) : N * N * bool :=
  match find (fun r => mt_eqb (fst r) t) mt_table with
  | Some r => snd r
  | None => (0, 0, false)   (* unreachable: the Rust match is exhaustive *)
  end.

(** message_type.rs:53-69. *)
Definition mt_ext_type (t : message_type) : N := fst (fst (mt_row t)).
Definition mt_msg_type (t : message_type) : N := snd (fst (mt_row t)).
Definition mt_channel_bit (t : message_type) : bool := snd (mt_row t).

(** message_type.rs:46-51 [MessageType::new]: first matching row. *)
Definition mt_new (ext_type msg_type : N) : Result message_type :=
  match find (fun r => (fst (fst (snd r)) =? ext_type) && (snd (fst (snd r)) =? msg_type)) mt_table with
  | Some r => Ok (fst r)
  | None => Err UnknownMessageType
  end.

(** ** Protocol: stratumv2/src/common/setup_connection.rs:13-76 *)

Inductive protocol := PMining | PJobNegotiation | PTemplateDistribution | PJobDistribution.

(** setup_connection.rs:32-47. *)
Definition protocol_to_u8 (p : protocol) : N :=
  match p with
  | PMining => 0 | PJobNegotiation => 1 | PTemplateDistribution => 2 | PJobDistribution => 3
  end.

(** setup_connection.rs:49-64. *)
Definition protocol_try_from (b : N) : Result protocol :=
  match b with
  | 0 => Ok PMining
  | 1 => Ok PJobNegotiation
  | 2 => Ok PTemplateDistribution
  | 3 => Ok PJobDistribution
  | _ => Err DeserializationError
  end.

(** setup_connection.rs:66-76. *)
Definition ser_protocol (p : protocol) : wprog N := ser_u8 (protocol_to_u8 p).
Definition de_protocol : De protocol :=
  (b <- de_u8 ;; de_lift (protocol_try_from b))%de.

(** ** Time: stratumv2/src/types/unix_timestamp.rs:5-14 *)

(** A SystemTime as a signed number of nanoseconds relative to the Unix epoch. *)
Definition system_time := Z.

(** unix_timestamp.rs:5-9: [duration_since] fails before the epoch, [as_secs() as u32] truncates. *)
Definition system_unix_time_to_u32 (t : system_time) : Result N :=
  if (t <? 0)%Z then Err SystemTimeError
  else Ok (Z.to_N (t / 1000000000) mod 2 ^ 32).
