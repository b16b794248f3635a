(** * Heap: decoding with a record of the reads it makes and of the buffers it puts on the heap.  Definitions only.

    The same functions as in Types, Messages, Frame, Macro and Nest.  Recorded are the calls of [next_by] and every [Vec]
    or [String] that is made, with the number of bytes it holds: copies of bytes of the input, and the text that an
    error carries.  Moving a [Vec] or [String] makes none: [Into<String>] of a String and of a STR0_255 (types/strings.rs:50-54),
    [Into<Vec<u8>>] of a Vec and of a B0 (types/bytes.rs:55-59), [From<STR0_255>] of the error codes (types/error_code.rs:45-51).
    Simplified: the allocator may be asked for more than the buffer holds (a Vec that grows from empty asks for at least 8
    bytes). *)
From Verif Require Import Base Codec Types Messages Frame Catalog Macro Nest Reasons.

Inductive event :=
| Ask (n : N)       (* next_by was called with this step *)
| Buffer (n : N).   (* a Vec or String was made that holds this many bytes *)

Definition Dh (A : Type) : Type := profile -> parser -> list event * parser * Result A.

Definition dh_lift {A} (o : Result A) : Dh A := fun _ p => ([], p, o).
Definition dh_bind {A B} (m : Dh A) (f : A -> Dh B) : Dh B :=
  fun pf p =>
    match m pf p with
    | (ev, p', Ok a) => let '(ev', p'', r) := f a pf p' in (ev ++ ev', p'', r)
    | (ev, p', Err e) => (ev, p', Err e)
    | (ev, p', Panic) => (ev, p', Panic)
    end.
Declare Scope dh_scope.
Delimit Scope dh_scope with dh.
Notation "x <- m ;; k" := (dh_bind m (fun x => k))
  (at level 61, m at next level, right associativity) : dh_scope.

(** A buffer that holds a copy of [b]. *)
Definition dh_copy (b : bytes) : Dh bytes := fun _ p => ([Buffer (len b)], p, Ok b).
(** A failure with the String made for it (["..".into()]; the texts are in Reasons.v). *)
Definition dh_text {A} (o : TResult A) : Dh A :=
  fun _ p => match o with
             | Ok a => ([], p, Ok a)
             | Err (e, text) => ([Buffer (len text)], p, Err e)
             | Panic => ([], p, Panic)
             end.

(** codec/parser.rs:16-26: a slice of the input, no copy; the text is on line 21. *)
Definition next_by_h (step : N) : Dh bytes :=
  fun pf p =>
    let '(p', o) := next_by_t step pf p in
    match o with
    | Ok b => ([Ask step], p', Ok b)
    | Err (e, text) => ([Ask step; Buffer (len text)], p', Err e)
    | Panic => ([Ask step], p', Panic)
    end.

(** types/primitives.rs:62-96: into arrays on the stack. *)
Definition de_uint_h (k : nat) : Dh N :=
  (b <- next_by_h (N.of_nat k) ;;
   buffer <- dh_lift (clone_from_slice (N.of_nat k) b) ;;
   dh_lift (Ok (of_le buffer)))%dh.
(** types/primitives.rs:53-60. *)
Definition de_bool_h : Dh bool :=
  (b <- next_by_h 1 ;;
   buffer <- dh_lift (clone_from_slice 1 b) ;;
   dh_lift (Ok (N.eqb (N.land (Byte.to_N (hd x00 buffer)) 1) 1)))%dh.
(** types/fixed.rs:68-76. *)
Definition de_u24_h : Dh N :=
  (b <- next_by_h 3 ;;
   buffer <- dh_lift (clone_from_slice 3 b) ;;
   dh_text (u24_new_t (of_le (buffer ++ [x00]))))%dh.
(** types/fixed.rs:90-96. *)
Definition de_u256_h : Dh bytes :=
  (b <- next_by_h 32 ;;
   dh_lift (clone_from_slice 32 b))%dh.
(** types/bytes.rs:65. *)
Definition de_len_h (lt : lentype) : Dh N :=
  match lt with LU8 => de_uint_h 1 | LU16 => de_uint_h 2 | LU24 => de_u24_h end.
(** types/bytes.rs:62-71; [new] (24-37) copies the slice before it looks at the length. *)
Definition de_b0_h (t : b0type) : Dh b0 :=
  (header_length <- de_len_h (b0_lentype t) ;;
   bs <- next_by_h header_length ;;
   value <- dh_copy bs ;;
   dh_text (b0_new_t t value))%dh.
(** types/strings.rs:58-69: [data_buffer]; [String::from_utf8] keeps the Vec, or puts it into the error. *)
Definition de_str0_h (t : str0type) : Dh str0 :=
  (header_length <- de_uint_h 1 ;;
   bs <- next_by_h header_length ;;
   data_buffer <- dh_copy bs ;;
   s <- dh_lift (string_from_utf8 data_buffer) ;;
   dh_text (str0_new_t t s))%dh.
(** types/flags.rs:23-27. *)
Definition de_flags_h (fs : flagset) : Dh N :=
  (b <- de_uint_h 4 ;;
   dh_lift (match flags_from_bits fs b with Some f => Ok f | None => Err UnknownFlags end))%dh.
(** types/error_code.rs:77-83. *)
Definition de_sc_code_h : Dh setup_connection_error_code :=
  (s <- de_str0_h STR0_255 ;; dh_lift (sc_code_from_str (str0_data s)))%dh.
Definition de_omc_code_h : Dh open_mining_channel_error_code :=
  (s <- de_str0_h STR0_255 ;; dh_lift (omc_code_from_str (str0_data s)))%dh.
(** common/setup_connection.rs:72-76. *)
Definition de_protocol_h : Dh protocol :=
  (b <- de_uint_h 1 ;; dh_text (protocol_try_from_t b))%dh.

(** macro_message/setup_connection.rs:70-149. *)
Definition de_sc_h (fs : flagset) : Dh setup_connection :=
  (min_version <- de_uint_h 2 ;;
   max_version <- de_uint_h 2 ;;
   flags <- de_flags_h fs ;;
   endpoint_host <- de_str0_h STR0_255 ;;
   endpoint_port <- de_uint_h 2 ;;
   vendor <- de_str0_h STR0_255 ;;
   hardware_version <- de_str0_h STR0_255 ;;
   firmware <- de_str0_h STR0_255 ;;
   device_id <- de_str0_h STR0_255 ;;
   dh_text (sc_new_t min_version max_version flags (str0_data endpoint_host) endpoint_port
                     (str0_data vendor) (str0_data hardware_version) (str0_data firmware)
                     (str0_data device_id)))%dh.
(** macro_message/setup_connection_success.rs:33-52. *)
Definition de_scs_h (fs : flagset) : Dh setup_connection_success :=
  (used_version <- de_uint_h 2 ;;
   flags <- de_flags_h fs ;;
   dh_lift (scs_new used_version flags))%dh.
(** macro_message/setup_connection_error.rs:43-67. *)
Definition de_sce_h (fs : flagset) : Dh setup_connection_error :=
  (flags <- de_flags_h fs ;;
   error_code <- de_sc_code_h ;;
   dh_text (sce_new_t flags error_code))%dh.
(** common/setup_connection.rs:200-221. *)
Definition de_csc_h : Dh common_setup_connection :=
  (p <- de_protocol_h ;;
   match p with
   | PMining => v <- de_sc_h MiningSetupFlags ;; dh_lift (Ok (CSC_Mining v))
   | PJobNegotiation => v <- de_sc_h JnSetupFlags ;; dh_lift (Ok (CSC_JobNegotiation v))
   | _ => dh_lift (Err Unimplemented)
   end)%dh.
(** common/channel_endpoint_changed.rs:9-25. *)
Definition de_cec_h : Dh channel_endpoint_changed :=
  (channel_id <- de_uint_h 4 ;; dh_lift (cec_new channel_id))%dh.
(** mining/open_standard_mining_channel.rs:5-48. *)
Definition de_osmc_h : Dh open_standard_mining_channel :=
  (request_id <- de_uint_h 4 ;;
   user_identity <- de_str0_h STR0_255 ;;
   nominal_hash_rate <- de_uint_h 4 ;;
   max_target <- de_u256_h ;;
   dh_text (osmc_new_t request_id (str0_data user_identity) nominal_hash_rate max_target))%dh.
(** mining/open_extended_mining_channel.rs:6-53. *)
Definition de_oemc_h : Dh open_extended_mining_channel :=
  (request_id <- de_uint_h 4 ;;
   user_identity <- de_str0_h STR0_255 ;;
   nominal_hash_rate <- de_uint_h 4 ;;
   max_target <- de_u256_h ;;
   min_extranonce_size <- de_uint_h 2 ;;
   dh_text (oemc_new_t request_id (str0_data user_identity) nominal_hash_rate max_target
                       min_extranonce_size))%dh.
(** mining/open_standard_mining_channel_success.rs:5-45. *)
Definition de_osmcs_h : Dh open_standard_mining_channel_success :=
  (request_id <- de_uint_h 4 ;;
   channel_id <- de_uint_h 4 ;;
   target <- de_u256_h ;;
   extranonce_prefix <- de_b0_h B0_32 ;;
   group_channel_id <- de_uint_h 4 ;;
   dh_text (osmcs_new_t request_id channel_id target (b0_data extranonce_prefix) group_channel_id))%dh.
(** mining/open_extended_mining_channel_success.rs:5-46. *)
Definition de_oemcs_h : Dh open_extended_mining_channel_success :=
  (request_id <- de_uint_h 4 ;;
   channel_id <- de_uint_h 4 ;;
   target <- de_u256_h ;;
   extranonce_size <- de_uint_h 2 ;;
   extranonce_prefix <- de_b0_h B0_32 ;;
   dh_text (oemcs_new_t request_id channel_id target extranonce_size (b0_data extranonce_prefix)))%dh.
(** mining/open_mining_channel_error.rs:27-53. *)
Definition de_omce_h : Dh open_mining_channel_error :=
  (request_id <- de_uint_h 4 ;;
   error_code <- de_omc_code_h ;;
   dh_lift (omce_new request_id error_code))%dh.
(** mining/update_channel.rs:3-36. *)
Definition de_uc_h : Dh update_channel :=
  (channel_id <- de_uint_h 4 ;;
   nominal_hash_rate <- de_uint_h 4 ;;
   max_target <- de_u256_h ;;
   dh_lift (uc_new channel_id nominal_hash_rate max_target))%dh.
(** codec/frame.rs:56-74: [payload.to_vec()]. *)
Definition de_message_h : Dh message :=
  (ext <- de_uint_h 2 ;;
   let channel_bit := negb (N.land ext CHANNEL_BIT_MASK =? 0) in
   let ext := N.land ext EXTENSION_TYPE_MASK in
   msg <- de_uint_h 1 ;;
   mt <- dh_lift (mt_new ext msg) ;;
   if negb (Bool.eqb (mt_channel_bit mt) channel_bit)
   then dh_lift (Err (UnexpectedChannelBit channel_bit))
   else
     message_length <- de_u24_h ;;
     payload <- next_by_h message_length ;;
     owned <- dh_copy payload ;;
     dh_lift (Ok (mkMessage mt owned)))%dh.
(** The Frameable types (Frame.v), decoded. *)
Definition de_kind_h (k : kind) : Dh (msg_of k) :=
  match k return Dh (msg_of k) with
  | K_CommonSetupConnection => de_csc_h
  | K_MiningSetupConnection => de_sc_h MiningSetupFlags
  | K_MiningSetupConnectionSuccess => de_scs_h MiningSuccessFlags
  | K_MiningSetupConnectionError => de_sce_h MiningSetupFlags
  | K_JnSetupConnection => de_sc_h JnSetupFlags
  | K_JnSetupConnectionSuccess => de_scs_h JnSuccessFlags
  | K_JnSetupConnectionError => de_sce_h JnSetupFlags
  | K_ChannelEndpointChanged => de_cec_h
  | K_OpenStandardMiningChannel => de_osmc_h
  | K_OpenStandardMiningChannelSuccess => de_osmcs_h
  | K_OpenStandardMiningChannelError => de_omce_h
  | K_OpenExtendedMiningChannel => de_oemc_h
  | K_OpenExtendedMiningChannelSuccess => de_oemcs_h
  | K_OpenExtendedMiningChannelError => de_omce_h
  | K_UpdateChannel => de_uc_h
  end.
(** Every wire type (Catalog.v). *)
Definition de_of_h (t : ty) : Dh (val t) :=
  match t return Dh (val t) with
  | T_u8 => de_uint_h 1 | T_u16 => de_uint_h 2 | T_u32 => de_uint_h 4 | T_f32 => de_uint_h 4 | T_bool => de_bool_h
  | T_U24 => de_u24_h | T_U256 => de_u256_h
  | T_B0 t => de_b0_h t
  | T_STR0 t => de_str0_h t
  | T_flags fs => de_flags_h fs
  | T_sc_code => de_sc_code_h | T_omc_code => de_omc_code_h
  | T_protocol => de_protocol_h
  | T_msg k => de_kind_h k
  | T_frame => de_message_h
  end.
(** macro_message/message.rs:40-46, nested as in Nest.v.  What the constructor of the declaring module makes itself is not
    counted. *)
Fixpoint shape_de_h {A} (s : shape A) : Dh A :=
  match s with
  | S_lib t => de_of_h t
  | S_msg fs _ new => (v <- shapes_de_h fs ;; dh_lift (new v))%dh
  end
with shapes_de_h {F} (fs : shapes F) : Dh F :=
  match fs with
  | S_nil => dh_lift (Ok tt)
  | S_cons s fs' => (x <- shape_de_h s ;; xs <- shapes_de_h fs' ;; dh_lift (Ok (x, xs)))%dh
  end.
(** codec/frame.rs:56-74 and 89-101: what a receiver does with bytes that should be a frame with a message of kind [k]. *)
Definition receive_h (k : kind) (pf : profile) (bs : bytes) : list event * Result (msg_of k) :=
  match de_message_h pf (mkParser bs 0) with
  | (ev, _, Ok m) =>
      if negb (mt_eqb (fr_type (frameable_of k)) (m_type m))
      then (ev, Err (UnexpectedMessageType (mt_ext_type (fr_type (frameable_of k))) (mt_msg_type (fr_type (frameable_of k)))))
      else let '(ev', _, r) := de_kind_h k pf (mkParser (m_payload m) 0) in (ev ++ ev', r)
  | (ev, _, Err e) => (ev, Err e)
  | (ev, _, Panic) => (ev, Panic)
  end.
