(** * Reasons: the same functions with the text an error carries.  Definitions only.

    [error] (Base.v) drops the String of the variants that hold one and the wrapped errors of other crates.  Here a
    failure is the error together with that String, or with the text of the wrapped error; empty for a variant
    with neither.  [error_display] (Display.v) shows the two. *)
From Coq Require Import Strings.String.
From Verif Require Import Base Codec Types Messages Frame Certs Display.
Local Open Scope N_scope.
Local Open Scope list_scope.

Definition TResult (A : Type) : Type := outcome (error * bytes) A.
Definition tag {A} (text : bytes) (o : Result A) : TResult A :=
  match o with Ok a => Ok a | Err e => Err (e, text) | Panic => Panic end.
(** For results that carry no text when they fail. *)
Definition plain {A} (o : Result A) : TResult A := tag [] o.

Definition DeT (A : Type) : Type := profile -> parser -> parser * TResult A.
Definition det_lift {A} (o : TResult A) : DeT A := fun _ p => (p, o).
Definition det_bind {A B} (m : DeT A) (f : A -> DeT B) : DeT B :=
  fun pf p =>
    match m pf p with
    | (p', Ok a) => f a pf p'
    | (p', Err e) => (p', Err e)
    | (p', Panic) => (p', Panic)
    end.
Declare Scope det_scope.
Delimit Scope det_scope with det.
Notation "x <- m ;; k" := (det_bind m (fun x => k))
  (at level 61, m at next level, right associativity) : det_scope.

(** stratumv2/src/codec/parser.rs:16-26; the text is on line 21. *)
Definition next_by_t (step : N) : DeT bytes :=
  fun pf p => let (p', o) := next_by step pf p in (p', tag (lit "out of bounds error") o).

(** types/primitives.rs:62-96, types/fixed.rs:54-66 (the text is on line 60), 68-76, 90-96. *)
Definition de_uint_t (k : nat) : DeT N :=
  (b <- next_by_t (N.of_nat k) ;;
   buffer <- det_lift (plain (clone_from_slice (N.of_nat k) b)) ;;
   det_lift (Ok (of_le buffer)))%det.
Definition u24_new_t (v : N) : TResult N := tag (lit "U24 cannot be greater than 2^24-1") (u24_new v).
Definition de_u24_t : DeT N :=
  (b <- next_by_t 3 ;;
   buffer <- det_lift (plain (clone_from_slice 3 b)) ;;
   det_lift (u24_new_t (of_le (buffer ++ [x00]))))%det.
Definition de_u256_t : DeT bytes :=
  (b <- next_by_t 32 ;;
   det_lift (plain (clone_from_slice 32 b)))%det.

(** types/bytes.rs:24-37 (the text is on line 28) and 62-71. *)
Definition b0_new_t (t : b0type) (value : bytes) : TResult b0 :=
  tag (lit "bytes size cannot be greater than MAX_LENGTH") (b0_new t value).
Definition de_len_t (lt : lentype) : DeT N :=
  match lt with LU8 => de_uint_t 1 | LU16 => de_uint_t 2 | LU24 => de_u24_t end.
Definition de_b0_t (t : b0type) : DeT b0 :=
  (header_length <- de_len_t (b0_lentype t) ;;
   bs <- next_by_t header_length ;;
   det_lift (b0_new_t t bs))%det.

(** core's [run_utf8_validation] with its [Utf8Error]: [valid_up_to] and [error_len] ([None] when the input ends
    inside a character).  [at] is the offset of [bs] in the whole string.  Core is not part of /repo; the block
    of ASCII fast path is an optimisation, not modelled. *)
Fixpoint utf8_run (at_ : N) (bs : bytes) : option (N * option N) :=
  match bs with
  | [] => None
  | b0 :: t =>
      if in_range 0 127 b0 then utf8_run (at_ + 1) t
      else if in_range 194 223 b0 then
        match t with
        | [] => Some (at_, None)
        | b1 :: t1 => if is_cont b1 then utf8_run (at_ + 2) t1 else Some (at_, Some 1)
        end
      else if in_range 224 239 b0 then
        match t with
        | [] => Some (at_, None)
        | b1 :: t1 =>
            if (in_range 224 224 b0 && in_range 160 191 b1)
               || (in_range 225 236 b0 && in_range 128 191 b1)
               || (in_range 237 237 b0 && in_range 128 159 b1)
               || (in_range 238 239 b0 && in_range 128 191 b1)
            then match t1 with
                 | [] => Some (at_, None)
                 | b2 :: t2 => if is_cont b2 then utf8_run (at_ + 3) t2 else Some (at_, Some 2)
                 end
            else Some (at_, Some 1)
        end
      else if in_range 240 244 b0 then
        match t with
        | [] => Some (at_, None)
        | b1 :: t1 =>
            if (in_range 240 240 b0 && in_range 144 191 b1)
               || (in_range 241 243 b0 && in_range 128 191 b1)
               || (in_range 244 244 b0 && in_range 128 143 b1)
            then match t1 with
                 | [] => Some (at_, None)
                 | b2 :: t2 =>
                     if is_cont b2 then
                       match t2 with
                       | [] => Some (at_, None)
                       | b3 :: t3 => if is_cont b3 then utf8_run (at_ + 4) t3 else Some (at_, Some 3)
                       end
                     else Some (at_, Some 2)
                 end
            else Some (at_, Some 1)
        end
      else Some (at_, Some 1)
  end.
(** [Display] of core's [Utf8Error], which is also the one of [FromUtf8Error]. *)
Definition utf8_error_text (valid_up_to : N) (error_len : option N) : bytes :=
  match error_len with
  | Some n => lit "invalid utf-8 sequence of " ++ dec n ++ lit " bytes from index " ++ dec valid_up_to
  | None => lit "incomplete utf-8 byte sequence from index " ++ dec valid_up_to
  end.
Definition string_from_utf8_t (bs : bytes) : TResult bytes :=
  match utf8_run 0 bs with
  | None => Ok bs
  | Some (v, e) => Err (FromUtf8Error, utf8_error_text v e)
  end.

(** types/strings.rs:19-32 (the text is on line 23) and 58-69. *)
Definition str0_new_t (t : str0type) (value : bytes) : TResult str0 :=
  tag (lit "string size cannot be greater than MAX_LENGTH") (str0_new t value).
Definition de_str0_t (t : str0type) : DeT str0 :=
  (header_length <- de_uint_t 1 ;;
   data_buffer <- next_by_t header_length ;;
   s <- det_lift (string_from_utf8_t data_buffer) ;;
   det_lift (str0_new_t t s))%det.

(** types/flags.rs:23-27, types/error_code.rs:71-83. *)
Definition de_flags_t (fs : flagset) : DeT N :=
  (b <- de_uint_t 4 ;;
   det_lift (match flags_from_bits fs b with Some f => Ok f | None => Err (UnknownFlags, []) end))%det.
Definition de_sc_code_t : DeT setup_connection_error_code :=
  (s <- de_str0_t STR0_255 ;; det_lift (plain (sc_code_from_str (str0_data s))))%det.
Definition de_omc_code_t : DeT open_mining_channel_error_code :=
  (s <- de_str0_t STR0_255 ;; det_lift (plain (omc_code_from_str (str0_data s))))%det.

(** macro_message/setup_connection.rs:103-149; the texts are on lines 118, 125, 130 and 134. *)
Definition sc_new_t (min_version max_version flags : N) (endpoint_host : bytes) (endpoint_port : N)
    (vendor hardware_version firmware device_id : bytes) : TResult setup_connection :=
  if is_empty vendor then Err (RequirementError, lit "vendor field in SetupConnection MUST NOT be empty")
  else if is_empty firmware then Err (RequirementError, lit "firmware field in SetupConnection MUST NOT be empty")
  else if min_version <? 2 then Err (VersionError, lit "min_version must be atleast 2")
  else if max_version <? 2 then Err (VersionError, lit "max_version must be atleast 2")
  else
    obind (str0_new_t STR0_255 endpoint_host) (fun endpoint_host' =>
    obind (str0_new_t STR0_255 vendor) (fun vendor' =>
    obind (str0_new_t STR0_255 hardware_version) (fun hardware_version' =>
    obind (str0_new_t STR0_255 firmware) (fun firmware' =>
    obind (str0_new_t STR0_255 device_id) (fun device_id' =>
    Ok (mkSC min_version max_version flags endpoint_host' endpoint_port vendor'
             hardware_version' firmware' device_id')))))).
Definition de_sc_t (fs : flagset) : DeT setup_connection :=
  (min_version <- de_uint_t 2 ;;
   max_version <- de_uint_t 2 ;;
   flags <- de_flags_t fs ;;
   endpoint_host <- de_str0_t STR0_255 ;;
   endpoint_port <- de_uint_t 2 ;;
   vendor <- de_str0_t STR0_255 ;;
   hardware_version <- de_str0_t STR0_255 ;;
   firmware <- de_str0_t STR0_255 ;;
   device_id <- de_str0_t STR0_255 ;;
   det_lift (sc_new_t min_version max_version flags (str0_data endpoint_host) endpoint_port
                      (str0_data vendor) (str0_data hardware_version) (str0_data firmware)
                      (str0_data device_id)))%det.

(** macro_message/setup_connection_success.rs:33-52. *)
Definition de_scs_t (fs : flagset) : DeT setup_connection_success :=
  (used_version <- de_uint_t 2 ;;
   flags <- de_flags_t fs ;;
   det_lift (plain (scs_new used_version flags)))%det.

(** macro_message/setup_connection_error.rs:43-67; the text is on line 61. *)
Definition sce_new_t (flags : N) (error_code : setup_connection_error_code) : TResult setup_connection_error :=
  tag (lit "a full set of unsupported flags MUST be returned to the client") (sce_new flags error_code).
Definition de_sce_t (fs : flagset) : DeT setup_connection_error :=
  (flags <- de_flags_t fs ;;
   error_code <- de_sc_code_t ;;
   det_lift (sce_new_t flags error_code))%det.

(** common/setup_connection.rs:49-76 (the text is on line 60) and 200-221. *)
Definition protocol_try_from_t (b : N) : TResult protocol :=
  tag (lit "received unknown protocol byte in setup connection message") (protocol_try_from b).
Definition de_protocol_t : DeT protocol :=
  (b <- de_uint_t 1 ;; det_lift (protocol_try_from_t b))%det.
Definition de_csc_t : DeT common_setup_connection :=
  (p <- de_protocol_t ;;
   match p with
   | PMining => v <- de_sc_t MiningSetupFlags ;; det_lift (Ok (CSC_Mining v))
   | PJobNegotiation => v <- de_sc_t JnSetupFlags ;; det_lift (Ok (CSC_JobNegotiation v))
   | _ => det_lift (Err (Unimplemented, []))
   end)%det.

(** common/channel_endpoint_changed.rs:9-25. *)
Definition de_cec_t : DeT channel_endpoint_changed :=
  (channel_id <- de_uint_t 4 ;; det_lift (plain (cec_new channel_id)))%det.

(** mining/open_standard_mining_channel.rs:5-48. *)
Definition osmc_new_t (request_id : N) (user_identity : bytes) (nominal_hash_rate : N)
    (max_target : bytes) : TResult open_standard_mining_channel :=
  obind (str0_new_t STR0_255 user_identity) (fun user_identity' =>
  Ok (mkOSMC request_id user_identity' nominal_hash_rate max_target)).
Definition de_osmc_t : DeT open_standard_mining_channel :=
  (request_id <- de_uint_t 4 ;;
   user_identity <- de_str0_t STR0_255 ;;
   nominal_hash_rate <- de_uint_t 4 ;;
   max_target <- de_u256_t ;;
   det_lift (osmc_new_t request_id (str0_data user_identity) nominal_hash_rate max_target))%det.

(** mining/open_extended_mining_channel.rs:6-53. *)
Definition oemc_new_t (request_id : N) (user_identity : bytes) (nominal_hash_rate : N)
    (max_target : bytes) (min_extranonce_size : N) : TResult open_extended_mining_channel :=
  obind (str0_new_t STR0_255 user_identity) (fun user_identity' =>
  Ok (mkOEMC request_id user_identity' nominal_hash_rate max_target min_extranonce_size)).
Definition de_oemc_t : DeT open_extended_mining_channel :=
  (request_id <- de_uint_t 4 ;;
   user_identity <- de_str0_t STR0_255 ;;
   nominal_hash_rate <- de_uint_t 4 ;;
   max_target <- de_u256_t ;;
   min_extranonce_size <- de_uint_t 2 ;;
   det_lift (oemc_new_t request_id (str0_data user_identity) nominal_hash_rate max_target
                        min_extranonce_size))%det.

(** mining/open_standard_mining_channel_success.rs:5-45. *)
Definition osmcs_new_t (request_id channel_id : N) (target extranonce_prefix : bytes)
    (group_channel_id : N) : TResult open_standard_mining_channel_success :=
  obind (b0_new_t B0_32 extranonce_prefix) (fun extranonce_prefix' =>
  Ok (mkOSMCS request_id channel_id target extranonce_prefix' group_channel_id)).
Definition de_osmcs_t : DeT open_standard_mining_channel_success :=
  (request_id <- de_uint_t 4 ;;
   channel_id <- de_uint_t 4 ;;
   target <- de_u256_t ;;
   extranonce_prefix <- de_b0_t B0_32 ;;
   group_channel_id <- de_uint_t 4 ;;
   det_lift (osmcs_new_t request_id channel_id target (b0_data extranonce_prefix) group_channel_id))%det.

(** mining/open_extended_mining_channel_success.rs:5-46. *)
Definition oemcs_new_t (request_id channel_id : N) (target : bytes) (extranonce_size : N)
    (extranonce_prefix : bytes) : TResult open_extended_mining_channel_success :=
  obind (b0_new_t B0_32 extranonce_prefix) (fun extranonce_prefix' =>
  Ok (mkOEMCS request_id channel_id target extranonce_size extranonce_prefix')).
Definition de_oemcs_t : DeT open_extended_mining_channel_success :=
  (request_id <- de_uint_t 4 ;;
   channel_id <- de_uint_t 4 ;;
   target <- de_u256_t ;;
   extranonce_size <- de_uint_t 2 ;;
   extranonce_prefix <- de_b0_t B0_32 ;;
   det_lift (oemcs_new_t request_id channel_id target extranonce_size (b0_data extranonce_prefix)))%det.

(** mining/open_mining_channel_error.rs:27-53. *)
Definition de_omce_t : DeT open_mining_channel_error :=
  (request_id <- de_uint_t 4 ;;
   error_code <- de_omc_code_t ;;
   det_lift (plain (omce_new request_id error_code)))%det.

(** mining/update_channel.rs:3-36. *)
Definition de_uc_t : DeT update_channel :=
  (channel_id <- de_uint_t 4 ;;
   nominal_hash_rate <- de_uint_t 4 ;;
   max_target <- de_u256_t ;;
   det_lift (plain (uc_new channel_id nominal_hash_rate max_target)))%det.

(** codec/frame.rs:56-74. *)
Definition de_message_t : DeT message :=
  (ext <- de_uint_t 2 ;;
   let channel_bit := negb (N.land ext CHANNEL_BIT_MASK =? 0) in
   let ext := N.land ext EXTENSION_TYPE_MASK in
   msg <- de_uint_t 1 ;;
   mt <- det_lift (plain (mt_new ext msg)) ;;
   if negb (Bool.eqb (mt_channel_bit mt) channel_bit)
   then det_lift (Err (UnexpectedChannelBit channel_bit, []))
   else
     message_length <- de_u24_t ;;
     payload <- next_by_t message_length ;;
     det_lift (Ok (mkMessage mt payload)))%det.

(** The decoder of each Frameable type (see [frameable_of] in Frame.v). *)
Definition de_kind_t (k : kind) : DeT (msg_of k) :=
  match k with
  | K_CommonSetupConnection => de_csc_t
  | K_MiningSetupConnection => de_sc_t MiningSetupFlags
  | K_MiningSetupConnectionSuccess => de_scs_t MiningSuccessFlags
  | K_MiningSetupConnectionError => de_sce_t MiningSetupFlags
  | K_JnSetupConnection => de_sc_t JnSetupFlags
  | K_JnSetupConnectionSuccess => de_scs_t JnSuccessFlags
  | K_JnSetupConnectionError => de_sce_t JnSetupFlags
  | K_ChannelEndpointChanged => de_cec_t
  | K_OpenStandardMiningChannel => de_osmc_t
  | K_OpenStandardMiningChannelSuccess => de_osmcs_t
  | K_OpenStandardMiningChannelError => de_omce_t
  | K_OpenExtendedMiningChannel => de_oemc_t
  | K_OpenExtendedMiningChannelSuccess => de_oemcs_t
  | K_OpenExtendedMiningChannelError => de_omce_t
  | K_UpdateChannel => de_uc_t
  end.
(** codec/deserialize.rs:12-15, codec/frame.rs:89-101. *)
Definition deserialize_t {A} (d : DeT A) (pf : profile) (bs : bytes) : TResult A := snd (d pf (mkParser bs 0)).
Definition unframe_t (k : kind) (pf : profile) (m : message) : TResult (msg_of k) :=
  let F := frameable_of k in
  if negb (mt_eqb (fr_type F) (m_type m))
  then Err (UnexpectedMessageType (mt_ext_type (fr_type F)) (mt_msg_type (fr_type F)), [])
  else deserialize_t (de_kind_t k) pf (m_payload m).

(** What is printed for a failure. *)
Definition shown (f : error * bytes) : bytes := error_display (fst f) (snd f).

(** noise/signed_certificate.rs:20-39; the text is on line 28. *)
Definition cert_new_t (version valid_from not_valid_after : N) (key : bytes) : TResult signed_certificate :=
  tag (lit "the valid_from time cannot be greater than or equal to the not_valid_after time")
      (cert_new version valid_from not_valid_after key).

Section Ed.
Variable E : ed_ops.
(** The texts of the wrapped errors of bitcoin, ed25519-dalek and std, by what they are about: the base58 string,
    the key or the signature, the time.  Not part of /repo, any texts. *)
Variable base58_text : bytes -> bytes.
Variable ed_text : bytes.
Variable time_text : system_time -> bytes.

(** noise/certificate_format.rs:25-40; the text is on line 33. *)
Definition cf_new_t (authority : bytes) (static : bytes) (m : snm) : TResult certificate_format :=
  obind (tag (base58_text authority) (base58_from authority)) (fun k =>
  if len k =? 32 then
    if ed_valid E k then Ok (mkCf k static m) else Err (AuthorityKeyError, ed_text)
  else Err (ParseError, lit "Failed to deserialize the base58 public key")).
(** certificate_format.rs:45-58; the text is on line 48. *)
Definition cf_verify_t (now : system_time) (c : certificate_format) : TResult unit :=
  obind (tag (time_text now) (system_unix_time_to_u32 now)) (fun t =>
  if sn_not_valid_after (cf_message c) <=? t
  then Err (RequirementError, lit "the signature noise message is expired")
  else
    obind (plain (serialize (ser_cf c))) (fun certificate =>
    if ed_verify E (cf_authority c) certificate (sn_signature (cf_message c))
    then Ok tt else Err (AuthorityKeyError, ed_text))).
End Ed.
