(** * Display: texts of errors and flags.  Definitions only. *)
From Coq Require Import Strings.String Numbers.DecimalString.
From Verif Require Import Base Types.
Local Open Scope list_scope.

(** stratumv2/nx-noise/src/error.rs:21-46.  [hex] is the text of the wrapped [hex::FromHexError]. *)
Definition noise_display (hex : bytes) (e : noise_error) : bytes :=
  match e with
  | DecryptionError => lit "Unsuccesful decryption."
  | UnsupportedMessageLengthError => lit "Unsupported Message Length."
  | ExhaustedNonceError => lit "Reached maximum number of messages that can be sent for this session."
  | DerivePublicKeyFromEmptyKeyError => lit "Unable to derive PublicKey."
  | InvalidKeyError => lit "Invalid Key."
  | InvalidPublicKeyError => lit "Invalid Public Key."
  | EmptyKeyError => lit "Empty Key."
  | InvalidInputError => lit "Invalid input length."
  | MissingnsError => lit "Invalid message length."
  | MissingHsMacError => lit "Invalid message length."
  | MissingneError => lit "Invalid message length."
  | MissingrsError => lit "Invalid message length."
  | MissingreError => lit "Invalid message length."
  | HexError => hex
  end.

(** ** Flags: the [Debug] that bitflags! (crate bitflags 1.2.1, Cargo.toml:15, not part of /repo) generates

    The names of the constants contained in the bits, in the order of their declaration, separated by a bar; a
    constant 0 counts as contained only in 0; the text [(empty)] when there are none.  Simplified: the crate
    also prints bits that belong to no constant; [from_bits] lets none in. *)

(** mining/setup_connection.rs:6-18, mining/setup_connection_success.rs:6-10,
    job_negotiation/setup_connection.rs:6-12, job_negotiation/setup_connection_success.rs:6-8. *)
Definition flag_names (fs : flagset) : list bytes :=
  match fs with
  | MiningSetupFlags => [lit "REQUIRES_STANDARD_JOBS"; lit "REQUIRES_WORK_SELECTION"; lit "REQUIRES_VERSION_ROLLING"]
  | MiningSuccessFlags => [lit "NONE"; lit "REQUIRES_FIXED_VERSION"; lit "REQUIRES_EXTENDED_CHANNELS"]
  | JnSetupFlags => [lit "REQUIRES_ASYNC_JOB_MINING"]
  | JnSuccessFlags => [lit "NONE"]
  end.
Definition flag_shown (bits const : N) : bool :=
  if (const =? 0)%N && negb (bits =? 0)%N then false else (N.land bits const =? const)%N.
Fixpoint join (sep : bytes) (l : list bytes) : bytes :=
  match l with
  | [] => []
  | [x] => x
  | x :: l' => x ++ sep ++ join sep l'
  end.
Definition flags_debug (fs : flagset) (bits : N) : bytes :=
  match filter (fun p => flag_shown bits (fst p)) (combine (flag_consts fs) (flag_names fs)) with
  | [] => lit "(empty)"
  | l => join (lit " | ") (map snd l)
  end.

(** ** Errors of the library: stratumv2/src/error.rs:4-62

    [thiserror] derives the texts from the [#[error(...)]] attributes.  [payload] is the String of the variants
    that carry one and the text of the wrapped error of the transparent ones ([error] drops both). *)
Definition dec (n : N) : bytes := lit (NilZero.string_of_uint (N.to_uint n)).
Definition quoted_text (s : bytes) : bytes := lit "`" ++ s ++ lit "`".
Definition error_display (e : error) (payload : bytes) : bytes :=
  match e with
  | Base58Error | IOError | Utf8Error | FromUtf8Error | AuthorityKeyError | SystemTimeError | TryFromSliceError => payload
  | VersionError | ProtocolMismatchError | RequirementError | DeserializationError | ParseError => quoted_text payload
  | Unimplemented => lit "Unimplemented"
  | UnknownErrorCode => lit "The error code is invalid"
  | UnknownMessageType => lit "the received message type is unknown"
  | UnknownFlags => lit "the received flags are unknown"
  | UnexpectedMessageType ext msg =>
      lit "parsed message type `" ++ dec ext ++ lit "/" ++ dec msg ++ lit "` does not match expected message"
  | UnexpectedChannelBit b =>
      lit "parsed channel bit `" ++ (if b then lit "true" else lit "false") ++ lit "` does not match expected message"
  | NoiseError e' => noise_display payload e'
  end.
