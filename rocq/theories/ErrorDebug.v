(** * ErrorDebug: the texts that derive(Debug) gives the errors.  Definitions only.

    These are what a failing [unwrap] prints.  The form of the derived text is the standard library's (DebugTexts). *)
From Coq Require Import Strings.String.
From Verif Require Import Base Types Display DebugTexts.
Local Open Scope list_scope.

(** stratumv2/nx-noise/src/error.rs:3-19.  [hex] is the Debug text of the wrapped [hex::FromHexError]. *)
Definition noise_debug (hex : bytes) (e : noise_error) : bytes :=
  match e with
  | DecryptionError => lit "DecryptionError"
  | UnsupportedMessageLengthError => lit "UnsupportedMessageLengthError"
  | ExhaustedNonceError => lit "ExhaustedNonceError"
  | InvalidKeyError => lit "InvalidKeyError"
  | InvalidPublicKeyError => lit "InvalidPublicKeyError"
  | EmptyKeyError => lit "EmptyKeyError"
  | InvalidInputError => lit "InvalidInputError"
  | DerivePublicKeyFromEmptyKeyError => lit "DerivePublicKeyFromEmptyKeyError"
  | HexError => debug_tuple "Hex" hex
  | MissingnsError => lit "MissingnsError"
  | MissingneError => lit "MissingneError"
  | MissingHsMacError => lit "MissingHsMacError"
  | MissingrsError => lit "MissingrsError"
  | MissingreError => lit "MissingreError"
  end.

(** stratumv2/src/error.rs:4-62.  [payload] is the String of the variants that carry one, and the Debug text of the
    wrapped error of those that wrap one ([error] drops both).  A tuple variant without fields shows its name only. *)
Definition error_debug (special : N -> bool) (e : error) (payload : bytes) : bytes :=
  match e with
  | Base58Error => debug_tuple "Base58Error" payload
  | VersionError => debug_tuple "VersionError" (debug_str special payload)
  | IOError => debug_tuple "IOError" payload
  | Utf8Error => debug_tuple "Utf8Error" payload
  | FromUtf8Error => debug_tuple "FromUtf8Error" payload
  | ProtocolMismatchError => debug_tuple "ProtocolMismatchError" (debug_str special payload)
  | RequirementError => debug_tuple "RequirementError" (debug_str special payload)
  | DeserializationError => debug_tuple "DeserializationError" (debug_str special payload)
  | ParseError => debug_tuple "ParseError" (debug_str special payload)
  | AuthorityKeyError => debug_tuple "AuthorityKeyError" payload
  | SystemTimeError => debug_tuple "SystemTimeError" payload
  | TryFromSliceError => debug_tuple "TryFromSliceError" payload
  | Unimplemented => lit "Unimplemented"
  | UnknownErrorCode => lit "UnknownErrorCode"
  | UnknownMessageType => lit "UnknownMessageType"
  | UnknownFlags => lit "UnknownFlags"
  | UnexpectedMessageType ext msg => debug_tuple "UnexpectedMessageType" (dec ext ++ lit ", " ++ dec msg)
  | UnexpectedChannelBit b => debug_tuple "UnexpectedChannelBit" (if b then lit "true" else lit "false")
  | NoiseError e' => debug_tuple "NoiseError" (noise_debug payload e')
  end.
