(** * SpecErrorDebug: errors that carry a text or another error. *)
From Coq Require Import Strings.String.
From Verif Require Import Base Types SpecWire SpecTexts SpecDebugTexts.
Local Open Scope list_scope.

(** Errors that wrap an error of another crate, shown by the text that error has. *)
Definition wraps (e : error) : Prop :=
  In e [Base58Error; IOError; Utf8Error; FromUtf8Error; AuthorityKeyError; SystemTimeError; TryFromSliceError; NoiseError HexError].
(** Errors that carry a text of this library are those that quote it ([quotes], SpecTexts); it is a String. *)
Definition text_ok (e : error) (p : bytes) : Prop := quotes e -> utf8_text p.

(** ** The whole text: a name, and what a variant carries in brackets *)
Definition carrying (name : string) (P : bytes -> Prop) (t : bytes) : Prop :=
  exists x, P x /\ t = list_byte_of_string name ++ list_byte_of_string "(" ++ x ++ list_byte_of_string ")".
Definition noise_text (hex : bytes) (e : noise_error) : bytes -> Prop :=
  match e with
  | DecryptionError => variant "DecryptionError"
  | UnsupportedMessageLengthError => variant "UnsupportedMessageLengthError"
  | ExhaustedNonceError => variant "ExhaustedNonceError"
  | InvalidKeyError => variant "InvalidKeyError"
  | InvalidPublicKeyError => variant "InvalidPublicKeyError"
  | EmptyKeyError => variant "EmptyKeyError"
  | InvalidInputError => variant "InvalidInputError"
  | DerivePublicKeyFromEmptyKeyError => variant "DerivePublicKeyFromEmptyKeyError"
  | MissingnsError => variant "MissingnsError"
  | MissingneError => variant "MissingneError"
  | MissingHsMacError => variant "MissingHsMacError"
  | MissingrsError => variant "MissingrsError"
  | MissingreError => variant "MissingreError"
  | HexError => carrying "Hex" (exactly hex)
  end.
Definition error_text (special : N -> bool) (e : error) (p : bytes) : bytes -> Prop :=
  match e with
  | Base58Error => carrying "Base58Error" (exactly p)
  | IOError => carrying "IOError" (exactly p)
  | Utf8Error => carrying "Utf8Error" (exactly p)
  | FromUtf8Error => carrying "FromUtf8Error" (exactly p)
  | AuthorityKeyError => carrying "AuthorityKeyError" (exactly p)
  | SystemTimeError => carrying "SystemTimeError" (exactly p)
  | TryFromSliceError => carrying "TryFromSliceError" (exactly p)
  | VersionError => carrying "VersionError" (string_text special p)
  | ProtocolMismatchError => carrying "ProtocolMismatchError" (string_text special p)
  | RequirementError => carrying "RequirementError" (string_text special p)
  | DeserializationError => carrying "DeserializationError" (string_text special p)
  | ParseError => carrying "ParseError" (string_text special p)
  | Unimplemented => variant "Unimplemented"
  | UnknownErrorCode => variant "UnknownErrorCode"
  | UnknownMessageType => variant "UnknownMessageType"
  | UnknownFlags => variant "UnknownFlags"
  | UnexpectedMessageType a b => carrying "UnexpectedMessageType" (fun t =>
      exists x y, decimal x a /\ decimal y b /\ t = x ++ list_byte_of_string ", " ++ y)
  | UnexpectedChannelBit b => carrying "UnexpectedChannelBit" (variant (if b then "true" else "false"))
  | NoiseError e' => carrying "NoiseError" (noise_text p e')
  end.
