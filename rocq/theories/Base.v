(** * Base: bytes, machine integers, outcomes.  Definitions only. *)
From Coq Require Export List NArith Bool.
From Coq Require Export Strings.Byte.
Export ListNotations.
Open Scope N_scope.
Open Scope list_scope.

(** A Rust [u8].  Unsigned integers u16/u32/u64/usize are [N]; the range that the Rust type
    guarantees is an explicit hypothesis wherever it matters. *)
Notation bytes := (list byte).

(** [usize] length of a slice / Vec. *)
Definition len {A} (l : list A) : N := N.of_nat (length l).

(** [v as u8] (truncation). *)
Definition b8 (v : N) : byte :=
  match Byte.of_N (v mod 256) with Some b => b | None => x00 end.

(** [uN::to_le_bytes]: [k] bytes, least significant first.
    Used by stratumv2/src/types/primitives.rs:15-45, types/fixed.rs:80. *)
Fixpoint to_le (k : nat) (v : N) : bytes :=
  match k with
  | O => []
  | S k' => b8 v :: to_le k' (v / 256)
  end.

(** [uN::from_le_bytes]; stratumv2/src/types/primitives.rs:62-96, types/fixed.rs:74. *)
Fixpoint of_le (bs : bytes) : N :=
  match bs with
  | [] => 0
  | b :: t => Byte.to_N b + 256 * of_le t
  end.

(** Equality of byte vectors ([==] on [Vec<u8>], [String], arrays). *)
Fixpoint bytes_eqb (a b : bytes) : bool :=
  match a, b with
  | [], [] => true
  | x :: a', y :: b' => Byte.eqb x y && bytes_eqb a' b'
  | _, _ => false
  end.

(** Outcome of a Rust call: a value, an [Err], or a panic. *)
Inductive outcome (E A : Type) : Type :=
| Ok (a : A)
| Err (e : E)
| Panic.
Arguments Ok {E A} _.
Arguments Err {E A} _.
Arguments Panic {E A}.

Definition obind {E A B} (o : outcome E A) (f : A -> outcome E B) : outcome E B :=
  match o with Ok a => f a | Err e => Err e | Panic => Panic end.

Definition is_ok {E A} (o : outcome E A) : Prop := exists a, o = Ok a.

(** nx-noise errors: stratumv2/nx-noise/src/error.rs:4-19 ([HexError] is the variant [Hex]). *)
Inductive noise_error : Type :=
| DecryptionError
| UnsupportedMessageLengthError
| ExhaustedNonceError
| InvalidKeyError
| InvalidPublicKeyError
| EmptyKeyError
| InvalidInputError
| DerivePublicKeyFromEmptyKeyError
| HexError
| MissingnsError
| MissingneError
| MissingHsMacError
| MissingrsError
| MissingreError.

(** stratumv2/src/error.rs:5-62.  Simplified: the text payloads of the variants are dropped. *)
Inductive error : Type :=
| Base58Error
| VersionError
| IOError
| Utf8Error
| FromUtf8Error
| ProtocolMismatchError
| RequirementError
| DeserializationError
| ParseError
| AuthorityKeyError
| SystemTimeError
| TryFromSliceError
| Unimplemented
| UnknownErrorCode
| UnknownMessageType
| UnknownFlags
| UnexpectedMessageType (ext msg : N)
| UnexpectedChannelBit (b : bool)
| NoiseError (e : noise_error).

Definition Result (A : Type) : Type := outcome error A.
