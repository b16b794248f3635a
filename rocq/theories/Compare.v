(** * Compare: comparisons of wire values with plain values and conversions to them.  Definitions only. *)
From Coq Require Import Strings.String.
From Verif Require Import Base Codec Types Messages.
Local Open Scope N_scope.

(** types/bytes.rs:41-45, 48-52, 55-59. *)
Definition b0_eq_vec (a : b0) (v : bytes) : bool := bytes_eqb (b0_data a) v.
Definition vec_eq_b0 (v : bytes) (a : b0) : bool := bytes_eqb v (b0_data a).
Definition b0_into_vec (a : b0) : bytes := b0_data a.
(** types/strings.rs:36-40, 43-47, 50-54. *)
Definition str0_eq_string (a : str0) (v : bytes) : bool := bytes_eqb (str0_data a) v.
Definition string_eq_str0 (v : bytes) (a : str0) : bool := bytes_eqb v (str0_data a).
Definition str0_into_string (a : str0) : bytes := str0_data a.
(** types/fixed.rs:9 (derived), 22-26, 28-32, 34-38, 48-52. *)
Definition u24_eqb (a b : N) : bool := a =? b.
Definition u24_eq_u32 (a v : N) : bool := a =? v.
Definition u32_eq_u24 (v a : N) : bool := v =? a.
Definition u24_into_u32 (a : N) : N := a.
Definition u24_into_usize (a : N) : N := a.
(** types/fixed.rs:87 (derived), 105-109, 111-115, 117-121, 123-127. *)
Definition u256_eqb (a b : bytes) : bool := bytes_eqb a b.
Definition u256_eq_array (a v : bytes) : bool := bytes_eqb a v.
Definition array_eq_u256 (v a : bytes) : bool := bytes_eqb v a.
Definition u256_into_array (a : bytes) : bytes := a.
Definition u256_from_array (v : bytes) : bytes := v.

(** types/error_code.rs:18-24 [Display] of the codes of common/setup_connection_error_code.rs:20-25 and
    mining/open_mining_channel_error.rs:13-18. *)
Definition sc_code_display (c : setup_connection_error_code) : bytes :=
  match c with
  | UnsupportedFeatureFlags => lit "unsupported-feature-flags"
  | UnsupportedProtocol => lit "unsupported-protocol"
  | ProtocolVersionMismatch => lit "protocol-version-mismatch"
  end.
Definition omc_code_display (c : open_mining_channel_error_code) : bytes :=
  match c with
  | UnknownUser => lit "unknown-user"
  | MaxTargetOutOfRange => lit "max-target-out-of-range"
  end.
