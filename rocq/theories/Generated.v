(** * Generated: the tests that [impl_message_tests!] writes for a message.  Definitions only.
    stratumv2/src/macro_message/message.rs:56-134

    A test passes if it returns without a panic; a failed [assert_eq!] and [unwrap] of an error panic.  The two
    functions that the macro is given are constants: [serialized] and [deserialized]. *)
From Verif Require Import Base Codec Types Messages Frame.

(** [assert_eq!(r.unwrap(), v)]. *)
Definition unwraps_to {A} (eqb : A -> A -> bool) (r : Result A) (v : A) : bool :=
  match r with Ok a => eqb a v | _ => false end.

(** derive(PartialEq) on Message, codec/frame.rs:18. *)
Definition message_eqb (a b : message) : bool := mt_eqb (m_type a) (m_type b) && bytes_eqb (m_payload a) (m_payload b).

Section Generated.
(** [F]: what the struct implements; [eqb]: its [==]; [T]: the variant of MessageType with the name of the struct. *)
Context {M : Type} (F : frameable M) (eqb : M -> M -> bool) (T : message_type).
Variables (pf : profile) (serialized : bytes) (deserialized : M).

(** message.rs:70-82. *)
Definition message_serde_identity : bool :=
  unwraps_to bytes_eqb (serialize (fr_ser F deserialized)) serialized &&
  unwraps_to eqb (deserialize (fr_de F) pf serialized) deserialized.

(** message.rs:84-88. *)
Definition message_type_tautology : bool := mt_eqb (fr_type F) T.

(** message.rs:90-98. *)
Definition message_frame_identity : bool :=
  let message := mkMessage T serialized in
  unwraps_to message_eqb (frame F deserialized) message &&
  unwraps_to eqb (unframe F pf message) deserialized.

(** message.rs:113-130.  [message_length.to_le_bytes()[..3]] of a usize of 64 bits. *)
Definition make_serialized_frame : bytes :=
  let ext := mt_ext_type (fr_type F) in
  let ext := if mt_channel_bit (fr_type F) then N.lor ext CHANNEL_BIT_MASK else ext in
  to_le 2 ext ++ to_le 1 (mt_msg_type (fr_type F)) ++ firstn 3 (to_le 8 (len serialized)) ++ serialized.

(** message.rs:100-111. *)
Definition message_frame_serde : bool :=
  let deserialized_frame := mkMessage (fr_type F) serialized in
  unwraps_to bytes_eqb (serialize (ser_message deserialized_frame)) make_serialized_frame &&
  unwraps_to message_eqb (deserialize de_message pf make_serialized_frame) deserialized_frame.

Definition generated_tests : list bool :=
  [message_serde_identity; message_type_tautology; message_frame_identity; message_frame_serde].
End Generated.
