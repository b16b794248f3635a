(** * SpecCerts: base58 and certificate layouts, written independently of the model's functions. *)
From Coq Require Import Strings.String.
From Verif Require Import Base Codec Types Certs SpecWire.
Open Scope N_scope.

(** Big-endian value of a digit string in base [b]. *)
Definition be_value (b : N) (ds : list N) : N := fold_left (fun acc d => b * acc + d) ds 0.

Definition b58_alphabet : bytes :=
  list_byte_of_string "123456789ABCDEFGHJKLMNPQRSTUVWXYZabcdefghijkmnopqrstuvwxyz".
Definition digit58 (c : byte) (d : N) : Prop := nth_error b58_alphabet (N.to_nat d) = Some c.

(** [s] is the base58 text of [k]: as many leading '1's as [k] has leading zero bytes, and the rest denote
    the same number. *)
Definition base58 (s k : bytes) : Prop :=
  exists z s' k' ds,
    s = repeat x31 z ++ s' /\ k = repeat (b8 0) z ++ k' /\
    hd_error s' <> Some x31 /\ hd_error k' <> Some (b8 0) /\
    Forall2 digit58 s' ds /\ be_value 58 ds = be_value 256 (wire k').

(** What ed25519 is assumed to do. *)
Record ed_ok (E : ed_ops) : Prop := {
  ed_sig_len : forall kp m, len (ed_sign E kp m) = 64;
  ed_sig_high : forall kp m, spec_val (wire (skipn 63 (ed_sign E kp m))) < 32 }.
(** A key pair whose signatures verify. *)
Definition ed_pair (E : ed_ops) (kp : ed_keypair) : Prop :=
  len (ek_public kp) = 32 /\ ed_valid E (ek_public kp) = true /\
  forall m, ed_verify E (ek_public kp) m (ed_sign E kp m) = true.

(** The 42 signed bytes and the 74-byte message. *)
Definition cert_layout (version valid_from not_valid_after : N) (key : bytes) : list N :=
  spec_le 2 version ++ spec_le 4 valid_from ++ spec_le 4 not_valid_after ++ wire key.
Definition snm_layout (m : snm) : list N :=
  spec_le 2 (sn_version m) ++ spec_le 4 (sn_valid_from m) ++ spec_le 4 (sn_not_valid_after m) ++ wire (sn_signature m).
Definition snm_ok (m : snm) : Prop :=
  sn_version m < 2 ^ 16 /\ sn_valid_from m < 2 ^ 32 /\ sn_not_valid_after m < 2 ^ 32 /\ len (sn_signature m) = 64.
(** A canonical signature has the three top bits of its last byte clear. *)
Definition canonical_sig (s : bytes) : Prop := spec_val (wire (skipn 63 s)) < 32.
