(** * SpecSig: what a signature is bound to. *)
From Verif Require Import Base SpecWire SpecNoise Ed25519 Certs.
Local Open Scope N_scope.

(** RFC 8032, 5.1.7: SHA-512 of the first half of the signature, the key and the message, modulo the group order. *)
Definition challenge (pk m sig : bytes) : N :=
  spec_val (wire (sha512 (firstn 32 sig ++ pk ++ m))) mod (2 ^ 252 + 27742317777372353535851937790883648493).
(** The y-coordinates of the eight points of order 1, 2, 4 and 8; the last two are named in the list of
    small-order points of the ed25519 literature (0x7a03...17c7 and its negative). *)
Definition weak_ys : list N :=
  let y8 := 55188659117513257062467267217118295137698188065244968500265048394206261417927 in
  [0; 1; p25519 - 1; y8; p25519 - y8].
(** A key whose y-coordinate is one of them. *)
Definition weak (pk : bytes) : Prop := In (spec_val (wire pk) mod 2 ^ 255 mod p25519) weak_ys.
(** The certificates [c] and [c'] say the same. *)
Definition same_certificate (c c' : certificate_format) : Prop :=
  cf_authority c = cf_authority c' /\ cf_static c = cf_static c' /\ sn_version (cf_message c) = sn_version (cf_message c') /\
  sn_valid_from (cf_message c) = sn_valid_from (cf_message c') /\ sn_not_valid_after (cf_message c) = sn_not_valid_after (cf_message c').
