(** * SpecTwin: the number that a public key stands for. *)
From Verif Require Import Base SpecWire SpecNoise.
Local Open Scope N_scope.

(** RFC 7748, section 5: the top bit of the 32 bytes is ignored and the rest is read modulo the prime. *)
Definition u_value (pk : bytes) : N := spec_val (wire pk) mod 2 ^ 255 mod p25519.
(** Two public keys with which every private key shares the same secret. *)
Definition twins (dh : bytes -> bytes -> bytes) (pk pk' : bytes) : Prop := forall sk, dh sk pk = dh sk pk'.
