(** * SpecEd: what an Ed25519 public key is, in plain arithmetic. *)
From Coq Require Import ZArith.
From Verif Require Import Base SpecWire SpecNoise.
Open Scope Z_scope.

(** -x^2 + y^2 = 1 + d x^2 y^2 modulo p = 2^255 - 19, with d = -121665/121666. *)
Definition ed_point (x y : Z) : Prop :=
  let p := Z.of_N p25519 in
  0 <= x < p /\ 0 <= y < p /\ (121666 * (y * y - x * x - 1) + 121665 * (x * x * (y * y))) mod p = 0.
(** 32 bytes read as a point: the low 255 bits, reduced, are y; the top bit is the parity of x unless x = 0. *)
Definition ed_reads (b : bytes) (x y : Z) : Prop :=
  let n := Z.of_N (spec_val (wire b)) in
  ed_point x y /\ y = (n mod 2 ^ 255) mod Z.of_N p25519 /\ (x = 0 \/ Z.odd x = Z.odd (n / 2 ^ 255)).
