(** * SpecScalar: the number that a private key stands for. *)
From Verif Require Import Base SpecWire.
Local Open Scope N_scope.

(** RFC 7748, section 5: bits 3 to 253 of the 32 bytes, then bit 254 set; a multiple of 8 between 2^254 and 2^255. *)
Definition scalar (sk : bytes) : N := 2 ^ 254 + 8 * (spec_val (wire sk) / 8 mod 2 ^ 251).
(** The prime orders of the large subgroups of the curve and of its twist. *)
Definition order_curve : N := 2 ^ 252 + 27742317777372353535851937790883648493.
Definition order_twist : N := 2 ^ 253 - 55484635554744707071703875581767296995.
