(** * PropCompare: C108, wire values next to plain values. *)
From Verif Require Import Base Codec Types Messages SpecWire SpecTypes Compare CompareProofs.
Local Open Scope N_scope.

(** C108.  Refuted: two values can be == to the same plain value and not == to each other (the length field is
    public and ignored by the comparison with a plain value). *)
Theorem C108_bytes_refuted : forall v, exists a b, b0_length a < 2 ^ 8 /\ b0_length b < 2 ^ 8 /\
  b0_eq_vec a v = true /\ vec_eq_b0 v b = true /\ b0_eqb a b = false.
Proof. exact through_vec. Qed.
Print Assumptions C108_bytes_refuted.
Theorem C108_strings_refuted : forall v, exists a b, str0_length a < 2 ^ 8 /\ str0_length b < 2 ^ 8 /\
  str0_eq_string a v = true /\ string_eq_str0 v b = true /\ str0_eqb a b = false.
Proof. exact through_string. Qed.
Print Assumptions C108_strings_refuted.
(** Values made by the constructors (decoders use them) are == to the plain value they were made from and to
    no other, convert back to it, and are == to each other exactly if made from the same. *)
Theorem C108_bytes_partial : forall t v a, b0_new t v = Ok a ->
  b0_into_vec a = v /\ (forall w, b0_eq_vec a w = true <-> v = w) /\ (forall w, vec_eq_b0 w a = true <-> v = w) /\
  (forall w b, b0_new t w = Ok b -> (b0_eqb a b = true <-> v = w)).
Proof. exact b0_compare. Qed.
Print Assumptions C108_bytes_partial.
Theorem C108_strings_partial : forall t v a, str0_new t v = Ok a ->
  str0_into_string a = v /\ (forall w, str0_eq_string a w = true <-> v = w) /\ (forall w, string_eq_str0 w a = true <-> v = w) /\
  (forall w b, str0_new t w = Ok b -> (str0_eqb a b = true <-> v = w)).
Proof. exact str0_compare. Qed.
Print Assumptions C108_strings_partial.
Theorem C108_u24_partial : forall v a, v < 2 ^ 32 -> u24_new v = Ok a ->
  u24_into_u32 a = v /\ u24_into_usize a = v /\ (forall w, u24_eq_u32 a w = true <-> v = w) /\ (forall w, u32_eq_u24 w a = true <-> v = w) /\
  (forall w b, w < 2 ^ 32 -> u24_new w = Ok b -> (u24_eqb a b = true <-> v = w)).
Proof. exact u24_compare. Qed.
Print Assumptions C108_u24_partial.
Theorem C108_u256_partial : forall v, let a := u256_from_array v in
  u256_into_array a = v /\ (forall w, u256_eq_array a w = true <-> v = w) /\ (forall w, array_eq_u256 w a = true <-> v = w) /\
  (forall w, u256_eqb a (u256_from_array w) = true <-> v = w).
Proof. exact u256_compare. Qed.
Print Assumptions C108_u256_partial.
(** The order of the operands does not matter, also for hand-built values. *)
Theorem C108_sides_partial : (forall a v, b0_eq_vec a v = vec_eq_b0 v a) /\ (forall a v, str0_eq_string a v = string_eq_str0 v a) /\
  (forall a v, u24_eq_u32 a v = u32_eq_u24 v a) /\ (forall a v, u256_eq_array a v = array_eq_u256 v a).
Proof. exact sides_agree. Qed.
Print Assumptions C108_sides_partial.
(** An error code is shown as the string it has on the wire. *)
Theorem C108_code_texts_partial : (forall c, len (sc_code_display c) :: wire (sc_code_display c) = lay_sc_code c) /\
  (forall c, len (omc_code_display c) :: wire (omc_code_display c) = lay_omc_code c).
Proof. exact code_texts. Qed.
Print Assumptions C108_code_texts_partial.

Example C108_ex : exists a s, b0_new B0_31 [x01; x02] = Ok a /\ str0_new STR0_32 [x61] = Ok s /\ u24_new 16777215 = Ok 16777215 /\
  b0_eq_vec a [x01; x02] = true /\ b0_eq_vec a [x01] = false /\ str0_eq_string s [x61; x61] = false /\
  u24_eq_u32 16777215 16777215 = true /\ u256_eq_array (u256_from_array (repeat x07 32)) (repeat x08 32) = false.
Proof. do 2 eexists. repeat split. Qed.
