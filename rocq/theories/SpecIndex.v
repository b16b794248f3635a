(** * SpecIndex: values of the Rust types of nx-noise (C135). *)
From Verif Require Import Base Noise SpecNoise.
Open Scope N_scope.

(** The arrays of a session have the sizes their types say, its nonces are numbers of 64 bits. *)
Definition typed_cs (c : cipher_state) : Prop := len (cs_k c) = 32 /\ cs_n c < 2 ^ 64.
Definition typed_ss (s : symmetric_state) : Prop := typed_cs (ss_cs s) /\ len (ss_ck s) = 32 /\ len (ss_h s) = 32.
Definition typed_hs (h : handshake_state) : Prop :=
  typed_ss (hs_ss h) /\ keypair_ok (hs_s h) /\ keypair_ok (hs_e h) /\
  len (hs_rs h) = 32 /\ len (hs_re h) = 32 /\ len (hs_psk h) = 32.
Definition typed (s : session) : Prop :=
  typed_hs (se_hs s) /\ len (se_h s) = 32 /\ typed_cs (se_cs1 s) /\ typed_cs (se_cs2 s).
(** What a caller can pass: key pairs of 32-byte arrays, any buffer; the random source yields 32 bytes. *)
Definition typed_call (c : call) : Prop :=
  match c with Send rnd _ => len rnd = 32 | SetEphemeral e => keypair_ok e | _ => True end.
