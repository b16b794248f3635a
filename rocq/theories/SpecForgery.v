(** * SpecForgery: the one-time authenticator key of RFC 8439, 2.5 and 2.6, stated byte by byte. *)
From Coq Require Import List NArith.
From Verif Require Import Base Crypto SpecWire.
Import ListNotations.
Open Scope N_scope.

(** Section 2.5: the top four bits of bytes 3, 7, 11, 15 and the low two bits of bytes 4, 8, 12 are cleared. *)
Definition clamp_byte (i : nat) (v : N) : N :=
  match i with
  | 3%nat | 7%nat | 11%nat | 15%nat => v mod 16
  | 4%nat | 8%nat | 12%nat => 4 * (v / 4)
  | _ => v
  end.
Fixpoint clamp_from (i : nat) (bs : list N) : list N :=
  match bs with [] => [] | v :: t => clamp_byte i v :: clamp_from (Datatypes.S i) t end.
(** The multiplier [r] of a one-time key and of a cipher key with a nonce (section 2.6). *)
Definition clamped (bs : bytes) : N := spec_val (clamp_from 0 (wire bs)).
Definition one_time_r (key nonce : bytes) : N := clamped (firstn 16 (chacha_block key 0 nonce)).

(** Blocks of sixteen bytes authenticated for so many bytes of associated data and of ciphertext: both, padded, and one with the lengths. *)
Definition blocks (ad ct : N) : N := (ad + 15) / 16 + (ct + 15) / 16 + 1.
