(** * SpecKeys: what a session stores, and chains of error sources. *)
From Coq Require Import Strings.String.
From Verif Require Import Base Noise Keys SpecWire SpecNoise SpecSession.
Open Scope N_scope.

(** The fields of a session holding secrets of the handshake, other than the ephemeral private key. *)
Definition handshake_secrets (s : session) : list bytes :=
  [kp_private (hs_s (se_hs s)); hs_psk (se_hs s); cs_k (ss_cs (hs_ss (se_hs s))); ss_ck (hs_ss (se_hs s))].
Definition ephemeral_secret (s : session) : bytes := kp_private (hs_e (se_hs s)).
Definition transport_keys (s : session) : list bytes := [cs_k (se_cs1 s); cs_k (se_cs2 s)].
Definition all_secrets (s : session) : list bytes :=
  handshake_secrets s ++ [ephemeral_secret s] ++ transport_keys s.

Definition sets_no_ephemeral (c : call) : Prop := match c with SetEphemeral _ => False | _ => True end.

(** The initial chaining key, a public constant. *)
Definition nx_name_hash (C : crypto) : bytes :=
  sy_h (InitializeSymmetric C (list_byte_of_string "Noise_NX_25519_ChaChaPoly_BLAKE2s")).

(** Every call of the history returned Ok. *)
Fixpoint all_ok (C : crypto) (s : session) (cs : list call) : Prop :=
  match cs with
  | [] => True
  | c :: cs' => res (step C s c) = Ok tt /\ all_ok C (st (step C s c)) cs'
  end.

(** The [n]-th error of the chain starting at [x]. *)
Fixpoint chain (src : any_error -> option any_error) (n : nat) (x : any_error) : option any_error :=
  match n with
  | O => Some x
  | S n' => match src x with Some y => chain src n' y | None => None end
  end.
Definition chain_ends (src : any_error -> option any_error) (x : any_error) : Prop :=
  exists n, chain src n x = None.
