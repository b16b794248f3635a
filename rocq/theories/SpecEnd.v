(** * SpecEnd: what a session that is dropped before transport mode has been through. *)
From Verif Require Import Base Noise SpecNoise.
Open Scope N_scope.
Open Scope list_scope.

(** A call that has room for its public key or is given one that is not of low order. *)
Definition reached (c : call) : Prop :=
  match c with
  | Send _ b => 32 <= len b <= 65535
  | Recv m => 48 <= len m <= 65535 /\ ~ low_order (firstn 32 m)
  | _ => False
  end.
(** The private keys a session may use: its static one, none (zeros), those drawn and those installed. *)
Definition own_keys (s : keypair) (cs : list call) : list bytes :=
  kp_private s :: zeros32 ::
  flat_map (fun c => match c with Send rnd _ => [rnd] | SetEphemeral e => [kp_private e] | _ => [] end) cs.
(** Some call got as far as its public key and failed. *)
Definition failed_late (cs : list call) (rs : list (bytes * NResult unit)) : Prop :=
  Exists (fun x : call * (bytes * NResult unit) => reached (fst x) /\ snd (snd x) <> Ok tt) (combine cs rs).

(** A dropped session of which only public values are left: its role, the peer's public key, the handshake hash and
    the number of handshake encryptions under the last key. *)
Definition only_public (i : bool) (rs h : bytes) : session :=
  mkSession (mkHS (mkSS (mkCS zeros32 1) zeros32 h) (mkKeypair zeros32 zeros32) (mkKeypair zeros32 zeros32) rs zeros32 zeros32)
    zeros32 (mkCS zeros32 0) (mkCS zeros32 0) 0 i true.
