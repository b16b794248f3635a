(** * SpecReuse: under which key and counter an initiator sends, told from the calls alone. *)
From Verif Require Import Base Noise SpecNoise SpecSession SpecTransport.
Open Scope N_scope.
Open Scope list_scope.

(** Since the handshake or the last clearing: was there one, how many rekeys, how many messages. *)
Record spot := mkSpot { cleared : bool; rekeys : nat; sent : N }.
(** The spot of every message sent, given the calls and what they returned. *)
Fixpoint spots (p : spot) (cs : list call) (rs : list (bytes * NResult unit)) : list spot :=
  match cs, rs with
  | c :: cs', (_, r) :: rs' =>
      match c, r with
      | Send _ _, Ok _ => p :: spots (mkSpot (cleared p) (rekeys p) (sent p + 1)) cs' rs'
      | ClearLocal, _ => spots (mkSpot true 0 0) cs' rs'
      | RekeyLocal, _ | RekeyRemote, _ => spots (mkSpot (cleared p) (S (rekeys p)) (sent p)) cs' rs'
      | _, _ => spots p cs' rs'
      end
  | _, _ => []
  end.
(** The key at a spot of a session whose key was [k0]: zero when it was cleared. *)
Definition key_at (C : crypto) (k0 : bytes) (p : spot) : bytes :=
  rekeyed C (rekeys p) (if cleared p then zeros32 else k0).
