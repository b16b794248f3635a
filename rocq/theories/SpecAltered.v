(** * SpecAltered: the key that protects the payload of the second handshake message. *)
From Verif Require Import Base Noise SpecNoise SpecBinding.

(** From the results of the two Diffie-Hellman operations, ee and es, of the pattern NX. *)
Definition es_key (C : crypto) (ee es : bytes) : bytes :=
  let '(ck, _, _) := HKDF C (h_name C) ee in
  let '(_, k, _) := HKDF C ck es in k.
