(** * SpecLocals: what is expected to stay behind in the local arrays of nx-noise (C138). *)
From Verif Require Import Base Noise Locals SpecNoise.
Local Open Scope N_scope.
Local Open Scope list_scope.

Definition zeros (n : nat) : bytes := repeat (b8 0) n.

(** Arrays that are meant to be zero when their function returns, whatever happened. *)
Definition wiped (n : local) : Prop :=
  In n [rekey_in_out; split_temp_k1; split_temp_k2; split_out2; mix_out2; both_out0; both_out1; both_out2].

(** The ephemeral private key of a sender: its own if it has one, otherwise the random one. *)
Definition own_e (rnd : bytes) (h : handshake_state) : bytes :=
  if bytes_eqb (kp_private (hs_e h)) zeros32 then rnd else kp_private (hs_e h).

(** After the handshake, and before the second message. *)
Definition quiet (mc : N) (c : call) (b' : bytes) (r : NResult unit) : left_over :=
  match c with
  | Send _ b => if (mc =? 0) || (len b <? 16) || (65535 <? len b) then []
                else [(write_temp_mac, match r with Ok _ => skipn (length b - 16) b' | _ => zeros 16 end)]
  | Recv b => if (mc =? 0) || (len b <? 16) || (65535 <? len b) then []
              else [(read_temp_mac, match r with Ok _ => zeros 16 | _ => skipn (length b - 16) b end)]
  | RekeyLocal | RekeyRemote => [(rekey_in_out, zeros 32)]
  | _ => []
  end.

Section Trail.
Variable C : crypto.

(** RFC 2104: the two padded keys of one HMAC. *)
Definition pads (key : bytes) : left_over :=
  let k := key ++ zeros (64 - length key) in [(hmac_ipad, xor_all 0x36 k); (hmac_opad, xor_all 0x5c k)].
(** HKDF with two and with three outputs. *)
Definition trail2 (ck ikm : bytes) : left_over :=
  let t := HMAC C ck ikm in
  let '(a, _, _) := HKDF C ck ikm in
  pads ck ++ pads t ++ pads t ++ [(hkdf_temp_key, t); (hkdf_in2, a ++ [b8 2])].
Definition trail3 (ck ikm : bytes) : left_over :=
  let t := HMAC C ck ikm in
  let '(a, b, _) := HKDF C ck ikm in
  pads ck ++ pads t ++ pads t ++ pads t ++ [(hkdf_temp_key, t); (hkdf_in2, a ++ [b8 2]); (hkdf_in3, b ++ [b8 3])].
(** MixKey: all of the next chaining key and cipher key; Split: none of its own. *)
Definition trail_mix (ck ikm : bytes) : left_over :=
  let '(a, b, _) := HKDF C ck ikm in
  trail2 ck ikm ++ [(mix_out0, a); (mix_out1, b); (mix_out2, zeros 32); (mix_temp_k, b)].
Definition trail_split (ck : bytes) : left_over :=
  trail2 ck [] ++ [(split_temp_k1, zeros 32); (split_temp_k2, zeros 32); (split_out2, zeros 32)].
(** The chaining key after MixKey. *)
Definition next_ck (ck ikm : bytes) : bytes := fst (fst (HKDF C ck ikm)).

(** The second message of the handshake, Diffie-Hellman results [d1] (ee) and [d2] (es), tags [m1] and [m2] of the two
    encrypted parts [p1] and [p2]. *)
Definition trail_send (ck d1 d2 m1 m2 : bytes) : left_over :=
  trail_mix ck d1 ++ [(encrypt_temp_mac, m1)] ++
  trail_mix (next_ck ck d1) d2 ++ [(encrypt_temp_mac, m2)] ++
  trail_split (next_ck (next_ck ck d1) d2).
Definition taken_in (p : bytes) : left_over :=
  [(decrypt_temp, p ++ zeros (N.to_nat 2048 - length p)); (decrypt_temp_mac, skipn (length p - 16) p)].
Definition trail_recv (ck d1 d2 p1 p2 : bytes) : left_over :=
  trail_mix ck d1 ++ taken_in p1 ++
  trail_mix (next_ck ck d1) d2 ++ taken_in p2 ++
  trail_split (next_ck (next_ck ck d1) d2).

(** The two keys of transport mode made from a chaining key. *)
Definition both_keys (ck : bytes) (c1 c2 : cipher_state) : Prop :=
  cs_k c1 = fst (fst (HKDF C ck [])) /\ cs_k c2 = snd (fst (HKDF C ck [])).
(** Both keys of [s] follow from what is left: the first is there, the second is an HMAC of it. *)
Definition keys_left (l : left_over) (s : session) : Prop := exists t,
  In (hkdf_temp_key, t) l /\ In (hkdf_in2, cs_k (se_cs1 s) ++ [b8 2]) l /\
  cs_k (se_cs2 s) = HMAC C t (cs_k (se_cs1 s) ++ [b8 2]).
End Trail.
