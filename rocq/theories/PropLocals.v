(** * PropLocals: C138, what the local arrays of nx-noise hold when their function returns. *)
From Verif Require Import Base Noise Locals SpecNoise SpecSession SpecIndex SpecLocals NoiseSamples PropSession LocalsProofs.
Local Open Scope N_scope.
Local Open Scope list_scope.

(** C138.  Full claim: when a call returns, none of the local arrays it used still holds a key of the session.  It
    fails: the responder's [send_message] leaves the first transport key of the session in [in2] of [hkdf]. *)
Theorem C138_refuted : exists C i pro kp cs c, crypto_ok C /\ keypair_ok kp /\ Forall typed_call (cs ++ [c]) /\
  let '(s', _, r, l) := step_l C (run_calls C (init_session C i pro kp) cs) c in
  r = Ok tt /\ is_transport s' = true /\ cs_k (se_cs1 s') <> zeros32 /\
  exists n b, In (n, b) l /\ firstn 32 b = cs_k (se_cs1 s').
Proof. exact key_found. Qed.
Print Assumptions C138_refuted.
(** Every handshake does this, on both sides, and what is left determines the second key as well. *)
Theorem C138_always : forall C, crypto_ok C -> forall s c s' b' l, typed s -> se_mc s = 1 ->
  step_l C s c = (s', b', Ok tt, l) -> (exists rnd b, c = Send rnd b) \/ (exists b, c = Recv b) -> keys_left C l s'.
Proof. exact finish_left. Qed.
Print Assumptions C138_always.

(** What does hold: the arrays meant to be wiped are zero after every call on every session. *)
Theorem C138_wiped_partial : forall C, crypto_ok C -> forall s c n b,
  In (n, b) (snd (step_l C s c)) -> wiped n -> b = zeros 32.
Proof. exact step_clean. Qed.
Print Assumptions C138_wiped_partial.
(** Outside the second message no local array holds anything but a tag that is in the buffer anyway, or zeros. *)
Theorem C138_quiet_partial : forall C, crypto_ok C -> forall s c s' b' r l, se_mc s <> 1 ->
  step_l C s c = (s', b', r, l) -> l = quiet (se_mc s) c b' r.
Proof. exact quiet_left. Qed.
Print Assumptions C138_quiet_partial.

(** The second message, array by array.  A call that fails leaves a beginning of the same list. *)
Theorem C138_send : forall C, crypto_ok C -> forall s rnd b s' b' r l, typed s -> se_mc s = 1 -> 32 <= len b <= 65535 ->
  step_l C s (Send rnd b) = (s', b', r, l) ->
  let h := se_hs s in
  let d1 := c_dh C (own_e rnd h) (hs_re h) in let d2 := c_dh C (kp_private (hs_s h)) (hs_re h) in
  exists m1 m2 more,
    trail_send C (ss_ck (hs_ss h)) d1 d2 m1 m2 = l ++ more /\
    (r = Ok tt -> both_keys C (next_ck C (next_ck C (ss_ck (hs_ss h)) d1) d2) (se_cs1 s') (se_cs2 s') /\
       more = [] /\ m1 = skipn 64 (firstn 80 b') /\ m2 = skipn (length b' - 16) b').
Proof. exact send_b_left. Qed.
Print Assumptions C138_send.
Theorem C138_recv : forall C, crypto_ok C -> forall s b s' b' r l, typed s -> se_mc s = 1 -> 16 <= len b <= 65535 ->
  r <> Panic -> step_l C s (Recv b) = (s', b', r, l) ->
  let h := se_hs s in
  let d1 := c_dh C (kp_private (hs_e h)) (firstn 32 b) in
  exists d2 more,
    trail_recv C (ss_ck (hs_ss h)) d1 d2 (skipn 32 (firstn 80 b)) (skipn 80 b) = l ++ more /\
    (r = Ok tt -> both_keys C (next_ck C (next_ck C (ss_ck (hs_ss h)) d1) d2) (se_cs1 s') (se_cs2 s') /\
       more = [] /\ d2 = c_dh C (kp_private (hs_e h)) (hs_rs (se_hs s'))).
Proof. exact recv_b_left. Qed.
Print Assumptions C138_recv.
(** If receiving panics, the buffer of 2048 bytes is still empty or holds the short end of the message. *)
Theorem C138_panic : forall C, crypto_ok C -> forall s b s' b' l, typed s -> se_mc s = 1 ->
  step_l C s (Recv b) = (s', b', Panic, l) ->
  let h := se_hs s in
  let d1 := c_dh C (kp_private (hs_e h)) (firstn 32 b) in
  exists d2, (80 <= len b < 96 \/ 2128 < len b) /\
    l = trail_mix C (ss_ck (hs_ss h)) d1 ++ taken_in (skipn 32 (firstn 80 b)) ++ trail_mix C (next_ck C (ss_ck (hs_ss h)) d1) d2 ++
        [(decrypt_temp, if 2128 <? len b then zeros (N.to_nat 2048) else skipn 80 b ++ zeros (N.to_nat 2048 - (length b - 80)))].
Proof. exact recv_b_panic. Qed.
Print Assumptions C138_panic.
(** HKDF for every number of outputs; the crate asks for two or three. *)
Theorem C138_hkdf : forall C, crypto_ok C -> forall ck ikm n, len ck <= 64 ->
  let '(a, b, c) := HKDF C ck ikm in
  hkdf_l C ck ikm n =
    if n =? 1 then (a, zeros 32, zeros 32, pads ck ++ pads (HMAC C ck ikm) ++ [(hkdf_temp_key, HMAC C ck ikm)])
    else if n =? 2 then (a, b, zeros 32, trail2 C ck ikm) else (a, b, c, trail3 C ck ikm).
Proof. exact hkdf_l_all. Qed.
Print Assumptions C138_hkdf.
(** The unused [mix_key_and_hash] wipes the outputs of HKDF but not the copies it made of the last two. *)
Theorem C138_psk : forall C, crypto_ok C -> forall s d, len (ss_ck s) = 32 ->
  mix_key_and_hash_l C s d = (mix_key_and_hash C s d,
    let '(_, b, c) := HKDF C (ss_ck s) d in
    trail3 C (ss_ck s) d ++ [(both_out0, zeros 32); (both_out1, zeros 32); (both_out2, zeros 32); (both_temp_h, b); (both_temp_k, c)]).
Proof. exact mix_both_l_eq. Qed.
Print Assumptions C138_psk.
(** Listing the arrays changes no result. *)
Theorem C138_same : forall C s c, fst (step_l C s c) = step C s c.
Proof. exact step_l_same. Qed.
Print Assumptions C138_same.

(** Setting up: the array for short protocol names; the name of this crate has 33 bytes and needs none. *)
Theorem C138_init : forall C n, initialize_symmetric_l C n =
  (initialize_symmetric C n, if len n <? 32 then [(init_temp, n ++ zeros (32 - length n))] else []).
Proof. exact init_l_left. Qed.
Print Assumptions C138_init.

(** Both sides of a handshake. *)
Example C138_ex : crypto_ok demo_crypto /\ typed (st d_x2) /\ se_mc (st d_x2) = 1 /\ typed (st d_x1) /\ se_mc (st d_x1) = 1 /\
  32 <= len d_b2 <= 65535 /\ 16 <= len (out d_x3) <= 65535 /\
  (exists l, step_l demo_crypto (st d_x2) (Send k_er d_b2) = (st d_x3, out d_x3, Ok tt, l)) /\
  (exists l, step_l demo_crypto (st d_x1) (Recv (out d_x3)) = (st d_x4, out d_x4, Ok tt, l)) /\
  wiped split_temp_k1 /\ se_mc d_R = 2 /\ quiet 2 (Recv d_b2) [] (Err DecryptionError) = [(read_temp_mac, zeros 16)] /\
  len (ss_ck (hs_ss (se_hs (st d_x1)))) = 32 /\ len protocol_name = 33.
Proof.
  destruct typed_x2 as [T2 M2]. destruct typed_x1 as [T1 M1].
  split; [exact demo_ok|]. split; [exact T2|]. split; [exact M2|]. split; [exact T1|]. split; [exact M1|].
  split; [split; discriminate|]. split; [split; discriminate|]. split; [exact x3_left|]. split; [exact x4_left|].
  split; [right; left; reflexivity|]. split; [reflexivity|]. split; [reflexivity|]. split; reflexivity.
Qed.
(** The start of that reply, its first 80 bytes: a panic (C51). *)
Example C138_panic_ex : typed (st d_x1) /\ se_mc (st d_x1) = 1 /\
  exists s' b' l, step_l demo_crypto (st d_x1) (Recv (firstn 80 (out d_x3))) = (s', b', Panic, l).
Proof.
  destruct typed_x1 as [T1 M1]. split; [exact T1|]. split; [exact M1|].
  destruct C51_ex as (_ & _ & X & _). exact (panic_gives _ _ _ X).
Qed.
