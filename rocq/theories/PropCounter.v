(** * PropCounter: C131, the message counter of a session is a u128. *)
From Verif Require Import Base SpecWire Noise SpecNoise SpecSession SpecTransport NoiseSamples SessionClaims Crypto CryptoFacts Counter SpecCounter CounterProofs.
Open Scope N_scope.

(** C131.  Full statement: a session that is in transport mode never goes back to the handshake, in a build with
    overflow checks or without.  Refuted for builds without: one call more than 2^128 - 1 sets the counter to 0, and
    the session, still in transport mode, sends what it is given in the clear behind a public key. *)
Theorem C131_wrap_refuted : exists C s, crypto_ok C /\ reachable C s /\ is_transport s = true /\ exists more,
  let s' := run_u128 C false s more in
  get_message_count s' = 0 /\ is_transport s' = true /\
  forall rnd b, 32 <= len b <= 65535 -> exists pk s'', send_message C rnd s' b = (s'', pk ++ skipn 32 b, Ok tt).
Proof. exact wrap_refuted. Qed.
Print Assumptions C131_wrap_refuted.
(** Every session in transport mode, of either role, can be brought there. *)
Theorem C131_from_any : forall C, crypto_ok C -> REKEY C zeros32 <> zeros32 -> forall s,
  reachable C s -> is_transport s = true -> get_message_count s < 2 ^ 128 -> exists more,
  let s' := run_u128 C false s more in
  get_message_count s' = 0 /\ is_transport s' = true /\ se_i s' = se_i s /\
  forall rnd b, 32 <= len b <= 65535 -> exists pk s'', send_message C rnd s' b = (s'', pk ++ skipn 32 b, Ok tt).
Proof. exact reaches. Qed.
Print Assumptions C131_from_any.
Example C131_ex_any : REKEY real_crypto zeros32 <> zeros32 /\ reachable demo_crypto d_R /\ is_transport d_R = true /\ se_i d_R = false /\ get_message_count d_R < 2 ^ 128.
Proof. split; [exact real_rekey|]. split; [exact d_reach_R|]. repeat split. Qed.

(** It takes at least 2^64 - 1 calls that clear a cipher state: with fewer, any number of calls of any kind give
    what they give with an unbounded counter, in either build.  Missing: histories with more such calls. *)
Theorem C131_few_clears_partial : forall C, crypto_ok C -> forall checks i pro kp cs,
  let s := init_session C i pro kp in
  clears cs < 2 ^ 64 - 1 ->
  run_u128 C checks s cs = run_calls C s cs /\ results_u128 C checks s cs = results C s cs.
Proof. exact few_clears. Qed.
Print Assumptions C131_few_clears_partial.
(** The number of calls that succeed is limited by the number of calls that clear. *)
Theorem C131_bound : forall C, crypto_ok C -> forall i pro kp cs,
  successes C (init_session C i pro kp) cs <= 2 + (2 ^ 64 - 1) * (2 + clears cs).
Proof. exact successes_bound. Qed.
Print Assumptions C131_bound.
Example C131_ex_clears : crypto_ok demo_crypto /\
  let cs := [Send k_ei d_b1; Recv (out d_x3); ClearLocal; RekeyLocal; Send [] (repeat x00 20); Send [] (repeat x00 20)] in
  clears cs = 1 /\ successes demo_crypto d_I0 cs = 4 /\ clears cs < 2 ^ 64 - 1.
Proof. split; [exact demo_ok|]. cbv zeta. split; [reflexivity|]. split; [vm_compute; reflexivity|reflexivity]. Qed.

(** The exact point: before 2^128 successes nothing is different; at the 2^128th a build with overflow checks
    panics, and a build without goes on with counter 0 and plaintext. *)
Theorem C131_below : forall C checks i pro kp cs, let s := init_session C i pro kp in
  successes C s cs < 2 ^ 128 ->
  run_u128 C checks s cs = run_calls C s cs /\ results_u128 C checks s cs = results C s cs.
Proof. exact below. Qed.
Print Assumptions C131_below.
Theorem C131_at_limit : forall C i pro kp cs c, let s := run_calls C (init_session C i pro kp) cs in
  successes C (init_session C i pro kp) cs = 2 ^ 128 - 1 -> counted c -> res (step C s c) = Ok tt ->
  res (step_u128 C true s c) = Panic /\ get_message_count (st (step_u128 C true s c)) = 2 ^ 128 - 1 /\
  let s' := st (step_u128 C false s c) in
  res (step_u128 C false s c) = Ok tt /\ out (step_u128 C false s c) = out (step C s c) /\
  get_message_count s' = 0 /\ is_transport s' = true /\
  forall rnd b, 32 <= len b <= 65535 -> exists pk s'', send_message C rnd s' b = (s'', pk ++ skipn 32 b, Ok tt).
Proof. exact at_limit. Qed.
Print Assumptions C131_at_limit.
Example C131_ex_limit : exists cs c, let s := run_calls demo_crypto d_I0 cs in
  successes demo_crypto d_I0 cs = 2 ^ 128 - 1 /\ counted c /\ res (step demo_crypto s c) = Ok tt.
Proof. exact d_limit. Qed.

(** The full statement holds for builds with overflow checks: after any calls, panicking ones included, a session that
    was in transport mode still is, and what it does next is not the handshake. *)
Theorem C131_checked : forall C i pro kp cs more, is_transport (run_u128 C true (init_session C i pro kp) cs) = true ->
  is_transport (run_u128 C true (init_session C i pro kp) (cs ++ more)) = true /\
  2 <= get_message_count (run_u128 C true (init_session C i pro kp) (cs ++ more)).
Proof. exact checked_stays. Qed.
Print Assumptions C131_checked.
Theorem C131_checked_counter : forall C i pro kp cs, let s := run_u128 C true (init_session C i pro kp) cs in
  (is_transport s = true <-> 2 <= get_message_count s) /\ get_message_count s < 2 ^ 128.
Proof. exact checked. Qed.
Print Assumptions C131_checked_counter.
Example C131_ex_checked : exists cs more, is_transport (run_u128 demo_crypto true d_I0 cs) = true /\
  get_message_count (run_u128 demo_crypto true d_I0 (cs ++ more)) = 2 ^ 128 - 1.
Proof. exact d_checked. Qed.
