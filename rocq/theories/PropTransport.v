(** * PropTransport: C98, histories of calls on an established session; complements of C53 and C71. *)
From Coq Require Import List.
From Verif Require Import Base Noise SpecNoise SpecSession NoiseSamples NoiseClaims SessionClaims SpecTransport TransportProofs.
Open Scope N_scope.

(** C98. *)
Theorem C98_every_history : forall C, crypto_ok C -> forall s cs, reachable C s -> is_transport s = true ->
  history C (se_i s) (channel_of s) cs (results C s cs) (channel_of (run_calls C s cs)).
Proof. exact history_exact. Qed.
Print Assumptions C98_every_history.
(** [history] leaves open only what a refused message leaves in the buffer before its tag. *)
Theorem C98_one_outcome : forall C i c cs rs1 c1 rs2 c2, history C i c cs rs1 c1 -> history C i c cs rs2 c2 ->
  c1 = c2 /\ map snd rs1 = map snd rs2 /\
  forall j b1 b2 r, nth_error rs1 j = Some (b1, r) -> nth_error rs2 j = Some (b2, r) -> r <> Err DecryptionError -> b1 = b2.
Proof. exact history_unique. Qed.
Print Assumptions C98_one_outcome.

Example C98_ex : reachable demo_crypto d_I /\ is_transport d_I = true /\
  map snd (results demo_crypto d_I [Send [] ([x61] ++ placeholder); Recv (repeat x00 20); Recv []; ClearLocal; Send [] placeholder;
    RekeyRemote; Send [] placeholder; ClearRemote; Recv (repeat x00 20)]) =
  [Ok tt; Err DecryptionError; Err UnsupportedMessageLengthError; Ok tt; Err EmptyKeyError; Ok tt; Ok tt; Ok tt; Err EmptyKeyError].
Proof. split; [exact d_reach_I|]. split; [reflexivity|]. vm_compute. reflexivity. Qed.

(** C71, what holds: a responder never repeats a counter, whatever is called; in a session of either role two
    sends with one counter have a [ClearLocal] between them. *)
Theorem C71_responder_partial : forall C, crypto_ok C -> forall pro kp cs, exists k, forall j b o,
  nth_error (transport_sends C (init_session C false pro kp) cs) j = Some (b, o) ->
  k <> zeros32 /\ N.of_nat j < 2 ^ 64 - 1 /\ o = ENCRYPT C k (N.of_nat j) [] (plaintext_of b).
Proof. exact responder_history. Qed.
Print Assumptions C71_responder_partial.
Theorem C71_since_clear_partial : forall C, crypto_ok C -> forall s cs, reachable C s -> is_transport s = true -> Forall no_clear_local cs ->
  exists n, forall j b o, nth_error (transport_sends C s cs) j = Some (b, o) ->
    n + N.of_nat j < 2 ^ 64 - 1 /\ exists k, k <> zeros32 /\ o = ENCRYPT C k (n + N.of_nat j) [] (plaintext_of b).
Proof. exact since_clear. Qed.
Print Assumptions C71_since_clear_partial.
Example C71_ex :
  let cs := [Recv (out d_x1); Send k_er d_b2; Send [] ([x61] ++ placeholder); ClearLocal; RekeyLocal; Send [] ([x62] ++ placeholder);
             ClearRemote; RekeyRemote; Send [] placeholder] in
  map snd (transport_sends demo_crypto d_R0 cs) =
    [ENCRYPT demo_crypto (cs_k (se_cs2 d_R)) 0 [] [x61]; ENCRYPT demo_crypto (cs_k (se_cs2 d_R)) 1 [] [x62]].
Proof. vm_compute. reflexivity. Qed.

(** C53, exactly: what an initiator sends after a clear is under the zero key rekeyed at least once, with the
    counter from zero.  Likewise a responder takes messages from anybody. *)
Theorem C53_after_clear_partial : forall C, crypto_ok C -> forall s cs rnd b, reachable C s -> is_transport s = true -> se_i s = true ->
  Forall no_clear_local cs ->
  let r := length (filter is_rekey cs) in
  let m := len (transport_sends C s (ClearLocal :: cs)) in
  let x := send_message C rnd (run_calls C s (ClearLocal :: cs)) b in
  res x = Ok tt -> (0 < r)%nat /\ m < 2 ^ 64 - 1 /\ rekeyed C r zeros32 <> zeros32 /\
    out x = ENCRYPT C (rekeyed C r zeros32) m [] (plaintext_of b).
Proof. exact after_clear. Qed.
Print Assumptions C53_after_clear_partial.
Theorem C53_accepts_anyone : forall C, crypto_ok C -> forall s pt, reachable C s -> is_transport s = true -> se_i s = false ->
  len pt <= 65519 -> REKEY C zeros32 <> zeros32 ->
  let x := recv_message C (run_calls C s [ClearLocal; RekeyLocal]) (ENCRYPT C (REKEY C zeros32) 0 [] pt) in
  res x = Ok tt /\ plaintext_of (out x) = pt.
Proof. exact accepts_anyone. Qed.
Print Assumptions C53_accepts_anyone.
Example C53_ex_calls : reachable demo_crypto d_I /\ is_transport d_I = true /\ se_i d_I = true /\
  reachable demo_crypto d_R /\ is_transport d_R = true /\ se_i d_R = false /\
  Forall no_clear_local [Recv []; RekeyRemote; ClearRemote] /\
  res (send_message demo_crypto [] (run_calls demo_crypto d_I [ClearLocal; Recv []; RekeyRemote; ClearRemote]) placeholder) = Ok tt.
Proof.
  split; [exact d_reach_I|]. do 2 (split; [reflexivity|]). split; [exact d_reach_R|]. do 2 (split; [reflexivity|]).
  split; [repeat constructor|vm_compute; reflexivity].
Qed.
