(** * PropHistory: C126-C127, any history of calls up to a finished handshake, refused attempts included.

    [C : crypto] are the primitives of nx-noise with the laws [crypto_ok]. *)
From Verif Require Import Base Noise Crypto CryptoFacts KeyProofs SpecNoise SpecSession SpecTransport SpecBinding SpecRetry SpecHistory NoiseSamples RetryProofs HistoryProofs.
Local Open Scope N_scope.
Local Open Scope list_scope.

(** C126.  Whatever calls were made in whatever order: the handshake hash is the chain over the prologue, the two
    parts of the first message, the beginnings of refused second messages and the three parts of the accepted one. *)
Theorem C126_transcript : forall C, crypto_ok C -> forall i pro kp cs, keypair_ok kp -> Forall pairs_ok cs ->
  let s := init_session C i pro kp in
  exists n ds, transcript 0 cs (results C s cs) n ds /\
    (Forall not_33 cs -> Forall (fun d : bytes => len d <> 1) ds) /\
    (is_transport (run_calls C s cs) = true ->
     n = 2%nat /\ get_handshake_hash (run_calls C s cs) = Some (chain C (h_name C) (pro :: ds))).
Proof. exact history_transcript. Qed.
Print Assumptions C126_transcript.
(** Two sessions with any histories and the same hash: same prologue, same two handshake messages, same pieces in
    between, or a collision among the strings hashed. *)
Theorem C126_binding : forall C, crypto_ok C -> forall i pro kp cs i' pro' kp' cs',
  keypair_ok kp -> Forall pairs_ok cs -> Forall not_33 cs -> keypair_ok kp' -> Forall pairs_ok cs' -> Forall not_33 cs' ->
  h_name C <> firstn 32 name ->
  let s := init_session C i pro kp in let s' := init_session C i' pro' kp' in
  is_transport (run_calls C s cs) = true -> is_transport (run_calls C s' cs') = true ->
  get_handshake_hash (run_calls C s cs) = get_handshake_hash (run_calls C s' cs') ->
  exists ds ds', transcript 0 cs (results C s cs) 2 ds /\ transcript 0 cs' (results C s' cs') 2 ds' /\
    ((pro = pro' /\ ds = ds' /\
      exists m1 m2 more more', taken cs (results C s cs) = m1 :: m2 :: more /\ taken cs' (results C s' cs') = m1 :: m2 :: more') \/
     collision C (all_hashed C (pro :: ds)) (all_hashed C (pro' :: ds'))).
Proof. exact history_binding. Qed.
Print Assumptions C126_binding.

(** The responder has too little room at first; what it leaves in the buffer is delivered and refused; the second
    attempt succeeds. *)
Definition h_short : bytes := repeat x00 60.
Definition h_y2 := Eval vm_compute in send_message demo_crypto k_er (st d_x2) h_short.
Definition h_y3 := Eval vm_compute in recv_message demo_crypto (st d_x1) (out h_y2).
Definition h_y4 := Eval vm_compute in send_message demo_crypto k_er (st h_y2) d_b2.
Definition h_mid : list call := [Recv (out h_y2); Recv (out h_y4)].
Definition h_mid' : list call := [Send k_er h_short; Send k_er d_b2].
Definition h_cs : list call := [RekeyLocal] ++ [Send k_ei d_b1] ++ h_mid.
Definition h_cs' : list call := [Recv (repeat x00 20)] ++ [Recv (out d_x1)] ++ h_mid'.
Lemma h_runs : map snd (results demo_crypto d_I0 h_cs) = [Ok tt; Ok tt; Err MissingrsError; Ok tt] /\
  map snd (results demo_crypto d_R0 h_cs') = [Err MissingreError; Ok tt; Err MissingneError; Ok tt] /\
  is_transport (run_calls demo_crypto d_I0 h_cs) = true /\ is_transport (run_calls demo_crypto d_R0 h_cs') = true /\
  get_handshake_hash (run_calls demo_crypto d_I0 h_cs) = get_handshake_hash (run_calls demo_crypto d_R0 h_cs').
Proof. vm_compute. repeat split. Qed.
Example C126_ex : crypto_ok demo_crypto /\ keypair_ok d_si /\ keypair_ok d_sr /\ Forall pairs_ok h_cs /\ Forall not_33 h_cs /\
  Forall pairs_ok h_cs' /\ Forall not_33 h_cs' /\ h_name demo_crypto <> firstn 32 name /\
  map snd (results demo_crypto d_I0 h_cs) = [Ok tt; Ok tt; Err MissingrsError; Ok tt] /\
  is_transport (run_calls demo_crypto d_I0 h_cs) = true /\ is_transport (run_calls demo_crypto d_R0 h_cs') = true /\
  get_handshake_hash (run_calls demo_crypto d_I0 h_cs) = get_handshake_hash (run_calls demo_crypto d_R0 h_cs').
Proof.
  split; [exact demo_ok|]. split; [split; reflexivity|]. split; [split; reflexivity|].
  split; [repeat constructor|]. split; [repeat constructor; discriminate|]. split; [repeat constructor|]. split; [repeat constructor; discriminate|].
  split; [exact blake_name|]. destruct h_runs as (A & _ & B & D & E). split; [exact A|]. split; [exact B|]. split; [exact D|exact E].
Qed.

(** C127.  One session writes the first message and then only receives; the other reads a first message and then
    only tries to write the second, with pairs that agree with the first one's pair [ei].  Any number of attempts is
    refused on either side, and what the network delivers is arbitrary.  Once both are in transport mode with the
    same hash they hold the same keys, and the first knows the other's static key, unless hashed strings collide. *)
Theorem C127_same_keys : forall C, crypto_ok C -> forall i pro si pre rnd1 b1 mid i' pro' sr pre' m1 mid',
  let ei := pair_used C rnd1 pre in
  keypair_ok si -> keypair_ok sr -> Forall pairs_ok pre -> dh_agree C ei sr -> ~ low_order (kp_public sr) ->
  Forall (installs C ei) pre' -> Forall listens mid -> Forall (answers C ei) mid' -> len b1 <> 33 -> h_name C <> firstn 32 name ->
  let s := init_session C i pro si in let cs := pre ++ [Send rnd1 b1] ++ mid in let I := run_calls C s cs in
  let s' := init_session C i' pro' sr in let cs' := pre' ++ [Recv m1] ++ mid' in let R := run_calls C s' cs' in
  get_message_count (run_calls C s pre) = 0 -> get_message_count (run_calls C s (pre ++ [Send rnd1 b1])) = 1 ->
  get_message_count (run_calls C s' pre') = 0 -> get_message_count (run_calls C s' (pre' ++ [Recv m1])) = 1 ->
  is_transport I = true -> is_transport R = true -> get_handshake_hash I = get_handshake_hash R ->
  exists ds ds', transcript 0 cs (results C s cs) 2 ds /\ transcript 0 cs' (results C s' cs') 2 ds' /\
    ((pro = pro' /\ ds = ds' /\ cs_k (se_cs1 I) = cs_k (se_cs1 R) /\ cs_k (se_cs2 I) = cs_k (se_cs2 R) /\
      get_remote_static_public_key I = Some (kp_public sr)) \/
     collision C (all_hashed C (pro :: ds)) (all_hashed C (pro' :: ds'))).
Proof. exact same_keys. Qed.
Print Assumptions C127_same_keys.
(** Over BLAKE2s, ChaCha20-Poly1305 and X25519, for all private keys. *)
Theorem C127_x25519 : forall i pro ksi pre rnd1 b1 mid i' pro' ksr pre' m1 mid',
  len ksi = 32 -> len ksr = 32 ->
  Forall (own_pair real_crypto) pre -> Forall (own_pair real_crypto) pre' -> Forall (own_pair real_crypto) mid' ->
  Forall listens mid -> Forall writes mid' -> len b1 <> 33 ->
  let s := init_session real_crypto i pro (real_pair ksi) in let cs := pre ++ [Send rnd1 b1] ++ mid in let I := run_calls real_crypto s cs in
  let s' := init_session real_crypto i' pro' (real_pair ksr) in let cs' := pre' ++ [Recv m1] ++ mid' in let R := run_calls real_crypto s' cs' in
  get_message_count (run_calls real_crypto s pre) = 0 -> get_message_count (run_calls real_crypto s (pre ++ [Send rnd1 b1])) = 1 ->
  get_message_count (run_calls real_crypto s' pre') = 0 -> get_message_count (run_calls real_crypto s' (pre' ++ [Recv m1])) = 1 ->
  is_transport I = true -> is_transport R = true -> get_handshake_hash I = get_handshake_hash R ->
  exists ds ds', transcript 0 cs (results real_crypto s cs) 2 ds /\ transcript 0 cs' (results real_crypto s' cs') 2 ds' /\
    ((pro = pro' /\ ds = ds' /\ cs_k (se_cs1 I) = cs_k (se_cs1 R) /\ cs_k (se_cs2 I) = cs_k (se_cs2 R) /\
      get_remote_static_public_key I = Some (kp_public (real_pair ksr))) \/
     collision real_crypto (all_hashed real_crypto (pro :: ds)) (all_hashed real_crypto (pro' :: ds'))).
Proof. exact real_same_keys. Qed.
Print Assumptions C127_x25519.
(** The history of C126_ex. *)
Example C127_ex : pair_used demo_crypto k_ei [RekeyLocal] = d_ei /\ keypair_ok d_si /\ keypair_ok d_sr /\ Forall pairs_ok [RekeyLocal] /\
  dh_agree demo_crypto d_ei d_sr /\ ~ low_order (kp_public d_sr) /\ Forall (installs demo_crypto d_ei) [Recv (repeat x00 20)] /\
  Forall listens h_mid /\ Forall (answers demo_crypto d_ei) h_mid' /\ len d_b1 <> 33 /\ h_name demo_crypto <> firstn 32 name /\
  map get_message_count [run_calls demo_crypto d_I0 [RekeyLocal]; run_calls demo_crypto d_I0 ([RekeyLocal] ++ [Send k_ei d_b1]);
    run_calls demo_crypto d_R0 [Recv (repeat x00 20)]; run_calls demo_crypto d_R0 ([Recv (repeat x00 20)] ++ [Recv (out d_x1)])] = [0; 1; 0; 1] /\
  map snd (results demo_crypto d_R0 h_cs') = [Err MissingreError; Ok tt; Err MissingneError; Ok tt] /\
  is_transport (run_calls demo_crypto d_I0 h_cs) = true /\ is_transport (run_calls demo_crypto d_R0 h_cs') = true /\
  get_handshake_hash (run_calls demo_crypto d_I0 h_cs) = get_handshake_hash (run_calls demo_crypto d_R0 h_cs').
Proof.
  split; [vm_compute; reflexivity|]. split; [split; reflexivity|]. split; [split; reflexivity|]. split; [repeat constructor|].
  split; [apply demo_agree|]. split; [apply not_low; vm_compute; reflexivity|]. split; [repeat constructor|]. split; [repeat constructor|].
  split; [repeat constructor; apply demo_agree|]. split; [discriminate|]. split; [exact blake_name|]. split; [vm_compute; reflexivity|].
  destruct h_runs as (_ & A & B & D & E). split; [exact A|]. split; [exact B|]. split; [exact D|exact E].
Qed.
