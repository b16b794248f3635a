(** * PropKeys: C78-C81, erasure of secrets, error chains, key pair construction. *)
From Coq Require Import Strings.String.
From Verif Require Import Base SpecWire Noise Crypto Keys SpecNoise SpecSession SpecKeys NoiseSamples KeyProofs EraseProofs.
Open Scope N_scope.

(** C78.  Whatever the calls made before and after, a session in transport mode holds no handshake secret. *)
Theorem C78_erased : forall C i pro kp cs, let s := run_calls C (init_session C i pro kp) cs in
  is_transport s = true -> Forall (eq zeros32) (handshake_secrets s).
Proof. exact erased. Qed.
Print Assumptions C78_erased.
(** The ephemeral private key too, unless the caller installs a new one afterwards. *)
Theorem C78_erased_ephemeral : forall C i pro kp cs c cs',
  let s := run_calls C (init_session C i pro kp) cs in
  is_transport s = false -> is_transport (st (step C s c)) = true -> Forall sets_no_ephemeral cs' ->
  ephemeral_secret (run_calls C (init_session C i pro kp) (cs ++ c :: cs')) = zeros32.
Proof. exact erased_ephemeral. Qed.
Print Assumptions C78_erased_ephemeral.

Example C78_ex : let s := run_calls demo_crypto d_I0 [Send k_ei d_b1] in
  is_transport s = false /\ is_transport (st (step demo_crypto s (Recv (out d_x3)))) = true /\
  handshake_secrets s <> handshake_secrets (st (step demo_crypto s (Recv (out d_x3)))) /\
  ephemeral_secret s = k_ei /\ Forall sets_no_ephemeral [Send [] (repeat x00 20); RekeyLocal].
Proof.
  split; [vm_compute; reflexivity|]. split; [vm_compute; reflexivity|]. split; [vm_compute; discriminate|].
  split; [vm_compute; reflexivity|]. repeat constructor.
Qed.

(** C79.  Full statement: for every history, [all_secrets (end_session s)] consists of zeros (or the public
    initial chaining key).  Refuted: a second handshake message that failed leaves the keys derived from the
    Diffie-Hellman secret, because HandshakeState::clear does not clear the symmetric state.
    Partial: it holds in transport mode, and for histories in which every call succeeded. *)
Theorem C79_end_session_refuted : exists C s k, crypto_ok C /\ reachable C s /\ In k (all_secrets (end_session s)) /\
  k <> zeros32 /\ k <> nx_name_hash C /\
  k = fst (fst (HKDF C (nx_name_hash C) (c_dh C k_er (kp_public d_ei)))).
Proof. exact end_session_leaks. Qed.
Print Assumptions C79_end_session_refuted.
Theorem C79_failed_reply : forall C, crypto_ok C -> forall pro sr m1 rnd b,
  let r := recv_message C (init_session C false pro sr) m1 in
  let x := send_message C rnd (st r) b in
  res r = Ok tt -> 32 <= len b < 80 ->
  let '(ck, k, _) := HKDF C (nx_name_hash C) (c_dh C rnd (firstn 32 m1)) in
  res x = Err MissingneError /\ In ck (all_secrets (end_session (st x))) /\ In k (all_secrets (end_session (st x))).
Proof. exact failed_reply. Qed.
Print Assumptions C79_failed_reply.
Theorem C79_transport_partial : forall C i pro kp cs, let s := run_calls C (init_session C i pro kp) cs in
  is_transport s = true -> Forall (eq zeros32) (all_secrets (end_session s)).
Proof. exact ended_transport. Qed.
Print Assumptions C79_transport_partial.
Theorem C79_no_failure_partial : forall C, crypto_ok C -> forall i pro kp cs,
  all_ok C (init_session C i pro kp) cs ->
  forall k, In k (all_secrets (end_session (run_calls C (init_session C i pro kp) cs))) ->
  k = zeros32 \/ k = nx_name_hash C.
Proof. exact ended_clean. Qed.
Print Assumptions C79_no_failure_partial.

Example C79_ex : crypto_ok demo_crypto /\
  res (recv_message demo_crypto (init_session demo_crypto false d_prologue d_sr) (out d_x1)) = Ok tt /\
  all_ok demo_crypto d_I0 [SetEphemeral d_ei; Send [] d_b1] /\
  is_transport d_I = true /\ all_secrets d_I <> all_secrets (end_session d_I).
Proof.
  split; [exact demo_ok|]. split; [vm_compute; reflexivity|].
  split; [cbn [all_ok]; repeat split; vm_compute; reflexivity|].
  split; [reflexivity|vm_compute; discriminate].
Qed.

(** C80.  Full statement: for every error [x], [chain_ends (source f g) x].  Refuted for every error of
    nx-noise; the other errors of the library end as soon as the foreign error they wrap does. *)
Theorem C80_source_refuted : forall f g e,
  ~ chain_ends (source f g) (ANoise e) /\ ~ chain_ends (source f g) (ALib (NoiseError e)).
Proof. exact noise_never_ends. Qed.
Print Assumptions C80_source_refuted.
Theorem C80_others_partial : forall f g e, (forall x, e <> NoiseError x) ->
  (forall y, g e = Some y -> chain_ends (source f g) y) -> chain_ends (source f g) (ALib e).
Proof. exact other_ends. Qed.
Print Assumptions C80_others_partial.

Example C80_ex : let f := fun n => if n =? 0 then None else Some (AForeign (n - 1)) in
  let g := fun e => match e with IOError => Some (AForeign 3) | _ => None end in
  chain (source f g) 5 (ALib IOError) = None /\ chain (source f g) 4 (ALib IOError) = Some (AForeign 0) /\
  chain (source f g) 5 (ALib (NoiseError DecryptionError)) = Some (ANoise DecryptionError).
Proof. repeat split. Qed.

(** C81. *)
Theorem C81_from_private_key : forall C k, len k = 32 ->
  (k = zeros32 /\ keypair_from_private_key C k = Err InvalidKeyError /\
     private_generate_public_key C k = Err InvalidKeyError) \/
  (k <> zeros32 /\ keypair_from_private_key C k = Ok (mkKeypair k (c_pub C k)) /\
     private_generate_public_key C k = Ok (c_pub C k)).
Proof. exact from_private_spec. Qed.
Print Assumptions C81_from_private_key.
(** With the reference X25519, pairs made this way are never empty, are accepted by the peer and agree. *)
Theorem C81_usable : forall k kp k' kp', len k = 32 -> len k' = 32 ->
  keypair_from_private_key real_crypto k = Ok kp -> keypair_from_private_key real_crypto k' = Ok kp' ->
  keypair_ok kp /\ keypair_is_empty kp = false /\ public_key_from_bytes (kp_public kp) = Ok (kp_public kp) /\
  dh_agree real_crypto kp kp'.
Proof. exact from_private_usable. Qed.
Print Assumptions C81_usable.

Example C81_ex : k_si <> zeros32 /\ len k_si = 32 /\ keypair_from_private_key demo_crypto k_si = Ok d_si /\
  keypair_from_private_key demo_crypto zeros32 = Err InvalidKeyError /\
  key_generate_public_key demo_crypto zeros32 = c_pub demo_crypto zeros32.
Proof. split; [vm_compute; discriminate|]. repeat split. Qed.
