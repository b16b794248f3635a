(** * PropEnd: C79 exactly, what a dropped session leaves behind after any history. *)
From Verif Require Import Base Noise Keys SpecNoise SpecSession SpecTransport SpecKeys SpecEnd NoiseSamples RetryProofs EndProofs.
Local Open Scope N_scope.
Local Open Scope list_scope.

(** C79.  Full statement: everything is zero (or the public initial value).  It fails exactly for sessions that are not
    in transport mode and in which a call got as far as a public key and then failed; these leave two outputs of HKDF
    made from a Diffie-Hellman secret of a private key of the session. *)
Theorem C79_exactly_partial : forall C, crypto_ok C -> forall i pro kp cs, keypair_ok kp ->
  let s0 := init_session C i pro kp in let s := run_calls C s0 cs in
  let left k := In k (all_secrets (end_session s)) in
  (is_transport s = true -> forall k, left k <-> k = zeros32) /\
  (is_transport s = false -> ~ failed_late cs (results C s0 cs) -> forall k, left k <-> k = zeros32 \/ k = nx_name_hash C) /\
  (is_transport s = false -> failed_late cs (results C s0 cs) -> exists ck x y, In x (own_keys kp cs) /\
     let '(ck', key, _) := HKDF C ck (c_dh C x y) in forall k, left k <-> k = zeros32 \/ k = ck' \/ k = key).
Proof. exact ended_exactly. Qed.
Print Assumptions C79_exactly_partial.
(** One history of each kind that ends before transport mode. *)
Example C79_ex_kinds : crypto_ok demo_crypto /\ keypair_ok d_sr /\
  let s0 := init_session demo_crypto false d_prologue d_sr in
  let a := [Recv (out d_x1); Send k_er w_short] in let b := [Recv (out d_x1); Send k_er (repeat x00 20); RekeyLocal] in
  is_transport (run_calls demo_crypto s0 a) = false /\ failed_late a (results demo_crypto s0 a) /\
  is_transport (run_calls demo_crypto s0 b) = false /\ ~ failed_late b (results demo_crypto s0 b) /\
  map snd (results demo_crypto s0 b) = [Ok tt; Err MissingneError; Ok tt].
Proof.
  split; [exact demo_ok|]. split; [split; reflexivity|]. cbv zeta.
  split; [vm_compute; reflexivity|]. split; [right; left; split; [split; discriminate|vm_compute; discriminate]|].
  split; [vm_compute; reflexivity|]. split; [exact early_only|vm_compute; reflexivity].
Qed.

(** Dropped in transport mode, every field of the session: what is left is public.  The handshake hash is still there,
    in the symmetric state, although [end_session] zeroes its other copy. *)
Theorem C79_whole_partial : forall C, crypto_ok C -> forall i pro kp cs, let s := run_calls C (init_session C i pro kp) cs in
  is_transport s = true ->
  exists rs h, get_remote_static_public_key s = Some rs /\ get_handshake_hash s = Some h /\ end_session s = only_public i rs h.
Proof. exact ended_whole. Qed.
Print Assumptions C79_whole_partial.
Example C79_ex_whole : is_transport d_I = true /\ end_session d_I <> d_I /\ get_handshake_hash d_I <> Some zeros32.
Proof. split; [reflexivity|]. split; vm_compute; discriminate. Qed.
