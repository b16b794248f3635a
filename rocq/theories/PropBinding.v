(** * PropBinding: C88-C89, what the handshake hash and the reply say about the messages exchanged. *)
From Verif Require Import Base Noise Crypto CryptoFacts SpecNoise SpecSession SpecBinding NoiseClaims NoiseSamples BindingProofs.
Open Scope N_scope.

(** C88.  For any session that has finished, whatever the network did to the messages in between. *)
Theorem C88_transcript_hash : forall C, crypto_ok C -> forall pro m1 m2 s, finished C pro m1 m2 s ->
  get_handshake_hash s = Some (chain C (h_name C) (pieces pro m1 m2)).
Proof. exact transcript_hash. Qed.
Print Assumptions C88_transcript_hash.
(** Two finished sessions (of either role) that report the same hash: the same prologue and the same bytes of
    both messages, or two strings hashed by these very runs are different and have the same hash. *)
Theorem C88_binding : forall C, crypto_ok C -> forall pro m1 m2 s pro' m1' m2' s',
  finished C pro m1 m2 s -> finished C pro' m1' m2' s' ->
  get_handshake_hash s = get_handshake_hash s' ->
  (pro = pro' /\ m1 = m1' /\ m2 = m2') \/
  collide C (hashed C (h_name C) (pieces pro m1 m2)) (hashed C (h_name C) (pieces pro' m1' m2')).
Proof. exact hash_binds. Qed.
Print Assumptions C88_binding.

Example C88_ex : crypto_ok demo_crypto /\
  finished demo_crypto d_prologue (out d_x1) (out d_x3) (st d_x4) /\ finished demo_crypto d_prologue (out d_x1) (out d_x3) (st d_x3) /\
  get_handshake_hash (st d_x4) = get_handshake_hash (st d_x3).
Proof.
  destruct d_honest as [H1 H2 H3 H4 H5 H6 H7 H8 H9 H10 H11]. split; [exact demo_ok|].
  split; [apply (fin_initiator demo_crypto d_prologue d_si d_ei k_ei d_I0 d_b1); try assumption; vm_compute; reflexivity|].
  split; [apply (fin_responder demo_crypto d_prologue d_sr d_er k_er d_R0 (out d_x1) d_b2); try assumption; vm_compute; reflexivity|].
  vm_compute; reflexivity.
Qed.

(** C89.  The initiator accepts the reply of a responder that saw another first message (or was started with
    another prologue) only if two strings hashed by these runs collide, or the box with the responder's
    static key, sealed for one hash, opens for a different one. *)
Theorem C89_opening_is_authenticated : forall C, crypto_ok C -> forall pro pro' si sr ei er rnd1 rnd2 I0 R0 b1 m1' b2,
  started C true pro si rnd1 ei I0 -> keypair_ok ei ->
  started C false pro' sr rnd2 er R0 -> keypair_ok sr -> keypair_ok er ->
  let x1 := send_message C rnd1 I0 b1 in
  let x2 := recv_message C R0 m1' in
  let x3 := send_message C rnd2 (st x2) b2 in
  let m2 := out x3 in
  res x1 = Ok tt -> res x2 = Ok tt -> res x3 = Ok tt -> res (recv_message C (st x1) m2) = Ok tt ->
  (pro = pro' /\ out x1 = m1') \/
  let ds := first_pieces pro (out x1) ++ [firstn 32 m2] in
  let ds' := first_pieces pro' m1' ++ [firstn 32 m2] in
  collide C (hashed C (h_name C) ds) (hashed C (h_name C) ds') \/
  (chain C (h_name C) ds <> chain C (h_name C) ds' /\
   DECRYPT C (ee_key C (kp_private ei) (firstn 32 m2)) 0 (chain C (h_name C) ds)
     (ENCRYPT C (ee_key C (kp_private er) (firstn 32 m1')) 0 (chain C (h_name C) ds') (kp_public sr)) <> None).
Proof. exact opening_bound. Qed.
Print Assumptions C89_opening_is_authenticated.
(** If the ephemeral key arrived unchanged, the two keys in that condition are the same. *)
Theorem C89_same_key : forall C, crypto_ok C -> forall pro pro' si sr ei er rnd1 rnd2 I0 R0 b1 m1' b2,
  started C true pro si rnd1 ei I0 -> keypair_ok ei ->
  started C false pro' sr rnd2 er R0 -> keypair_ok sr -> keypair_ok er -> dh_agree C ei er ->
  let x1 := send_message C rnd1 I0 b1 in
  let x2 := recv_message C R0 m1' in
  let x3 := send_message C rnd2 (st x2) b2 in
  res x1 = Ok tt -> res x2 = Ok tt -> res x3 = Ok tt -> firstn 32 m1' = firstn 32 (out x1) ->
  ee_key C (kp_private ei) (firstn 32 (out x3)) = ee_key C (kp_private er) (firstn 32 m1').
Proof. exact same_key. Qed.
Print Assumptions C89_same_key.

(** One payload byte changed on the way: the reply comes, and is refused. *)
Example C89_ex : let m1' := firstn 47 (out d_x1) ++ [x7f] in let x2 := recv_message demo_crypto d_R0 m1' in
  let x3 := send_message demo_crypto k_er (st x2) d_b2 in
  res d_x1 = Ok tt /\ res x2 = Ok tt /\ res x3 = Ok tt /\ firstn 32 m1' = firstn 32 (out d_x1) /\ m1' <> out d_x1 /\
  res (recv_message demo_crypto (st d_x1) (out x3)) = Err DecryptionError /\
  res (recv_message demo_crypto (st d_x1) (out d_x3)) = Ok tt.
Proof. vm_compute. repeat split; discriminate. Qed.
