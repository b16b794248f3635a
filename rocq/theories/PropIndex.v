(** * PropIndex: C135, indices, slices, copies and counters of nx-noise. *)
From Verif Require Import Base Codec Noise SpecNoise SpecSession SpecTransport SpecStory SpecPanic NoiseSamples PropSession Index SpecIndex IndexProofs.
Open Scope N_scope.
Open Scope list_scope.

(** Creating a session and any calls on it: the program with all its range checks does what Noise.v says, with and
    without overflow checks.  So what is proved of Noise.v holds with the checks. *)
Theorem C135_history : forall C, crypto_ok C -> forall pf i pro kp cs, keypair_ok kp -> Forall typed_call cs ->
  exists s0, init_session_x C i pro kp = Some s0 /\
    run_x C pf s0 cs = (run_calls C (init_session C i pro kp) cs, results C (init_session C i pro kp) cs).
Proof. exact history_same. Qed.
Print Assumptions C135_history.

(** After any calls, the next call fails a range check exactly when it is a receive and the buffer is a reply whose end
    has the wrong size, the case of C51; [g] is the stage of the session by the table of C109. *)
Theorem C135_panics : forall C, crypto_ok C -> forall pf i pro kp cs, keypair_ok kp -> Forall typed_call cs ->
  exists s0 s g, init_session_x C i pro kp = Some s0 /\ fst (run_x C pf s0 cs) = s /\
    story C i (Handshake false (newcomer C i pro kp)) cs (snd (run_x C pf s0 cs)) g /\
    forall c, typed_call c -> (res (step_x C pf s c) = Panic <-> exists m, c = Recv m /\ bursts C g m).
Proof. exact panics_only. Qed.
Print Assumptions C135_panics.

(** The arrays keep the sizes of their types and the nonces stay below 2^64. *)
Theorem C135_sizes : forall C, crypto_ok C -> forall pf s c, typed s -> typed_call c ->
  step_x C pf s c = step C s c /\ typed (st (step C s c)).
Proof. exact step_same. Qed.
Print Assumptions C135_sizes.

(** On its own, hmac fails exactly for keys longer than the block of 64 bytes and results that are not 32 bytes. *)
Theorem C135_hmac : forall C, crypto_ok C -> forall key data out,
  hmac_x C key data out = None <-> 64 < len key \/ len out <> 32.
Proof. exact hmac_range. Qed.
Print Assumptions C135_hmac.
(** And hkdf fails for such keys; otherwise it fills the first, the first two or, for any other number of outputs, all
    three buffers with the outputs of the HKDF of the Noise specification and leaves the others as they are. *)
Theorem C135_hkdf : forall C, crypto_ok C -> forall ck ikm n o1 o2 o3, len ck <= 64 -> len o1 = 32 -> len o2 = 32 -> len o3 = 32 ->
  exists a b c, HKDF C ck ikm = (a, b, c) /\
    hkdf_x C ck ikm n o1 o2 o3 = Some (a, if n =? 1 then o2 else b, if n <=? 2 then if n =? 0 then c else o3 else c).
Proof. exact hkdf_exact. Qed.
Print Assumptions C135_hkdf.
Theorem C135_hkdf_key : forall C, crypto_ok C -> forall ck ikm n o1 o2 o3, 64 < len ck -> hkdf_x C ck ikm n o1 o2 o3 = None.
Proof. exact hkdf_long. Qed.
Print Assumptions C135_hkdf_key.
(** The unused mixing of a preshared key stays in range too. *)
Theorem C135_psk : forall C, crypto_ok C -> forall s ikm, typed_ss s ->
  mix_key_and_hash_x C s ikm = Some (mix_key_and_hash C s ikm) /\ typed_ss (mix_key_and_hash C s ikm).
Proof. exact mix_both_same. Qed.
Print Assumptions C135_psk.

(** An initiator that has sent its first message gets the start of its peer's reply: 80 bytes, then 79. *)
Example C135_ex : crypto_ok demo_crypto /\ keypair_ok d_si /\ Forall typed_call [Send k_ei d_b1] /\ typed d_I0 /\
  (forall pf, let s := fst (run_x demo_crypto pf d_I0 [Send k_ei d_b1]) in
    res (step_x demo_crypto pf s (Recv (firstn 80 (out d_x3)))) = Panic /\
    res (step_x demo_crypto pf s (Recv (firstn 79 (out d_x3)))) = Err MissingrsError) /\
  hmac_x demo_crypto (repeat x00 65) [] EMPTY_KEY = None /\
  hkdf_x demo_crypto (repeat x00 65) [] 1 EMPTY_KEY EMPTY_KEY EMPTY_KEY = None /\ len EMPTY_KEY = 32.
Proof.
  assert (K : keypair_ok d_si) by (split; reflexivity).
  assert (F : Forall typed_call [Send k_ei d_b1]) by repeat constructor.
  destruct (init_same demo_crypto demo_ok true d_prologue d_si K) as [_ T].
  split; [exact demo_ok|]. split; [exact K|]. split; [exact F|]. split; [exact T|]. split; [|repeat split; reflexivity].
  intros pf. destruct (run_same demo_crypto demo_ok pf _ _ T F) as [E T']. cbv zeta.
  change (init_session demo_crypto true d_prologue d_si) with d_I0 in E, T'. rewrite E. cbn [fst].
  destruct (step_same demo_crypto demo_ok pf _ (Recv (firstn 80 (out d_x3))) T' I) as [E1 _].
  destruct (step_same demo_crypto demo_ok pf _ (Recv (firstn 79 (out d_x3))) T' I) as [E2 _].
  rewrite E1, E2. unfold run_calls, step. rewrite d_x1_eq. destruct C51_ex as (_ & _ & X & Y & _). split; [exact X|exact Y].
Qed.
