(** * PropMix: C104, key and hash mixing. *)
From Verif Require Import Base Noise SpecWire SpecNoise SpecMix NoiseFacts MixProofs NoiseSamples.
Local Open Scope N_scope.

(** C104. *)
Theorem C104_mixing : forall C, crypto_ok C -> forall name ms,
  let s := code_mixed C name ms in let y := mixed C name ms in
  ss_ck s = sy_ck y /\ ss_h s = sy_h y /\ cs_n (ss_cs s) = sy_n y /\
  cs_k (ss_cs s) = match sy_k y with Some k => k | None => zeros32 end /\
  split C s = (mkCS (fst (Split C y)) 0, mkCS (snd (Split C y)) 0).
Proof. exact mixing_exact. Qed.
Print Assumptions C104_mixing.

Example C104_ex : crypto_ok demo_crypto /\
  let s := code_mixed demo_crypto k_ei [AHash k_si; AKeyAndHash k_sr; AKey [x61]] in
  len k_ei = 32 /\ cs_k (ss_cs s) <> zeros32 /\ ss_h s <> k_ei /\ ss_ck s <> k_ei.
Proof. split; [exact demo_ok|]. vm_compute. repeat split; discriminate. Qed.
