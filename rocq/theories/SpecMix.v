(** * SpecMix: the key and hash mixing of section 5.2 of the Noise specification, as sequences of calls. *)
From Verif Require Import Base Noise SpecNoise.
Local Open Scope N_scope.

Section Mix.
Variable C : crypto.

(** Section 5.2, MixKeyAndHash. *)
Definition MixKeyAndHash (s : sym) (ikm : bytes) : sym :=
  let '(ck, temp_h, temp_k) := HKDF C (sy_ck s) ikm in
  let s1 := MixHash C (mkSym (sy_k s) (sy_n s) ck (sy_h s) (sy_keys s)) temp_h in
  mkSym (Some temp_k) 0 (sy_ck s1) (sy_h s1) (sy_keys s1 ++ [temp_k]).

Inductive mixing := AKey (ikm : bytes) | AHash (data : bytes) | AKeyAndHash (ikm : bytes).
Definition mix (s : sym) (m : mixing) : sym :=
  match m with AKey d => MixKey C s d | AHash d => MixHash C s d | AKeyAndHash d => MixKeyAndHash s d end.
(** The state after InitializeSymmetric(name) and any calls. *)
Definition mixed (name : bytes) (ms : list mixing) : sym := fold_left mix ms (InitializeSymmetric C name).
End Mix.

(** The same calls on the code's state (state.rs:138-200). *)
Definition code_mix (C : crypto) (s : symmetric_state) (m : mixing) : symmetric_state :=
  match m with AKey d => mix_key C s d | AHash d => mix_hash C s d | AKeyAndHash d => mix_key_and_hash C s d end.
Definition code_mixed (C : crypto) (name : bytes) (ms : list mixing) : symmetric_state :=
  fold_left (code_mix C) ms (initialize_symmetric C name).
