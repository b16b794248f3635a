(** * SpecRetry: what a refused attempt at the second handshake message leaves behind, in terms of the
    tokens of the Noise specification, and lists of such attempts. *)
From Coq Require Import Strings.String.
From Verif Require Import Base Noise SpecNoise SpecSession SpecBinding.
Open Scope N_scope.
Open Scope list_scope.

Section Retry.
Variable C : crypto.

(** Party [p] tried to read [m] as the second message and failed: it is now [p']. *)
Inductive kept_read (p : party) (m : bytes) : party -> Prop :=
| kr_nothing : len m < 48 \/ 65535 < len m \/ low_order (firstn 32 m) -> kept_read p m p
| kr_ee : forall pe rest, 48 <= len m <= 65535 -> ~ low_order (firstn 32 m) ->
    read_tokens C p [TE; TEE] m = Some (pe, rest) ->
    len m < 80 \/ sy_k (p_sym pe) = Some zeros32 \/ read_tokens C p [TE; TEE; TS] m = None ->
    kept_read p m pe
| kr_s : forall pe rest ps rest' k, 80 <= len m <= 65535 -> ~ low_order (firstn 32 m) ->
    read_tokens C p [TE; TEE] m = Some (pe, rest) -> sy_k (p_sym pe) <> Some zeros32 ->
    read_tokens C p [TE; TEE; TS] m = Some (ps, rest') -> p_rs ps = Some k -> low_order k ->
    kept_read p m ps
| kr_es : forall pe rest ps rest' k pz rest'', 80 <= len m <= 65535 -> ~ low_order (firstn 32 m) ->
    read_tokens C p [TE; TEE] m = Some (pe, rest) -> sy_k (p_sym pe) <> Some zeros32 ->
    read_tokens C p [TE; TEE; TS] m = Some (ps, rest') -> p_rs ps = Some k -> ~ low_order k ->
    read_tokens C p NX2 m = Some (pz, rest'') ->
    kept_read p m pz.

(** Party [p] tried to write the second message into [b] and failed: it is now [p']. *)
Inductive kept_write (p : party) (b : bytes) : party -> Prop :=
| kw_nothing : len b < 32 \/ 65535 < len b -> kept_write p b p
| kw_ee : forall pe o, 32 <= len b <= 65535 -> write_tokens C p [TE; TEE] = Some (pe, o) ->
    len b < 80 \/ sy_k (p_sym pe) = Some zeros32 -> kept_write p b pe
| kw_es : forall pe o pz o', 80 <= len b <= 65535 -> write_tokens C p [TE; TEE] = Some (pe, o) ->
    sy_k (p_sym pe) <> Some zeros32 -> write_tokens C p NX2 = Some (pz, o') -> kept_write p b pz.

Inductive kept (step : party -> bytes -> party -> Prop) : party -> list bytes -> party -> Prop :=
| kept_nil : forall p, kept step p [] p
| kept_cons : forall p m p' ms p'', step p m p' -> kept step p' ms p'' -> kept step p (m :: ms) p''.

(** Session [s] refused all of [ms] as received messages, one after another, with errors, and is now [s']. *)
Inductive refused : session -> list bytes -> session -> Prop :=
| refused_nil : forall s, refused s [] s
| refused_cons : forall s m e ms s', res (recv_message C s m) = Err e -> refused (st (recv_message C s m)) ms s' ->
    refused s (m :: ms) s'.
(** Session [s] was asked to send with all of [bs] as buffers and every time failed with an error.  [rnd] is
    the random value it draws, should it need one. *)
Inductive unsent (rnd : bytes) : session -> list bytes -> session -> Prop :=
| unsent_nil : forall s, unsent rnd s [] s
| unsent_cons : forall s b e bs s', res (send_message C rnd s b) = Err e -> unsent rnd (st (send_message C rnd s b)) bs s' ->
    unsent rnd s (b :: bs) s'.

(** Attempts that get as far as a public key: to have one received, or to have one sent. *)
Definition read_key (m : bytes) : Prop := 48 <= len m <= 65535 /\ ~ low_order (firstn 32 m).
Definition wrote_key (b : bytes) : Prop := 32 <= len b <= 65535.

(** Two different strings, one of each list, with the same hash. *)
Definition collision (xs ys : list bytes) : Prop :=
  exists x y, In x xs /\ In y ys /\ x <> y /\ c_hash C x = c_hash C y.
Definition name : bytes := list_byte_of_string "Noise_NX_25519_ChaChaPoly_BLAKE2s".
(** All strings hashed for a transcript, the protocol name included. *)
Definition all_hashed (ds : list bytes) : list bytes := name :: hashed C (h_name C) ds.
End Retry.
