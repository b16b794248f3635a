(** * SpecReply: what a handshake call answers, part by part, in terms of the Noise specification.

    [read_tokens] with a prefix of the pattern is the specification's reader stopped early. *)
From Verif Require Import Base Noise SpecNoise.
Open Scope N_scope.

Section Reply.
Variable C : crypto.

(** The initiator [p], its first message sent, is given [m] as the second message. *)
Inductive reply_result (p : party) (m : bytes) : NResult unit -> Prop :=
| rr_length : len m < 16 \/ 65535 < len m ->
    reply_result p m (Err UnsupportedMessageLengthError)
| rr_no_e : 16 <= len m < 48 ->
    reply_result p m (Err MissingreError)
| rr_low_e : 48 <= len m <= 65535 -> low_order (firstn 32 m) ->
    reply_result p m (Err InvalidPublicKeyError)
| rr_no_s : 48 <= len m < 80 -> ~ low_order (firstn 32 m) ->
    reply_result p m (Err MissingrsError)
| rr_zero_ee : forall pe rest, 80 <= len m <= 65535 -> ~ low_order (firstn 32 m) ->
    read_tokens C p [TE; TEE] m = Some (pe, rest) -> sy_k (p_sym pe) = Some zeros32 ->
    reply_result p m (Err EmptyKeyError)
| rr_bad_s : forall pe rest, 80 <= len m <= 65535 -> ~ low_order (firstn 32 m) ->
    read_tokens C p [TE; TEE] m = Some (pe, rest) -> sy_k (p_sym pe) <> Some zeros32 ->
    read_tokens C p [TE; TEE; TS] m = None ->
    reply_result p m (Err DecryptionError)
| rr_static : forall pe rest ps rest' k r, 80 <= len m <= 65535 -> ~ low_order (firstn 32 m) ->
    read_tokens C p [TE; TEE] m = Some (pe, rest) -> sy_k (p_sym pe) <> Some zeros32 ->
    read_tokens C p [TE; TEE; TS] m = Some (ps, rest') -> p_rs ps = Some k ->
    static_result p m k r ->
    reply_result p m r
(** ... and the static key [k] it carries has been decrypted; the payload is all after byte 80. *)
with static_result (p : party) (m : bytes) : bytes -> NResult unit -> Prop :=
| sr_low_s : forall k, low_order k -> static_result p m k (Err InvalidPublicKeyError)
| sr_panic : forall k, ~ low_order k -> len m < 96 \/ 2128 < len m -> static_result p m k Panic
| sr_zero_es : forall k pz rest, ~ low_order k -> 96 <= len m <= 2128 ->
    read_tokens C p NX2 m = Some (pz, rest) -> sy_k (p_sym pz) = Some zeros32 ->
    static_result p m k (Err EmptyKeyError)
| sr_bad_payload : forall k pz rest, ~ low_order k -> 96 <= len m <= 2128 ->
    read_tokens C p NX2 m = Some (pz, rest) -> sy_k (p_sym pz) <> Some zeros32 ->
    ReadMessage C p NX2 m = None ->
    static_result p m k (Err DecryptionError)
| sr_ok : forall k pz rest p2 payload, ~ low_order k -> 96 <= len m <= 2128 ->
    read_tokens C p NX2 m = Some (pz, rest) -> sy_k (p_sym pz) <> Some zeros32 ->
    ReadMessage C p NX2 m = Some (p2, payload) ->
    static_result p m k (Ok tt).

(** The responder is given [m] as the first message. *)
Inductive first_result (m : bytes) : NResult unit -> Prop :=
| fr_length : len m < 16 \/ 65535 < len m -> first_result m (Err UnsupportedMessageLengthError)
| fr_no_e : 16 <= len m < 48 -> first_result m (Err MissingreError)
| fr_low_e : 48 <= len m <= 65535 -> low_order (firstn 32 m) -> first_result m (Err InvalidPublicKeyError)
| fr_ok : 48 <= len m <= 65535 -> ~ low_order (firstn 32 m) -> first_result m (Ok tt).

(** The responder [p], having read the first message, writes the second one into [b]. *)
Inductive answer_result (p : party) (b : bytes) : NResult unit -> Prop :=
| ar_length : len b < 16 \/ 65535 < len b -> answer_result p b (Err UnsupportedMessageLengthError)
| ar_no_room_s : 16 <= len b < 80 -> answer_result p b (Err MissingneError)
| ar_zero_ee : forall pe o, 80 <= len b <= 65535 ->
    write_tokens C p [TE; TEE] = Some (pe, o) -> sy_k (p_sym pe) = Some zeros32 ->
    answer_result p b (Err EmptyKeyError)
| ar_no_room_payload : forall pe o, 80 <= len b < 96 ->
    write_tokens C p [TE; TEE] = Some (pe, o) -> sy_k (p_sym pe) <> Some zeros32 ->
    answer_result p b (Err MissingneError)
| ar_zero_es : forall pe o pz o', 96 <= len b <= 65535 ->
    write_tokens C p [TE; TEE] = Some (pe, o) -> sy_k (p_sym pe) <> Some zeros32 ->
    write_tokens C p NX2 = Some (pz, o') -> sy_k (p_sym pz) = Some zeros32 ->
    answer_result p b (Err EmptyKeyError)
| ar_ok : forall pe o pz o', 96 <= len b <= 65535 ->
    write_tokens C p [TE; TEE] = Some (pe, o) -> sy_k (p_sym pe) <> Some zeros32 ->
    write_tokens C p NX2 = Some (pz, o') -> sy_k (p_sym pz) <> Some zeros32 ->
    answer_result p b (Ok tt).

(** Anyone before the first message writes it into [b]. *)
Inductive opening_result (b : bytes) : NResult unit -> Prop :=
| or_length : len b < 16 \/ 65535 < len b -> opening_result b (Err UnsupportedMessageLengthError)
| or_no_room : 16 <= len b < 32 -> opening_result b (Err MissingneError)
| or_ok : 32 <= len b <= 65535 -> opening_result b (Ok tt).
End Reply.
