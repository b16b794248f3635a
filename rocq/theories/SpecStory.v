(** * SpecStory: a session from its creation on, call by call, in terms of the Noise specification.

    A public key that was never received counts as the all-zero key, a key pair that was never set as the
    all-zero pair.  Any session may be asked to write or to read either of the two handshake messages; the one
    that writes the second message acts as the responder, the one that reads it as the initiator. *)
From Verif Require Import Base Codec Noise SpecNoise SpecSession SpecTransport.
Open Scope N_scope.
Open Scope list_scope.

Section Story.
Variable C : crypto.

Definition no_pair : keypair := mkKeypair zeros32 zeros32.
Definition newcomer (i : bool) (prologue : bytes) (s : keypair) : party :=
  let p := Initialize C i prologue s no_pair in
  mkParty i (p_sym p) s no_pair (Some zeros32) (Some zeros32).
Definition acting (initiator : bool) (p : party) : party :=
  mkParty initiator (p_sym p) (p_s p) (p_e p) (p_rs p) (p_re p).
Definition with_pair (p : party) (e : keypair) : party :=
  mkParty (p_initiator p) (p_sym p) (p_s p) e (p_rs p) (p_re p).
Definition with_rs (p : party) (rs : option bytes) : party :=
  mkParty (p_initiator p) (p_sym p) (p_s p) (p_e p) rs (p_re p).
(** The ephemeral pair to write with: the one there is, else a new one made of [rnd]. *)
Definition drawn (rnd : bytes) (p : party) : party :=
  if bytes_eqb (kp_private (p_e p)) zeros32 then with_pair p (mkKeypair rnd (c_pub C rnd)) else p.

(** [Handshake between p]: before the first message or between the two; [Done h rs c]: afterwards, with the
    handshake hash, the other side's static key and the two channels. *)
Inductive stage :=
| Handshake (between : bool) (p : party)
| Done (h rs : bytes) (c : channel).

Definition established (p : party) : stage :=
  let '(k1, k2) := Split C (p_sym p) in
  Done (sy_h (p_sym p)) (match p_rs p with Some k => k | None => zeros32 end) (mkCh (k1, 0) (k2, 0)).

(** Party [p] reads [m] as the second message, has accepted the static key [k] in it and is now [q]; the payload
    is left. *)
Inductive payload_read : party -> bytes -> bytes -> party -> stage -> bytes -> NResult unit -> Prop :=
| pr_panic : forall p m k q, len m < 96 \/ 2128 < len m ->
    payload_read p m k q (Handshake true q) (firstn 32 m ++ k ++ skipn 64 m) Panic
| pr_zero_es : forall p m k q, 96 <= len m <= 2128 -> sy_k (p_sym q) = Some zeros32 ->
    payload_read p m k q (Handshake true q) (firstn 32 m ++ k ++ skipn 64 m) (Err EmptyKeyError)
| pr_bad : forall p m k q any, 96 <= len m <= 2128 -> sy_k (p_sym q) <> Some zeros32 ->
    ReadMessage C p NX2 m = None -> len any = len m - 96 ->
    payload_read p m k q (Handshake true q)
      (firstn 32 m ++ k ++ firstn 16 (skipn 64 m) ++ any ++ skipn (length m - 16) m) (Err DecryptionError)
| pr_ok : forall p m k q p2 payload, 96 <= len m <= 2128 -> sy_k (p_sym q) <> Some zeros32 ->
    ReadMessage C p NX2 m = Some (p2, payload) ->
    payload_read p m k q (established p2)
      (firstn 32 m ++ k ++ firstn 16 (skipn 64 m) ++ payload ++ skipn (length m - 16) m) (Ok tt).

(** [asked i g call g' b r]: at stage [g], the call leads to stage [g'], leaves [b] in the buffer and
    returns [r]. *)
Inductive asked (i : bool) : stage -> call -> stage -> bytes -> NResult unit -> Prop :=
| as_send_size : forall n p rnd b, len b < 16 \/ 65535 < len b ->
    asked i (Handshake n p) (Send rnd b) (Handshake n p) b (Err UnsupportedMessageLengthError)
| as_recv_size : forall n p b, len b < 16 \/ 65535 < len b ->
    asked i (Handshake n p) (Recv b) (Handshake n p) b (Err UnsupportedMessageLengthError)
| as_early : forall n p c, In c [ClearLocal; ClearRemote; RekeyLocal; RekeyRemote] ->
    asked i (Handshake n p) c (Handshake n p) [] (Ok tt)
| as_ephemeral : forall n p e, asked i (Handshake n p) (SetEphemeral e) (Handshake n (with_pair p e)) [] (Ok tt)
(** The first message, written or read. *)
| as_open_room : forall n p rnd b, 16 <= len b < 32 ->
    asked i (Handshake n p) (Send rnd b) (Handshake n p) b (Err MissingneError)
| as_open : forall p rnd b p' o, 32 <= len b <= 65535 ->
    WriteMessage C (drawn rnd p) NX1 (skipn 32 b) = Some (p', o) ->
    asked i (Handshake false p) (Send rnd b) (Handshake true p') o (Ok tt)
| as_no_e : forall n p m, 16 <= len m < 48 ->
    asked i (Handshake n p) (Recv m) (Handshake n p) m (Err MissingreError)
| as_low_e : forall n p m, 48 <= len m <= 65535 -> low_order (firstn 32 m) ->
    asked i (Handshake n p) (Recv m) (Handshake n p) m (Err InvalidPublicKeyError)
| as_first : forall p m p' payload, 48 <= len m <= 65535 -> ~ low_order (firstn 32 m) ->
    ReadMessage C p NX1 m = Some (p', payload) ->
    asked i (Handshake false p) (Recv m) (Handshake true p') m (Ok tt)
(** The second message, written. *)
| as_room_s : forall p rnd b q o, 32 <= len b < 80 ->
    write_tokens C (acting false (drawn rnd p)) [TE; TEE] = Some (q, o) ->
    asked i (Handshake true p) (Send rnd b) (Handshake true q) (o ++ skipn 32 b) (Err MissingneError)
| as_wzero_ee : forall p rnd b q o, 80 <= len b <= 65535 ->
    write_tokens C (acting false (drawn rnd p)) [TE; TEE] = Some (q, o) -> sy_k (p_sym q) = Some zeros32 ->
    asked i (Handshake true p) (Send rnd b) (Handshake true q) (o ++ kp_public (p_s p) ++ skipn 64 b) (Err EmptyKeyError)
| as_room_payload : forall p rnd b q o q' o', 80 <= len b < 96 ->
    write_tokens C (acting false (drawn rnd p)) [TE; TEE] = Some (q, o) -> sy_k (p_sym q) <> Some zeros32 ->
    write_tokens C (acting false (drawn rnd p)) NX2 = Some (q', o') ->
    asked i (Handshake true p) (Send rnd b) (Handshake true q') (o' ++ skipn 80 b) (Err MissingneError)
| as_wzero_es : forall p rnd b q o q' o', 96 <= len b <= 65535 ->
    write_tokens C (acting false (drawn rnd p)) [TE; TEE] = Some (q, o) -> sy_k (p_sym q) <> Some zeros32 ->
    write_tokens C (acting false (drawn rnd p)) NX2 = Some (q', o') -> sy_k (p_sym q') = Some zeros32 ->
    asked i (Handshake true p) (Send rnd b) (Handshake true q') (o' ++ skipn 80 b) (Err EmptyKeyError)
| as_answer : forall p rnd b q o q' o' p2 msg, 96 <= len b <= 65535 ->
    write_tokens C (acting false (drawn rnd p)) [TE; TEE] = Some (q, o) -> sy_k (p_sym q) <> Some zeros32 ->
    write_tokens C (acting false (drawn rnd p)) NX2 = Some (q', o') -> sy_k (p_sym q') <> Some zeros32 ->
    WriteMessage C (acting false (drawn rnd p)) NX2 (payload2 b) = Some (p2, msg) ->
    asked i (Handshake true p) (Send rnd b) (established p2) msg (Ok tt)
(** The second message, read. *)
| as_no_s : forall p m q rest, 48 <= len m < 80 -> ~ low_order (firstn 32 m) ->
    read_tokens C (acting true p) [TE; TEE] m = Some (q, rest) ->
    asked i (Handshake true p) (Recv m) (Handshake true q) m (Err MissingrsError)
| as_rzero_ee : forall p m q rest, 80 <= len m <= 65535 -> ~ low_order (firstn 32 m) ->
    read_tokens C (acting true p) [TE; TEE] m = Some (q, rest) -> sy_k (p_sym q) = Some zeros32 ->
    asked i (Handshake true p) (Recv m) (Handshake true q) m (Err EmptyKeyError)
| as_bad_s : forall p m q rest any, 80 <= len m <= 65535 -> ~ low_order (firstn 32 m) ->
    read_tokens C (acting true p) [TE; TEE] m = Some (q, rest) -> sy_k (p_sym q) <> Some zeros32 ->
    read_tokens C (acting true p) [TE; TEE; TS] m = None -> len any = 32 ->
    asked i (Handshake true p) (Recv m) (Handshake true q) (firstn 32 m ++ any ++ skipn 64 m) (Err DecryptionError)
| as_low_s : forall p m q rest q' rest' k, 80 <= len m <= 65535 -> ~ low_order (firstn 32 m) ->
    read_tokens C (acting true p) [TE; TEE] m = Some (q, rest) -> sy_k (p_sym q) <> Some zeros32 ->
    read_tokens C (acting true p) [TE; TEE; TS] m = Some (q', rest') -> p_rs q' = Some k -> low_order k ->
    asked i (Handshake true p) (Recv m) (Handshake true (with_rs q' (p_rs p))) (firstn 32 m ++ k ++ skipn 64 m)
      (Err InvalidPublicKeyError)
| as_static : forall p m q rest q' rest' k q2 rest2 g b r, 80 <= len m <= 65535 -> ~ low_order (firstn 32 m) ->
    read_tokens C (acting true p) [TE; TEE] m = Some (q, rest) -> sy_k (p_sym q) <> Some zeros32 ->
    read_tokens C (acting true p) [TE; TEE; TS] m = Some (q', rest') -> p_rs q' = Some k -> ~ low_order k ->
    read_tokens C (acting true p) NX2 m = Some (q2, rest2) ->
    payload_read (acting true p) m k q2 g b r ->
    asked i (Handshake true p) (Recv m) g b r
(** Established. *)
| as_done : forall h rs c call c' b r, served C i c call c' b r ->
    asked i (Done h rs c) call (Done h rs c') b r.

Inductive story (i : bool) : stage -> list call -> list (bytes * NResult unit) -> stage -> Prop :=
| story_nil : forall g, story i g [] [] g
| story_cons : forall g call g1 b r calls rs g2, asked i g call g1 b r -> story i g1 calls rs g2 ->
    story i g (call :: calls) ((b, r) :: rs) g2.

(** An encryptor fed with received buffers: what it takes in it answers in the same buffer, with the random
    value given.  Up to the first panic. *)
Inductive feeding (i : bool) : stage -> list (bytes * bytes) -> list (Result bytes) -> Prop :=
| fe_nil : forall g, feeding i g [] []
| fe_refused : forall g rnd d g1 b e inputs rs, asked i g (Recv d) g1 b (Err e) -> feeding i g1 inputs rs ->
    feeding i g ((rnd, d) :: inputs) (Err (NoiseError e) :: rs)
| fe_panic : forall g rnd d g1 b inputs, asked i g (Recv d) g1 b Panic ->
    feeding i g ((rnd, d) :: inputs) [Panic]
| fe_unanswered : forall g rnd d g1 b g2 b2 e inputs rs, asked i g (Recv d) g1 b (Ok tt) ->
    asked i g1 (Send rnd b) g2 b2 (Err e) -> feeding i g2 inputs rs ->
    feeding i g ((rnd, d) :: inputs) (Err (NoiseError e) :: rs)
| fe_answered : forall g rnd d g1 b g2 b2 inputs rs, asked i g (Recv d) g1 b (Ok tt) ->
    asked i g1 (Send rnd b) g2 b2 (Ok tt) -> feeding i g2 inputs rs ->
    feeding i g ((rnd, d) :: inputs) (Ok b2 :: rs).
End Story.

(** What the session answers when asked about itself. *)
Definition shows (s : session) (g : stage) : Prop :=
  match g with
  | Handshake n _ =>
      is_transport s = false /\ get_message_count s = (if n then 1 else 0) /\
      get_handshake_hash s = None /\ get_remote_static_public_key s = None
  | Done h rs _ =>
      is_transport s = true /\ 2 <= get_message_count s /\
      get_handshake_hash s = Some h /\ get_remote_static_public_key s = Some rs
  end.
