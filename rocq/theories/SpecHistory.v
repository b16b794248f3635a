(** * SpecHistory: what any history of calls puts into the handshake hash, read off the buffers. *)
From Verif Require Import Base Noise SpecNoise SpecSession SpecTransport.
Local Open Scope nat_scope.

(** The handshake message a call is about: the buffer that a send leaves, the bytes that a receive was given. *)
Definition message_of (c : call) (left : bytes) : option bytes :=
  match c with
  | Send _ _ => Some left
  | Recv m => Some m
  | _ => None
  end.
(** The second message: ephemeral key, sealed static key, sealed payload. *)
Definition parts2 (m : bytes) : list bytes := [firstn 32 m; firstn 48 (skipn 32 m); skipn 80 m].

(** [refused_at m r k]: the handling of the second message [m] stopped with [r] after [k] of its parts. *)
Inductive refused_at (m : bytes) : NResult unit -> nat -> Prop :=
| ra_size : (len m < 16 \/ 65535 < len m)%N -> refused_at m (Err UnsupportedMessageLengthError) 0
| ra_no_re : (16 <= len m < 48)%N -> refused_at m (Err MissingreError) 0
| ra_low_re : (48 <= len m)%N -> low_order (firstn 32 m) -> refused_at m (Err InvalidPublicKeyError) 0
| ra_no_rs : (48 <= len m < 80)%N -> refused_at m (Err MissingrsError) 1
| ra_low_rs : (80 <= len m)%N -> ~ low_order (firstn 32 m) -> refused_at m (Err InvalidPublicKeyError) 2
| ra_room_e : (16 <= len m < 32)%N -> refused_at m (Err MissingneError) 0
| ra_room_s : (32 <= len m < 80)%N -> refused_at m (Err MissingneError) 1
| ra_room_payload : (80 <= len m < 96)%N -> refused_at m (Err MissingneError) 2
| ra_seal_s : forall e, (80 <= len m)%N -> In e [DecryptionError; EmptyKeyError] -> refused_at m (Err e) 1
| ra_seal_payload : forall e, (96 <= len m)%N -> In e [DecryptionError; EmptyKeyError] -> refused_at m (Err e) 2
| ra_panic : (80 <= len m < 96 \/ 2128 < len m)%N -> refused_at m Panic 2.

(** [adds n c left r n' ds]: call [c], made after [n] of the two handshake messages, left the buffer [left] and
    returned [r]; it adds [ds] to what has been hashed, and [n'] messages are done afterwards. *)
Inductive adds : nat -> call -> bytes -> NResult unit -> nat -> list bytes -> Prop :=
| ad_idle : forall n c b r, message_of c b = None -> adds n c b r n []
| ad_refused_first : forall c b r, r <> Ok tt -> adds 0 c b r 0 []
| ad_first : forall c b m, message_of c b = Some m -> adds 0 c b (Ok tt) 1 [firstn 32 m; skipn 32 m]
| ad_refused_second : forall c b r m k, message_of c b = Some m -> refused_at m r k ->
    adds 1 c b r 1 (firstn k (parts2 m))
| ad_second : forall c b m, message_of c b = Some m -> adds 1 c b (Ok tt) 2 (parts2 m)
| ad_after : forall c b r, adds 2 c b r 2 [].

Inductive transcript : nat -> list call -> list (bytes * NResult unit) -> nat -> list bytes -> Prop :=
| tr_nil : forall n, transcript n [] [] n []
| tr_cons : forall n c b r n1 ds cs rs n2 ds', adds n c b r n1 ds -> transcript n1 cs rs n2 ds' ->
    transcript n (c :: cs) ((b, r) :: rs) n2 (ds ++ ds').

(** The handshake messages that were written or read to the end. *)
Fixpoint taken (cs : list call) (rs : list (bytes * NResult unit)) : list bytes :=
  match cs, rs with
  | c :: cs', (b, r) :: rs' =>
      match message_of c b, r with
      | Some m, Ok tt => m :: taken cs' rs'
      | _, _ => taken cs' rs'
      end
  | _, _ => []
  end.

(** Key pairs given to a session have keys of 32 bytes, as the types of the crate say. *)
Definition pairs_ok (c : call) : Prop := match c with SetEphemeral e => keypair_ok e | _ => True end.
(** No call writes a message with a payload of exactly one byte. *)
Definition not_33 (c : call) : Prop := match c with Send _ b => len b <> 33%N | _ => True end.

(** The ephemeral pair that a session writes with after [cs] (none of which has written or read a message): the
    last one installed, else a new one made of [rnd]. *)
Definition installed (cs : list call) : keypair :=
  fold_left (fun e c => match c with SetEphemeral e' => e' | _ => e end) cs (mkKeypair zeros32 zeros32).
Definition pair_used (C : crypto) (rnd : bytes) (cs : list call) : keypair :=
  if bytes_eqb (kp_private (installed cs)) zeros32 then mkKeypair rnd (c_pub C rnd) else installed cs.

(** Calls of a party that waits for the second message, and of one that tries to write it (with pairs that agree
    with [e]). *)
Definition listens (c : call) : Prop := match c with Recv _ => True | _ => False end.
Definition answers (C : crypto) (e : keypair) (c : call) : Prop :=
  match c with
  | Send rnd _ => dh_agree C e (mkKeypair rnd (c_pub C rnd))
  | SetEphemeral e' => keypair_ok e' /\ dh_agree C e e'
  | _ => False
  end.
(** Pairs installed before the first message was read. *)
Definition installs (C : crypto) (e : keypair) (c : call) : Prop :=
  match c with SetEphemeral e' => keypair_ok e' /\ dh_agree C e e' | _ => True end.

(** Over real primitives: every pair given to a session belongs together; calls of a party that tries to write
    the second message. *)
Definition own_pair (C : crypto) (c : call) : Prop :=
  match c with SetEphemeral e => len (kp_private e) = 32%N /\ kp_public e = c_pub C (kp_private e) | _ => True end.
Definition writes (c : call) : Prop := match c with Send _ _ | SetEphemeral _ => True | _ => False end.
