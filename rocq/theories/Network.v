(** * Network: stratumv2/src/network and noise/noise_session.rs.  Definitions only.

    network/config.rs and the traits of network/message_handler.rs hold data and signatures only;
    [ChannelManager] (network/channel.rs:18-45) is an empty map under a lock. *)
From Verif Require Import Base Codec Types Messages Frame Noise.
Local Open Scope N_scope.

(** ** ConnectionEncryptor: network/encryptor.rs *)
Section Encryptor.
Variable C : crypto.

(** noise/noise_session.rs:10-17 and network/encryptor.rs:27-31; [rnd] is what [Keypair::default] draws. *)
Definition new_inbound (static_key : option keypair) (rnd : bytes) : session :=
  init_session C false [] (match static_key with Some k => k | None => keypair_default C rnd end).
(** noise_session.rs:20-22 and encryptor.rs:35-39. *)
Definition new_outbound (rnd : bytes) : session := init_session C true [] (keypair_default C rnd).
(** encryptor.rs:43-45. *)
Definition get_remote_pubkey (s : session) : option bytes := get_remote_static_public_key s.
(** encryptor.rs:51-53. *)
Definition is_handshake_complete (s : session) : bool := is_transport s.
(** encryptor.rs:58-63; the second component is the caller's buffer afterwards. *)
Definition recv_handshake (rnd : bytes) (s : session) (buf : bytes) : session * bytes * Result bytes :=
  let '(s1, b1, r1) := recv_message C s buf in
  match r1 with
  | Ok _ =>
      let '(s2, b2, r2) := send_message C rnd s1 b1 in
      match r2 with
      | Ok _ => (s2, b2, Ok b2)
      | Err e => (s2, b2, Err (NoiseError e))
      | Panic => (s2, b2, Panic)
      end
  | Err e => (s1, b1, Err (NoiseError e))
  | Panic => (s1, b1, Panic)
  end.
(** encryptor.rs:67-72. *)
Definition init_handshake (rnd : bytes) (s : session) : session * Result bytes :=
  let '(s1, b1, r1) := send_message C rnd s (repeat x00 1024) in
  match r1 with
  | Ok _ => (s1, Ok b1)
  | Err e => (s1, Err (NoiseError e))
  | Panic => (s1, Panic)
  end.
(** encryptor.rs:76-84: stubs. *)
Definition encrypt_message (buf : bytes) : bytes := [].
Definition decrypt_message (buf : bytes) : bytes := [].
End Encryptor.

(** ** Channel ids: network/channel.rs:12-14

    [rand::Rng::gen_range] of rand 0.7 (stratumv2/Cargo.toml:14) is not part of /repo; this is its
    [UniformInt<u32>::sample_single]: widening multiplication of a 32-bit draw by the range, drawing again
    while the low half is above [zone].  [draws] are the successive outputs of the generator; [None] is
    "not finished yet". *)
Fixpoint sample_single (low range zone : N) (draws : list N) : option N :=
  match draws with
  | [] => None
  | v :: draws' =>
      let hi := v * range / 2 ^ 32 in
      let lo := v * range mod 2 ^ 32 in
      if lo <=? zone then Some ((low + hi) mod 2 ^ 32) else sample_single low range zone draws'
  end.
(** The shift brings the top bit of [range] to bit 31. *)
Definition gen_range (low high : N) (draws : list N) : outcome Empty_set (option N) :=
  if low <? high then
    let range := high - low in
    let zone := (N.shiftl range (32 - N.size range) mod 2 ^ 32 + 2 ^ 32 - 1) mod 2 ^ 32 in
    Ok (sample_single low range zone draws)
  else Panic.
Definition new_channel_id (draws : list N) : outcome Empty_set (option N) := gen_range 0 (2 ^ 32 - 1) draws.

(** ** Peer: network/peer.rs:10-47

    Any number of threads share a [Peer].  Each thread runs a list of operations; every operation takes
    the lock of [pending_msg_buffer], works and releases it.  [Push] is what message handlers do with the
    public mutex; [GetPending] is [get_pending_msgs]; [Crash] panics while it holds the guard, which poisons
    the mutex so that later [lock().unwrap()] calls panic. *)
Inductive peer_op := Push (m : message) | GetPending | Crash.

(** Where a thread is: between operations; holding the guard, its work still to do; holding the guard,
    work done ([local] is the variable [result]); guard dropped, about to return [local]; dead. *)
Inductive thread_at := Idle | Entered (local : list message) | Worked (local : list message) | Leaving (local : list message) | Dead.
Record thread := mkThread {
  th_todo : list peer_op;               (* the operation in progress is the first *)
  th_at : thread_at;
  th_got : list (list message) }.       (* what its get_pending_msgs calls returned *)
Record peer := mkPeer {
  pe_buffer : list message;             (* inside the mutex *)
  pe_holder : option nat;               (* thread holding the guard *)
  pe_poisoned : bool;
  pe_threads : list thread }.

(** peer.rs:32-38 and freshly spawned threads. *)
Definition peer_new (programs : list (list peer_op)) : peer :=
  mkPeer [] None false (map (fun p => mkThread p Idle []) programs).

Definition set_thread (l : list thread) (t : nat) (x : thread) : list thread :=
  firstn t l ++ x :: skipn (S t) l.

(** What a step did to the queue, for stating properties. *)
Inductive peer_event := Pushed (t : nat) (m : message) | Drained (t : nat) (ms : list message).

(** One step of thread [t]; [None] when it cannot move (blocked, finished, dead or no such thread). *)
Definition peer_step (p : peer) (t : nat) : option (peer * list peer_event) :=
  match nth_error (pe_threads p) t with
  | None => None
  | Some th =>
      let upd x buf holder poisoned := mkPeer buf holder poisoned (set_thread (pe_threads p) t x) in
      match th_at th, th_todo th with
      | Idle, _ :: _ =>
          match pe_holder p with
          | Some _ => None
          | None =>
              if pe_poisoned p
              then Some (upd (mkThread (th_todo th) Dead (th_got th)) (pe_buffer p) None true, [])
              else Some (upd (mkThread (th_todo th) (Entered []) (th_got th)) (pe_buffer p) (Some t) false, [])
          end
      | Entered local, Push m :: _ =>
          Some (upd (mkThread (th_todo th) (Worked local) (th_got th)) (pe_buffer p ++ [m]) (pe_holder p) (pe_poisoned p),
                [Pushed t m])
      | Entered local, GetPending :: _ =>
          (* mem::swap of the buffer and [result] *)
          Some (upd (mkThread (th_todo th) (Worked (pe_buffer p)) (th_got th)) local (pe_holder p) (pe_poisoned p),
                [Drained t (pe_buffer p)])
      | Entered local, Crash :: _ =>
          Some (upd (mkThread (th_todo th) Dead (th_got th)) (pe_buffer p) None true, [])
      | Worked local, _ =>
          Some (upd (mkThread (th_todo th) (Leaving local) (th_got th)) (pe_buffer p) None (pe_poisoned p), [])
      | Leaving local, GetPending :: rest =>
          Some (upd (mkThread rest Idle (th_got th ++ [local])) (pe_buffer p) (pe_holder p) (pe_poisoned p), [])
      | Leaving local, _ :: rest =>
          Some (upd (mkThread rest Idle (th_got th)) (pe_buffer p) (pe_holder p) (pe_poisoned p), [])
      | _, _ => None
      end
  end.

(** A schedule is the list of threads the scheduler picks; picking one that cannot move changes nothing. *)
Fixpoint peer_run (p : peer) (schedule : list nat) : peer * list peer_event :=
  match schedule with
  | [] => (p, [])
  | t :: schedule' =>
      match peer_step p t with
      | None => peer_run p schedule'
      | Some (p', ev) => let '(q, evs) := peer_run p' schedule' in (q, ev ++ evs)
      end
  end.
