(** * Mains: [main] of examples/setup_connection.rs and of examples/noise_handshake.rs, the pool and the miner running
    side by side.  Definitions only.

    [#[tokio::main]] runs the pool (a spawned task) and the miner (the rest of [main]) on different threads.  A
    schedule says whose turn it is; one turn is one operation on the network, with what the task computes before it.
    An operation that has to wait ([accept], a [try_read] that would block) uses up the turn and is tried again at the
    next.  Sockets: [bind] succeeds; [connect] succeeds if the other side listens and is refused otherwise; what is
    written arrives at once and whole; a closed connection is read to its end and then gives 0 bytes.  When [main]
    returns or panics the process ends; when the pool's task panics the miner goes on. *)
From Coq Require Import ZArith.
From Verif Require Import Base Codec Types Messages Frame Certs Noise Network Apps.
Local Open Scope N_scope.
Local Open Scope list_scope.

Inductive task := PoolTurn | MinerTurn.
(** A connection as the accepting side sees it: what has been written and whether the other side has closed it. *)
Record conn := mkConn { c_data : bytes; c_closed : bool }.
(** [try_read] on it: [None] is [WouldBlock]. *)
Definition conn_read (c : conn) : option bytes :=
  match c_data c with
  | [] => if c_closed c then Some [] else None
  | bs => Some bs
  end.

(** ** setup_connection.rs *)
(** Where the pool is (62-114): before [bind], listening, with a connection, having read, connected to the miner with
    its answer still to be written, finished, dead. *)
Inductive sc_pool_at := SP_start | SP_bound | SP_accepted | SP_read (bs : bytes) | SP_connected (reply : bytes) | SP_done | SP_dead.
(** Where the miner is (20-40, 128-155): before [connect], connected, having sent, listening, with a connection,
    finished with the lines printed and whether it panicked, dead before it got there. *)
Inductive sc_miner_at := SM_start | SM_connected | SM_sent | SM_bound | SM_accepted | SM_done (shown : list bytes * bool) | SM_dead.
(** Both, with the connection of the miner to the pool and the one of the pool to the miner. *)
Record sc_world := mkScWorld {
  sw_pool : sc_pool_at;
  sw_miner : sc_miner_at;
  sw_to_pool : option conn;
  sw_to_miner : option conn }.

Section Setup.
Variable pf : profile.
Variable flags : N.
Variable m : common_setup_connection.

(** A turn of the pool, setup_connection.rs:62-114. *)
Definition sc_pool_turn (w : sc_world) : sc_world :=
  let at_ p := mkScWorld p (sw_miner w) (sw_to_pool w) (sw_to_miner w) in
  match sw_pool w with
  | SP_start => at_ SP_bound
  | SP_bound => match sw_to_pool w with Some _ => at_ SP_accepted | None => w end
  | SP_accepted =>
      match sw_to_pool w with
      | Some c => match conn_read c with Some bs => at_ (SP_read bs) | None => w end
      | None => w
      end
  | SP_read bs =>
      match sc_pool_recv pf flags (read_1024 bs) with
      | Ok (Some reply) =>
          match sw_miner w with
          | SM_bound => mkScWorld (SP_connected reply) (sw_miner w) (sw_to_pool w) (Some (mkConn [] false))
          | _ => at_ SP_dead
          end
      | Ok None => at_ SP_done
      | _ => at_ SP_dead
      end
  | SP_connected reply => mkScWorld SP_done (sw_miner w) (sw_to_pool w) (Some (mkConn reply true))
  | SP_done | SP_dead => w
  end.
(** A turn of the miner, setup_connection.rs:20-40 and 128-155; the stream of line 37 is closed after the write. *)
Definition sc_miner_turn (w : sc_world) : sc_world :=
  let at_ p := mkScWorld (sw_pool w) p (sw_to_pool w) (sw_to_miner w) in
  match sw_miner w with
  | SM_start =>
      match sw_pool w with
      | SP_bound => mkScWorld (sw_pool w) SM_connected (Some (mkConn [] false)) (sw_to_miner w)
      | _ => at_ SM_dead
      end
  | SM_connected =>
      match sc_miner_send m with
      | Ok bs => mkScWorld (sw_pool w) SM_sent (Some (mkConn bs true)) (sw_to_miner w)
      | _ => at_ SM_dead
      end
  | SM_sent => at_ SM_bound
  | SM_bound => match sw_to_miner w with Some _ => at_ SM_accepted | None => w end
  | SM_accepted =>
      match sw_to_miner w with
      | Some c => match conn_read c with Some bs => at_ (SM_done (sc_miner_listen pf bs)) | None => w end
      | None => w
      end
  | SM_done _ | SM_dead => w
  end.
(** The process is over, setup_connection.rs:14-41. *)
Definition sc_over (w : sc_world) : bool := match sw_miner w with SM_done _ | SM_dead => true | _ => false end.
Definition sc_turn (t : task) (w : sc_world) : sc_world :=
  if sc_over w then w else match t with PoolTurn => sc_pool_turn w | MinerTurn => sc_miner_turn w end.
(** [main], setup_connection.rs:14-41, under a schedule. *)
Definition sc_start : sc_world := mkScWorld SP_start SM_start None None.
Definition sc_main (sched : list task) : sc_world := fold_left (fun w t => sc_turn t w) sched sc_start.
End Setup.

(** ** noise_handshake.rs *)
(** Where the pool is (65-116): before [bind], listening, with a connection, having read, connected for its reply,
    having sent it, connected with the certificate to be sent, finished, dead. *)
Inductive nh_pool_at :=
  NP_start | NP_bound | NP_accepted | NP_read (buffer : bytes) | NP_first (s : session) (buffer : bytes) |
  NP_replied (s : session) | NP_second (s : session) (buffer : bytes) | NP_done | NP_dead.
(** Where the miner is (28-39, 137-188): before [connect] (and the sleep of line 28, which bounds nothing), connected,
    having sent, listening with [k] connections handled and these verdicts printed, with connection [k], dead. *)
Inductive nh_miner_at :=
  NM_start | NM_connected | NM_sent (s : session) | NM_listen (s : session) (buffer : bytes) (k : nat) (verdicts : list bool) |
  NM_accepted (s : session) (buffer : bytes) (k : nat) (verdicts : list bool) | NM_dead (verdicts : list bool).
(** Both, with the connection to the pool, the ones to the miner in the order they were made, and the number of turns so far. *)
Record nh_world := mkNhWorld {
  nw_pool : nh_pool_at;
  nw_miner : nh_miner_at;
  nw_to_pool : option conn;
  nw_to_miner : list conn;
  nw_turn : nat }.
(** The last connection made, with [c] in its place (the streams of noise_handshake.rs:86-110). *)
Definition last_conn (l : list conn) (c : conn) : list conn := removelast l ++ [c].

Section NoiseMain.
Variable C : crypto.
Variable E : ed_ops.
Variable pf : profile.
(** What is drawn: private keys of the miner (static, ephemeral) and of the pool (ephemeral; a fresh pair is drawn at each
    send), the pool's static pair, the authority's pair and the text of its public key. *)
Variables (rsi rnd rnd1 rnd2 rsr : bytes) (static : keypair) (authority : ed_keypair) (text : bytes).
(** The clock at each turn, and a second reading in the same turn. *)
Variables clock clock' : nat -> system_time.

(** noise_handshake.rs:93-107: the certificate in its 1024-byte buffer; [None] is a panic. *)
Definition nh_certificate (t1 t2 : system_time) : option bytes :=
  match system_unix_time_to_u32 t1, system_unix_time_to_u32 (t2 + 5 * 10 ^ 9)%Z with
  | Ok valid_from, Ok not_valid_after =>
      match cert_new 0 valid_from not_valid_after (kp_public static) with
      | Ok cert =>
          match obind (from_auth_key E authority cert) (fun m => serialize (ser_snm m)) with
          | Ok enc => if 1024 <? len enc then None else Some (enc ++ repeat x00 (1024 - length enc))
          | _ => None
          end
      | _ => None
      end
  | _, _ => None
  end.
(** The miner's address can be connected to, noise_handshake.rs:137-158 (its loop never drops the listener). *)
Definition nh_listening (m : nh_miner_at) : bool := match m with NM_listen _ _ _ _ | NM_accepted _ _ _ _ => true | _ => false end.
(** A turn of the pool, noise_handshake.rs:65-116.  A stream is closed when its statement ends, also by a panic. *)
Definition nh_pool_turn (w : nh_world) : nh_world :=
  let at_ p l := mkNhWorld p (nw_miner w) (nw_to_pool w) l (S (nw_turn w)) in
  let l := nw_to_miner w in
  match nw_pool w with
  | NP_start => at_ NP_bound l
  | NP_bound => match nw_to_pool w with Some _ => at_ NP_accepted l | None => at_ NP_bound l end
  | NP_accepted =>
      match nw_to_pool w with
      | Some c =>
          match conn_read c with
          | Some bs => at_ (NP_read (read_into (repeat x00 1024) bs)) l
          | None => at_ NP_accepted l
          end
      | None => at_ NP_accepted l
      end
  | NP_read buffer =>
      let '(s1, b1, r1) := recv_message C (new_inbound C (Some static) rsr) buffer in
      match r1 with
      | Ok _ => if nh_listening (nw_miner w) then at_ (NP_first s1 b1) (l ++ [mkConn [] false]) else at_ NP_dead l
      | _ => at_ NP_dead l
      end
  | NP_first s1 b1 =>
      match nh_send C rnd1 s1 b1 with
      | (s2, Ok m2) => at_ (NP_replied s2) (last_conn l (mkConn m2 true))
      | _ => at_ NP_dead (last_conn l (mkConn [] true))
      end
  | NP_replied s2 =>
      match nh_certificate (clock (nw_turn w)) (clock' (nw_turn w)) with
      | Some buffer => if nh_listening (nw_miner w) then at_ (NP_second s2 buffer) (l ++ [mkConn [] false]) else at_ NP_dead l
      | None => at_ NP_dead l
      end
  | NP_second s2 buffer =>
      match nh_send C rnd2 s2 buffer with
      | (_, Ok m3) => at_ NP_done (last_conn l (mkConn m3 true))
      | _ => at_ NP_dead (last_conn l (mkConn [] true))
      end
  | NP_done => at_ NP_done l
  | NP_dead => at_ NP_dead l
  end.
(** A turn of the miner, noise_handshake.rs:28-39 and 137-188. *)
Definition nh_miner_turn (w : nh_world) : nh_world :=
  let at_ m := mkNhWorld (nw_pool w) m (nw_to_pool w) (nw_to_miner w) (S (nw_turn w)) in
  let sending m c := mkNhWorld (nw_pool w) m (Some c) (nw_to_miner w) (S (nw_turn w)) in
  match nw_miner w with
  | NM_start => match nw_pool w with NP_bound => sending NM_connected (mkConn [] false) | _ => at_ (NM_dead []) end
  | NM_connected =>
      match nh_send C rnd (new_outbound C rsi) (repeat x00 1024) with
      | (s, Ok m1) => sending (NM_sent s) (mkConn m1 true)
      | _ => at_ (NM_dead [])
      end
  | NM_sent s => at_ (NM_listen s (repeat x00 1024) 0 [])
  | NM_listen s buffer k vs =>
      if Nat.ltb k (length (nw_to_miner w)) then at_ (NM_accepted s buffer k vs) else at_ (NM_listen s buffer k vs)
  | NM_accepted s buffer k vs =>
      match nth_error (nw_to_miner w) k with
      | Some c =>
          match conn_read c with
          | Some bs =>
              let b := read_into buffer bs in
              let '(_, b', _) := recv_message C s b in
              match nh_miner_recv C E pf text (clock (nw_turn w)) s b with
              | (s', Ok v) => at_ (NM_listen s' b' (S k) (vs ++ match v with Some x => [x] | None => [] end))
              | (_, _) => at_ (NM_dead vs)
              end
          | None => at_ (NM_accepted s buffer k vs)
          end
      | None => at_ (NM_accepted s buffer k vs)
      end
  | NM_dead vs => at_ (NM_dead vs)
  end.
(** The process is over: the miner's loop never ends by itself. *)
Definition nh_over (w : nh_world) : bool := match nw_miner w with NM_dead _ => true | _ => false end.
Definition nh_turn (t : task) (w : nh_world) : nh_world :=
  if nh_over w then w else match t with PoolTurn => nh_pool_turn w | MinerTurn => nh_miner_turn w end.
(** [main], noise_handshake.rs:19-40, under a schedule. *)
Definition nh_start : nh_world := mkNhWorld NP_start NM_start None [] 0.
Definition nh_main (sched : list task) : nh_world := fold_left (fun w t => nh_turn t w) sched nh_start.
End NoiseMain.
