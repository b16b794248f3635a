(** * NoiseCuts: [main] of examples/noise_handshake.rs over a network that cuts what is written into pieces.
    Definitions only.

    As the second half of [Mains], with the connections of [Cuts]: what is written is first on the way and arrives in
    pieces of any size at any time, in order; [try_read] (noise_handshake.rs:71, 144) takes what is there, up to the 1024
    bytes of the buffer, or would block, and the connection is not read again. *)
From Coq Require Import ZArith.
From Verif Require Import Base Codec Types Messages Frame Certs Noise Network Apps Mains Cuts.
Local Open Scope N_scope.
Local Open Scope list_scope.

(** A turn of a task, or up to [n] bytes arrive at the pool, or at the miner on its connection number [k] (from 0). *)
Inductive happening := PoolDoes | MinerDoes | PoolGets (n : nat) | MinerGets (k n : nat).
(** Both tasks, where they are in [Mains], the connections, and the number of happenings so far. *)
Record nc_world := mkNcWorld {
  cw_pool : nh_pool_at;
  cw_miner : nh_miner_at;
  cw_to_pool : option stream;
  cw_to_miner : list stream;
  cw_now : nat }.
(** The last connection made, with [s] in its place (the streams of noise_handshake.rs:86-110). *)
Definition last_stream (l : list stream) (s : stream) : list stream := removelast l ++ [s].
(** Up to [n] bytes arrive on connection [k] (noise_handshake.rs:141-144). *)
Definition arrive_on (k n : nat) (l : list stream) : list stream :=
  firstn k l ++ match skipn k l with s :: r => arrive n s :: r | [] => [] end.
(** A connection on which nothing was written yet (the [TcpStream::connect] of noise_handshake.rs:32, 89, 109). *)
Definition opened : stream := mkStream [] [] false.

Section NoiseCut.
Variable C : crypto.
Variable E : ed_ops.
Variable pf : profile.
(** As in [Mains]. *)
Variables (rsi rnd rnd1 rnd2 rsr : bytes) (static : keypair) (authority : ed_keypair) (text : bytes).
Variables clock clock' : nat -> system_time.

(** A turn of the pool, noise_handshake.rs:65-116. *)
Definition nc_pool_turn (w : nc_world) : nc_world :=
  let at_ p l := mkNcWorld p (cw_miner w) (cw_to_pool w) l (S (cw_now w)) in
  let l := cw_to_miner w in
  match cw_pool w with
  | NP_start => at_ NP_bound l
  | NP_bound => match cw_to_pool w with Some _ => at_ NP_accepted l | None => at_ NP_bound l end
  | NP_accepted =>
      match cw_to_pool w with
      | Some s => match stream_read s with Some bs => at_ (NP_read (read_into (repeat x00 1024) bs)) l | None => at_ NP_accepted l end
      | None => at_ NP_accepted l
      end
  | NP_read buffer =>
      let '(s1, b1, r1) := recv_message C (new_inbound C (Some static) rsr) buffer in
      match r1 with
      | Ok _ => if nh_listening (cw_miner w) then at_ (NP_first s1 b1) (l ++ [opened]) else at_ NP_dead l
      | _ => at_ NP_dead l
      end
  | NP_first s1 b1 =>
      match nh_send C rnd1 s1 b1 with
      | (s2, Ok m2) => at_ (NP_replied s2) (last_stream l (mkStream m2 [] true))
      | _ => at_ NP_dead (last_stream l (mkStream [] [] true))
      end
  | NP_replied s2 =>
      match nh_certificate E static authority (clock (cw_now w)) (clock' (cw_now w)) with
      | Some buffer => if nh_listening (cw_miner w) then at_ (NP_second s2 buffer) (l ++ [opened]) else at_ NP_dead l
      | None => at_ NP_dead l
      end
  | NP_second s2 buffer =>
      match nh_send C rnd2 s2 buffer with
      | (_, Ok m3) => at_ NP_done (last_stream l (mkStream m3 [] true))
      | _ => at_ NP_dead (last_stream l (mkStream [] [] true))
      end
  | NP_done => at_ NP_done l
  | NP_dead => at_ NP_dead l
  end.
(** A turn of the miner, noise_handshake.rs:28-39 and 137-188. *)
Definition nc_miner_turn (w : nc_world) : nc_world :=
  let at_ m := mkNcWorld (cw_pool w) m (cw_to_pool w) (cw_to_miner w) (S (cw_now w)) in
  let sending m s := mkNcWorld (cw_pool w) m (Some s) (cw_to_miner w) (S (cw_now w)) in
  match cw_miner w with
  | NM_start => match cw_pool w with NP_bound => sending NM_connected opened | _ => at_ (NM_dead []) end
  | NM_connected =>
      match nh_send C rnd (new_outbound C rsi) (repeat x00 1024) with
      | (s, Ok m1) => sending (NM_sent s) (mkStream m1 [] true)
      | _ => at_ (NM_dead [])
      end
  | NM_sent s => at_ (NM_listen s (repeat x00 1024) 0 [])
  | NM_listen s buffer k vs =>
      if Nat.ltb k (length (cw_to_miner w)) then at_ (NM_accepted s buffer k vs) else at_ (NM_listen s buffer k vs)
  | NM_accepted s buffer k vs =>
      match nth_error (cw_to_miner w) k with
      | Some c =>
          match stream_read c with
          | Some bs =>
              let b := read_into buffer bs in
              let '(_, b', _) := recv_message C s b in
              match nh_miner_recv C E pf text (clock (cw_now w)) s b with
              | (s', Ok v) => at_ (NM_listen s' b' (S k) (vs ++ match v with Some x => [x] | None => [] end))
              | (_, _) => at_ (NM_dead vs)
              end
          | None => at_ (NM_accepted s buffer k vs)
          end
      | None => at_ (NM_accepted s buffer k vs)
      end
  | NM_dead vs => at_ (NM_dead vs)
  end.
(** The process is over, noise_handshake.rs:19-40: the miner's loop never ends by itself. *)
Definition nc_over (w : nc_world) : bool := match cw_miner w with NM_dead _ => true | _ => false end.
Definition nc_happens (w : nc_world) (e : happening) : nc_world :=
  if nc_over w then w
  else match e with
       | PoolDoes => nc_pool_turn w
       | MinerDoes => nc_miner_turn w
       | PoolGets n => mkNcWorld (cw_pool w) (cw_miner w) (option_map (arrive n) (cw_to_pool w)) (cw_to_miner w) (S (cw_now w))
       | MinerGets k n => mkNcWorld (cw_pool w) (cw_miner w) (cw_to_pool w) (arrive_on k n (cw_to_miner w)) (S (cw_now w))
       end.
(** [main], noise_handshake.rs:19-40, under a sequence of happenings. *)
Definition nc_start : nc_world := mkNcWorld NP_start NM_start None [] 0.
Definition nc_main (es : list happening) : nc_world := fold_left nc_happens es nc_start.
End NoiseCut.
