(** * Cuts: [main] of examples/setup_connection.rs over a network that cuts what is written into pieces.
    Definitions only.

    As [Mains], but what is written is first on the way and arrives in pieces of any size at any time, in order; [try_read]
    (setup_connection.rs:68, 134) takes what is there, up to the 1024 bytes of the buffer, or would block; it gives 0 bytes
    only once everything has arrived and the other side has closed.  [try_write] (95-99, 150-155) hands over all its bytes
    at once. *)
From Verif Require Import Base Codec Types Messages Frame Apps Mains.
Local Open Scope N_scope.
Local Open Scope list_scope.

(** A turn of a task, or up to [n] bytes arrive at the pool or at the miner. *)
Inductive event := PoolGoes | MinerGoes | ToPool (n : nat) | ToMiner (n : nat).
(** A connection: the bytes on the way, those that have arrived, and whether the writer has closed it. *)
Record stream := mkStream { t_way : bytes; t_here : bytes; t_end : bool }.
Definition arrive (n : nat) (s : stream) : stream :=
  mkStream (skipn n (t_way s)) (t_here s ++ firstn n (t_way s)) (t_end s).
(** [try_read]: [None] is [WouldBlock]. *)
Definition stream_read (s : stream) : option bytes :=
  match t_here s, t_way s with
  | [], [] => if t_end s then Some [] else None
  | [], _ => None
  | bs, _ => Some bs
  end.
(** Both tasks, where they are in [Mains], and the connections to the pool and to the miner. *)
Record pc_world := mkPcWorld {
  pw_pool : sc_pool_at;
  pw_miner : sc_miner_at;
  pw_to_pool : option stream;
  pw_to_miner : option stream }.

Section Cut.
Variable pf : profile.
Variable flags : N.
Variable m : common_setup_connection.

(** A turn of the pool, setup_connection.rs:62-114. *)
Definition pc_pool_turn (w : pc_world) : pc_world :=
  let at_ p := mkPcWorld p (pw_miner w) (pw_to_pool w) (pw_to_miner w) in
  match pw_pool w with
  | SP_start => at_ SP_bound
  | SP_bound => match pw_to_pool w with Some _ => at_ SP_accepted | None => w end
  | SP_accepted =>
      match pw_to_pool w with
      | Some s => match stream_read s with Some bs => at_ (SP_read bs) | None => w end
      | None => w
      end
  | SP_read bs =>
      match sc_pool_recv pf flags (read_1024 bs) with
      | Ok (Some reply) =>
          match pw_miner w with
          | SM_bound => mkPcWorld (SP_connected reply) (pw_miner w) (pw_to_pool w) (Some (mkStream [] [] false))
          | _ => at_ SP_dead
          end
      | Ok None => at_ SP_done
      | _ => at_ SP_dead
      end
  | SP_connected reply => mkPcWorld SP_done (pw_miner w) (pw_to_pool w) (Some (mkStream reply [] true))
  | SP_done | SP_dead => w
  end.
(** A turn of the miner, setup_connection.rs:20-40 and 128-155. *)
Definition pc_miner_turn (w : pc_world) : pc_world :=
  let at_ p := mkPcWorld (pw_pool w) p (pw_to_pool w) (pw_to_miner w) in
  match pw_miner w with
  | SM_start =>
      match pw_pool w with
      | SP_bound => mkPcWorld (pw_pool w) SM_connected (Some (mkStream [] [] false)) (pw_to_miner w)
      | _ => at_ SM_dead
      end
  | SM_connected =>
      match sc_miner_send m with
      | Ok bs => mkPcWorld (pw_pool w) SM_sent (Some (mkStream bs [] true)) (pw_to_miner w)
      | _ => at_ SM_dead
      end
  | SM_sent => at_ SM_bound
  | SM_bound => match pw_to_miner w with Some _ => at_ SM_accepted | None => w end
  | SM_accepted =>
      match pw_to_miner w with
      | Some s => match stream_read s with Some bs => at_ (SM_done (sc_miner_listen pf bs)) | None => w end
      | None => w
      end
  | SM_done _ | SM_dead => w
  end.
(** The process is over, setup_connection.rs:14-41. *)
Definition pc_over (w : pc_world) : bool := match pw_miner w with SM_done _ | SM_dead => true | _ => false end.
Definition pc_event (w : pc_world) (e : event) : pc_world :=
  if pc_over w then w
  else match e with
       | PoolGoes => pc_pool_turn w
       | MinerGoes => pc_miner_turn w
       | ToPool n => mkPcWorld (pw_pool w) (pw_miner w) (option_map (arrive n) (pw_to_pool w)) (pw_to_miner w)
       | ToMiner n => mkPcWorld (pw_pool w) (pw_miner w) (pw_to_pool w) (option_map (arrive n) (pw_to_miner w))
       end.
(** [main], setup_connection.rs:14-41, under a sequence of events. *)
Definition pc_main (es : list event) : pc_world := fold_left pc_event es (mkPcWorld SP_start SM_start None None).
End Cut.
