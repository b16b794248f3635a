(** * Apps: examples/setup_connection.rs and examples/noise_handshake.rs.  Definitions only.

    Sockets are reduced to byte strings: a message written to a stream arrives whole in the zeroed
    1024-byte buffer of one [try_read].  [unwrap] on an error is a panic. *)
From Coq Require Import Strings.String ZArith.
From Verif Require Import Base Codec Types Messages Frame Certs Noise Network Display.
Local Open Scope N_scope.
Local Open Scope list_scope.

Definition unwrap {E F A} (r : outcome E A) : outcome F A := match r with Ok a => Ok a | _ => Panic end.

(** What [try_read] into [0u8; 1024] leaves in the buffer when [bs] has arrived. *)
Definition read_1024 (bs : bytes) : bytes := firstn 1024 bs ++ repeat x00 (1024 - length bs).

(** ** setup_connection.rs *)

(** mining/setup_connection_success.rs:8; setup_connection.rs:58. *)
Definition REQUIRES_FIXED_VERSION : N := 1.
(** Miner::send_message, setup_connection.rs:150-155. *)
Definition sc_miner_send (m : common_setup_connection) : Result bytes :=
  obind (unwrap (frame (frameable_of K_CommonSetupConnection) m)) (fun f => unwrap (serialize (ser_message f))).
(** Pool::handle_recv_bytes, setup_connection.rs:84-114: the bytes written back, if any. *)
Definition sc_pool_recv (pf : profile) (flags : N) (buffer : bytes) : Result (option bytes) :=
  obind (unwrap (deserialize de_message pf buffer)) (fun nm =>
  match m_type nm with
  | MT_SetupConnection =>
      obind (unwrap (unframe (frameable_of K_CommonSetupConnection) pf nm)) (fun sc : common_setup_connection =>
      match sc with
      | CSC_Mining v =>
          obind (unwrap (scs_new (sc_min_version v) flags)) (fun ok =>
          obind (unwrap (frame (frameable_of K_MiningSetupConnectionSuccess) ok)) (fun f =>
          obind (unwrap (serialize (ser_message f))) (fun bs => Ok (Some bs))))
      | _ => Ok None
      end)
  | _ => Ok None
  end).
(** Miner::handle_recv_bytes, setup_connection.rs:157-169: the decoded answer, if it is one. *)
Definition sc_miner_recv (pf : profile) (buffer : bytes) : Result (option setup_connection_success) :=
  obind (unwrap (deserialize de_message pf buffer)) (fun nm =>
  match m_type nm with
  | MT_SetupConnectionSuccess =>
      obind (unwrap (unframe (frameable_of K_MiningSetupConnectionSuccess) pf nm)) (fun ok : setup_connection_success => Ok (Some ok))
  | _ => Ok None
  end).

(** Miner::listen, setup_connection.rs:128-148, on the one connection it accepts, which sends [bs]: the lines it
    prints and whether it panics.  [{:?}] of the flags is their [Debug] text (165). *)
Definition sc_miner_listen (pf : profile) (bs : bytes) : list bytes * bool :=
  match sc_miner_recv pf (read_1024 bs) with
  | Ok answer =>
      (lit "Miner: received message from Pool" ::
       match answer with
       | Some ok => [lit "Miner: Received a SetupConnectionSuccess message with feature flags supported by the Mining Pool: "
                     ++ flags_debug MiningSuccessFlags (scs_flags ok)]
       | None => []
       end, false)
  | _ => ([lit "Miner: received message from Pool"], true)
  end.

(** ** noise_handshake.rs *)
Section NoiseApp.
Variable C : crypto.
Variable E : ed_ops.

(** Miner::send_message and Pool::send_message, noise_handshake.rs:113-116 and 185-188. *)
Definition nh_send (rnd : bytes) (s : session) (msg : bytes) : session * Result bytes :=
  let '(s', b, r) := send_message C rnd s msg in
  (s', match r with Ok _ => Ok b | _ => Panic end).

(** The second half of Pool::handle_recv_bytes, noise_handshake.rs:92-110, from an already chosen version
    and window: certificate of the static key, signed, in a zeroed 1024-byte buffer, sent. *)
Definition nh_send_certificate (rnd : bytes) (s : session) (authority : ed_keypair) (static_public : bytes)
    (version valid_from not_valid_after : N) : session * Result bytes :=
  match cert_new version valid_from not_valid_after static_public with
  | Ok cert =>
      match obind (from_auth_key E authority cert) (fun m => serialize (ser_snm m)) with
      | Ok enc =>
          (* buf[..len].copy_from_slice panics if the message does not fit *)
          if 1024 <? len enc then (s, Panic)
          else nh_send rnd s (enc ++ repeat x00 (1024 - length enc))
      | _ => (s, Panic)
      end
  | _ => (s, Panic)
  end.

(** Pool::handle_recv_bytes, noise_handshake.rs:86-110.  [t1] and [t2] are the two readings of the clock;
    the results are the two messages written. *)
Definition nh_pool_recv (rnd1 rnd2 : bytes) (s : session) (authority : ed_keypair) (static_public : bytes)
    (t1 t2 : system_time) (buffer : bytes) : session * Result (bytes * bytes) :=
  let '(s1, b1, r1) := recv_message C s buffer in
  match r1 with
  | Ok _ =>
      let '(s2, r2) := nh_send rnd1 s1 b1 in
      match r2, system_unix_time_to_u32 t1, system_unix_time_to_u32 (t2 + 5 * 10 ^ 9)%Z with
      | Ok m2, Ok valid_from, Ok not_valid_after =>
          let '(s3, r3) := nh_send_certificate rnd2 s2 authority static_public 0 valid_from not_valid_after in
          (s3, match r3 with Ok m3 => Ok (m2, m3) | _ => Panic end)
      | _, _, _ => (s2, Panic)
      end
  | _ => (s1, Panic)
  end.

(** Miner::handle_recv_bytes, noise_handshake.rs:160-182: the printed verdict, once there is one. *)
Definition nh_miner_recv (pf : profile) (authority_text : bytes) (now : system_time) (s : session) (buffer : bytes)
  : session * Result (option bool) :=
  let '(s1, b1, r1) := recv_message C s buffer in
  match r1 with
  | Ok _ =>
      if is_transport s then
        (s1,
         obind (unwrap (deserialize (de_snm E) pf b1)) (fun msg =>
         match get_remote_static_public_key s1 with
         | None => Panic
         | Some key =>
             obind (unwrap (cf_new E authority_text key msg)) (fun cf =>
             match cf_verify E now cf with
             | Ok _ => Ok (Some true) | Err _ => Ok (Some false) | Panic => Panic
             end)
         end))
      else (s1, Ok None)
  | _ => (s1, Panic)
  end.

(** What [try_read] leaves in a buffer that is used again: the rest of it is kept. *)
Definition read_into (buffer bs : bytes) : bytes := firstn (length buffer) bs ++ skipn (length bs) buffer.
(** The loop of Miner::listen, noise_handshake.rs:137-158.  [conns]: what each accepted connection sends
    (nothing, if it is closed at once) and the clock at that time.  The one buffer is declared before the loop
    and [handle_recv_bytes] changes it in place.  The results: the verdicts printed, and whether a panic
    ended the loop. *)
Fixpoint nh_miner_listen (pf : profile) (authority_text : bytes) (s : session) (buffer : bytes)
    (conns : list (bytes * system_time)) : list bool * bool :=
  match conns with
  | [] => ([], false)
  | (bs, now) :: conns' =>
      let b := read_into buffer bs in
      let '(_, b', _) := recv_message C s b in
      match nh_miner_recv pf authority_text now s b with
      | (s', Ok v) =>
          let '(vs, dead) := nh_miner_listen pf authority_text s' b' conns' in
          (match v with Some x => x :: vs | None => vs end, dead)
      | (_, _) => ([], true)
      end
  end.
(** The miner of [main], noise_handshake.rs:30-39: what it sends, then what it prints. *)
Definition nh_miner_run (pf : profile) (authority_text rsi rnd : bytes) (conns : list (bytes * system_time))
  : Result (bytes * (list bool * bool)) :=
  let '(s, r) := nh_send rnd (new_outbound C rsi) (repeat x00 1024) in
  obind r (fun m1 => Ok (m1, nh_miner_listen pf authority_text s (repeat x00 1024) conns)).
(** The pool of [main], noise_handshake.rs:53-62 and 65-84: one connection, which sends [bs]. *)
Definition nh_pool_run (rnd1 rnd2 rsr : bytes) (static : keypair) (authority : ed_keypair) (t1 t2 : system_time)
    (bs : bytes) : Result (bytes * bytes) :=
  snd (nh_pool_recv rnd1 rnd2 (new_inbound C (Some static) rsr) authority (kp_public static) t1 t2
         (read_into (repeat x00 1024) bs)).
End NoiseApp.
