(** * SpecSession: vocabulary for statements about sessions and pairs of sessions.

    These definitions only combine the public methods of NoiseSession (and their arguments); they
    describe how the API is used, not how it works. *)
From Verif Require Import Base SpecWire Noise SpecNoise.
Open Scope N_scope.

(** A session before its first message that will use the ephemeral pair [e]: either the pair is
    generated from [rnd] by the first handshake message it writes, or it was installed beforehand. *)
Definition started (C : crypto) (initiator : bool) (prologue : bytes) (s : keypair) (rnd : bytes)
    (e : keypair) (S0 : session) : Prop :=
  (S0 = init_session C initiator prologue s /\ e = mkKeypair rnd (c_pub C rnd)) \/
  (S0 = set_ephemeral_keypair (init_session C initiator prologue s) e /\ kp_private e <> zeros32).

(** The result part of a call. *)
Definition res {A B R : Type} (x : A * B * R) : R := snd x.
Definition st {A B R : Type} (x : A * B * R) : A := fst (fst x).
Definition out {A B R : Type} (x : A * B * R) : B := snd (fst x).

(** A completed handshake: initiator [I] and responder [R] after the two messages. *)
Definition completed (C : crypto) (I R : session) : Prop :=
  exists prologue si sr ei er rnd1 rnd2 I0 R0 b1 b2,
    let x1 := send_message C rnd1 I0 b1 in
    let x2 := recv_message C R0 (out x1) in
    let x3 := send_message C rnd2 (st x2) b2 in
    let x4 := recv_message C (st x1) (out x3) in
    keypair_ok si /\ keypair_ok sr /\ keypair_ok ei /\ keypair_ok er /\
    started C true prologue si rnd1 ei I0 /\ started C false prologue sr rnd2 er R0 /\
    ~ low_order (kp_public ei) /\ ~ low_order (kp_public er) /\ ~ low_order (kp_public sr) /\
    dh_agree C ei er /\ dh_agree C ei sr /\
    48 <= len b1 <= 65535 /\ 96 <= len b2 <= 2128 /\
    res x3 <> Err EmptyKeyError /\
    I = st x4 /\ R = st x3.

(** ** Two sessions joined by two FIFO pipes *)
Inductive item := Packet (b : bytes) | RekeyMark.
Record net := mkNet {
  n_i : session; n_r : session;          (* initiator, responder *)
  n_ir : list item; n_ri : list item;    (* in flight, oldest first *)
  n_sent_i : list bytes; n_sent_r : list bytes;   (* plaintexts whose send returned Ok *)
  n_got_i : list bytes; n_got_r : list bytes }.   (* plaintexts delivered by recv returning Ok *)

Inductive event :=
| ISend (pt : bytes) | RSend (pt : bytes)     (* send pt followed by 16 placeholder bytes *)
| IRecv | RRecv                                (* take the oldest item off the pipe *)
| IRekey (local : bool).                       (* initiator rekeys cs1 and tells the responder in-band *)

Definition plaintext_of (buf : bytes) : bytes := firstn (length buf - 16) buf.
Definition placeholder : bytes := repeat (b8 0) 16.

Definition net_step (C : crypto) (n : net) (e : event) : net :=
  match e with
  | ISend pt =>
      let x := send_message C [] (n_i n) (pt ++ placeholder) in
      match res x with
      | Ok _ => mkNet (st x) (n_r n) (n_ir n ++ [Packet (out x)]) (n_ri n)
                  (n_sent_i n ++ [pt]) (n_sent_r n) (n_got_i n) (n_got_r n)
      | _ => mkNet (st x) (n_r n) (n_ir n) (n_ri n) (n_sent_i n) (n_sent_r n) (n_got_i n) (n_got_r n)
      end
  | RSend pt =>
      let x := send_message C [] (n_r n) (pt ++ placeholder) in
      match res x with
      | Ok _ => mkNet (n_i n) (st x) (n_ir n) (n_ri n ++ [Packet (out x)])
                  (n_sent_i n) (n_sent_r n ++ [pt]) (n_got_i n) (n_got_r n)
      | _ => mkNet (n_i n) (st x) (n_ir n) (n_ri n) (n_sent_i n) (n_sent_r n) (n_got_i n) (n_got_r n)
      end
  | RRecv =>
      match n_ir n with
      | [] => n
      | RekeyMark :: q =>
          mkNet (n_i n) (rekey_remote_cipherstate C (n_r n)) q (n_ri n)
            (n_sent_i n) (n_sent_r n) (n_got_i n) (n_got_r n)
      | Packet b :: q =>
          let x := recv_message C (n_r n) b in
          match res x with
          | Ok _ => mkNet (n_i n) (st x) q (n_ri n) (n_sent_i n) (n_sent_r n)
                      (n_got_i n) (n_got_r n ++ [plaintext_of (out x)])
          | _ => mkNet (n_i n) (st x) q (n_ri n) (n_sent_i n) (n_sent_r n) (n_got_i n) (n_got_r n)
          end
      end
  | IRecv =>
      match n_ri n with
      | Packet b :: q =>
          let x := recv_message C (n_i n) b in
          match res x with
          | Ok _ => mkNet (st x) (n_r n) (n_ir n) q (n_sent_i n) (n_sent_r n)
                      (n_got_i n ++ [plaintext_of (out x)]) (n_got_r n)
          | _ => mkNet (st x) (n_r n) (n_ir n) q (n_sent_i n) (n_sent_r n) (n_got_i n) (n_got_r n)
          end
      | _ => n
      end
  | IRekey local =>
      mkNet (if local then rekey_local_cipherstate C (n_i n) else rekey_remote_cipherstate C (n_i n))
        (n_r n) (n_ir n ++ [RekeyMark]) (n_ri n) (n_sent_i n) (n_sent_r n) (n_got_i n) (n_got_r n)
  end.

Definition net_run (C : crypto) (n : net) (es : list event) : net := fold_left (net_step C) es n.
Definition net_start (I R : session) : net := mkNet I R [] [] [] [] [] [].

Definition i_sends (es : list event) : list bytes :=
  flat_map (fun e => match e with ISend pt => [pt] | _ => [] end) es.
Definition r_sends (es : list event) : list bytes :=
  flat_map (fun e => match e with RSend pt => [pt] | _ => [] end) es.
Definition rekeys (es : list event) : nat :=
  length (filter (fun e => match e with IRekey _ => true | _ => false end) es).
Definition packets (q : list item) : nat :=
  length (filter (fun i => match i with Packet _ => true | _ => false end) q).

(** Plaintexts that fit one message. *)
Definition sized (e : event) : Prop :=
  match e with ISend pt => len pt <= 65519 | RSend pt => len pt <= 65519 | _ => True end.

(** [k] rekeyed [j] times. *)
Definition rekeyed (C : crypto) (j : nat) (k : bytes) : bytes := Nat.iter j (REKEY C) k.

(** ** Histories of one session *)
Definition no_clear (c : call) : Prop := match c with ClearLocal | ClearRemote => False | _ => True end.
Definition no_rekey (c : call) : Prop := match c with RekeyLocal | RekeyRemote => False | _ => True end.

(** The buffers of the successful transport-mode sends of a history: what was passed, what came out. *)
Fixpoint transport_sends (C : crypto) (s : session) (cs : list call) : list (bytes * bytes) :=
  match cs with
  | [] => []
  | c :: cs' =>
      let x := step C s c in
      match c, res x with
      | Send _ b, Ok _ => if is_transport s then [(b, out x)] else []
      | _, _ => []
      end ++ transport_sends C (st x) cs'
  end.

(** Number of send/recv calls of a history that returned Ok. *)
Fixpoint successes (C : crypto) (s : session) (cs : list call) : N :=
  match cs with
  | [] => 0
  | c :: cs' =>
      let x := step C s c in
      match c, res x with
      | Send _ _, Ok _ => 1
      | Recv _, Ok _ => 1
      | _, _ => 0
      end + successes C (st x) cs'
  end.

(** The buffers of the successful transport-mode receives of a history. *)
Fixpoint transport_recvs (C : crypto) (s : session) (cs : list call) : list (bytes * bytes) :=
  match cs with
  | [] => []
  | c :: cs' =>
      let x := step C s c in
      match c, res x with
      | Recv b, Ok _ => if is_transport s then [(b, out x)] else []
      | _, _ => []
      end ++ transport_recvs C (st x) cs'
  end.

(** Sessions that some history of API calls leads to. *)
Definition reachable (C : crypto) (s : session) : Prop :=
  exists i pro kp cs, s = run_calls C (init_session C i pro kp) cs.

(** The cipher keys the Noise specification derives in the responder's run on [msg1] when it answers
    with [payload]. *)
Definition nx_keys (C : crypto) (prologue : bytes) (sr er : keypair) (msg1 payload : bytes) : list bytes :=
  match ReadMessage C (Initialize C false prologue sr er) NX1 msg1 with
  | Some (p1, _) =>
      match WriteMessage C p1 NX2 payload with
      | Some (p2, _) => sy_keys (p_sym p2)
      | None => []
      end
  | None => []
  end.

(** What the buffer of a second handshake message holds between the two encrypted parts' places. *)
Definition payload2 (buf : bytes) : bytes := firstn (length buf - 96) (skipn 80 buf).

(** Key pairs with which a handshake can be run: 32-byte keys, no public key of low order, and Diffie-Hellman
    agrees on them. *)
Record usable_keys (C : crypto) (si sr ei er : keypair) : Prop := {
  us_si : keypair_ok si; us_sr : keypair_ok sr; us_ei : keypair_ok ei; us_er : keypair_ok er;
  us_lei : ~ low_order (kp_public ei); us_ler : ~ low_order (kp_public er); us_lsr : ~ low_order (kp_public sr);
  us_ee : dh_agree C ei er; us_es : dh_agree C ei sr }.

(** Two sessions about to run a handshake: initiator [I0] with static pair [si] and ephemeral pair [ei],
    responder [R0] with [sr] and [er], same prologue, no public key of low order, and key pairs for which
    Diffie-Hellman agrees. *)
Record honest (C : crypto) (pro : bytes) (si sr ei er : keypair) (rnd1 rnd2 : bytes) (I0 R0 : session) : Prop := {
  ho_si : keypair_ok si; ho_sr : keypair_ok sr; ho_ei : keypair_ok ei; ho_er : keypair_ok er;
  ho_I : started C true pro si rnd1 ei I0; ho_R : started C false pro sr rnd2 er R0;
  ho_lei : ~ low_order (kp_public ei); ho_ler : ~ low_order (kp_public er); ho_lsr : ~ low_order (kp_public sr);
  ho_ee : dh_agree C ei er; ho_es : dh_agree C ei sr }.
