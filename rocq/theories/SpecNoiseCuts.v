(** * SpecNoiseCuts: the messages of the noise example arriving in pieces. *)
From Coq Require Import ZArith.
From Verif Require Import Base Noise Certs SpecNoise SpecCerts SpecSession SpecNetwork SpecMiner Mains SpecMains NoiseCuts.
Local Open Scope list_scope.

(** What is read of a connection on which [m] was written before it was closed: a part from the beginning that is not
    empty, or nothing if nothing was written. *)
Definition a_part (m b : bytes) : Prop := (m = [] /\ b = []) \/ exists k, (1 <= k)%nat /\ m <> [] /\ b = firstn k m.

Section Pool.
Variables (C : crypto) (E : ed_ops) (sr er : keypair) (kp : ed_keypair).
(** What the pool writes on its connections to the miner, one after the other, having read [bs] and with the clock showing
    [t1] and [t2] when it makes the certificate: both messages (C96), or less if a key is zero. *)
Inductive pool_sends (t1 t2 : Z) (bs : bytes) : list bytes -> Prop :=
| ps_all : forall m2 m3, pool_answers C E sr er kp t1 t2 bs (Ok (m2, m3)) -> pool_sends t1 t2 bs [m2; m3]
| ps_none : forall b p1 rest p2 m2, overlaid (repeat (b8 0) 1024) bs b -> ~ low_order (firstn 32 b) ->
    ReadMessage C (Initialize C false [] sr er) NX1 b = Some (p1, rest) -> WriteMessage C p1 NX2 (payload2 b) = Some (p2, m2) ->
    In zeros32 (sy_keys (p_sym p2)) -> pool_sends t1 t2 bs [[]]
| ps_half : forall b p1 rest p2 m2, overlaid (repeat (b8 0) 1024) bs b -> ~ low_order (firstn 32 b) ->
    ReadMessage C (Initialize C false [] sr er) NX1 b = Some (p1, rest) -> WriteMessage C p1 NX2 (payload2 b) = Some (p2, m2) ->
    ~ In zeros32 (sy_keys (p_sym p2)) -> snd (Split C (p_sym p2)) = zeros32 -> pool_sends t1 t2 bs [m2; []].
End Pool.

(** What the miner reads of them, with the clock at each time; the certificate was made at [i]. *)
Inductive delivered (clock : nat -> Z) (i : nat) : list bytes -> list (bytes * Z) -> Prop :=
| de_one : forall m2 rest b j, a_part m2 b -> delivered clock i (m2 :: rest) [(b, clock j)]
| de_two : forall m2 m3 b2 b3 j2 j3, a_part m2 b2 -> a_part m3 b3 -> (i < j3)%nat ->
    delivered clock i [m2; m3] [(b2, clock j2); (b3, clock j3)].

(** All goes well until the pool has read what has arrived in the pieces [ns] and has sent both messages; *)
Definition to_answers (ns : list nat) : list happening :=
  [PoolDoes; MinerDoes; MinerDoes; MinerDoes; PoolDoes] ++ map PoolGets ns ++ repeat PoolDoes 5.
(** when the pool makes its certificate; *)
Definition made_at (ns : list nat) : nat := 8 + length ns.
(** the miner reads what has arrived of them in the pieces [js] and [ks]; *)
Definition to_verdict (js ks : list nat) : list happening :=
  MinerDoes :: map (MinerGets 0) js ++ [MinerDoes; MinerDoes] ++ map (MinerGets 1) ks ++ [MinerDoes].
(** when it reads the first and the second one. *)
Definition heard_at (ns js : list nat) : nat := 11 + length ns + length js.
Definition read_at (ns js ks : list nat) : nat := 13 + length ns + length js + length ks.

(** The kinds of happenings that bring something about. *)
Inductive nkind := Pool_turn | Miner_turn | At_pool | At_miner_first | At_miner_second.
Definition of_kind (k : nkind) (e : happening) : Prop :=
  match k, e with
  | Pool_turn, PoolDoes | Miner_turn, MinerDoes | At_pool, PoolGets (S _) => True
  | At_miner_first, MinerGets 0 (S _) | At_miner_second, MinerGets 1 (S _) => True
  | _, _ => False
  end.
(** No task and no connection is left waiting for ever. *)
Definition fair_happenings (f : nat -> happening) : Prop := forall k n, exists j, (n <= j)%nat /\ of_kind k (f j).
Definition first_happenings (f : nat -> happening) (n : nat) : list happening := map f (seq 0 n).
