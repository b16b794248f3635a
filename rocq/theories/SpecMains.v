(** * SpecMains: schedules of two tasks, independent of what the tasks do. *)
From Coq Require Import ZArith.
From Verif Require Import Base Noise Certs SpecNoise SpecCerts SpecSession SpecNetwork SpecMiner Mains.
Local Open Scope list_scope.

(** The elements of the first list occur in the second one, in this order. *)
Inductive in_order {A} : list A -> list A -> Prop :=
| io_nil : forall r, in_order [] r
| io_take : forall x a r, in_order a r -> in_order (x :: a) (x :: r)
| io_skip : forall y a r, in_order a r -> in_order a (y :: r).

(** The first [n] turns of a schedule without end. *)
Definition start_of (f : nat -> task) (n : nat) : list task := map f (seq 0 n).
(** Neither task is left waiting for ever. *)
Definition fair (f : nat -> task) : Prop := forall t n, exists k, (n <= k)%nat /\ f k = t.

(** A turn or more of the pool, then the three turns in which the miner connects, sends and listens, with [c1] and [c2]
    turns of the pool between them. *)
Definition opening (c0 c1 c2 : nat) : list task :=
  repeat PoolTurn (S c0) ++ MinerTurn :: repeat PoolTurn c1 ++ MinerTurn :: repeat PoolTurn c2 ++ [MinerTurn].
(** Of the pool's accepting, reading and connecting back, how many come before the miner listens: before the miner has sent,
    the pool can only accept. *)
Definition pool_ahead (c1 c2 : nat) : nat := min c1 1 + c2.

(** ** The noise example *)
(** How far both are once the miner listens: the pool accepts, reads, connects, replies, connects again (making the
    certificate just before) and sends the certificate: 6 operations; the miner accepts and reads, twice: 4 operations, each
    possible once the pool has come so far.  Also the turns in which the certificate was made and checked. *)
Record pace : Set := mkPace { pa_pool : nat; pa_miner : nat; pa_issued : nat; pa_checked : nat; pa_now : nat }.
Definition pool_needed (miner : nat) : nat := miner + 3.
Definition advance (a : pace) (t : task) : pace :=
  match t with
  | PoolTurn =>
      mkPace (min 6 (S (pa_pool a))) (pa_miner a) (if Nat.eqb (pa_pool a) 4 then pa_now a else pa_issued a) (pa_checked a) (S (pa_now a))
  | MinerTurn =>
      if Nat.ltb (pa_miner a) 4 && Nat.leb (pool_needed (pa_miner a)) (pa_pool a)
      then mkPace (pa_pool a) (S (pa_miner a)) (pa_issued a) (if Nat.eqb (pa_miner a) 3 then pa_now a else pa_checked a) (S (pa_now a))
      else mkPace (pa_pool a) (pa_miner a) (pa_issued a) (pa_checked a) (S (pa_now a))
  end.
(** After the turns [opening c0 c1 c2 ++ r]. *)
Definition progress (c0 c1 c2 : nat) (r : list task) : pace :=
  fold_left advance r (mkPace (pool_ahead c1 c2) 0 0 0 (length (opening c0 c1 c2))).
(** A clock from 1970 on and five seconds before 2106 at the latest; the second reading in a turn is not before the first. *)
Definition clock_ok (clock clock' : nat -> Z) : Prop :=
  forall n, (0 <= clock n <= clock' n)%Z /\ (clock' n + 5 * 10 ^ 9 < 2 ^ 32 * 10 ^ 9)%Z.
(** A certificate made at [issued] is valid at [now]: fewer than five whole seconds have begun since. *)
Definition in_time (issued now : Z) : bool := (now / 10 ^ 9 <? issued / 10 ^ 9 + 5)%Z.
(** What has been printed. *)
Definition printed (m : nh_miner_at) : list bool :=
  match m with NM_listen _ _ _ vs | NM_accepted _ _ _ vs | NM_dead vs => vs | _ => [] end.
(** Keys with which the handshake succeeds (C64, C95), and the authority's key in the miner's text. *)
Definition programs_ready (C : crypto) (E : ed_ops) (sr : keypair) (rsi rnd1 rnd2 : bytes) (kp : ed_keypair) (text : bytes) : Prop :=
  let ei := mkKeypair rnd1 (c_pub C rnd1) in
  let er := mkKeypair rnd2 (c_pub C rnd2) in
  let m1 := kp_public ei ++ repeat (b8 0) 992 in
  usable_keys C (mkKeypair rsi (c_pub C rsi)) sr ei er /\
  ~ In zeros32 (nx_keys C [] sr er m1 (payload2 m1)) /\ ~ In zeros32 (nx_transport_keys C [] sr er m1 (payload2 m1)) /\
  ed_pair E kp /\ base58 text (ek_public kp).
