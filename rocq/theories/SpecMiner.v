(** * SpecMiner: what the two programs of examples/noise_handshake.rs do with any input, in terms of the Noise
    specification and of the layout of certificates. *)
From Coq Require Import ZArith.
From Verif Require Import Base Certs Noise SpecWire SpecNoise SpecCerts SpecNetwork SpecSession.
Open Scope N_scope.

(** Buffer [old] after [bs] was read into it. *)
Definition overlaid (old bs b : bytes) : Prop :=
  len b = len old /\
  forall i, (i < length old)%nat -> nth_error b i = if (i <? length bs)%nat then nth_error bs i else nth_error old i.

Section Miner.
Variable C : crypto.
Variable E : ed_ops.

(** The miner reads a certificate message from the beginning of the decrypted buffer [b]: [Ok] of the verdict
    it prints, or [Panic]. *)
Inductive opinion (text key : bytes) (now : Z) (b : bytes) : Result bool -> Prop :=
| op_bad_signature : forall m rest, snm_ok m -> wire b = snm_layout m ++ rest ->
    ed_sig_checked E = true -> ~ canonical_sig (sn_signature m) -> opinion text key now b Panic
| op_bad_authority : (forall k, base58 text k -> ~ (len k = 32 /\ ed_valid E k = true)) -> opinion text key now b Panic
| op_late : forall k m rest, base58 text k -> len k = 32 -> ed_valid E k = true ->
    snm_ok m -> wire b = snm_layout m ++ rest -> (ed_sig_checked E = true -> canonical_sig (sn_signature m)) ->
    (now < 0)%Z \/ sn_not_valid_after m <= secs32 now ->
    opinion text key now b (Ok false)
| op_signed : forall k m rest signed, base58 text k -> len k = 32 -> ed_valid E k = true ->
    snm_ok m -> wire b = snm_layout m ++ rest -> (ed_sig_checked E = true -> canonical_sig (sn_signature m)) ->
    (0 <= now)%Z -> secs32 now < sn_not_valid_after m ->
    wire signed = cert_layout (sn_version m) (sn_valid_from m) (sn_not_valid_after m) key ->
    opinion text key now b (Ok (ed_verify E k signed (sn_signature m))).

(** After the handshake: [k] is the key, [n] the number of messages received, [key] the static key of the
    peer, [old] what is in the buffer.  [vs] is printed; [dead] tells whether the program panics. *)
Inductive transport (text k key : bytes) : N -> bytes -> list (bytes * Z) -> list bool -> bool -> Prop :=
| tr_end : forall n old, transport text k key n old [] [] false
| tr_refused : forall n old bs now conns b, overlaid old bs b ->
    n = 2 ^ 64 - 1 \/ k = zeros32 \/ DECRYPT C k n [] b = None ->
    transport text k key n old ((bs, now) :: conns) [] true
| tr_panic : forall n old bs now conns b pt, overlaid old bs b ->
    n < 2 ^ 64 - 1 -> k <> zeros32 -> DECRYPT C k n [] b = Some pt ->
    opinion text key now (pt ++ skipn (length b - 16) b) Panic ->
    transport text k key n old ((bs, now) :: conns) [] true
| tr_verdict : forall n old bs now conns b pt v vs dead, overlaid old bs b ->
    n < 2 ^ 64 - 1 -> k <> zeros32 -> DECRYPT C k n [] b = Some pt ->
    opinion text key now (pt ++ skipn (length b - 16) b) (Ok v) ->
    transport text k key (n + 1) (pt ++ skipn (length b - 16) b) conns vs dead ->
    transport text k key n old ((bs, now) :: conns) (v :: vs) dead.

(** The reply to party [p] is acceptable: what it leads to, and what it leaves in the buffer. *)
Definition acceptable (p : party) (b : bytes) (p2 : party) (key left : bytes) : Prop :=
  exists payload, ReadMessage C p NX2 b = Some (p2, payload) /\ p_rs p2 = Some key /\
    ~ low_order (firstn 32 b) /\ ~ low_order key /\ ~ In zeros32 (sy_keys (p_sym p2)) /\
    left = firstn 32 b ++ key ++ firstn 16 (skipn 64 b) ++ payload ++ skipn (length b - 16) b.

(** The miner [p], having sent its first message, listens. *)
Inductive miner_does (text : bytes) (p : party) : list (bytes * Z) -> list bool -> bool -> Prop :=
| mi_end : miner_does text p [] [] false
| mi_refused : forall bs now conns b, overlaid (repeat (b8 0) 1024) bs b ->
    (forall p2 key left, ~ acceptable p b p2 key left) -> miner_does text p ((bs, now) :: conns) [] true
| mi_accepted : forall bs now conns b p2 key left vs dead, overlaid (repeat (b8 0) 1024) bs b ->
    acceptable p b p2 key left ->
    transport text (snd (Split C (p_sym p2))) key 0 left conns vs dead ->
    miner_does text p ((bs, now) :: conns) vs dead.

(** The pool with static pair [sr], ephemeral pair [er] and authority pair [kp] reads [bs] from its one
    connection.  [t1], [t2]: its two readings of the clock, in nanoseconds. *)
Inductive pool_answers (sr er : keypair) (kp : ed_keypair) (t1 t2 : Z) (bs : bytes) : Result (bytes * bytes) -> Prop :=
| pa_low : forall b, overlaid (repeat (b8 0) 1024) bs b -> low_order (firstn 32 b) -> pool_answers sr er kp t1 t2 bs Panic
| pa_zero : forall b p1 rest p2 m2, overlaid (repeat (b8 0) 1024) bs b ->
    ReadMessage C (Initialize C false [] sr er) NX1 b = Some (p1, rest) ->
    WriteMessage C p1 NX2 (payload2 b) = Some (p2, m2) ->
    In zeros32 (snd (Split C (p_sym p2)) :: sy_keys (p_sym p2)) -> pool_answers sr er kp t1 t2 bs Panic
| pa_clock : (t1 < 0 \/ t2 + 5 * 10 ^ 9 < 0)%Z \/ secs32 (t2 + 5 * 10 ^ 9) <= secs32 t1 -> pool_answers sr er kp t1 t2 bs Panic
| pa_answer : forall b p1 rest p2 m2 signed m plain, overlaid (repeat (b8 0) 1024) bs b -> ~ low_order (firstn 32 b) ->
    ReadMessage C (Initialize C false [] sr er) NX1 b = Some (p1, rest) ->
    WriteMessage C p1 NX2 (payload2 b) = Some (p2, m2) ->
    ~ In zeros32 (snd (Split C (p_sym p2)) :: sy_keys (p_sym p2)) ->
    (0 <= t1)%Z -> (0 <= t2 + 5 * 10 ^ 9)%Z -> secs32 t1 < secs32 (t2 + 5 * 10 ^ 9) ->
    wire signed = cert_layout 0 (secs32 t1) (secs32 (t2 + 5 * 10 ^ 9)) (kp_public sr) ->
    m = mkSnm 0 (secs32 t1) (secs32 (t2 + 5 * 10 ^ 9)) (ed_sign E kp signed) ->
    wire plain = snm_layout m ++ repeat 0 (N.to_nat 934) ->
    pool_answers sr er kp t1 t2 bs (Ok (m2, ENCRYPT C (snd (Split C (p_sym p2))) 0 [] plain)).
End Miner.
