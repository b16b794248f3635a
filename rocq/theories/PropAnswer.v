(** * PropAnswer: C100-C101, the miner of examples/setup_connection.rs on any input. *)
From Coq Require Import Strings.String.
From Verif Require Import Base Codec Types Messages Frame SpecWire SpecTypes SpecPool SpecAnswer Apps AnswerProofs.
Local Open Scope N_scope.
Local Open Scope list_scope.

(** C100.  Full statement: [forall pf bs, snd (sc_miner_listen pf bs) = false]: whatever the pool sends, the miner
    does not panic.  Refuted; below, what it prints and whether it panics for any input. *)
Theorem C100_miner_survives_refuted : forall pf, exists bs, snd (sc_miner_listen pf bs) = true.
Proof. exact miner_dies. Qed.
Print Assumptions C100_miner_survives_refuted.
Theorem C100_miner_exact_partial : forall pf bs,
  padded bs (read_1024 bs) /\ miner_shows (read_1024 bs) (sc_miner_listen pf bs) /\
  forall r, miner_shows (read_1024 bs) r -> r = sc_miner_listen pf bs.
Proof. exact miner_exact. Qed.
Print Assumptions C100_miner_exact_partial.

Example C100_ex :
  sc_miner_listen Debug (map b8 ([0; 0; 1; 6; 0; 0; 2; 0; 3; 0; 0; 0])) = ([received_line; flags_line 3], false) /\
  sc_miner_listen Debug (map b8 ([0; 0; 1; 6; 0; 0; 2; 0; 4; 0; 0; 0])) = ([received_line], true) /\
  sc_miner_listen Debug [] = ([received_line], false).
Proof. split; [|split]; vm_compute; reflexivity. Qed.

(** C101.  Full statement: the flags that the miner shows are those of the pool's answer, however much of the
    answer the read returned.  Refuted; below, what is shown for every part of every answer. *)
Theorem C101_shown_flags_refuted : forall pf, exists buffer reply i,
  sc_pool_recv pf REQUIRES_FIXED_VERSION buffer = Ok (Some reply) /\
  sc_miner_listen pf (firstn (N.to_nat i) reply) = ([received_line; flags_line 0], false).
Proof. exact other_flags_shown. Qed.
Print Assumptions C101_shown_flags_refuted.
Theorem C101_cut_exact_partial : forall pf pf' flags buffer reply, rust_slice buffer -> flags < 4 ->
  sc_pool_recv pf flags buffer = Ok (Some reply) ->
  len reply = 12 /\ forall i, i <= 12 -> sc_miner_listen pf' (firstn (N.to_nat i) reply) = cut_shows i flags.
Proof. exact reply_cut. Qed.
Print Assumptions C101_cut_exact_partial.

Example C101_ex : exists buffer reply, rust_slice buffer /\ 3 < 4 /\ sc_pool_recv Debug 3 buffer = Ok (Some reply) /\
  reply = [x00; x00; x01; x06; x00; x00; x02; x00; x03; x00; x00; x00].
Proof.
  exists (map b8 ([0; 0; 0; 28; 0; 0; 0; 2; 0; 2; 0; 1; 0; 0; 0; 1; 48; 97; 33; 1; 66; 1; 83; 5; 98; 114; 97; 105; 105; 4; 117; 117; 105; 100])).
  eexists. split; [vm_compute; discriminate|]. split; [reflexivity|]. split; vm_compute; reflexivity.
Qed.
