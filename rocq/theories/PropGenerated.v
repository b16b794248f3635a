(** * PropGenerated: C133, what the tests generated by [impl_message_tests!] establish. *)
From Verif Require Import Base Codec Types Messages Frame Catalog Macro Generated SpecWire SpecTypes SpecDecode SpecMacro SpecGenerated
  MsgProofs MacroProofs GeneratedProofs.

(** C133.  "This provides us with confidence that all fields in the message encode correctly, and in the correct order"
    (macro_message/message.rs:72-75).  Refuted with what the tests of SetupConnection are given: both versions are 2, and an
    implementation that writes and reads the two versions in the wrong order passes every test. *)
Theorem C133_order_refuted : exists F : frameable setup_connection,
  (forall m, fr_ser F m = ser_sc (versions_exchanged m)) /\
  (forall pf bs, deserialize (fr_de F) pf bs =
     match deserialize (de_sc MiningSetupFlags) pf bs with Ok m => Ok (versions_exchanged m) | Err e => Err e | Panic => Panic end) /\
  (forall pf, Forall (fun t => t = true) (generated_tests F sc_eqb MT_SetupConnection pf given_serialized given_deserialized)) /\
  exists m enc, constructed K_MiningSetupConnection m /\ serialize (fr_ser F m) = Ok enc /\ wire enc <> layout K_MiningSetupConnection m.
Proof. exact tests_order. Qed.
Print Assumptions C133_order_refuted.
(** Any declaration, any constructor, any [==], any data: two fields of one type exchanged go unnoticed exactly if the data
    hold the same value in both. *)
Theorem C133_exchange_partial : forall l t m r M (open : M -> fields (l ++ t :: m ++ t :: r)) new eqb T pf s d,
  fields_ok _ (open d) -> len s + 6 <= 2 ^ 63 - 1 ->
  let written := im_frameable _ open new T in
  let exchanged := im_frameable _ (fun x => exchange l (open x)) (fun v => new (exchange l v)) T in
  Forall (fun t => t = true) (generated_tests written eqb T pf s d) ->
  (Forall (fun t => t = true) (generated_tests exchanged eqb T pf s d) <-> first_of l (open d) = second_of l (open d)).
Proof. exact tests_exchange. Qed.
Print Assumptions C133_exchange_partial.
(** When each of the tests passes, for any declaration and any data; [T'] is the type named by the test. *)
Theorem C133_each : forall ts M (open : M -> fields ts) (new : fields ts -> Result M) eqb T T' pf s d,
  fields_ok ts (open d) -> len s + 6 <= 2 ^ 63 - 1 ->
  let F := im_frameable ts open new T in
  let right := wire s = fields_lay ts (open d) /\ exists m, new (open d) = Ok m /\ eqb m d = true in
  (message_serde_identity F eqb pf s d = true <-> right) /\
  (message_type_tautology F T' = true <-> T' = T) /\
  (message_frame_identity F eqb T' pf s d = true <-> T' = T /\ right) /\
  (message_frame_serde F pf s = true <-> len s < 16777216).
Proof. exact tests_each. Qed.
Print Assumptions C133_each.
(** When all pass. *)
Theorem C133_exactly : forall ts M (open : M -> fields ts) (new : fields ts -> Result M) eqb T pf s d,
  fields_ok ts (open d) -> len s + 6 <= 2 ^ 63 - 1 ->
  Forall (fun t => t = true) (generated_tests (im_frameable ts open new T) eqb T pf s d) <->
  wire s = fields_lay ts (open d) /\ (exists m, new (open d) = Ok m /\ eqb m d = true) /\ len s < 16777216.
Proof. exact tests_exactly. Qed.
Print Assumptions C133_exactly.
(** The messages of the crate: with the right bytes the tests pass, unless a hash rate is NaN. *)
Theorem C133_library : forall k pf s d, constructed k d -> len s + 6 <= 2 ^ 63 - 1 ->
  Forall (fun t => t = true) (generated_tests (frameable_of k) (msg_eqb k) (fr_type (frameable_of k)) pf s d) <->
  wire s = layout k d /\ Forall (fun x => ~ is_nan_bits x) (hash_rates k d).
Proof. exact tests_library. Qed.
Print Assumptions C133_library.

(** The data of the crate pass; with other bytes or with two different versions exchanged they do not. *)
Example C133_ex :
  constructed K_MiningSetupConnection given_deserialized /\ len given_serialized + 6 <= 2 ^ 63 - 1 /\
  generated_tests (frameable_of K_MiningSetupConnection) sc_eqb MT_SetupConnection Debug given_serialized given_deserialized =
    [true; true; true; true] /\
  generated_tests (frameable_of K_MiningSetupConnection) sc_eqb MT_SetupConnection Debug (x03 :: tl given_serialized) given_deserialized =
    [false; true; false; true] /\
  generated_tests exchanged_frameable sc_eqb MT_SetupConnection Debug (x02 :: x00 :: x03 :: skipn 3 given_serialized) (given_with 2 3) =
    [false; true; false; true].
Proof. split; [exact (given_ok 2 2 ltac:(split; [discriminate|reflexivity]) ltac:(split; [discriminate|reflexivity]))|].
  split; [vm_compute; discriminate|]. repeat split; vm_compute; reflexivity. Qed.
(** Two fields of type u32 around a third. *)
Example C133_ex_exchange :
  let ts := [T_u32; T_u8; T_u32] in
  let go x s := generated_tests (im_frameable ts (fun v => x v) (fun v => Ok (x v)) MT_TestMessage1)
                  (fun a b => (fst a =? fst b) && (fst (snd a) =? fst (snd b)) && (fst (snd (snd a)) =? fst (snd (snd b))))
                  MT_TestMessage1 Release s in
  go (fun v => v) [x01; x00; x00; x00; x07; x02; x00; x00; x00] (1, (7, (2, tt))) = [true; true; true; true] /\
  go (@exchange [] T_u32 [T_u8] []) [x01; x00; x00; x00; x07; x02; x00; x00; x00] (1, (7, (2, tt))) = [false; true; false; true] /\
  go (@exchange [] T_u32 [T_u8] []) [x01; x00; x00; x00; x07; x01; x00; x00; x00] (1, (7, (1, tt))) = [true; true; true; true].
Proof. repeat split; vm_compute; reflexivity. Qed.
