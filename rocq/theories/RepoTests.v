(** * RepoTests: the unit tests of /repo, run on the model.

    These are tests, not proofs: they check the transcription against the literals written by the authors
    of the code.  Each Example cites the test it repeats.  Left out: the tests that read the system clock or
    the random generator and assert nothing about a definite value (types/unix_timestamp.rs:55-59,
    network/channel.rs:50-52), and the second of sleep in noise/mod.rs:80. *)
From Coq Require Import Strings.String ZArith.
From Verif Require Import Base Codec Types Messages Frame Crypto Noise NoiseFacts Certs Network CertProofs NoiseSamples NetworkProofs.
Local Open Scope N_scope.
Local Open Scope list_scope.

Definition hx (l : list N) : bytes := map b8 l.
Definition is_err {A} (r : Result A) : bool := match r with Err _ => true | _ => false end.

(** ** types/primitives.rs:112-176 *)
Example u8_serde : serialize (ser_u8 0x81) = Ok (hx [0x81]) /\ deserialize de_u8 Debug (hx [0x81]) = Ok 0x81.
Proof. vm_compute. auto. Qed.
Example u16_serde : serialize (ser_u16 0x4281) = Ok (hx [0x81; 0x42]) /\ deserialize de_u16 Debug (hx [0x81; 0x42]) = Ok 0x4281.
Proof. vm_compute. auto. Qed.
Example u32_serde :
  serialize (ser_u32 0x18244281) = Ok (hx [0x81; 0x42; 0x24; 0x18]) /\
  deserialize de_u32 Debug (hx [0x81; 0x42; 0x24; 0x18]) = Ok 0x18244281.
Proof. vm_compute. auto. Qed.
(** The comment of the test gives the bit pattern: 0 10000000 10010010000111111011011. *)
Example f32_serde :
  serialize (ser_f32 0x40490fdb) = Ok (hx [0xdb; 0x0f; 0x49; 0x40]) /\
  deserialize de_f32 Debug (hx [0xdb; 0x0f; 0x49; 0x40]) = Ok 0x40490fdb.
Proof. vm_compute. auto. Qed.
Example bool_serde :
  serialize (ser_bool true) = Ok (hx [1]) /\ serialize (ser_bool false) = Ok (hx [0]) /\
  map (fun v => deserialize de_bool Debug (hx [v])) [1; 0; 2; 3; 4; 255]
  = map Ok [true; false; false; true; false; true].
Proof. vm_compute. auto. Qed.

(** ** types/fixed.rs:106-179 *)
Example u24_new_test :
  map u24_new [0; 1; 2 ^ 24 - 1; 2 ^ 24; 2 ^ 24 + 1]
  = [Ok 0; Ok 1; Ok U24_MAX; Err RequirementError; Err RequirementError].
Proof. vm_compute. auto. Qed.
Example u24_serde_ok : deserialize de_u24 Debug (hx [5; 0; 0]) = Ok 5 /\ serialize (ser_u24 5) = Ok (hx [5; 0; 0]).
Proof. vm_compute. auto. Qed.
Example u24_deserialize_err : deserialize de_u24 Debug (hx [0; 0]) = Err ParseError.
Proof. vm_compute. auto. Qed.
Example u24_serialize_err : serialize (ser_u24 (2 ^ 24)) = Ok (hx [0; 0; 0]).
Proof. vm_compute. auto. Qed.
Example u256_serde_ok :
  let v := hx [1;0;0;0;0;0;0;0; 2;0;0;0;0;0;0;0; 3;0;0;0;0;0;0;0; 4;0;0;0;0;0;0;0] in
  deserialize de_u256 Debug v = Ok v /\ serialize (ser_u256 v) = Ok v.
Proof. vm_compute. auto. Qed.
Example u256_deserialize_err : deserialize de_u256 Debug (repeat x00 31) = Err ParseError.
Proof. vm_compute. auto. Qed.

(** ** types/bytes.rs:89-271, for each of the five types *)
Definition b0_enc (t : b0type) (payload : bytes) : bytes :=
  to_le (match b0_lentype t with LU8 => 1 | LU16 => 2 | LU24 => 3 end)%nat (len payload) ++ payload.
Definition b0_types := [B0_31; B0_32; B0_255; B0_64K; B0_16M].
Example b0_new_empty : map (fun t => b0_new t []) b0_types = repeat (Ok (mkB0 0 [])) 5.
Proof. vm_compute. auto. Qed.
Example b0_new_nonempty :
  map (fun t => b0_new t (hx [1;2;3;4;5])) b0_types = repeat (Ok (mkB0 5 (hx [1;2;3;4;5]))) 5.
Proof. vm_compute. auto. Qed.
(** new_max_length and new_over_limit; the largest type is skipped by the tests too. *)
Example b0_new_limits :
  map (fun '(t, k) => let d := repeat x00 (N.to_nat k) in
                      match b0_new t d with Ok v => (b0_length v =? k) && bytes_eqb (b0_data v) d | _ => false end)
      [(B0_31, 31); (B0_32, 32); (B0_255, 255); (B0_64K, 65535)] = repeat true 4 /\
  map (fun '(t, k) => b0_new t (repeat x00 (N.to_nat k)))
      [(B0_31, 32); (B0_32, 33); (B0_255, 256); (B0_64K, 65536)] = repeat (Err RequirementError) 4.
Proof. vm_compute. auto. Qed.
Example b0_serde_ok :
  map (fun t => (deserialize (de_b0 t) Debug (b0_enc t []), serialize (ser_b0 t (mkB0 0 [])))) b0_types
  = map (fun t => (Ok (mkB0 0 []), Ok (b0_enc t []))) b0_types /\
  map (fun t => (deserialize (de_b0 t) Debug (b0_enc t (hx [1;2;3;4;5])), serialize (ser_b0 t (mkB0 5 (hx [1;2;3;4;5]))))) b0_types
  = map (fun t => (Ok (mkB0 5 (hx [1;2;3;4;5])), Ok (b0_enc t (hx [1;2;3;4;5])))) b0_types.
Proof. vm_compute. auto. Qed.
Example b0_deserialize_err :
  map (fun t => map (deserialize (de_b0 t) Debug) [[]; hx [1]; hx [2; 42]]) b0_types
  = repeat (repeat (Err ParseError) 3) 5.
Proof. vm_compute. auto. Qed.
Example b0_over_max_length :
  deserialize (de_b0 B0_31) Debug (b0_enc B0_31 (repeat x00 32)) = Err RequirementError /\
  deserialize (de_b0 B0_32) Debug (b0_enc B0_32 (repeat x00 33)) = Err RequirementError.
Proof. vm_compute. auto. Qed.

(** ** types/strings.rs:86-217 *)
Definition str0_types := [STR0_32; STR0_255].
Definition str_enc (s : bytes) : bytes := b8 (len s) :: s.
Example str0_new_test :
  map (fun t => str0_new t []) str0_types = repeat (Ok (mkStr0 0 [])) 2 /\
  map (fun t => str0_new t (lit "human-readable-data")) str0_types = repeat (Ok (mkStr0 19 (lit "human-readable-data"))) 2 /\
  map (fun t => str0_new t (repeat x61 (N.to_nat (str0_max t)))) str0_types
  = map (fun t => Ok (mkStr0 (str0_max t) (repeat x61 (N.to_nat (str0_max t))))) str0_types /\
  map (fun t => str0_new t (repeat x61 (N.to_nat (str0_max t + 1)))) str0_types = repeat (Err RequirementError) 2.
Proof. vm_compute. auto. Qed.
Example str0_serde_ok :
  map (fun t => (deserialize (de_str0 t) Debug (str_enc []), serialize (ser_str0 (mkStr0 0 [])))) str0_types
  = repeat (Ok (mkStr0 0 []), Ok (str_enc [])) 2 /\
  map (fun t => (deserialize (de_str0 t) Debug (str_enc (lit "valid data")), serialize (ser_str0 (mkStr0 10 (lit "valid data"))))) str0_types
  = repeat (Ok (mkStr0 10 (lit "valid data")), Ok (str_enc (lit "valid data"))) 2.
Proof. vm_compute. auto. Qed.
Example str0_deserialize_err :
  map (fun t => map (deserialize (de_str0 t) Debug) [[]; hx [1]; hx [2; 42]; hx [0x06; 0xed; 0xa0; 0x80; 0xed; 0xb0; 0x80]]) str0_types
  = repeat [Err ParseError; Err ParseError; Err ParseError; Err FromUtf8Error] 2.
Proof. vm_compute. auto. Qed.
Example str0_over_max_length : deserialize (de_str0 STR0_32) Debug (str_enc (repeat x61 33)) = Err RequirementError.
Proof. vm_compute. auto. Qed.

(** ** types/unix_timestamp.rs:25-53; times are nanoseconds after the epoch *)
Example system_unix_time :
  system_unix_time_to_u32 5000000000%Z = Ok 5 /\ system_unix_time_to_u32 5000000003%Z = Ok 5 /\
  system_unix_time_to_u32 (-5000000003)%Z = Err SystemTimeError.
Proof. vm_compute. auto. Qed.

(** ** mining/setup_connection.rs:24-68, setup_connection_success.rs:16-45, job_negotiation/setup_connection.rs:18-42 *)
Example flags_serde :
  map (fun v => serialize (ser_flags v)) (flag_consts MiningSetupFlags) = map (fun v => Ok (to_le 4 v)) [1; 2; 4] /\
  map (fun v => deserialize (de_flags MiningSetupFlags) Debug (to_le 4 v)) [1; 2; 4] = map Ok (flag_consts MiningSetupFlags) /\
  deserialize (de_flags MiningSetupFlags) Debug (to_le 4 255) = Err UnknownFlags /\
  map (fun v => serialize (ser_flags v)) (tl (flag_consts MiningSuccessFlags)) = map (fun v => Ok (to_le 4 v)) [1; 2] /\
  map (fun v => deserialize (de_flags MiningSuccessFlags) Debug (to_le 4 v)) [1; 2] = map Ok (tl (flag_consts MiningSuccessFlags)) /\
  map (fun v => serialize (ser_flags v)) (flag_consts JnSetupFlags) = [Ok (to_le 4 1)] /\
  deserialize (de_flags JnSetupFlags) Debug (to_le 4 1) = Ok 1.
Proof. vm_compute. repeat split. Qed.

(** ** macro_message/message.rs:67-135 [impl_message_tests]: the four tests of a message type *)
Definition serialized_frame (t : message_type) (s : bytes) : bytes :=
  to_le 2 (if mt_channel_bit t then N.lor (mt_ext_type t) 0x8000 else mt_ext_type t)
  ++ to_le 1 (mt_msg_type t) ++ firstn 3 (to_le 8 (len s)) ++ s.
Definition message_tests {A} (F : frameable A) (t : message_type) (m : Result A) (s : bytes) : Prop :=
  match m with
  | Ok d =>
      (* message_serde_identity *)
      serialize (fr_ser F d) = Ok s /\ deserialize (fr_de F) Debug s = Ok d /\
      (* message_type_tautology *)
      fr_type F = t /\
      (* message_frame_identity *)
      frame F d = Ok (mkMessage t s) /\ unframe F Debug (mkMessage t s) = Ok d /\
      (* message_frame_serde *)
      serialize (ser_message (mkMessage t s)) = Ok (serialized_frame t s) /\
      deserialize de_message Debug (serialized_frame t s) = Ok (mkMessage t s)
  | _ => False
  end.
Ltac run := vm_compute; repeat split.

(** macro_message/message.rs:139-247: a test message with a field of every type. *)
Record test_message_1 := mkTM1 {
  tm_a : N; tm_b : N; tm_c : N; tm_d : N; tm_e : bytes; tm_f : N; tm_g : str0; tm_h : str0;
  tm_i : b0; tm_j : b0; tm_k : b0; tm_l : b0; tm_m : b0 }.
Definition ser_tm1 (m : test_message_1) : wprog N :=
  (n1 <- ser_u8 (tm_a m) ;; n2 <- ser_u16 (tm_b m) ;; n3 <- ser_u24 (tm_c m) ;; n4 <- ser_u32 (tm_d m) ;;
   n5 <- ser_u256 (tm_e m) ;; n6 <- ser_f32 (tm_f m) ;; n7 <- ser_str0 (tm_g m) ;; n8 <- ser_str0 (tm_h m) ;;
   n9 <- ser_b0 B0_31 (tm_i m) ;; n10 <- ser_b0 B0_32 (tm_j m) ;; n11 <- ser_b0 B0_255 (tm_k m) ;;
   n12 <- ser_b0 B0_64K (tm_l m) ;; n13 <- ser_b0 B0_16M (tm_m m) ;;
   wok (n1 + n2 + n3 + n4 + n5 + n6 + n7 + n8 + n9 + n10 + n11 + n12 + n13))%ser.
Definition de_tm1 : De test_message_1 :=
  (a <- de_u8 ;; b <- de_u16 ;; c <- de_u24 ;; d <- de_u32 ;; e <- de_u256 ;; f <- de_f32 ;;
   g <- de_str0 STR0_32 ;; h <- de_str0 STR0_255 ;; i <- de_b0 B0_31 ;; j <- de_b0 B0_32 ;;
   k <- de_b0 B0_255 ;; l <- de_b0 B0_64K ;; m <- de_b0 B0_16M ;;
   de_ret (mkTM1 a b c d e f g h i j k l m))%de.
Example test_message :
  message_tests (mkFrameable MT_TestMessage1 ser_tm1 de_tm1) MT_TestMessage1
    (Ok (mkTM1 1 2 3 4 (repeat x05 32) 0x40c00000 (mkStr0 5 (lit "seven")) (mkStr0 5 (lit "eight"))
           (mkB0 4 (hx [9;9;9;9])) (mkB0 4 (hx [10;10;10;10])) (mkB0 4 (hx [11;11;11;11]))
           (mkB0 4 (hx [12;12;12;12])) (mkB0 4 (hx [13;13;13;13]))))
    (hx ([0x01; 0x02; 0x00; 0x03; 0x00; 0x00; 0x04; 0x00; 0x00; 0x00] ++ repeat 0x05 32 ++
         [0x00; 0x00; 0xc0; 0x40; 0x05; 0x73; 0x65; 0x76; 0x65; 0x6e; 0x05; 0x65; 0x69; 0x67; 0x68; 0x74;
          0x04; 0x09; 0x09; 0x09; 0x09; 0x04; 0x0a; 0x0a; 0x0a; 0x0a; 0x04; 0x0b; 0x0b; 0x0b; 0x0b;
          0x04; 0x00; 0x0c; 0x0c; 0x0c; 0x0c; 0x04; 0x00; 0x00; 0x0d; 0x0d; 0x0d; 0x0d])).
Proof. run. Qed.

(** macro_message/setup_connection.rs:155-267, instantiated in mining and job_negotiation. *)
Definition t_sc (fs : flagset) (minv maxv : N) (vendor firmware : bytes) : Result setup_connection :=
  sc_new minv maxv (flags_all fs) (lit "0.0.0.0") 8545 vendor (lit "S9i 13.5") firmware (lit "some-device-uuid").
Definition t_fw := lit "braiins-os-2018-09-22-1-hash".
Definition t_sc_bytes (fs : flagset) : bytes :=
  hx [0x02; 0x00; 0x02; 0x00] ++ to_le 4 (flags_all fs) ++
  hx [0x07; 0x30; 0x2e; 0x30; 0x2e; 0x30; 0x2e; 0x30; 0x61; 0x21;
      0x07; 0x42; 0x69; 0x74; 0x6d; 0x61; 0x69; 0x6e;
      0x08; 0x53; 0x39; 0x69; 0x20; 0x31; 0x33; 0x2e; 0x35;
      0x1c; 0x62; 0x72; 0x61; 0x69; 0x69; 0x6e; 0x73; 0x2d; 0x6f; 0x73; 0x2d; 0x32; 0x30;
      0x31; 0x38; 0x2d; 0x30; 0x39; 0x2d; 0x32; 0x32; 0x2d; 0x31; 0x2d; 0x68; 0x61; 0x73; 0x68;
      0x10; 0x73; 0x6f; 0x6d; 0x65; 0x2d; 0x64; 0x65; 0x76; 0x69; 0x63; 0x65; 0x2d; 0x75; 0x75; 0x69; 0x64].
Example mining_setup_connection :
  message_tests (frameable_of K_MiningSetupConnection) MT_SetupConnection
    (t_sc MiningSetupFlags 2 2 (lit "Bitmain") t_fw) (t_sc_bytes MiningSetupFlags).
Proof. run. Qed.
Example jn_setup_connection :
  message_tests (frameable_of K_JnSetupConnection) MT_SetupConnection
    (t_sc JnSetupFlags 2 2 (lit "Bitmain") t_fw) (t_sc_bytes JnSetupFlags).
Proof. run. Qed.
(** empty_vendor, empty_firmware, bad_min_version, bad_max_version. *)
Example setup_connection_errors :
  map (fun fs => [t_sc fs 2 2 [] t_fw; t_sc fs 2 2 (lit "Bitmain") []; t_sc fs 1 2 (lit "Bitmain") t_fw; t_sc fs 2 1 (lit "Bitmain") t_fw])
      [MiningSetupFlags; JnSetupFlags]
  = repeat [Err RequirementError; Err RequirementError; Err VersionError; Err VersionError] 2.
Proof. vm_compute. auto. Qed.

(** macro_message/setup_connection_success.rs:54-84. *)
Example setup_connection_success_tests :
  message_tests (frameable_of K_MiningSetupConnectionSuccess) MT_SetupConnectionSuccess
    (scs_new 2 (flags_all MiningSuccessFlags)) (hx [2; 0] ++ to_le 4 (flags_all MiningSuccessFlags)) /\
  message_tests (frameable_of K_JnSetupConnectionSuccess) MT_SetupConnectionSuccess
    (scs_new 2 (flags_all JnSuccessFlags)) (hx [2; 0] ++ to_le 4 (flags_all JnSuccessFlags)).
Proof. run. Qed.

(** macro_message/setup_connection_error.rs:69-120. *)
Definition t_sce_bytes (fs : flagset) : bytes :=
  to_le 4 (flags_all fs) ++
  hx [0x19; 0x75; 0x6e; 0x73; 0x75; 0x70; 0x70; 0x6f; 0x72; 0x74; 0x65; 0x64; 0x2d; 0x66;
      0x65; 0x61; 0x74; 0x75; 0x72; 0x65; 0x2d; 0x66; 0x6c; 0x61; 0x67; 0x73].
Example setup_connection_error_tests :
  message_tests (frameable_of K_MiningSetupConnectionError) MT_SetupConnectionError
    (sce_new (flags_all MiningSetupFlags) UnsupportedFeatureFlags) (t_sce_bytes MiningSetupFlags) /\
  message_tests (frameable_of K_JnSetupConnectionError) MT_SetupConnectionError
    (sce_new (flags_all JnSetupFlags) UnsupportedFeatureFlags) (t_sce_bytes JnSetupFlags) /\
  sce_new 0 UnsupportedFeatureFlags = Err RequirementError.
Proof. run. Qed.

(** common/channel_endpoint_changed.rs:27-45. *)
Example channel_endpoint_changed_tests :
  message_tests (frameable_of K_ChannelEndpointChanged) MT_ChannelEndpointChanged (cec_new 5) (hx [5; 0; 0; 0]).
Proof. run. Qed.
(** mining/open_standard_mining_channel.rs:50-; 3.0f32 has the bit pattern 0x40400000. *)
Example open_standard_mining_channel_tests :
  message_tests (frameable_of K_OpenStandardMiningChannel) MT_OpenStandardMiningChannel
    (osmc_new 1 (lit "user id") 0x40400000 (repeat x04 32))
    (hx ([1;0;0;0; 0x07; 0x75; 0x73; 0x65; 0x72; 0x20; 0x69; 0x64; 0x00; 0x00; 0x40; 0x40] ++ repeat 4 32)).
Proof. run. Qed.
(** mining/open_extended_mining_channel.rs:60-. *)
Example open_extended_mining_channel_tests :
  message_tests (frameable_of K_OpenExtendedMiningChannel) MT_OpenExtendedMiningChannel
    (oemc_new 1 (lit "user id") 0x40400000 (repeat x04 32) 5)
    (hx ([1;0;0;0; 0x07; 0x75; 0x73; 0x65; 0x72; 0x20; 0x69; 0x64; 0x00; 0x00; 0x40; 0x40] ++ repeat 4 32 ++ [5; 0])).
Proof. run. Qed.
(** mining/open_standard_mining_channel_success.rs and open_extended_mining_channel_success.rs. *)
Example open_mining_channel_success_tests :
  message_tests (frameable_of K_OpenStandardMiningChannelSuccess) MT_OpenStandardMiningChannelSuccess
    (osmcs_new 1 2 (repeat x03 32) (repeat x04 4) 5)
    (hx ([1;0;0;0; 2;0;0;0] ++ repeat 3 32 ++ [4;4;4;4;4; 5;0;0;0])) /\
  message_tests (frameable_of K_OpenExtendedMiningChannelSuccess) MT_OpenExtendedMiningChannelSuccess
    (oemcs_new 1 2 (repeat x03 32) 4 (repeat x05 4))
    (hx ([1;0;0;0; 2;0;0;0] ++ repeat 3 32 ++ [4;0; 4;5;5;5;5])).
Proof. run. Qed.
(** mining/open_mining_channel_error.rs:65-100. *)
Example open_mining_channel_error_tests :
  let s := hx [1;0;0;0; 0x0c; 0x75; 0x6e; 0x6b; 0x6e; 0x6f; 0x77; 0x6e; 0x2d; 0x75; 0x73; 0x65; 0x72] in
  message_tests (frameable_of K_OpenStandardMiningChannelError) MT_OpenStandardMiningChannelError (omce_new 1 UnknownUser) s /\
  message_tests (frameable_of K_OpenExtendedMiningChannelError) MT_OpenExtendedMiningChannelError (omce_new 1 UnknownUser) s.
Proof. run. Qed.
(** mining/update_channel.rs:37-; 12.3f32 has the bit pattern 0x4144cccd. *)
Example update_channel_tests :
  message_tests (frameable_of K_UpdateChannel) MT_UpdateChannel (uc_new 1 0x4144cccd (repeat x00 32))
    (hx ([1;0;0;0; 0xcd; 0xcc; 0x44; 0x41] ++ repeat 0 32)).
Proof. run. Qed.

(** ** common/setup_connection.rs:230-377 *)
Definition t_csc (mining : bool) (flags minv maxv : N) (vendor firmware : bytes) : Result common_setup_connection :=
  (if mining then csc_new_mining else csc_new_job_negotation)
    minv maxv flags (lit "0.0.0.0") 8545 vendor (lit "S9u 13.5") firmware (lit "some-uuid").
(** constructor_errors *)
Example csc_constructor_errors :
  map (fun '(b, fs) => map is_err
         [t_csc b (flags_all fs) 2 2 [] t_fw; t_csc b (flags_all fs) 2 2 (lit "Bitmain") [];
          t_csc b (flags_all fs) 1 2 (lit "Bitmain") t_fw; t_csc b (flags_all fs) 2 1 (lit "Bitmain") t_fw])
      [(true, MiningSetupFlags); (false, JnSetupFlags)] = repeat (repeat true 4) 2.
Proof. vm_compute. auto. Qed.
(** serialize, serialize_empty_flags, frame_message *)
Definition csc_tests (b : bool) (fs : flagset) (protocol : N) : Prop :=
  match t_csc b (flags_all fs) 2 2 (lit "Bitmain") t_fw, t_csc b 0 2 2 (lit "Bitmain") t_fw with
  | Ok conn, Ok empty =>
      (match serialize (ser_csc conn) with
       | Ok result =>
           len result = 75 /\ nth_error result 0 = Some (b8 protocol) /\
           Ok (firstn 4 (skipn 5 result)) = serialize (ser_flags (flags_all fs)) /\
           match deserialize de_csc Debug result with Ok _ => True | _ => False end
       | _ => False
       end) /\
      match serialize (ser_csc empty) with
      | Ok result => firstn 4 (skipn 5 result) = repeat x00 4
      | _ => False
      end /\
      match frame (frameable_of K_CommonSetupConnection) conn with
      | Ok network_message =>
          match serialize (ser_message network_message) with
          | Ok result =>
              len result = 81 /\ firstn 2 result = [x00; x00] /\
              nth_error result 2 = Some (b8 (mt_msg_type (m_type network_message))) /\
              deserialize de_u24 Debug (firstn 3 (skipn 3 result)) = Ok (len (m_payload network_message))
          | _ => False
          end
      | _ => False
      end
  | _, _ => False
  end.
Example csc_mining : csc_tests true MiningSetupFlags 0.
Proof. run. Qed.
Example csc_job_negotiation : csc_tests false JnSetupFlags 1.
Proof. run. Qed.

(** ** codec/frame.rs:104-167 *)
Definition t_tm (t : message_type) : frameable N := mkFrameable t ser_u8 de_u8.
Example frame_test_message :
  frame (t_tm MT_TestMessage1) 5 = Ok (mkMessage MT_TestMessage1 (hx [5])) /\
  unframe (t_tm MT_TestMessage1) Debug (mkMessage MT_TestMessage1 (hx [5])) = Ok 5.
Proof. run. Qed.
Example test_message_frame_serde :
  serialize (ser_message (mkMessage MT_TestMessage1 (hx [5]))) = Ok (hx [0x00; 0x00; 0xfe; 0x01; 0x00; 0x00; 0x05]) /\
  deserialize de_message Debug (hx [0x00; 0x00; 0xfe; 0x01; 0x00; 0x00; 0x05]) = Ok (mkMessage MT_TestMessage1 (hx [5])) /\
  serialize (ser_message (mkMessage MT_TestMessage2 (hx [5]))) = Ok (hx [0x00; 0x80; 0xff; 0x01; 0x00; 0x00; 0x05]) /\
  deserialize de_message Debug (hx [0x00; 0x80; 0xff; 0x01; 0x00; 0x00; 0x05]) = Ok (mkMessage MT_TestMessage2 (hx [5])).
Proof. run. Qed.

(** ** nx-noise/src/types.rs:439-510 *)
Example public_key_validation_test :
  map (fun k => public_key_from_bytes (hx k))
    [[0; 0; 0; 0; 0; 0; 0; 0; 0; 0; 0; 0; 0; 0; 0; 0; 0; 0; 0; 0; 0; 0; 0; 0; 0; 0; 0; 0; 0; 0; 0; 0];
     [1; 0; 0; 0; 0; 0; 0; 0; 0; 0; 0; 0; 0; 0; 0; 0; 0; 0; 0; 0; 0; 0; 0; 0; 0; 0; 0; 0; 0; 0; 0; 0];
     [224; 235; 122; 124; 59; 65; 184; 174; 22; 86; 227; 250; 241; 159; 196; 106; 218; 9; 141; 235; 156; 50; 177; 253; 134; 98; 5; 22; 95; 73; 184; 0];
     [95; 156; 149; 188; 163; 80; 140; 36; 177; 208; 177; 85; 156; 131; 239; 91; 4; 68; 92; 196; 88; 28; 142; 134; 216; 34; 78; 221; 208; 159; 17; 87];
     [236; 255; 255; 255; 255; 255; 255; 255; 255; 255; 255; 255; 255; 255; 255; 255; 255; 255; 255; 255; 255; 255; 255; 255; 255; 255; 255; 255; 255; 255; 255; 127];
     [237; 255; 255; 255; 255; 255; 255; 255; 255; 255; 255; 255; 255; 255; 255; 255; 255; 255; 255; 255; 255; 255; 255; 255; 255; 255; 255; 255; 255; 255; 255; 127];
     [238; 255; 255; 255; 255; 255; 255; 255; 255; 255; 255; 255; 255; 255; 255; 255; 255; 255; 255; 255; 255; 255; 255; 255; 255; 255; 255; 255; 255; 255; 255; 127];
     [205; 235; 122; 124; 59; 65; 184; 174; 22; 86; 227; 250; 241; 159; 196; 106; 218; 9; 141; 235; 156; 50; 177; 253; 134; 98; 5; 22; 95; 73; 184; 128];
     [76; 156; 149; 188; 163; 80; 140; 36; 177; 208; 177; 85; 156; 131; 239; 91; 4; 68; 92; 196; 88; 28; 142; 134; 216; 34; 78; 221; 208; 159; 17; 215];
     [217; 255; 255; 255; 255; 255; 255; 255; 255; 255; 255; 255; 255; 255; 255; 255; 255; 255; 255; 255; 255; 255; 255; 255; 255; 255; 255; 255; 255; 255; 255; 255];
     [218; 255; 255; 255; 255; 255; 255; 255; 255; 255; 255; 255; 255; 255; 255; 255; 255; 255; 255; 255; 255; 255; 255; 255; 255; 255; 255; 255; 255; 255; 255; 255];
     [219; 255; 255; 255; 255; 255; 255; 255; 255; 255; 255; 255; 255; 255; 255; 255; 255; 255; 255; 255; 255; 255; 255; 255; 255; 255; 255; 255; 255; 255; 255; 255]]
  = repeat (Err InvalidPublicKeyError) 12 /\
  match decode_str_32 (lit "31e0303fd6418d2f8c0e78b91f22e8caed0fbe48656dcf4767e4834f701b8f62") with
  | Ok k => public_key_from_bytes k = Ok k
  | _ => False
  end.
Proof. run. Qed.

(** ** noise/mod.rs:17-182; the authority key pair is the sample one, the clock an argument *)
Example init_signed_certificate : cert_new 0 1000 1005 d_key = Ok (mkCert 0 1000 1005 d_key).
Proof. run. Qed.
Example invalid_time_signed_certificate : is_err (cert_new 0 1005 1000 d_key) = true.
Proof. run. Qed.
Definition t_snm : Result snm := obind (cert_new 0 1000 1001 d_key) (fun c =>
  obind (authority_sign_cert (demo_ed true) d_kp c) (fun s => Ok (snm_new c s))).
Example expired_certificate_format :
  match obind t_snm (cf_new (demo_ed true) d_text d_key) with
  | Ok c => cf_verify (demo_ed true) (1000 * 10 ^ 9)%Z c = Ok tt /\ is_err (cf_verify (demo_ed true) (1001 * 10 ^ 9)%Z c) = true
  | _ => False
  end.
Proof. run. Qed.
Example invalid_pubkey :
  obind t_snm (cf_new (demo_ed true) (lit "jg9QygGzKSVyxExPrj6bSCDq93c17Krj9yq5kNQnM3GP65") d_key) = Err ParseError.
Proof. run. Qed.
(** The certificate part of noise_nx (noise/mod.rs:133-180); its handshake is the next test. *)
Example noise_nx_certificate :
  match obind (cert_new 0 1000 1100 d_key) (from_auth_key (demo_ed true) d_kp) with
  | Ok m =>
      match serialize (ser_snm m) with
      | Ok s =>
          deserialize (de_snm (demo_ed true)) Debug (s ++ repeat x00 (1024 - length s)) = Ok m /\
          match cf_new (demo_ed true) d_text d_key m with
          | Ok c => cf_verify (demo_ed true) (1000 * 10 ^ 9)%Z c = Ok tt
          | _ => False
          end
      | _ => False
      end
  | _ => False
  end.
Proof. run. Qed.

(** ** network/encryptor.rs:87-104: [de_1], [de_2], [de_3] are the three calls (NetworkProofs.de_run) *)
Example basic_handshake :
  init_handshake demo_crypto k_ei de_I0 = de_1 /\ snd de_1 = Ok de_m1 /\
  recv_handshake demo_crypto k_er de_R0 de_m1 = de_2 /\ snd de_2 = Ok (snd (fst de_2)) /\
  recv_handshake demo_crypto [] (fst de_1) (snd (fst de_2)) = de_3 /\
  is_handshake_complete (fst (fst de_3)) = true /\ is_handshake_complete (fst (fst de_2)) = true.
Proof.
  destruct de_run as [H1 [H2 H3]]. destruct de_results as (R1 & R2 & R3 & R4 & R5 & R6).
  do 6 (split; [assumption|]). assumption.
Qed.
