(** * SpecPool: what the pool of examples/setup_connection.rs does with the bytes it has read. *)
From Verif Require Import Base Types Messages Frame SpecWire SpecTypes SpecDecode.

(** The bytes of the buffer of 1024 zeros after [bs] has been read into it. *)
Definition padded (bs buffer : bytes) : Prop :=
  exists taken zeros, buffer = taken ++ zeros /\ len buffer = 1024 /\ Forall (fun b => b = x00) zeros /\
    ((bs = taken /\ len bs <= 1024) \/ (zeros = [] /\ exists lost, bs = taken ++ lost)).

(** The answer: SetupConnectionSuccess, 6 bytes long, with the version and the flags. *)
Definition success_frame (version flags : N) : list N :=
  [0; 0; 1; 6; 0; 0] ++ spec_le 2 version ++ spec_le 4 flags.

Inductive pool_does (flags : N) (buffer : bytes) : Result (option bytes) -> Prop :=
| pool_bad_frame : forall e, spec_decode_frame buffer = Err e -> pool_does flags buffer Panic
| pool_other_type : forall m n, spec_decode_frame buffer = Ok (m, n) -> m_type m <> MT_SetupConnection ->
    pool_does flags buffer (Ok None)
| pool_bad_message : forall m n e, spec_decode_frame buffer = Ok (m, n) -> m_type m = MT_SetupConnection ->
    reading_of K_CommonSetupConnection (m_payload m) (Err e) -> pool_does flags buffer Panic
| pool_mining : forall m n v left reply, spec_decode_frame buffer = Ok (m, n) -> m_type m = MT_SetupConnection ->
    reading_of K_CommonSetupConnection (m_payload m) (Ok (CSC_Mining v, left)) ->
    wire reply = success_frame (sc_min_version v) flags -> pool_does flags buffer (Ok (Some reply))
| pool_job_negotiation : forall m n v left, spec_decode_frame buffer = Ok (m, n) -> m_type m = MT_SetupConnection ->
    reading_of K_CommonSetupConnection (m_payload m) (Ok (CSC_JobNegotiation v, left)) ->
    pool_does flags buffer (Ok None).

(** How many bytes of the frame of a mining SetupConnection come before the length byte of the firmware string
    and before that of the device id. *)
Definition firmware_at (v : setup_connection) : N :=
  20 + len (str0_data (sc_endpoint_host v)) + len (str0_data (sc_vendor v)) + len (str0_data (sc_hardware_version v)).
Definition device_at (v : setup_connection) : N := firmware_at v + 1 + len (str0_data (sc_firmware v)).
(** What is left of a string with its length byte at position [start] of a frame cut after [i] bytes. *)
Definition remains (start i : N) (s : str0) : bytes := firstn (N.to_nat (i - start - 1)) (str0_data s).
