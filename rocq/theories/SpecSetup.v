(** * SpecSetup: versions of a setup message. *)
From Verif Require Import Base Messages.
Local Open Scope N_scope.

(** The same setup message with other versions. *)
Definition with_versions (mi ma : N) (m : setup_connection) : setup_connection :=
  mkSC mi ma (sc_flags m) (sc_endpoint_host m) (sc_endpoint_port m) (sc_vendor m) (sc_hardware_version m)
    (sc_firmware m) (sc_device_id m).
