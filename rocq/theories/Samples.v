(** * Samples: concrete values used by the Examples. *)
From Verif Require Import Base Codec Types Messages Frame Catalog SpecWire SpecTypes
  BaseFacts CodecFacts Utf8Facts TypesFacts MessagesFacts.
From Coq Require Import Strings.String.
Open Scope N_scope.

Definition s_host : bytes := lit "0.0.0.0".
Definition s_vendor : bytes := lit "Bitmain".
Definition s_hw : bytes := lit "S9i 13.5".
Definition s_fw : bytes := lit "braiins-os-2018-09-22-1-hash".
Definition s_dev : bytes := [].

Definition sample_sc : setup_connection :=
  mkSC 2 3 5 (mk_str s_host) 8545 (mk_str s_vendor) (mk_str s_hw) (mk_str s_fw) (mk_str s_dev).

Lemma sample_sc_ok : sc_ok MiningSetupFlags sample_sc.
Proof.
  assert (U : forall s, utf8_valid s = true -> len s <= 255 -> str_ok 255 (mk_str s)).
  { intros s H1 H2. apply str_ok_mk; [apply utf8_valid_iff; exact H1|exact H2]. }
  unfold sc_ok, sample_sc. cbn [sc_min_version sc_max_version sc_flags sc_endpoint_host sc_endpoint_port
    sc_vendor sc_hardware_version sc_firmware sc_device_id].
  split; [reflexivity|]. split; [reflexivity|].
  split; [apply (proj1 (flags_from_bits_iff MiningSetupFlags 5 5)); reflexivity|].
  split; [apply U; [reflexivity|vm_compute; discriminate]|]. split; [reflexivity|].
  split; [apply U; [reflexivity|vm_compute; discriminate]|].
  split; [apply U; [reflexivity|vm_compute; discriminate]|].
  split; [apply U; [reflexivity|vm_compute; discriminate]|].
  split; [apply U; [reflexivity|vm_compute; discriminate]|].
  split; [vm_compute; discriminate|]. split; [vm_compute; discriminate|].
  split; discriminate.
Qed.

Definition sample_scs : setup_connection_success := mkSCS 2 1.
Definition sample_target : bytes := repeat x2a 32.
Definition sample_uc : update_channel := mkUC 7 0x41460000 sample_target. (* 12.375 *)
Lemma sample_uc_ok : msg_ok K_UpdateChannel sample_uc.
Proof. repeat split. Qed.

(** é (two bytes), € (three bytes), U+1F600 (four bytes). *)
Definition sample_utf8 : bytes := [xc3; xa9; xe2; x82; xac; xf0; x9f; x98; x80].
Lemma sample_utf8_text : utf8_text sample_utf8.
Proof. apply utf8_valid_iff. reflexivity. Qed.

Definition sample_frame : message := mkMessage MT_ChannelEndpointChanged [x07; x00; x00; x00].
