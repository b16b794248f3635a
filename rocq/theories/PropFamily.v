(** * PropFamily: C25 and C121 exactly: frames that two message types of one family accept; messages of any length. *)
From Verif Require Import Base Codec Types Messages Frame Catalog SpecWire SpecTypes SpecDecode Macro SpecMacro TypesFacts MsgProofs MacroProofs FamilyProofs SpecWire.
Open Scope N_scope.
Open Scope list_scope.

(** C25.  Full statement: no frame is accepted by two message types (refuted in PropFrame; only the families of the
    setup messages are concerned).  Which frames are: the job negotiation types accept exactly those frames of
    the mining types whose flags they know, and read the same. *)
Theorem C25_setup_partial : forall m, rust_slice (m_payload m) -> forall pf pf' v,
  unframe (frameable_of K_JnSetupConnection) pf m = Ok v <->
  unframe (frameable_of K_MiningSetupConnection) pf' m = Ok v /\ flags_ok JnSetupFlags (sc_flags v).
Proof. exact setups. Qed.
Print Assumptions C25_setup_partial.
Theorem C25_success_partial : forall m, rust_slice (m_payload m) -> forall pf pf' v,
  unframe (frameable_of K_JnSetupConnectionSuccess) pf m = Ok v <->
  unframe (frameable_of K_MiningSetupConnectionSuccess) pf' m = Ok v /\ scs_flags v = 0.
Proof. exact successes_both. Qed.
Print Assumptions C25_success_partial.
Theorem C25_error_partial : forall m, rust_slice (m_payload m) -> forall pf pf' v,
  unframe (frameable_of K_JnSetupConnectionError) pf m = Ok v <->
  unframe (frameable_of K_MiningSetupConnectionError) pf' m = Ok v /\ flags_ok JnSetupFlags (sce_flags v).
Proof. exact errors_both. Qed.
Print Assumptions C25_error_partial.
(** The common setup message is a protocol byte and the payload of one of the other two. *)
Theorem C25_common_partial : forall t p pf pf' c, rust_slice p ->
  (unframe (frameable_of K_CommonSetupConnection) pf (mkMessage t p) = Ok c <->
   exists rest v,
     (p = x00 :: rest /\ unframe (frameable_of K_MiningSetupConnection) pf' (mkMessage t rest) = Ok v /\ c = CSC_Mining v) \/
     (p = x01 :: rest /\ unframe (frameable_of K_JnSetupConnection) pf' (mkMessage t rest) = Ok v /\ c = CSC_JobNegotiation v)).
Proof. exact commons. Qed.
Print Assumptions C25_common_partial.

(** Flag 1 is known to both, flag 2 to mining only; the third frame is read by the common and by the mining type, as
    different messages. *)
Example C25_ex_family :
  let body := [x02; x00; x02; x00; x01; x00; x00; x00; x00; x00; x00; x01; x41; x00; x01; x42; x00] in
  let other := [x02; x00; x02; x00; x02; x00; x00; x00; x00; x00; x00; x01; x41; x00; x01; x42; x00] in
  let both := [x00; x02; x00; x02; x00; x00; x00; x00; x00; x00; x00; x01; x01; x00; x01; x01; x01; x41; x00] in
  unframe (frameable_of K_JnSetupConnection) Debug (mkMessage MT_SetupConnection body) =
    unframe (frameable_of K_MiningSetupConnection) Debug (mkMessage MT_SetupConnection body) /\
  (exists v, unframe (frameable_of K_JnSetupConnection) Debug (mkMessage MT_SetupConnection body) = Ok v) /\
  unframe (frameable_of K_JnSetupConnection) Debug (mkMessage MT_SetupConnection other) = Err UnknownFlags /\
  (exists v, unframe (frameable_of K_MiningSetupConnection) Debug (mkMessage MT_SetupConnection other) = Ok v) /\
  (exists v, unframe (frameable_of K_CommonSetupConnection) Debug (mkMessage MT_SetupConnection both) = Ok v) /\
  (exists v, unframe (frameable_of K_MiningSetupConnection) Debug (mkMessage MT_SetupConnection both) = Ok v).
Proof.
  cbv zeta. split; [vm_compute; reflexivity|]. split; [eexists; vm_compute; reflexivity|]. split; [vm_compute; reflexivity|].
  split; [eexists; vm_compute; reflexivity|]. split; [eexists; vm_compute; reflexivity|eexists; vm_compute; reflexivity].
Qed.

(** C121.  Full statement: every message that is framed can be serialized (refuted in PropMacro).  Every length: what
    counts is the length of the image modulo 2^32; where that fits 24 bits the frame is written with the whole image,
    announcing only the low 24 bits of its length. *)
Theorem C121_every_length_partial : forall ts M (open : M -> fields ts) (new : fields ts -> Result M) T m,
  fields_ok ts (open m) ->
  let announced := len (fields_lay ts (open m)) mod 2 ^ 32 in
  exists fr, frame (im_frameable ts open new T) m = Ok fr /\ m_type fr = T /\ wire (m_payload fr) = fields_lay ts (open m) /\
    (16777215 < announced -> forall W (wr : writer W) w, run wr (ser_message fr) w = (w, Err RequirementError)) /\
    (announced <= 16777215 -> exists enc, wire enc = frame_layout fr /\
       forall w, run vec_writer (ser_message fr) w = (w ++ enc, Ok (6 + len (fields_lay ts (open m))))).
Proof. exact frame_lengths. Qed.
Print Assumptions C121_every_length_partial.
(** A message of 256 vectors of 2^24 - 1 bytes, each with 3 bytes of length, is 512 bytes longer than 2^32: it is framed
    and written, and announces 512 bytes. *)
Example C121_ex_lengths : exists ts (v : fields ts), fields_ok ts v /\ len (fields_lay ts v) = 2 ^ 32 + 512.
Proof. exact long_message. Qed.
