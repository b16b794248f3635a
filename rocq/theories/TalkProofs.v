(** * TalkProofs: lemmas behind PropTalk. *)
From Coq Require Import Lia ZifyBool ZifyNat ZifyN.
From Verif Require Import Base BaseFacts Codec CodecFacts Types Messages Frame Catalog SpecWire SpecTypes SpecTalk Utf8Facts TypesFacts MessagesFacts FrameFacts
  CodecProofs MsgProofs TypesProofs FrameProofs Samples Noise SpecNoise SpecSession NoiseClaims NetProofs SessionClaims.
Local Open Scope N_scope.
Local Open Scope list_scope.

Lemma lay_str_len : forall s, str_ok 255 s -> len (lay_str s) <= 1 + 255.
Proof. intros s (_ & H & _). unfold lay_str. rewrite len_app, len_spec_le, len_wire. lia. Qed.
Lemma lay_b0_len : forall v, b0_ok 32 v -> len (lay_b0 1 v) <= 1 + 32.
Proof. intros v (H & _). unfold lay_b0. rewrite len_app, len_spec_le, len_wire. lia. Qed.
Lemma u256_layout : forall v, u256_ok v -> len (wire v) = 32.
Proof. intros v H. rewrite len_wire. unfold len. rewrite H. reflexivity. Qed.
Lemma lay_sc_len : forall fs m, sc_ok fs m -> len (lay_sc m) <= 2 + 2 + 4 + 2 + 5 * (1 + 255).
Proof.
  intros fs m (_ & _ & _ & H1 & _ & H2 & H3 & H4 & H5 & _). unfold lay_sc. rewrite !len_app, !len_spec_le.
  apply lay_str_len in H1, H2, H3, H4, H5. lia.
Qed.
Lemma layout_len : forall k m, msg_ok k m -> 6 + len (layout k m) <= longest k.
Proof.
  intros k m H. destruct k; cbn [msg_ok layout longest] in *.
  - destruct m as [v|v]; rewrite len_app; apply lay_sc_len in H; change (len [0]) with 1; change (len [1]) with 1; lia.
  - apply lay_sc_len in H. lia.
  - rewrite !len_app, !len_spec_le. lia.
  - rewrite !len_app, !len_spec_le. destruct (sce_error_code m); vm_compute; discriminate.
  - apply lay_sc_len in H. lia.
  - rewrite !len_app, !len_spec_le. lia.
  - rewrite !len_app, !len_spec_le. destruct (sce_error_code m); vm_compute; discriminate.
  - rewrite !len_spec_le. lia.
  - destruct H as (_ & S & _ & T). apply lay_str_len in S. rewrite !len_app, !len_spec_le, u256_layout by exact T. lia.
  - destruct H as (_ & _ & T & B & _). apply lay_b0_len in B. rewrite !len_app, !len_spec_le, u256_layout by exact T. lia.
  - rewrite !len_app, !len_spec_le. destruct (omce_error_code m); vm_compute; discriminate.
  - destruct H as (_ & S & _ & T & _). apply lay_str_len in S. rewrite !len_app, !len_spec_le, u256_layout by exact T. lia.
  - destruct H as (_ & _ & T & _ & B). apply lay_b0_len in B. rewrite !len_app, !len_spec_le, u256_layout by exact T. lia.
  - rewrite !len_app, !len_spec_le. destruct (omce_error_code m); vm_compute; discriminate.
  - destruct H as (_ & _ & T). rewrite !len_app, !len_spec_le, u256_layout by exact T. lia.
Qed.
Lemma said_frame : forall m, proper m -> exists pt, carries m pt /\ len pt = 6 + len (layout (projT1 m) (projT2 m)) /\ understood m pt /\
  forall pt', carries m pt' -> pt' = pt.
Proof.
  intros [k m] P. unfold proper in P. cbn [projT1 projT2] in *. apply constructed_iff in P.
  destruct (frame_ok k m P) as (bs & Hw & Hl & Hf).
  destruct (frame_unframe k m P) as (fr & Hf' & Hu & enc & Hs & Hd). rewrite Hf in Hf'. injection Hf' as <-.
  destruct (frame_serialized (mkMessage (fr_type (frameable_of k)) bs)) as (enc' & Hw' & Hr); [cbn [m_payload]; lia|].
  assert (E : enc' = enc).
  { unfold serialize in Hs. specialize (Hr []). rewrite Hr in Hs. cbn [app] in Hs. injection Hs as Hs. exact Hs. }
  subst enc'. exists enc. split; [exists (mkMessage (fr_type (frameable_of k)) bs); split; [exact Hf|exact Hs]|]. split; [|split].
  - rewrite <- len_wire, Hw'. unfold frame_layout. cbn [m_payload m_type].
    destruct (spec_code _) as [c b]. rewrite !len_app, len_spec_le, Hw. destruct b; unfold len at 1 2; cbn [length]; lia.
  - intros pf rest Hb. cbn [projT1 projT2]. exists (mkMessage (fr_type (frameable_of k)) bs). split; [|apply Hu].
    unfold deserialize. rewrite cursor_0. rewrite (Hd pf [] rest Hb). reflexivity.
  - intros pt' (fr & F & S). cbn [projT1 projT2] in *. rewrite Hf in F. injection F as <-. rewrite Hs in S. injection S as <-. reflexivity.
Qed.
Theorem longest_bound : forall m pt, proper m -> carries m pt -> len pt <= longest (projT1 m).
Proof.
  intros m pt P C. destruct (said_frame m P) as (pt' & _ & L & _ & U). rewrite (U _ C), L. apply layout_len.
  apply constructed_iff. exact P.
Qed.
Lemma longest_small : forall k, longest k <= 1297.
Proof. intros []; vm_compute; discriminate. Qed.
Theorem every_message_framed : forall m, proper m -> exists pt, carries m pt /\ understood m pt.
Proof. intros m P. destruct (said_frame m P) as (pt & C & _ & U & _). eauto. Qed.

(** ** A conversation *)
Lemma Forall2_length : forall A B (R : A -> B -> Prop) l l', Forall2 R l l' -> length l = length l'.
Proof. intros A B R l l' F. induction F; cbn [length]; congruence. Qed.
Lemma carried_understood : forall ms pts, Forall proper ms -> Forall2 carries ms pts -> Forall2 understood ms pts.
Proof.
  intros ms pts P F. induction F as [|m pt ms pts C F IH]; [constructor|]. inversion P; subst. constructor; [|auto].
  destruct (said_frame m H1) as (pt' & _ & _ & U & Q). rewrite (Q _ C). exact U.
Qed.
Lemma carried_short : forall ms pts, Forall proper ms -> Forall2 carries ms pts -> Forall (fun pt => len pt <= 65519) pts.
Proof.
  intros ms pts P F. induction F as [|m pt ms pts C F IH]; [constructor|]. inversion P; subst. constructor; [|auto].
  pose proof (longest_bound m pt H1 C). pose proof (longest_small (projT1 m)). lia.
Qed.
Lemma sends_sized : forall es, Forall (fun pt => len pt <= 65519) (i_sends es) -> Forall (fun pt => len pt <= 65519) (r_sends es) -> Forall sized es.
Proof.
  induction es as [|e es IH]; [constructor|]. intros A B. unfold i_sends, r_sends in A, B. cbn [flat_map] in A, B.
  apply Forall_app in A as [A1 A2]. apply Forall_app in B as [B1 B2]. constructor; [|apply IH; assumption].
  destruct e; cbn [sized]; try exact I; [inversion A1|inversion B1]; assumption.
Qed.
Theorem conversation : forall C, crypto_ok C -> forall I R es mi mr, completed C I R ->
  cs_k (se_cs1 I) <> zeros32 -> cs_k (se_cs2 I) <> zeros32 ->
  Forall proper mi -> Forall proper mr -> Forall2 carries mi (i_sends es) -> Forall2 carries mr (r_sends es) ->
  (forall l, ~ In (IRekey l) es) -> len mi <= 2 ^ 64 - 1 -> len mr <= 2 ^ 64 - 1 ->
  let n := net_run C (net_start I R) es in
  exists gr wi gi wr, mi = gr ++ wi /\ Forall2 understood gr (n_got_r n) /\ length wi = packets (n_ir n) /\
                      mr = gi ++ wr /\ Forall2 understood gi (n_got_i n) /\ length wr = packets (n_ri n).
Proof.
  intros C OK I R es mi mr HC K1 K2 P1 P2 F1 F2 NR L1 L2 n.
  assert (X : len (i_sends es) = len mi) by (unfold len; f_equal; symmetry; eapply Forall2_length, F1).
  assert (Y : len (r_sends es) = len mr) by (unfold len; f_equal; symmetry; eapply Forall2_length, F2).
  destruct (channel_no_rekey C OK I R es HC K1 K2) as (_ & _ & pi & pr & E1 & W1 & E2 & W2); try lia; auto.
  { apply sends_sized; [apply (carried_short mi)|apply (carried_short mr)]; assumption. }
  fold n in E1, W1, E2, W2.
  pose proof (carried_understood _ _ P1 F1) as U1. pose proof (carried_understood _ _ P2 F2) as U2.
  rewrite E1 in U1. rewrite E2 in U2.
  apply Forall2_app_inv_r in U1 as (gr & wi & A1 & B1 & C1). apply Forall2_app_inv_r in U2 as (gi & wr & A2 & B2 & C2).
  exists gr, wi, gi, wr. split; [exact C1|]. split; [exact A1|]. split; [rewrite <- W1; eapply Forall2_length, B1|].
  split; [exact C2|]. split; [exact A2|]. rewrite <- W2. eapply Forall2_length, B2.
Qed.

(** ** The longest of each kind *)
Definition text255 : bytes := repeat x61 255.
Lemma text255_ok : str_ok 255 (mk_str text255).
Proof. apply str_ok_mk; [apply utf8_valid_iff; vm_compute; reflexivity|vm_compute; discriminate]. Qed.
Definition long_sc : setup_connection :=
  mkSC 2 2 0 (mk_str text255) 0 (mk_str text255) (mk_str text255) (mk_str text255) (mk_str text255).
Definition long_msg (k : kind) : msg_of k :=
  match k with
  | K_CommonSetupConnection => CSC_Mining long_sc
  | K_MiningSetupConnection | K_JnSetupConnection => long_sc
  | K_MiningSetupConnectionSuccess | K_JnSetupConnectionSuccess => mkSCS 2 0
  | K_MiningSetupConnectionError | K_JnSetupConnectionError => mkSCE 0 ProtocolVersionMismatch
  | K_ChannelEndpointChanged => mkCEC 0
  | K_OpenStandardMiningChannel => mkOSMC 0 (mk_str text255) 0 (repeat x00 32)
  | K_OpenStandardMiningChannelSuccess => mkOSMCS 0 0 (repeat x00 32) (mkB0 32 (repeat x00 32)) 0
  | K_OpenExtendedMiningChannel => mkOEMC 0 (mk_str text255) 0 (repeat x00 32) 0
  | K_OpenExtendedMiningChannelSuccess => mkOEMCS 0 0 (repeat x00 32) 0 (mkB0 32 (repeat x00 32))
  | K_OpenStandardMiningChannelError | K_OpenExtendedMiningChannelError => mkOMCE 0 MaxTargetOutOfRange
  | K_UpdateChannel => mkUC 0 0 (repeat x00 32)
  end.
Lemma no_flags : forall fs, flags_ok fs 0.
Proof. intros fs i H. rewrite N.bits_0 in H. discriminate. Qed.
Lemma long_sc_ok : forall fs, sc_ok fs long_sc.
Proof.
  intro fs. unfold sc_ok, long_sc. cbn [sc_min_version sc_max_version sc_flags sc_endpoint_host sc_endpoint_port
      sc_vendor sc_hardware_version sc_firmware sc_device_id].
  pose proof text255_ok as T. split; [reflexivity|]. split; [reflexivity|]. split; [apply no_flags|]. do 2 (split; [exact T || reflexivity|]).
  do 4 (split; [exact T|]). split; [vm_compute; discriminate|]. split; [vm_compute; discriminate|]. split; discriminate.
Qed.
Lemma long_ok : forall k, msg_ok k (long_msg k).
Proof.
  pose proof text255_ok as T. pose proof no_flags as F.
  assert (B : b0_ok 32 (mkB0 32 (repeat x00 32))) by (split; [vm_compute; discriminate|reflexivity]).
  intros []; cbn [msg_ok long_msg osmc_user_identity oemc_user_identity osmcs_extranonce_prefix oemcs_extranonce_prefix scs_flags sce_flags];
    try exact (long_sc_ok _); try (unfold u32_ok; reflexivity).
  - split; [reflexivity|apply F].
  - split; [apply F|discriminate].
  - split; [reflexivity|apply F].
  - split; [apply F|discriminate].
  - split; [reflexivity|]. split; [exact T|]. split; reflexivity.
  - do 3 (split; [reflexivity|]). split; [exact B|reflexivity].
  - split; [reflexivity|]. split; [exact T|]. repeat (split; [reflexivity|]). reflexivity.
  - do 4 (split; [reflexivity|]). exact B.
  - do 2 (split; [reflexivity|]). reflexivity.
Qed.
Theorem longest_attained : forall k, exists m pt, constructed k m /\ carries (existT _ k m) pt /\ len pt = longest k.
Proof.
  intro k. exists (long_msg k). assert (P : constructed k (long_msg k)) by (apply constructed_iff, long_ok).
  destruct (said_frame (existT _ k (long_msg k)) P) as (pt & C & L & _ & _). exists pt. split; [exact P|]. split; [exact C|].
  rewrite L. cbn [projT1 projT2]. destruct k; vm_compute; reflexivity.
Qed.
