(** * PoolProofs: the pool of examples/setup_connection.rs on arbitrary input. *)
From Coq Require Import ZArith Lia ZifyBool ZifyNat ZifyN.
From Verif Require Import Base Codec Types Messages Frame Catalog SpecWire SpecTypes SpecDecode BaseFacts CodecFacts TypesFacts MessagesFacts
  FrameFacts CodecProofs MsgProofs TypesProofs FrameProofs DecodeProofs
  Network Apps AppProofs SpecPool.
Open Scope N_scope.

Lemma read_padded : forall bs, padded bs (read_1024 bs).
Proof.
  intros bs. unfold padded. exists (firstn 1024 bs), (repeat x00 (1024 - length bs)).
  split; [reflexivity|]. split.
  { unfold read_1024. rewrite len_app. unfold len. rewrite firstn_length, repeat_length. lia. }
  split; [apply Forall_forall; intros x Hx; exact (repeat_spec _ _ _ Hx)|].
  destruct (N.le_gt_cases (len bs) 1024) as [L|L].
  - left. split; [|exact L]. symmetry. apply firstn_all2. unfold len in L. lia.
  - right. split; [|exists (skipn 1024 bs); symmetry; apply firstn_skipn].
    replace (1024 - length bs)%nat with 0%nat by (unfold len in L; lia). reflexivity.
Qed.
Lemma frame_outcome : forall pf bs, rust_slice bs ->
  match spec_decode_frame bs with
  | Ok (m, n) => deserialize de_message pf bs = Ok m
  | Err e => deserialize de_message pf bs = Err e
  | Panic => False
  end.
Proof.
  intros pf bs Hs. pose proof (frame_table pf [] bs Hs) as T. unfold deserialize.
  change (mkParser bs 0) with (cursor [] bs).
  destruct (spec_decode_frame bs) as [[m n]|e|]; [rewrite T; reflexivity|exact T|exact T].
Qed.
Lemma frame_payload_slice : forall bs m n, rust_slice bs -> spec_decode_frame bs = Ok (m, n) -> rust_slice (m_payload m).
Proof.
  intros bs m n Hs H. unfold spec_decode_frame in H. destruct (wire bs) as [|e0 [|e1 [|c w]]]; try discriminate.
  destruct (spec_lookup _ _); [|discriminate]. destruct (negb _); [discriminate|].
  destruct (_ <? 3); [discriminate|]. destruct (_ <? _); [discriminate|].
  apply (f_equal (fun r => match r with Ok (m, _) => m_payload m | _ => [] end)) in H. cbn [m_payload] in H. rewrite <- H.
  unfold rust_slice, len in *. rewrite firstn_length, skipn_length. lia.
Qed.

Lemma reply_bytes : forall v flags, u16_ok v -> flags_ok MiningSuccessFlags flags -> exists reply,
  obind (unwrap (frame (frameable_of K_MiningSetupConnectionSuccess) (mkSCS v flags))) (fun f =>
  obind (unwrap (serialize (ser_message f))) (fun bs => Ok (Some bs))) = Ok (Some reply) :> Result _ /\
  wire reply = success_frame v flags.
Proof.
  intros v flags Hv Hf.
  assert (HS : msg_ok K_MiningSetupConnectionSuccess (mkSCS v flags)) by (split; assumption).
  destruct (framed _ _ HS) as (fr & enc & F & T & P & U & S & LE & _).
  exists enc. rewrite F. cbn [unwrap obind]. rewrite S. cbn [unwrap obind]. split; [reflexivity|].
  assert (LP : len (m_payload fr) = 6).
  { rewrite <- len_wire, P. cbn [layout]. cbn [scs_used_version scs_flags]. unfold spec_le. reflexivity. }
  destruct (frame_len fr enc ltac:(lia) S) as (_ & W). rewrite W. unfold frame_layout. rewrite T, P, LP. reflexivity.
Qed.

Lemma csc_min_u16 : forall bs v left, reading_of K_CommonSetupConnection bs (Ok (CSC_Mining v, left)) -> rust_slice bs ->
  u16_ok (sc_min_version v).
Proof.
  intros bs v left R Hs. destruct (decode_outcome K_CommonSetupConnection Debug bs Hs) as (D & _).
  assert (X : deserialize (fr_de (frameable_of K_CommonSetupConnection)) Debug bs = Ok (CSC_Mining v)) by (apply D; eauto).
  assert (M : msg_ok K_CommonSetupConnection (CSC_Mining v)) .
  { unfold deserialize in X. change (mkParser bs 0) with (cursor [] bs) in X.
    destruct (fr_de (frameable_of K_CommonSetupConnection) Debug (cursor [] bs)) as [p r] eqn:Y. cbn [snd] in X. subst r.
    destruct (decode_canonical (T_msg K_CommonSetupConnection) Debug [] bs p (CSC_Mining v)) as (c & rest & _ & _ & O & _);
      [discriminate|exact Hs|exact Y|exact O]. }
  apply mining_min, M.
Qed.

Lemma pool_exact : forall pf flags buffer, rust_slice buffer -> flags_ok MiningSuccessFlags flags ->
  pool_does flags buffer (sc_pool_recv pf flags buffer) /\
  forall r, pool_does flags buffer r -> r = sc_pool_recv pf flags buffer.
Proof.
  intros pf flags buffer Hs Hf. pose proof (frame_outcome pf buffer Hs) as F.
  assert (MAIN : pool_does flags buffer (sc_pool_recv pf flags buffer)).
  { unfold sc_pool_recv. destruct (spec_decode_frame buffer) as [[m n]|e|] eqn:S; [| |contradiction].
    2:{ rewrite F. eapply pool_bad_frame, S. }
    rewrite F. cbn [unwrap obind].
    destruct (mt_eqb (m_type m) MT_SetupConnection) eqn:T.
    2:{ assert (N : m_type m <> MT_SetupConnection) by (intros N; apply mt_eqb_iff in N; congruence).
        assert (E : forall A (a b : A), match m_type m with MT_SetupConnection => a | _ => b end = b)
          by (intros; destruct (m_type m); try reflexivity; destruct (N eq_refl)).
        rewrite E. eapply pool_other_type; eauto. }
    apply mt_eqb_iff in T. rewrite T.
    pose proof (frame_payload_slice _ _ _ Hs S) as Hp.
    destruct (unframe_outcome K_CommonSetupConnection pf m Hp (eq_sym T)) as (UO & UE).
    destruct (decode_outcome K_CommonSetupConnection pf (m_payload m) Hp) as (_ & _ & NP).
    cbn [msg_of] in *.
    destruct (unframe (frameable_of K_CommonSetupConnection) pf m) as [v|e|] eqn:U.
    - destruct (proj1 (UO v) U) as (lf & R). cbn [frameable_of msg_of] in U |- *. rewrite U. cbn [unwrap obind]. destruct v as [v|v].
      + cbn [scs_new unwrap obind].
        destruct (reply_bytes (sc_min_version v) flags (csc_min_u16 _ _ _ R Hp) Hf) as (reply & E & W).
        match goal with |- pool_does _ _ ?X => assert (G : X = Ok (Some reply)) by exact E; rewrite G end.
        eapply pool_mining; eauto.
      + eapply pool_job_negotiation; eauto.
    - assert (UX := proj1 (UE e) U). cbn [frameable_of msg_of] in U |- *. rewrite U. cbn [unwrap obind]. eapply pool_bad_message; eauto.
    - exfalso. apply NP. unfold unframe in U. rewrite T in U. exact U. }
  split; [exact MAIN|]. generalize dependent (sc_pool_recv pf flags buffer). intros r0 R0 r R. clear F.
  destruct R0, R; try reflexivity;
    repeat match goal with
    | A : spec_decode_frame buffer = _, B : spec_decode_frame buffer = _ |- _ => rewrite A in B; clear A
    end; try discriminate;
    match goal with H : Ok _ = Ok _ |- _ => apply (f_equal (fun r => match r with Ok (m, _) => Some m | _ => None end)) in H;
      cbn beta iota in H; apply (f_equal (fun o => match o with Some m => m | None => mkMessage MT_SetupConnection [] end)) in H; cbn beta iota in H; subst end; try contradiction;
    match goal with A : reading_of _ _ ?x, B : reading_of _ _ ?y |- _ =>
      pose proof (reading_single _ _ _ _ A B) as EQ; try discriminate EQ end.
  injection EQ as EQ1 EQ2. subst. f_equal. f_equal. apply wire_inj. congruence.
Qed.

Lemma pool_on_read : forall pf flags bs, flags_ok MiningSuccessFlags flags ->
  padded bs (read_1024 bs) /\ pool_does flags (read_1024 bs) (sc_pool_recv pf flags (read_1024 bs)) /\
  forall r, pool_does flags (read_1024 bs) r -> r = sc_pool_recv pf flags (read_1024 bs).
Proof.
  intros pf flags bs Hf. split; [apply read_padded|]. apply pool_exact; [|exact Hf].
  apply slice_1024. destruct (read_padded bs) as (_ & _ & _ & X & _). lia.
Qed.
Lemma pool_dies : forall pf flags, exists bs, sc_pool_recv pf flags (read_1024 bs) = Panic.
Proof. intros pf flags. exists []. destruct pf; vm_compute; reflexivity. Qed.
