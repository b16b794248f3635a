(** * PartialProofs: exact complements of refuted claims (C28, C38). *)
From Coq Require Import Lia ZifyBool ZifyNat ZifyN ZArith.
From Verif Require Import Base Codec Types Messages Frame Catalog Certs SpecWire SpecTypes SpecCerts SpecSetup BaseFacts CodecProofs MsgProofs
  TypesProofs FrameProofs CertProofs.
Local Open Scope N_scope.

Lemma versions_ok : forall fs m mi ma, sc_ok fs m -> mi < 2 ^ 16 -> ma < 2 ^ 16 ->
  (sc_ok fs (with_versions mi ma m) <-> 2 <= mi /\ 2 <= ma).
Proof.
  intros fs m mi ma (A1 & A2 & A3 & A4 & A5 & A6 & A7 & A8 & A9 & A10 & A11 & A12 & A13) H1 H2. unfold sc_ok, with_versions.
  cbn [sc_min_version sc_max_version sc_flags sc_endpoint_host sc_endpoint_port sc_vendor sc_hardware_version sc_firmware sc_device_id].
  split; [intro H; decompose [and] H; split; assumption|]. intros [L1 L2]. do 2 (split; [assumption|]). tauto.
Qed.

Lemma mining_versions : forall m mi ma, constructed K_MiningSetupConnection m -> mi < 2 ^ 16 -> ma < 2 ^ 16 ->
  (constructed K_MiningSetupConnection (with_versions mi ma m) <-> 2 <= mi /\ 2 <= ma) /\
  (2 <= mi -> 2 <= ma -> exists enc, serialize (ser_sc (with_versions mi ma m)) = Ok enc /\
     forall pf rest, rust_slice (enc ++ rest) ->
       deserialize (de_sc MiningSetupFlags) pf (enc ++ rest) = Ok (with_versions mi ma m)).
Proof.
  intros m mi ma H H1 H2. apply constructed_iff in H. pose proof (versions_ok MiningSetupFlags m mi ma H H1 H2) as V.
  split; [rewrite (constructed_iff K_MiningSetupConnection (with_versions mi ma m)); exact V|]. intros L1 L2.
  destruct (roundtrip (T_msg K_MiningSetupConnection) (with_versions mi ma m) (proj2 V (conj L1 L2))) as (enc & _ & A & _ & B).
  exists enc. split; [exact A|]. intros pf rest R. unfold deserialize.
  specialize (B pf [] rest R). exact (f_equal snd B).
Qed.
Lemma jn_versions : forall m mi ma, constructed K_JnSetupConnection m -> mi < 2 ^ 16 -> ma < 2 ^ 16 ->
  (constructed K_JnSetupConnection (with_versions mi ma m) <-> 2 <= mi /\ 2 <= ma) /\
  (2 <= mi -> 2 <= ma -> exists enc, serialize (ser_sc (with_versions mi ma m)) = Ok enc /\
     forall pf rest, rust_slice (enc ++ rest) ->
       deserialize (de_sc JnSetupFlags) pf (enc ++ rest) = Ok (with_versions mi ma m)).
Proof.
  intros m mi ma H H1 H2. apply constructed_iff in H. pose proof (versions_ok JnSetupFlags m mi ma H H1 H2) as V.
  split; [rewrite (constructed_iff K_JnSetupConnection (with_versions mi ma m)); exact V|]. intros L1 L2.
  destruct (roundtrip (T_msg K_JnSetupConnection) (with_versions mi ma m) (proj2 V (conj L1 L2))) as (enc & _ & A & _ & B).
  exists enc. split; [exact A|]. intros pf rest R. unfold deserialize.
  specialize (B pf [] rest R). exact (f_equal snd B).
Qed.

Lemma when_accepted : forall E c, sn_not_valid_after (cf_message c) < 2 ^ 32 ->
  exists signed, wire signed = cert_layout (sn_version (cf_message c)) (sn_valid_from (cf_message c))
                                 (sn_not_valid_after (cf_message c)) (cf_static c) /\
  forall now, cf_verify E now c = Ok tt <->
    ed_verify E (cf_authority c) signed (sn_signature (cf_message c)) = true /\
    exists cycle, (0 <= cycle /\ cycle * 2 ^ 32 * 10 ^ 9 <= now <
                   (cycle * 2 ^ 32 + Z.of_N (sn_not_valid_after (cf_message c))) * 10 ^ 9)%Z.
Proof.
  intros E c Hn. 
  destruct (verify_iff E 0 c) as (signed & W & _). exists signed. split; [exact W|]. intro now.
  destruct (verify_iff E now c) as (signed' & W' & A & B & D).
  assert (signed' = signed) by (apply wire_inj; congruence). subst signed'. clear W W'.
  set (e := sn_not_valid_after (cf_message c)) in *. clearbody e.
  assert (K : (0 <= now)%Z -> (Z.to_N (now / 10 ^ 9) mod 2 ^ 32 < e <->
     exists cycle, (0 <= cycle /\ cycle * 2 ^ 32 * 10 ^ 9 <= now < (cycle * 2 ^ 32 + Z.of_N e) * 10 ^ 9)%Z)).
  { intro P. set (s := (now / 10 ^ 9)%Z).
    assert (S0 : (0 <= s)%Z) by (apply Z.div_pos; lia).
    assert (S1 : (s * 10 ^ 9 <= now < (s + 1) * 10 ^ 9)%Z).
    { pose proof (Z.div_mod now (10 ^ 9) ltac:(lia)). pose proof (Z.mod_pos_bound now (10 ^ 9) ltac:(lia)). fold s in H. lia. }
    assert (M : Z.of_N (Z.to_N s mod 2 ^ 32) = (s mod 2 ^ 32)%Z) by (rewrite N2Z.inj_mod, Z2N.id by lia; reflexivity).
    clearbody s. split.
    - intro L. exists (s / 2 ^ 32)%Z. pose proof (Z.div_mod s (2 ^ 32) ltac:(lia)). pose proof (Z.div_pos s (2 ^ 32) S0 ltac:(lia)).
      pose proof (Z.mod_pos_bound s (2 ^ 32) ltac:(lia)). set (q := (s / 2 ^ 32)%Z) in *. set (r := (s mod 2 ^ 32)%Z) in *.
      clearbody q r. assert (r < Z.of_N e)%Z by lia. split; [assumption|]. lia.
    - intros (q & Q0 & Q1 & Q2). assert (R : (s mod 2 ^ 32 = s - q * 2 ^ 32)%Z).
      { rewrite <- (Z.mod_unique s (2 ^ 32) q (s - q * 2 ^ 32)) by lia. reflexivity. }
      lia. }
  destruct (Z.ltb_spec now 0) as [P|P].
  - rewrite (A P). split; [discriminate|]. intros (_ & q & Q0 & Q1 & Q2). exfalso. nia.
  - specialize (K P). specialize (B P). specialize (D P).
    destruct (N.lt_ge_cases (Z.to_N (now / 10 ^ 9) mod 2 ^ 32) e) as [L|L].
    + rewrite (D L). destruct (ed_verify E _ _ _); split; try discriminate; try tauto; intros [X _]; discriminate X.
    + rewrite (B L). split; [discriminate|]. intros [_ X]. apply K in X. lia.
Qed.
