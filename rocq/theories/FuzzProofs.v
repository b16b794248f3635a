(** * FuzzProofs: the fuzz programs; inputs fed to one encryptor. *)
From Coq Require Import Lia ZifyBool ZifyNat ZifyN.
From Verif Require Import Base Codec Types Messages Frame Catalog SpecWire SpecTypes BaseFacts CodecProofs TypesProofs Certs SpecCerts CertProofs
  Noise Crypto SpecNoise SpecSession NoiseFacts HandshakeProofs NxProofs SessionProofs FailureProofs SessionClaims NoiseSamples Network NetworkProofs Fuzz.
Open Scope N_scope.

Lemma all_dropped_ok : forall rs, Forall (fun r => r = Ok tt) rs -> all_dropped rs = Ok tt.
Proof. induction 1 as [|r rs H HF IH]; [reflexivity|]. cbn [all_dropped]. rewrite H. exact IH. Qed.
Lemma dropped_ok : forall E A (r : outcome E A), r <> Panic -> dropped r = Ok tt.
Proof. intros E A [a|e|] H; [reflexivity|reflexivity|contradiction]. Qed.

Lemma try_msg : forall k pf d, rust_slice d -> try_de (fr_de (frameable_of k)) pf d = Ok tt.
Proof. intros k pf d H. unfold try_de. apply dropped_ok. exact (no_panic (T_msg k) pf d H). Qed.

Theorem fuzz_decoders : forall pf d1 d2 d3 d4 d5 d6, Forall rust_slice [d1; d2; d3; d4; d5; d6] ->
  fuzz_mining_messages pf d1 d2 d3 d4 d5 d6 = Ok tt /\ fuzz_setup_connection pf d1 d2 d3 = Ok tt /\
  fuzz_network_frame pf d1 = Ok tt.
Proof.
  intros pf d1 d2 d3 d4 d5 d6 H.
  inversion H as [|? ? H1 H']; subst. inversion H' as [|? ? H2 H'']; subst. inversion H'' as [|? ? H3 H3']; subst.
  inversion H3' as [|? ? H4 H4']; subst. inversion H4' as [|? ? H5 H5']; subst. inversion H5' as [|? ? H6 _]; subst.
  split; [|split].
  - apply all_dropped_ok. repeat constructor; apply try_msg; assumption.
  - apply all_dropped_ok. repeat constructor; apply try_msg; assumption.
  - unfold fuzz_network_frame, try_de. apply dropped_ok. exact (no_panic T_frame pf d1 H1).
Qed.

Theorem fuzz_noise_exact : forall E pf d, rust_slice d ->
  (fuzz_noise E pf d = Panic <-> ed_sig_checked E = true /\ 74 <= len d /\ ~ canonical_sig (firstn 64 (skipn 10 d))) /\
  (fuzz_noise E pf d = Ok tt \/ fuzz_noise E pf d = Panic).
Proof.
  intros E pf d HS. assert (HS' : rust_slice ([] ++ d)) by exact HS.
  unfold fuzz_noise, try_de. change (deserialize (de_snm E) pf d) with (snd (de_snm E pf (cursor [] d))).
  pose proof (snm_panic_iff E pf [] d HS') as X. cbv beta in X. rewrite <- X.
  destruct (snd (de_snm E pf (cursor [] d))) as [a|e|]; cbn [dropped]; repeat split; intros; try discriminate; auto.
Qed.

Section Fuzz.
Variable C : crypto.

Lemma fresh_count : forall sk rs, get_message_count (new_inbound C sk rs) = 0 /\ get_message_count (new_outbound C rs) = 0.
Proof. intros. split; reflexivity. Qed.

Theorem fuzz_encryptor_ok : forall rsr rsi rnd1 rnd2 d1 d2, fuzz_connection_encryptor C rsr rsi rnd1 rnd2 d1 d2 = Ok tt.
Proof.
  intros. apply all_dropped_ok. repeat constructor; apply dropped_ok; intro H; apply enc_panic_only in H; destruct H as [H _]; discriminate H.
Qed.

(** The errors of a second message that could not be written. *)
Lemma enc_errors : forall ss b, cs_n (ss_cs ss) = 0 ->
  match res (encrypt_and_hash C ss b) with
  | Ok _ => 16 <= len b
  | Err e => (e = MissingneError /\ len b < 16) \/ e = EmptyKeyError
  | Panic => False
  end.
Proof.
  intros ss b Hn. unfold encrypt_and_hash. destruct (len b <? 16) eqn:E; [left; split; [reflexivity|lia]|].
  destruct (split_16 b ltac:(lia)) as (p & m & -> & Hm). rewrite split_mac_app by exact Hm.
  unfold cs_encrypt_with_ad. rewrite Hn, nonce_get_ok by reflexivity.
  destruct (cs_has_key (ss_cs ss)); [|right; reflexivity].
  destruct (c_seal _ _ _ _ _). unfold res. cbn [snd]. lia.
Qed.

Lemma answer_errors : forall rnd s b e, se_mc s = 1 -> 48 <= len b <= 65535 -> res (send_message C rnd s b) = Err e ->
  (e = MissingneError /\ len b < 96) \/ e = EmptyKeyError.
Proof.
  intros rnd s b e Hm Hb. unfold send_message. rewrite session_len_ok by lia. rewrite Hm. cbn [N.eqb Pos.eqb].
  unfold write_message_b. destruct (len b <? 32) eqn:E1; [lia|].
  destruct (len (skipn DHLEN b) <? 48) eqn:E2.
  { unfold res. cbn [snd]. intro X. injection X as <-. left. split; [reflexivity|]. unfold DHLEN in E2. rewrite len_skipn in E2. lia. }
  match goal with |- context [encrypt_and_hash C ?ss ?x] => pose proof (enc_errors ss x (mix_key_n C _ _)) as X1;
    destruct (encrypt_and_hash C ss x) as [[ss1 b1] r1] end.
  unfold res in X1. cbn [snd] in X1. destruct r1 as [[]|e1|]; [| |contradiction].
  2:{ unfold res. cbn [snd]. intro X. injection X as <-. destruct X1 as [[-> X1]|X1]; [|auto].
      left. split; [reflexivity|]. unfold DHLEN in E2. rewrite len_skipn in E2. exfalso. rewrite len_app in X1.
      unfold len in *. rewrite !skipn_length, firstn_length, skipn_length in X1. unfold DHLEN in X1. lia. }
  match goal with |- context [encrypt_and_hash C ?ss ?x] => pose proof (enc_errors ss x (mix_key_n C _ _)) as X2;
    destruct (encrypt_and_hash C ss x) as [[ss2 b2] r2] end.
  unfold res in X2. cbn [snd] in X2. destruct r2 as [[]|e2|]; [| |contradiction].
  - destruct (split C ss2). discriminate.
  - unfold res. cbn [snd]. intro X. injection X as <-. destruct X2 as [[-> X2]|X2]; [|auto].
    left. split; [reflexivity|]. unfold len in *. rewrite !skipn_length in X2. unfold DHLEN in X2. lia.
Qed.

Lemma recv_first_count : forall s b, se_mc s = 0 ->
  (res (recv_message C s b) = Ok tt /\ se_mc (st (recv_message C s b)) = 1 /\ out (recv_message C s b) = b /\
   48 <= len b <= 65535 /\ ~ low_order (firstn 32 b)) \/
  (exists e, res (recv_message C s b) = Err e /\ se_mc (st (recv_message C s b)) = 0).
Proof.
  intros s b Hm. unfold recv_message. destruct ((len b <? 16) || (MAX_MESSAGE <? len b)) eqn:E.
  { right. eexists. split; [reflexivity|]. exact Hm. }
  unfold MAX_MESSAGE in E. rewrite Hm. cbn [N.eqb]. unfold read_message_a. destruct (len b <? 48) eqn:E48.
  { right. eexists. split; [reflexivity|]. exact Hm. }
  assert (HF : len (firstn 32 b) = 32) by (unfold len in *; rewrite firstn_length; lia).
  unfold DHLEN, from_slice_hashlen. rewrite (firstn_exact _ 32 (firstn 32 b)) by exact HF.
  destruct (public_key_from_bytes_spec (firstn 32 b) HF) as [[LO PK]|[NLO PK]]; rewrite PK.
  - right. eexists. split; [reflexivity|]. exact Hm.
  - left. split; [reflexivity|]. split; [unfold st; cbn [fst se_incr se_mc se_set_hs]; rewrite Hm; reflexivity|].
    split; [reflexivity|]. split; [lia|exact NLO].
Qed.

(** The message count never decreases, and one call raises it by at most one. *)
Lemma send_count : forall rnd s b, se_mc (st (send_message C rnd s b)) =
  se_mc s + match res (send_message C rnd s b) with Ok _ => 1 | _ => 0 end.
Proof.
  intros rnd s b. unfold send_message. destruct (_ || _); [unfold res, st; cbn [fst snd]; lia|].
  destruct (se_mc s =? 0).
  { destruct (write_message_a C rnd (se_hs s) b) as [[h b'] [[]|e|]]; unfold res, st; cbn; lia. }
  destruct (se_mc s =? 1).
  { destruct (write_message_b C rnd (se_hs s) b) as [[h b'] [[[x y] z]|e|]]; unfold res, st; cbn; lia. }
  destruct (se_i s); destruct (cs_write_message_regular C _ b) as [[h b'] [[]|e|]]; unfold res, st; cbn; lia.
Qed.
Lemma recv_count : forall s b, se_mc (st (recv_message C s b)) =
  se_mc s + match res (recv_message C s b) with Ok _ => 1 | _ => 0 end.
Proof.
  intros s b. unfold recv_message. destruct (_ || _); [unfold res, st; cbn [fst snd]; lia|].
  destruct (se_mc s =? 0).
  { destruct (read_message_a C (se_hs s) b) as [[h b'] [[]|e|]]; unfold res, st; cbn; lia. }
  destruct (se_mc s =? 1).
  { destruct (read_message_b C (se_hs s) b) as [[h b'] [[[x y] z]|e|]]; unfold res, st; cbn; lia. }
  destruct (se_i s); destruct (cs_read_message_regular C _ b) as [[h b'] [[]|e|]]; unfold res, st; cbn; lia.
Qed.
Lemma handshake_count : forall rnd s b, se_mc s <= se_mc (fst (fst (recv_handshake C rnd s b))).
Proof.
  intros rnd s b. unfold recv_handshake. pose proof (recv_count s b) as R1.
  destruct (recv_message C s b) as [[s1 b1] r1]. unfold st, res in R1. cbn [fst snd] in R1.
  destruct r1 as [u|e|]; cbn [fst]; try lia.
  pose proof (send_count rnd s1 b1) as R2. destruct (send_message C rnd s1 b1) as [[s2 b2] r2]. unfold st, res in R2. cbn [fst snd] in R2.
  destruct r2; cbn [fst]; lia.
Qed.

Lemma fed_transport : forall inputs s, 2 <= se_mc s -> ~ In Panic (fed C s inputs).
Proof.
  induction inputs as [|[rnd d] inputs IH]; intros s Hs; [intros []|]. cbn [fed].
  pose proof (handshake_count rnd s d) as HC. pose proof (enc_panic_only C rnd s d) as HP.
  destruct (recv_handshake C rnd s d) as [[s' b'] r]. cbn [fst snd] in HC, HP.
  intros [H|H].
  - subst r. destruct (HP eq_refl) as [HM _]. unfold get_message_count in HM. lia.
  - destruct r; try exact (IH s' ltac:(lia) H). destruct H.
Qed.

(** When a sequence of inputs makes an encryptor panic. *)
Lemma fed_later : forall inputs s n, se_mc s = 1 -> nth_error (fed C s inputs) n = Some Panic ->
  exists rnd d, nth_error inputs n = Some (rnd, d) /\ (80 <= len d < 96 \/ 2128 < len d <= 65535).
Proof.
  induction inputs as [|[rnd d] inputs IH]; intros s n Hs H; [destruct n; discriminate|]. cbn [fed] in H.
  pose proof (handshake_count rnd s d) as HC. pose proof (enc_panic_only C rnd s d) as HP.
  destruct (recv_handshake C rnd s d) as [[s' b'] r]. cbn [fst snd] in HC, HP.
  destruct n as [|n].
  - cbn in H. injection H as ->. exists rnd, d. split; [reflexivity|]. apply HP. reflexivity.
  - cbn [nth_error] in H |- *.
    destruct (N.eq_dec (se_mc s') 1) as [E|E].
    + destruct r; try (eapply IH; eassumption). destruct n; discriminate.
    + exfalso. destruct r; try (apply nth_error_In in H; exact (fed_transport inputs s' ltac:(lia) H)). destruct n; discriminate.
Qed.

Theorem fed_panic_only : forall inputs s n, get_message_count s = 0 -> nth_error (fed C s inputs) n = Some Panic ->
  (exists rnd d, nth_error inputs n = Some (rnd, d) /\ (80 <= len d < 96 \/ 2128 < len d <= 65535)) /\
  exists k rnd0 d0, (k < n)%nat /\ nth_error inputs k = Some (rnd0, d0) /\
    48 <= len d0 <= 65535 /\ ~ low_order (firstn 32 d0) /\
    ((nth_error (fed C s inputs) k = Some (Err (NoiseError MissingneError)) /\ len d0 < 96) \/
     nth_error (fed C s inputs) k = Some (Err (NoiseError EmptyKeyError))).
Proof.
  unfold get_message_count.
  induction inputs as [|[rnd d] inputs IH]; intros s n Hs H; [destruct n; discriminate|].
  assert (HN : n <> O).
  { intros ->. cbn [fed] in H. pose proof (enc_panic_only C rnd s d) as HP.
    destruct (recv_handshake C rnd s d) as [[s' b'] r]. cbn [fst snd] in HP. cbn in H. injection H as ->.
    destruct (HP eq_refl) as [HM _]. unfold get_message_count in HM. lia. }
  destruct n as [|n]; [contradiction|]. clear HN.
  cbn [fed] in H |- *. unfold recv_handshake in *.
  destruct (recv_first_count s d Hs) as [(R1 & M1 & O1 & HL & NLO)|(e & R1 & M1)].
  2:{ destruct (recv_message C s d) as [[s1 b1] r1]. unfold res, st in R1, M1. cbn [fst snd] in R1, M1. subst r1.
      cbn [nth_error] in H |- *. destruct (IH s1 n M1 H) as [A (k & rnd0 & d0 & K1 & K2 & K3)].
      split; [exact A|]. exists (S k), rnd0, d0. split; [lia|]. exact (conj K2 K3). }
  destruct (recv_message C s d) as [[s1 b1] r1]. unfold res, st, out in R1, M1, O1. cbn [fst snd] in R1, M1, O1. subst r1 b1.
  pose proof (send_count rnd s1 d) as SC. pose proof (send_no_panic C rnd s1 d) as NP.
  pose proof (answer_errors rnd s1 d) as AE.
  destruct (send_message C rnd s1 d) as [[s2 b2] r2]. unfold res, st in SC, NP, AE. cbn [fst snd] in SC, NP, AE.
  destruct r2 as [u|e|]; [| |contradiction].
  { exfalso. cbn [nth_error] in H. apply nth_error_In in H. exact (fed_transport inputs s2 ltac:(lia) H). }
  cbn [nth_error] in H.
  split; [exact (fed_later inputs s2 n ltac:(lia) H)|].
  exists O, rnd, d. split; [lia|]. split; [reflexivity|]. split; [exact HL|]. split; [exact NLO|].
  destruct (AE e M1 HL eq_refl) as [[-> L]| ->]; cbn [nth_error]; auto.
Qed.

(** ... and it can happen to every fresh encryptor: a first input with room for the key only, then one of 80 bytes. *)
Hypothesis OK : crypto_ok C.
Theorem fed_second_input : forall i sk rs rnd rnd' d1 pe tail,
  let s0 := if i : bool then new_outbound C rs else new_inbound C sk rs in
  48 <= len d1 < 80 -> ~ low_order (firstn 32 d1) -> len pe = 32 -> ~ low_order pe ->
  (len tail < 16 \/ 2048 < len tail) -> 80 + len tail <= 65535 ->
  exists ct, len ct = 48 /\
    (fed C s0 [(rnd, d1); (rnd', pe ++ ct ++ tail)] = [Err (NoiseError MissingneError); Panic] \/
     fed C s0 [(rnd, d1); (rnd', pe ++ ct ++ tail)] = [Err (NoiseError MissingneError); Err (NoiseError EmptyKeyError)]).
Proof.
  intros * HL NLO Hpe NLp HT HT2.
  set (sp := if i then keypair_default C rs else match sk with Some k => k | None => keypair_default C rs end).
  assert (E0 : s0 = mkSession (mkHS (ss0 C []) sp keypair_empty EMPTY_KEY EMPTY_KEY EMPTY_KEY) EMPTY_KEY cs_new cs_new 0 i false).
  { unfold s0, sp. destruct i; reflexivity. }
  clearbody s0. subst s0.
  destruct (split_at _ 32 d1 ltac:(lia)) as [x [rest [-> Hx]]].
  rewrite firstn_app_exact in NLO by (rewrite Hx; reflexivity).
  assert (LR : 16 <= len rest < 48) by (rewrite len_app in HL; lia).
  set (e := keypair_default C rnd).
  set (ss1 := mix_key C (mix_hash C (ssA C (ss0 C []) x rest) (kp_public e)) (c_dh C (kp_private e) x)).
  assert (S1 : exists b1, recv_handshake C rnd (mkSession (mkHS (ss0 C []) sp keypair_empty EMPTY_KEY EMPTY_KEY EMPTY_KEY) EMPTY_KEY cs_new cs_new 0 i false) (x ++ rest) =
    (mkSession (mkHS ss1 sp e EMPTY_KEY x EMPTY_KEY) EMPTY_KEY cs_new cs_new 1 i false, b1, Err (NoiseError MissingneError))).
  { unfold recv_handshake. rewrite (recv_a C) by (assumption || (rewrite len_app in *; lia)).
    unfold send_message. rewrite session_len_ok by (rewrite len_app; lia). cbn [se_mc N.eqb Pos.eqb se_hs]. unfold write_message_b.
    destruct (len (x ++ rest) <? 32) eqn:E1; [rewrite len_app in E1; lia|].
    unfold ensure_ephemeral. change (keypair_is_empty (hs_e _)) with true. cbv iota. unfold hs_set_e. cbn [hs_e hs_ss hs_re hs_s hs_rs hs_psk].
    fold e. unfold DHLEN. rewrite skipn_app_exact by (rewrite Hx; reflexivity).
    destruct (len rest <? 48) eqn:E2; [|lia]. unfold keypair_dh. fold ss1. eexists. reflexivity. }
  destruct S1 as [b1 S1].
  set (s1 := ssB1 C ss1 pe (c_dh C (kp_private e) pe)).
  exists (box C s1 pe). split; [unfold box; rewrite sealed_len by exact OK; lia|].
  cbn [fed]. rewrite S1.
  destruct (list_eq_dec Byte.byte_eq_dec (cs_k (ss_cs s1)) EMPTY_KEY) as [EZ|NZ].
  - right. unfold recv_handshake. unfold recv_message.
    assert (B1 : len (box C s1 pe) = 48) by (unfold box; rewrite sealed_len by exact OK; lia).
    rewrite session_len_ok by (rewrite !len_app; lia). cbn [se_mc N.eqb Pos.eqb se_hs]. unfold read_message_b, DHLEN.
    rewrite (firstn_app_exact _ 32 pe) by (rewrite Hpe; reflexivity).
    rewrite (skipn_app_exact _ 32 pe) by (rewrite Hpe; reflexivity).
    unfold from_slice_hashlen at 1. rewrite (firstn_exact _ 32 pe) by (rewrite Hpe; reflexivity).
    rewrite public_key_ok by assumption.
    destruct (len (pe ++ box C s1 pe ++ tail) <? 48) eqn:E1; [rewrite !len_app in E1; lia|].
    cbn [hs_e hs_ss hs_re hs_s hs_rs hs_psk hs_set_re]. unfold keypair_dh.
    rewrite (firstn_exact _ 32 pe) by (rewrite Hpe; reflexivity).
    fold (ssB1 C ss1 pe (c_dh C (kp_private e) pe)). fold s1.
    destruct (len (box C s1 pe ++ tail) <? 48) eqn:E2; [rewrite len_app in E2; lia|].
    rewrite firstn_app_exact by (rewrite B1; reflexivity). rewrite skipn_app_exact by (rewrite B1; reflexivity).
    assert (E : exists bx, decrypt_and_hash C s1 (box C s1 pe) = (ss_set_cs s1 (ss_cs s1), bx, Err EmptyKeyError)).
    { unfold decrypt_and_hash. destruct (2048 <? len (box C s1 pe)) eqn:E; [lia|].
      destruct (split_16 (box C s1 pe) ltac:(lia)) as [p [m [-> Hm]]]. rewrite split_mac_app by exact Hm.
      unfold cs_decrypt_with_ad. assert (N0 : cs_n (ss_cs s1) = 0) by apply mix_key_n. rewrite N0, nonce_get_ok by reflexivity.
      unfold cs_has_key. rewrite EZ. change (is_zero_key EMPTY_KEY) with true. eexists. reflexivity. }
    destruct E as [bx E]. rewrite E. reflexivity.
  - left. pose proof (recv_b_tail C OK ss1 sp e EMPTY_KEY x EMPTY_KEY EMPTY_KEY cs_new cs_new i false pe pe tail Hpe Hpe NLp NLp HT HT2 NZ) as P.
    cbv zeta in P. apply (recv_handshake_panic C rnd') in P. fold s1 in P.
    destruct (recv_handshake C rnd' _ _) as [[s3 b3] r3]. cbn [snd] in P. subst r3. reflexivity.
Qed.
End Fuzz.

(** Both outcomes on concrete inputs. *)
Definition fz_d1 : bytes := kp_public d_ei ++ repeat x00 16.
Definition fz_s1 := Eval vm_compute in fst (fst (recv_handshake demo_crypto k_er (new_inbound demo_crypto None k_sr) fz_d1)).
Definition fz_ss := Eval vm_compute in ssB1 demo_crypto (hs_ss (se_hs fz_s1)) (kp_public d_ei) (c_dh demo_crypto k_er (kp_public d_ei)).
Definition fz_d2 := Eval vm_compute in kp_public d_ei ++ box demo_crypto fz_ss (kp_public d_ei).
Lemma fz_panics : fed demo_crypto (new_inbound demo_crypto None k_sr) [(k_er, fz_d1); (k_er, fz_d2)] =
  [Err (NoiseError MissingneError); Panic].
Proof. vm_compute. reflexivity. Qed.
Lemma fz_refuted : exists C rs inputs, crypto_ok C /\ In Panic (fed C (new_inbound C None rs) inputs).
Proof.
  exists demo_crypto, k_sr, [(k_er, fz_d1); (k_er, fz_d2)]. split; [exact demo_ok|]. rewrite fz_panics. right. left. reflexivity.
Qed.
