(** * EraseProofs: erasure of secrets, error chains. *)
From Coq Require Import Lia ZifyBool ZifyNat ZifyN Strings.String.
From Verif Require Import Base SpecWire BaseFacts Noise Crypto CryptoFacts Keys SpecNoise SpecSession SpecKeys NoiseFacts
  HandshakeProofs NxProofs SessionProofs FailureProofs NoiseSamples KeyProofs.
Open Scope N_scope.

Lemma zeros_empty : EMPTY_KEY = zeros32.
Proof. reflexivity. Qed.

Section Erase.
Variable C : crypto.

Lemma enter_erased : forall s h ss hh c1 c2,
  Forall (eq zeros32) (handshake_secrets (se_incr (se_enter_transport (se_set_hs s (hs_set_ss h (ss_clear ss))) hh c1 c2))) /\
  ephemeral_secret (se_incr (se_enter_transport (se_set_hs s (hs_set_ss h (ss_clear ss))) hh c1 c2)) = zeros32.
Proof. intros. split; [|reflexivity]. repeat constructor. Qed.

(** Entering transport mode. *)
Definition entered (s s' : session) : Prop :=
  (se_transport s' = se_transport s) \/
  (Forall (eq zeros32) (handshake_secrets s') /\ ephemeral_secret s' = zeros32).

Lemma send_entered : forall rnd s b, entered s (st (send_message C rnd s b)).
Proof.
  intros rnd s b. unfold send_message.
  destruct ((len b <? 16) || (MAX_MESSAGE <? len b)); [left; reflexivity|].
  destruct (se_mc s =? 0).
  { destruct (write_message_a C rnd (se_hs s) b) as [[h b'] [r|e|]]; left; reflexivity. }
  destruct (se_mc s =? 1).
  - unfold write_message_b. destruct (len b <? 32); [left; reflexivity|].
    destruct (len (skipn DHLEN b) <? 48); [left; reflexivity|].
    destruct (encrypt_and_hash C _ _) as [[ss ns] [r|e|]]; try (left; reflexivity).
    destruct (encrypt_and_hash C (mix_key _ _ _) _) as [[ss2 rest] [r2|e|]]; try (left; reflexivity).
    destruct (split C ss2). right. apply enter_erased.
  - destruct (se_i s); destruct (cs_write_message_regular C _ b) as [[c b'] [r|e|]]; left; reflexivity.
Qed.
Lemma recv_entered : forall s b, entered s (st (recv_message C s b)).
Proof.
  intros s b. unfold recv_message.
  destruct ((len b <? 16) || (MAX_MESSAGE <? len b)); [left; reflexivity|].
  destruct (se_mc s =? 0).
  { destruct (read_message_a C (se_hs s) b) as [[h b'] [r|e|]]; left; reflexivity. }
  destruct (se_mc s =? 1).
  - unfold read_message_b. destruct (len b <? 48); [left; reflexivity|].
    destruct (public_key_from_bytes _); try (left; reflexivity).
    destruct (len (skipn DHLEN b) <? 48); [left; reflexivity|].
    destruct (decrypt_and_hash C _ _) as [[ss ns] [r|e|]]; try (left; reflexivity).
    destruct (public_key_from_bytes _); try (left; reflexivity).
    destruct (decrypt_and_hash C (mix_key _ _ _) _) as [[ss2 rest] [r2|e|]]; try (left; reflexivity).
    destruct (split C ss2). right. apply enter_erased.
  - destruct (se_i s); destruct (cs_read_message_regular C _ b) as [[c b'] [r|e|]]; left; reflexivity.
Qed.

(** In transport mode the handshake state is only touched by set_ephemeral_keypair. *)
Lemma send_keeps_hs : forall rnd s b, 2 <= se_mc s -> se_hs (st (send_message C rnd s b)) = se_hs s.
Proof.
  intros rnd s b H. destruct (send_cases C rnd s b H) as [[_ ->]|[[_ [_ ->]]|[[_ [_ [_ ->]]]|[_ [_ [_ ->]]]]]];
    try reflexivity. unfold set_snd. destruct (se_i s); reflexivity.
Qed.
Lemma recv_keeps_hs : forall s b, 2 <= se_mc s -> se_hs (st (recv_message C s b)) = se_hs s.
Proof.
  intros s b H. destruct (recv_cases C s b H) as [[_ ->]|[[_ [_ ->]]|[[_ [_ [_ ->]]]|[_ [_ [_ [ct [mac [pt [_ [_ [[_ ->]|[_ ->]]]]]]]]]]]]];
    try reflexivity. unfold set_rcv. destruct (se_i s); reflexivity.
Qed.

Definition kept (s s' : session) : Prop := handshake_secrets s' = handshake_secrets s.
Lemma hs_kept : forall s s', se_hs s' = se_hs s -> kept s s' /\ ephemeral_secret s' = ephemeral_secret s.
Proof. intros s s' H. unfold kept, handshake_secrets, ephemeral_secret. rewrite H. auto. Qed.

Lemma step_erased : forall s c, gate s ->
  (se_transport s = true -> Forall (eq zeros32) (handshake_secrets s)) ->
  se_transport (st (step C s c)) = true -> Forall (eq zeros32) (handshake_secrets (st (step C s c))).
Proof.
  intros s c G I T. destruct c as [rnd b|b| | | | |e]; cbn [step] in *; try exact (I T).
  - destruct (send_entered rnd s b) as [E|[E _]]; [|exact E]. rewrite E in T.
    destruct (hs_kept s _ (send_keeps_hs rnd s b (proj1 G T))) as [K _]. rewrite K. exact (I T).
  - destruct (recv_entered s b) as [E|[E _]]; [|exact E]. rewrite E in T.
    destruct (hs_kept s _ (recv_keeps_hs s b (proj1 G T))) as [K _]. rewrite K. exact (I T).
Qed.

Lemma run_erased : forall cs s, gate s ->
  (se_transport s = true -> Forall (eq zeros32) (handshake_secrets s)) ->
  se_transport (run_calls C s cs) = true -> Forall (eq zeros32) (handshake_secrets (run_calls C s cs)).
Proof.
  induction cs as [|c cs IH]; intros s G I T; [exact (I T)|].
  rewrite run_calls_cons in *. apply IH; [exact (proj1 (step_gate C s c G))| |exact T].
  intro T'. exact (step_erased s c G I T').
Qed.
Lemma erased : forall i pro kp cs, let s := run_calls C (init_session C i pro kp) cs in
  is_transport s = true -> Forall (eq zeros32) (handshake_secrets s).
Proof.
  intros i pro kp cs s T. apply run_erased; [exact (proj1 (init_gate C i pro kp))| |exact T].
  intro X. destruct i; discriminate.
Qed.

Lemma step_ephemeral : forall s c, gate s -> sets_no_ephemeral c ->
  se_transport s = true -> ephemeral_secret s = zeros32 ->
  ephemeral_secret (st (step C s c)) = zeros32 /\ se_transport (st (step C s c)) = true.
Proof.
  intros s c G NS T I. destruct c as [rnd b|b| | | | |e]; cbn [step] in *; try (split; [exact I|exact T]).
  - split.
    + destruct (hs_kept s _ (send_keeps_hs rnd s b (proj1 G T))) as [_ K]. rewrite K. exact I.
    + exact (run_transport_stays C [Send rnd b] s G T).
  - split.
    + destruct (hs_kept s _ (recv_keeps_hs s b (proj1 G T))) as [_ K]. rewrite K. exact I.
    + exact (run_transport_stays C [Recv b] s G T).
  - destruct NS.
Qed.
Lemma run_ephemeral : forall cs s, gate s -> Forall sets_no_ephemeral cs ->
  se_transport s = true -> ephemeral_secret s = zeros32 -> ephemeral_secret (run_calls C s cs) = zeros32.
Proof.
  induction cs as [|c cs IH]; intros s G F T I; [exact I|]. inversion F; subst.
  rewrite run_calls_cons. destruct (step_ephemeral s c G ltac:(assumption) T I) as [I' T'].
  apply IH; [exact (proj1 (step_gate C s c G))|assumption|exact T'|exact I'].
Qed.
Lemma run_calls_app : forall a b s, run_calls C s (a ++ b) = run_calls C (run_calls C s a) b.
Proof. induction a as [|c a IH]; intros b s; [reflexivity|]. cbn [app]. rewrite !run_calls_cons. apply IH. Qed.

Lemma erased_ephemeral : forall i pro kp cs c cs',
  let s := run_calls C (init_session C i pro kp) cs in
  is_transport s = false -> is_transport (st (step C s c)) = true -> Forall sets_no_ephemeral cs' ->
  ephemeral_secret (run_calls C (init_session C i pro kp) (cs ++ c :: cs')) = zeros32.
Proof.
  intros i pro kp cs c cs' s T T' F. rewrite run_calls_app, run_calls_cons. fold s.
  assert (G : gate s) by (exact (proj1 (run_gate C cs _ (proj1 (init_gate C i pro kp))))).
  apply run_ephemeral; [exact (proj1 (step_gate C s c G))|exact F|exact T'|].
  unfold is_transport in *. destruct c as [rnd b|b| | | | |e]; cbn [step] in *;
    try (unfold st in T'; cbn in T'; congruence).
  - destruct (send_entered rnd s b) as [E|[_ E]]; [congruence|exact E].
  - destruct (recv_entered s b) as [E|[_ E]]; [congruence|exact E].
Qed.

(** ** end_session *)
Lemma ended_transport : forall i pro kp cs, let s := run_calls C (init_session C i pro kp) cs in
  is_transport s = true -> Forall (eq zeros32) (all_secrets (end_session s)).
Proof.
  intros i pro kp cs s T. pose proof (erased i pro kp cs T) as E.
  fold s in E. unfold handshake_secrets in E. inversion E as [|? ? _ E1]; subst. inversion E1 as [|? ? _ E2]; subst.
  inversion E2 as [|? ? K E3]; subst. inversion E3 as [|? ? Ck _]; subst.
  unfold all_secrets, handshake_secrets, end_session. cbn [se_hs hs_clear hs_ss]. 
  repeat constructor; assumption.
Qed.

Definition name_hash : bytes := nx_name_hash C.
Definition clean (s : session) : Prop :=
  cs_k (ss_cs (hs_ss (se_hs s))) = zeros32 /\
  (ss_ck (hs_ss (se_hs s)) = zeros32 \/ ss_ck (hs_ss (se_hs s)) = name_hash).
Lemma step_clean : forall s c, gate s -> clean s -> res (step C s c) = Ok tt -> clean (st (step C s c)).
Proof.
  intros s c G I R. destruct c as [rnd b|b| | | | |e]; cbn [step] in *; try exact I.
  - destruct (N.le_gt_cases 2 (se_mc s)) as [M|M].
    { unfold clean. rewrite send_keeps_hs by exact M. exact I. }
    revert R. unfold send_message. destruct ((len b <? 16) || (MAX_MESSAGE <? len b)); [discriminate|].
    destruct (se_mc s =? 0) eqn:E0.
    { unfold write_message_a. destruct (len b <? 32); [discriminate|]. intros _.
      unfold ensure_ephemeral. destruct (keypair_is_empty _); exact I. }
    destruct (se_mc s =? 1) eqn:E1; [|lia].
    destruct (write_message_b C rnd (se_hs s) b) as [[h b'] [[[q1 q2] q3]|e|]] eqn:W; try discriminate.
    intros _. revert W. unfold write_message_b. destruct (len b <? 32); [discriminate|].
    destruct (len (skipn DHLEN b) <? 48); [discriminate|].
    destruct (encrypt_and_hash C _ _) as [[ss ns] [r|e|]]; try discriminate.
    destruct (encrypt_and_hash C (mix_key _ _ _) _) as [[ss2 rest] [r2|e|]]; try discriminate.
    destruct (split C ss2). intro W. injection W as <- <- <- <- <-. split; [reflexivity|left; reflexivity].
  - destruct (N.le_gt_cases 2 (se_mc s)) as [M|M].
    { unfold clean. rewrite recv_keeps_hs by exact M. exact I. }
    revert R. unfold recv_message. destruct ((len b <? 16) || (MAX_MESSAGE <? len b)); [discriminate|].
    destruct (se_mc s =? 0) eqn:E0.
    { unfold read_message_a. destruct (len b <? 48); [discriminate|].
      destruct (public_key_from_bytes _); try discriminate. intros _. exact I. }
    destruct (se_mc s =? 1) eqn:E1; [|lia].
    destruct (read_message_b C (se_hs s) b) as [[h b'] [[[q1 q2] q3]|e|]] eqn:W; try discriminate.
    intros _. revert W. unfold read_message_b. destruct (len b <? 48); [discriminate|].
    destruct (public_key_from_bytes _); try discriminate.
    destruct (len (skipn DHLEN b) <? 48); [discriminate|].
    destruct (decrypt_and_hash C _ _) as [[ss ns] [r|e|]]; try discriminate.
    destruct (public_key_from_bytes _); try discriminate.
    destruct (decrypt_and_hash C (mix_key _ _ _) _) as [[ss2 rest] [r2|e|]]; try discriminate.
    destruct (split C ss2). intro W. injection W as <- <- <- <- <-. split; [reflexivity|left; reflexivity].
Qed.
Lemma run_clean : forall cs s, gate s -> clean s -> all_ok C s cs -> clean (run_calls C s cs).
Proof.
  induction cs as [|c cs IH]; intros s G I O; [exact I|]. destruct O as [R O].
  rewrite run_calls_cons. apply IH; [exact (proj1 (step_gate C s c G))|apply step_clean; assumption|exact O].
Qed.
Lemma init_ck : crypto_ok C -> forall i pro kp, ss_ck (hs_ss (se_hs (init_session C i pro kp))) = name_hash.
Proof.
  intros OK i pro kp.
  assert (E : ss_ck (hs_ss (se_hs (init_session C i pro kp))) = from_slice_hashlen (hash C protocol_name))
    by (destruct i; reflexivity).
  rewrite E. unfold name_hash, nx_name_hash, InitializeSymmetric, from_slice_hashlen, hash.
  fold protocol_name. change (len protocol_name <=? 32) with false. cbn [sy_h]. unfold from_slice_hashlen.
  pose proof (hash_len C OK protocol_name) as L. rewrite !(firstn_exact _ 32) by (unfold len in *; rewrite ?firstn_length; lia).
  reflexivity.
Qed.
Lemma init_clean : crypto_ok C -> forall i pro kp, clean (init_session C i pro kp).
Proof. intros OK i pro kp. split; [destruct i; reflexivity|right; apply init_ck; exact OK]. Qed.
Lemma ended_clean : crypto_ok C -> forall i pro kp cs, all_ok C (init_session C i pro kp) cs ->
  forall k, In k (all_secrets (end_session (run_calls C (init_session C i pro kp) cs))) ->
  k = zeros32 \/ k = name_hash.
Proof.
  intros OK i pro kp cs O k H.
  destruct (run_clean cs _ (proj1 (init_gate C i pro kp)) (init_clean OK i pro kp) O) as [K Ck].
  unfold all_secrets, handshake_secrets, end_session in H. cbn in H.
  rewrite K in H. repeat destruct H as [H|H]; subst; auto. contradiction.
Qed.

(** A reply that does not fit its buffer leaves the first derived keys behind. *)
Lemma failed_reply_secrets : crypto_ok C -> forall s rnd b, se_mc s = 1 -> keypair_is_empty (hs_e (se_hs s)) = true ->
  len (ss_ck (hs_ss (se_hs s))) = 32 -> 32 <= len b < 80 ->
  let x := send_message C rnd s b in
  let '(ck, k, _) := HKDF C (ss_ck (hs_ss (se_hs s))) (c_dh C rnd (hs_re (se_hs s))) in
  res x = Err MissingneError /\
  ss_ck (hs_ss (se_hs (end_session (st x)))) = ck /\ cs_k (ss_cs (hs_ss (se_hs (end_session (st x))))) = k.
Proof.
  intros OK s rnd b M E L B. cbv zeta. unfold send_message. rewrite session_len_ok by lia. rewrite M. cbn [N.eqb Pos.eqb].
  unfold write_message_b. destruct (len b <? 32) eqn:E1; [lia|].
  destruct (len (skipn DHLEN b) <? 48) eqn:E2; [|unfold DHLEN in E2; rewrite len_skipn in E2; lia].
  unfold ensure_ephemeral. rewrite E.
  pose proof (hkdf2_spec C OK (ss_ck (hs_ss (se_hs s))) (c_dh C rnd (hs_re (se_hs s))) ltac:(lia)) as H.
  pose proof (hkdf2_len C OK (ss_ck (hs_ss (se_hs s))) (c_dh C rnd (hs_re (se_hs s)))) as [_ L2].
  unfold mix_key, keypair_dh. cbn [hs_set_e hs_e keypair_default kp_private hs_re hs_ss ss_ck mix_hash].
  destruct (HKDF C _ _) as [[ck k] k3]. cbn [fst] in H. rewrite H in L2 |- *. cbn [snd] in L2.
  split; [reflexivity|]. split; [reflexivity|]. change (firstn 32 k = k). apply firstn_exact. exact L2.
Qed.
Lemma failed_reply : crypto_ok C -> forall pro sr m1 rnd b,
  let r := recv_message C (init_session C false pro sr) m1 in
  let x := send_message C rnd (st r) b in
  res r = Ok tt -> 32 <= len b < 80 ->
  let '(ck, k, _) := HKDF C name_hash (c_dh C rnd (firstn 32 m1)) in
  res x = Err MissingneError /\ In ck (all_secrets (end_session (st x))) /\ In k (all_secrets (end_session (st x))).
Proof.
  intros OK pro sr m1 rnd b r x R B.
  pose proof (init_ck OK false pro sr) as I.
  assert (F : se_mc (st r) = 1 /\ keypair_is_empty (hs_e (se_hs (st r))) = true /\
    ss_ck (hs_ss (se_hs (st r))) = name_hash /\ hs_re (se_hs (st r)) = firstn 32 m1).
  { revert R. unfold r, recv_message. destruct ((len m1 <? 16) || (MAX_MESSAGE <? len m1)); [discriminate|].
    change (se_mc (init_session C false pro sr) =? 0) with true. cbv iota. unfold read_message_a.
    destruct (len m1 <? 48) eqn:E; [discriminate|].
    destruct (public_key_from_bytes _) as [re|e|] eqn:PK; try discriminate. intros _.
    unfold public_key_from_bytes in PK. destruct (existsb _ _); [discriminate|]. assert (PK' : re = from_slice_hashlen (firstn DHLEN m1)) by congruence. clear PK.
    split; [reflexivity|]. split; [reflexivity|]. split; [exact I|]. change (re = firstn 32 m1). rewrite PK'.
    exact (firstn_firstn m1 32 32). }
  clearbody r. destruct F as [F1 [F2 [F3 F4]]].
  pose proof (failed_reply_secrets OK (st r) rnd b F1 F2) as H. fold x in H. rewrite F3, F4 in H.
  assert (L : len name_hash = 32) by (rewrite <- F3; rewrite F3; apply (hash_len C OK)).
  specialize (H L B). destruct (HKDF C _ _) as [[ck k] k3]. destruct H as [H1 [H2 H3]].
  split; [exact H1|]. unfold all_secrets, handshake_secrets. split; apply in_or_app; left; cbn [In]; auto.
Qed.
End Erase.

Definition leak_session : session :=
  run_calls demo_crypto (init_session demo_crypto false d_prologue d_sr) [Recv (out d_x1); Send k_er (repeat x00 40)].
Lemma end_session_leaks : exists C s k, crypto_ok C /\ reachable C s /\ In k (all_secrets (end_session s)) /\
  k <> zeros32 /\ k <> nx_name_hash C /\
  k = fst (fst (HKDF C (nx_name_hash C) (c_dh C k_er (kp_public d_ei)))).
Proof.
  exists demo_crypto, leak_session, (ss_ck (hs_ss (se_hs (end_session leak_session)))).
  split; [exact demo_ok|]. split; [exists false, d_prologue, d_sr; eexists; reflexivity|].
  split; [unfold all_secrets, handshake_secrets; apply in_or_app; left; cbn [In]; auto|].
  split; [vm_compute; discriminate|]. split; [vm_compute; discriminate|]. vm_compute. reflexivity.
Qed.

(** ** Error chains *)
Lemma noise_chain : forall f g n e, chain (source f g) n (ANoise e) = Some (ANoise e).
Proof. intros f g n e. induction n as [|n IH]; [reflexivity|]. cbn [chain source noise_source]. exact IH. Qed.
Lemma noise_never_ends : forall f g e,
  ~ chain_ends (source f g) (ANoise e) /\ ~ chain_ends (source f g) (ALib (NoiseError e)).
Proof.
  intros f g e. split; intros [n H].
  - rewrite noise_chain in H. discriminate.
  - destruct n as [|n]; [discriminate|]. cbn [chain source lib_source noise_source] in H. rewrite noise_chain in H. discriminate.
Qed.
Lemma other_ends : forall f g e, (forall x, e <> NoiseError x) ->
  (forall y, g e = Some y -> chain_ends (source f g) y) -> chain_ends (source f g) (ALib e).
Proof.
  intros f g e N G. unfold chain_ends in *.
  destruct e; try (exists 1%nat; reflexivity);
    try (destruct (g _) as [y|] eqn:E;
         [destruct (G y eq_refl) as [n H]; exists (S n); cbn [chain source lib_source]; rewrite E; exact H
         |exists 1%nat; cbn [chain source lib_source]; rewrite E; reflexivity]).
  exfalso. apply (N e). reflexivity.
Qed.

(** ** Key pairs *)
Lemma from_private_spec : forall C k, len k = 32 ->
  (k = zeros32 /\ keypair_from_private_key C k = Err InvalidKeyError /\ private_generate_public_key C k = Err InvalidKeyError) \/
  (k <> zeros32 /\ keypair_from_private_key C k = Ok (mkKeypair k (c_pub C k)) /\ private_generate_public_key C k = Ok (c_pub C k)).
Proof.
  intros C k L. unfold keypair_from_private_key, keypair_from_key, private_generate_public_key, is_zero_key.
  destruct (bytes_eqb k EMPTY_KEY) eqn:E.
  - left. apply bytes_eqb_iff in E. auto.
  - right. split; [|auto]. intro Q. rewrite <- zeros_empty in Q. rewrite Q in E. discriminate.
Qed.
Local Opaque x25519.
Lemma from_private_usable : forall k kp k' kp', len k = 32 -> len k' = 32 ->
  keypair_from_private_key real_crypto k = Ok kp -> keypair_from_private_key real_crypto k' = Ok kp' ->
  keypair_ok kp /\ keypair_is_empty kp = false /\ public_key_from_bytes (kp_public kp) = Ok (kp_public kp) /\
  dh_agree real_crypto kp kp'.
Proof.
  assert (P : forall k kp, len k = 32 -> keypair_from_private_key real_crypto k = Ok kp ->
    k <> zeros32 /\ kp = real_pair k).
  { intros k kp L H. destruct (from_private_spec real_crypto k L) as [[_ [E _]]|[NZ [E _]]]; rewrite E in H; [discriminate|].
    injection H as H. split; [exact NZ|]. rewrite <- H. reflexivity. }
  intros k kp k' kp' L L' H H'. destruct (P _ _ L H) as [NZ ->]. destruct (P _ _ L' H') as [_ ->].
  split; [split; [exact L|apply (pub_len _ real_crypto_ok)]|]. split; [|split; [exact (public_accepted k)|exact (real_agree k k')]].
  unfold keypair_is_empty, is_zero_key. cbn [real_pair kp_private].
  destruct (bytes_eqb k EMPTY_KEY) eqn:E; [|reflexivity]. apply bytes_eqb_iff in E. exfalso. apply NZ. rewrite E. reflexivity.
Qed.
