(** * SessionProofs: transport mode, call histories, pairs of sessions. *)
From Coq Require Import Lia ZifyBool ZifyNat ZifyN.
From Verif Require Import Base SpecWire BaseFacts Noise SpecNoise SpecSession NoiseFacts HandshakeProofs NxProofs.
Open Scope N_scope.

Section Session.
Variable C : crypto.
Notation Z := EMPTY_KEY.

Definition snd_cs (s : session) := if se_i s then se_cs1 s else se_cs2 s.
Definition rcv_cs (s : session) := if se_i s then se_cs2 s else se_cs1 s.
Definition set_snd (s : session) (c : cipher_state) := if se_i s then se_set_cs1 s c else se_set_cs2 s c.
Definition set_rcv (s : session) (c : cipher_state) := if se_i s then se_set_cs2 s c else se_set_cs1 s c.

Lemma set_snd_same : forall s, set_snd s (snd_cs s) = s.
Proof. intros [hs h c1 c2 mc i t]. destruct i; reflexivity. Qed.
Lemma set_rcv_same : forall s, set_rcv s (rcv_cs s) = s.
Proof. intros [hs h c1 c2 mc i t]. destruct i; reflexivity. Qed.

(** ** send and recv in transport mode *)
Lemma send_transport : forall rnd s b, 2 <= se_mc s -> 16 <= len b <= 65535 ->
  send_message C rnd s b =
  let '(c, b', r) := cs_write_message_regular C (snd_cs s) b in
  match r with Ok _ => (se_incr (set_snd s c), b', Ok tt) | _ => (set_snd s c, b', r) end.
Proof.
  intros rnd s b Hm Hb. unfold send_message. rewrite session_len_ok by lia.
  destruct (se_mc s =? 0) eqn:E0; [lia|]. destruct (se_mc s =? 1) eqn:E1; [lia|].
  unfold snd_cs, set_snd. destruct (se_i s); destruct (cs_write_message_regular _ _ _) as [[c b'] r];
  destruct r; reflexivity.
Qed.

Lemma recv_transport : forall s b, 2 <= se_mc s -> 16 <= len b <= 65535 ->
  recv_message C s b =
  let '(c, b', r) := cs_read_message_regular C (rcv_cs s) b in
  match r with Ok _ => (se_incr (set_rcv s c), b', Ok tt) | _ => (set_rcv s c, b', r) end.
Proof.
  intros s b Hm Hb. unfold recv_message. rewrite session_len_ok by lia.
  destruct (se_mc s =? 0) eqn:E0; [lia|]. destruct (se_mc s =? 1) eqn:E1; [lia|].
  unfold rcv_cs, set_rcv. destruct (se_i s); destruct (cs_read_message_regular _ _ _) as [[c b'] r];
  destruct r; reflexivity.
Qed.

Lemma bad_len : forall b : bytes, ~ (16 <= len b <= 65535) -> (len b <? 16) || (MAX_MESSAGE <? len b) = true.
Proof. intros b H. unfold MAX_MESSAGE. lia. Qed.
Lemma size_refused : forall rnd s b, ~ (16 <= len b <= 65535) ->
  send_message C rnd s b = (s, b, Err UnsupportedMessageLengthError) /\
  recv_message C s b = (s, b, Err UnsupportedMessageLengthError).
Proof. intros. unfold send_message, recv_message. rewrite bad_len by assumption. auto. Qed.

Lemma plaintext_app : forall p m : bytes, len m = 16 -> plaintext_of (p ++ m) = p.
Proof.
  intros p m H. unfold plaintext_of. rewrite app_length. unfold len in H.
  replace (length p + length m - 16)%nat with (length p) by lia. apply firstn_app_exact. reflexivity.
Qed.

(** All outcomes of a transport send. *)
Lemma send_cases : forall rnd s b, 2 <= se_mc s ->
  let x := send_message C rnd s b in
  (~ (16 <= len b <= 65535) /\ x = (s, b, Err UnsupportedMessageLengthError)) \/
  (16 <= len b <= 65535 /\ cs_n (snd_cs s) = MAX_NONCE /\ x = (s, b, Err ExhaustedNonceError)) \/
  (16 <= len b <= 65535 /\ cs_n (snd_cs s) <> MAX_NONCE /\ cs_k (snd_cs s) = Z /\ x = (s, b, Err EmptyKeyError)) \/
  (16 <= len b <= 65535 /\ cs_n (snd_cs s) <> MAX_NONCE /\ cs_k (snd_cs s) <> Z /\
   x = (se_incr (set_snd s (mkCS (cs_k (snd_cs s)) (cs_n (snd_cs s) + 1))),
        sealed C (cs_k (snd_cs s)) (cs_n (snd_cs s)) [] (plaintext_of b), Ok tt)).
Proof.
  intros rnd s b Hm x.
  assert (D : 16 <= len b <= 65535 \/ ~ (16 <= len b <= 65535)) by lia.
  destruct D as [Hb|Hb]; [|left; split; [exact Hb|apply size_refused; exact Hb]].
  right. unfold x. rewrite send_transport by assumption.
  destruct (cs_write_message_regular C (snd_cs s) b) as [[c b'] r] eqn:E.
  apply write_regular_cases in E; [|lia].
  destruct E as [[-> [-> [-> H]]]|[[-> [-> [-> [H1 H2]]]]|[-> [-> [H1 [H2 [p [m [-> [Hm16 ->]]]]]]]]]].
  - left. rewrite set_snd_same. auto.
  - right; left. rewrite set_snd_same. auto.
  - right; right. rewrite plaintext_app by exact Hm16. auto.
Qed.

(** All outcomes of a transport receive. *)
Lemma recv_cases : forall s b, 2 <= se_mc s ->
  let x := recv_message C s b in
  (~ (16 <= len b <= 65535) /\ x = (s, b, Err UnsupportedMessageLengthError)) \/
  (16 <= len b <= 65535 /\ cs_n (rcv_cs s) = MAX_NONCE /\ x = (s, b, Err ExhaustedNonceError)) \/
  (16 <= len b <= 65535 /\ cs_n (rcv_cs s) <> MAX_NONCE /\ cs_k (rcv_cs s) = Z /\ x = (s, b, Err EmptyKeyError)) \/
  (16 <= len b <= 65535 /\ cs_n (rcv_cs s) <> MAX_NONCE /\ cs_k (rcv_cs s) <> Z /\
   exists ct mac pt, b = ct ++ mac /\ len mac = 16 /\
     ((c_open C (firstn 32 (cs_k (rcv_cs s))) (prep_nonce (cs_n (rcv_cs s))) [] ct mac = (false, pt) /\
       x = (s, pt ++ mac, Err DecryptionError)) \/
      (c_open C (firstn 32 (cs_k (rcv_cs s))) (prep_nonce (cs_n (rcv_cs s))) [] ct mac = (true, pt) /\
       x = (se_incr (set_rcv s (mkCS (cs_k (rcv_cs s)) (cs_n (rcv_cs s) + 1))), pt ++ mac, Ok tt)))).
Proof.
  intros s b Hm x.
  assert (D : 16 <= len b <= 65535 \/ ~ (16 <= len b <= 65535)) by lia.
  destruct D as [Hb|Hb]; [|left; split; [exact Hb|apply (size_refused []); exact Hb]].
  right. unfold x. rewrite recv_transport by assumption.
  destruct (cs_read_message_regular C (rcv_cs s) b) as [[c b'] r] eqn:E.
  apply read_regular_cases in E; [|lia].
  destruct E as [[-> [-> [-> H]]]|[[-> [-> [-> [H1 H2]]]]|[[-> [-> [H1 [H2 [ct [mac [pt [-> [H3 [-> H4]]]]]]]]]]|[-> [-> [H1 [H2 [ct [mac [pt [-> [H3 [-> H4]]]]]]]]]]]]].
  - left. rewrite set_rcv_same. auto.
  - right; left. rewrite set_rcv_same. auto.
  - right; right. do 3 (split; [assumption|]). exists ct, mac, pt. rewrite set_rcv_same. auto.
  - right; right. do 3 (split; [assumption|]). exists ct, mac, pt. auto.
Qed.

(** ** Never panics *)
Lemma encrypt_not_panic : forall s b, snd (encrypt_and_hash C s b) <> Panic.
Proof.
  intros s b. unfold encrypt_and_hash. destruct (len b <? 16) eqn:E; [discriminate|].
  destruct (split_16 b ltac:(lia)) as [p [m [-> Hm]]]. rewrite split_mac_app by exact Hm.
  unfold cs_encrypt_with_ad, nonce_get. destruct (cs_n (ss_cs s) =? MAX_NONCE); [discriminate|].
  destruct (cs_has_key (ss_cs s)); [|discriminate]. destruct (c_seal _ _ _ _ _); discriminate.
Qed.

Lemma send_no_panic : forall rnd s b, res (send_message C rnd s b) <> Panic.
Proof.
  intros rnd s b.
  assert (D : 2 <= se_mc s \/ se_mc s = 0 \/ se_mc s = 1) by lia. destruct D as [D|D].
  { destruct (send_cases rnd s b D) as [[_ ->]|[[_ [_ ->]]|[[_ [_ [_ ->]]]|[_ [_ [_ ->]]]]]]; discriminate. }
  unfold send_message.
  match goal with |- context [if ?c then _ else _] => destruct c; [discriminate|] end.
  destruct (se_mc s =? 0) eqn:E0.
  - unfold write_message_a. destruct (len b <? 32); discriminate.
  - destruct (se_mc s =? 1) eqn:E1; [|lia].
    unfold write_message_b. destruct (len b <? 32); [discriminate|].
    destruct (len (skipn DHLEN b) <? 48); [discriminate|].
    match goal with |- context [encrypt_and_hash C ?a ?c] =>
      pose proof (encrypt_not_panic a c) as P1; destruct (encrypt_and_hash C a c) as [[sa ba] ra] end.
    cbn [snd] in P1. destruct ra as [u|er|]; [|discriminate|contradiction].
    match goal with |- context [encrypt_and_hash C ?a ?c] =>
      pose proof (encrypt_not_panic a c) as P2; destruct (encrypt_and_hash C a c) as [[sb bb] rb] end.
    cbn [snd] in P2. destruct rb as [v|er|]; [|discriminate|contradiction].
    destruct (split C sb). discriminate.
Qed.

Lemma decrypt_panic : forall s b, 16 <= len b <= 2048 -> snd (decrypt_and_hash C s b) <> Panic.
Proof.
  intros s b Hb. unfold decrypt_and_hash. destruct (2048 <? len b) eqn:E; [lia|].
  destruct (split_16 b ltac:(lia)) as [p [m [-> Hm]]]. rewrite split_mac_app by exact Hm.
  unfold cs_decrypt_with_ad, nonce_get. destruct (cs_n (ss_cs s) =? MAX_NONCE); [discriminate|].
  destruct (cs_has_key (ss_cs s)); [|discriminate]. destruct (c_open _ _ _ _ _ _) as [[] pt]; discriminate.
Qed.

Lemma recv_panic_only : forall s b, res (recv_message C s b) = Panic ->
  se_mc s = 1 /\ (80 <= len b < 96 \/ 2128 < len b).
Proof.
  intros s b H.
  assert (D : 2 <= se_mc s \/ se_mc s = 0 \/ se_mc s = 1) by lia. destruct D as [D|D].
  { exfalso. destruct (recv_cases s b D) as [[_ E]|[[_ [_ E]]|[[_ [_ [_ E]]]|[_ [_ [_ [ct [mac [pt [_ [_ [[_ E]|[_ E]]]]]]]]]]]]];
      rewrite E in H; discriminate. }
  unfold recv_message in H.
  match type of H with context [if ?c then _ else _] => destruct c; [discriminate|] end.
  destruct (se_mc s =? 0) eqn:E0.
  - exfalso. unfold read_message_a in H. destruct (len b <? 48); [discriminate|].
    destruct (public_key_from_bytes _) eqn:EP; try discriminate. exact (public_key_not_panic _ EP).
  - destruct (se_mc s =? 1) eqn:E1; [|lia]. split; [lia|].
    unfold read_message_b in H. destruct (len b <? 48) eqn:E2; [discriminate|].
    destruct (public_key_from_bytes (from_slice_hashlen (firstn DHLEN b))) as [re1|er|] eqn:EP;
      [|discriminate|exfalso; exact (public_key_not_panic _ EP)].
    destruct (len (skipn DHLEN b) <? 48) eqn:E3; [discriminate|].
    unfold DHLEN in *. rewrite len_skipn in E3.
    match type of H with context [decrypt_and_hash C ?a ?c] =>
      pose proof (decrypt_panic a c) as P1; destruct (decrypt_and_hash C a c) as [[sa ba] ra] end.
    cbn [snd] in P1. rewrite len_firstn', len_skipn in P1.
    destruct ra as [u|er|]; [|discriminate|exfalso; apply P1; [lia|reflexivity]].
    destruct (public_key_from_bytes (from_slice_hashlen ba)) as [rs1|er|] eqn:EQ;
      [|discriminate|exfalso; exact (public_key_not_panic _ EQ)].
    match type of H with context [decrypt_and_hash C ?a ?c] =>
      pose proof (decrypt_panic a c) as P2; destruct (decrypt_and_hash C a c) as [[sb bb] rb] end.
    cbn [snd] in P2. rewrite !len_skipn in P2.
    destruct rb as [v|er|]; [destruct (split C sb); discriminate|discriminate|].
    assert (~ (16 <= len b - N.of_nat 32 - N.of_nat 48 <= 2048)) by (intro Q; exact (P2 Q eq_refl)). lia.
Qed.

(** ** Histories *)
Lemma send_mc : forall rnd s b, let x := send_message C rnd s b in
  se_i (st x) = se_i s /\
  (res x = Ok tt -> se_mc (st x) = se_mc s + 1 /\
     (se_mc s = 1 -> se_transport (st x) = true) /\ (se_mc s <> 1 -> se_transport (st x) = se_transport s)) /\
  (res x <> Ok tt -> se_mc (st x) = se_mc s /\ se_transport (st x) = se_transport s).
Proof.
  intros rnd s b x. unfold x, send_message, res, st.
  match goal with |- context [if ?c then _ else _] => destruct c; [cbn; split; [reflexivity|]; split; [discriminate|auto]|] end.
  destruct (se_mc s =? 0) eqn:E0.
  { destruct (write_message_a _ _ _ _) as [[h b'] [[]|e|]]; cbn; (split; [reflexivity|]); split; intros; try discriminate; try congruence;
    repeat split; intros; try reflexivity; lia. }
  destruct (se_mc s =? 1) eqn:E1.
  { destruct (write_message_b _ _ _ _) as [[h b'] [[[q1 q2] q3]|e|]]; cbn; (split; [reflexivity|]); split; intros; try discriminate; try congruence;
    repeat split; intros; try reflexivity; lia. }
  destruct (se_i s) eqn:Ei; destruct (cs_write_message_regular _ _ _) as [[h b'] [[]|e|]]; cbn; (split; [exact Ei|]); split; intros; try discriminate; try congruence;
    repeat split; intros; try reflexivity; lia.
Qed.

Lemma recv_mc : forall s b, let x := recv_message C s b in
  se_i (st x) = se_i s /\
  (res x = Ok tt -> se_mc (st x) = se_mc s + 1 /\
     (se_mc s = 1 -> se_transport (st x) = true) /\ (se_mc s <> 1 -> se_transport (st x) = se_transport s)) /\
  (res x <> Ok tt -> se_mc (st x) = se_mc s /\ se_transport (st x) = se_transport s).
Proof.
  intros s b x. unfold x, recv_message, res, st.
  match goal with |- context [if ?c then _ else _] => destruct c; [cbn; split; [reflexivity|]; split; [discriminate|auto]|] end.
  destruct (se_mc s =? 0) eqn:E0.
  { destruct (read_message_a _ _ _) as [[h b'] [[]|e|]]; cbn; (split; [reflexivity|]); split; intros; try discriminate; try congruence;
    repeat split; intros; try reflexivity; lia. }
  destruct (se_mc s =? 1) eqn:E1.
  { destruct (read_message_b _ _ _) as [[h b'] [[[q1 q2] q3]|e|]]; cbn; (split; [reflexivity|]); split; intros; try discriminate; try congruence;
    repeat split; intros; try reflexivity; lia. }
  destruct (se_i s) eqn:Ei; destruct (cs_read_message_regular _ _ _) as [[h b'] [[]|e|]]; cbn; (split; [exact Ei|]); split; intros; try discriminate; try congruence;
    repeat split; intros; try reflexivity; lia.
Qed.

Definition gate (s : session) : Prop := se_transport s = true <-> 2 <= se_mc s.

Lemma ok_dec : forall r : NResult unit, r = Ok tt \/ r <> Ok tt.
Proof. intros [[]|e|]; [left; reflexivity|right; discriminate|right; discriminate]. Qed.

Lemma step_gate : forall s c, gate s ->
  gate (st (step C s c)) /\
  se_mc (st (step C s c)) = se_mc s + match c, res (step C s c) with Send _ _, Ok _ => 1 | Recv _, Ok _ => 1 | _, _ => 0 end.
Proof.
  intros s c G. unfold gate in *. destruct c as [rnd b|b| | | | |e]; cbn [step].
  - pose proof (send_mc rnd s b) as [_ [H1 H2]].
    destruct (ok_dec (res (send_message C rnd s b))) as [E|E].
    + rewrite E. destruct (H1 E) as [A1 [A2 A3]]. rewrite A1. split; [|reflexivity].
      destruct (N.eq_dec (se_mc s) 1) as [D|D]; [rewrite (A2 D)|rewrite (A3 D)]; [split; [lia|reflexivity]|].
      rewrite G. lia.
    + destruct (H2 E) as [A1 A2]. rewrite A1, A2. split; [exact G|].
      destruct (res (send_message C rnd s b)) as [[]| |]; [contradiction|lia|lia].
  - pose proof (recv_mc s b) as [_ [H1 H2]].
    destruct (ok_dec (res (recv_message C s b))) as [E|E].
    + rewrite E. destruct (H1 E) as [A1 [A2 A3]]. rewrite A1. split; [|reflexivity].
      destruct (N.eq_dec (se_mc s) 1) as [D|D]; [rewrite (A2 D)|rewrite (A3 D)]; [split; [lia|reflexivity]|].
      rewrite G. lia.
    + destruct (H2 E) as [A1 A2]. rewrite A1, A2. split; [exact G|].
      destruct (res (recv_message C s b)) as [[]| |]; [contradiction|lia|lia].
  - split; [exact G|symmetry; apply N.add_0_r].
  - split; [exact G|symmetry; apply N.add_0_r].
  - split; [exact G|symmetry; apply N.add_0_r].
  - split; [exact G|symmetry; apply N.add_0_r].
  - split; [exact G|symmetry; apply N.add_0_r].
Qed.

Lemma init_gate : forall i pro s, gate (init_session C i pro s) /\ se_mc (init_session C i pro s) = 0.
Proof. intros [] pro s; cbn; unfold gate; cbn; (split; [|reflexivity]); split; intro; [discriminate|lia|discriminate|lia]. Qed.

Lemma run_calls_cons : forall s c cs, run_calls C s (c :: cs) = run_calls C (st (step C s c)) cs.
Proof. reflexivity. Qed.

Lemma run_gate : forall cs s, gate s ->
  gate (run_calls C s cs) /\ se_mc (run_calls C s cs) = se_mc s + successes C s cs.
Proof.
  induction cs as [|c cs IH]; intros s G.
  - split; [exact G|symmetry; apply N.add_0_r].
  - rewrite run_calls_cons. cbn [successes].
    destruct (step_gate s c G) as [G' M]. destruct (IH _ G') as [G'' M']. split; [exact G''|].
    rewrite M', M. destruct c; rewrite N.add_assoc; reflexivity.
Qed.

Lemma run_transport_stays : forall cs s, gate s -> se_transport s = true -> se_transport (run_calls C s cs) = true.
Proof.
  intros cs s G T. destruct (run_gate cs s G) as [G' M]. apply G'. apply G in T. lia.
Qed.

Lemma run_calls_app : forall cs cs' s, run_calls C s (cs ++ cs') = run_calls C (run_calls C s cs) cs'.
Proof. induction cs as [|c cs IH]; intros; [reflexivity|]. cbn [app]. rewrite !run_calls_cons. apply IH. Qed.

(** ** Nonces.  [keys32]: both transport keys have 32 bytes; needed to read [sealed] as ENCRYPT. *)
Definition keys32 (s : session) : Prop := len (cs_k (se_cs1 s)) = 32 /\ len (cs_k (se_cs2 s)) = 32.

Hypothesis OK : crypto_ok C.

Lemma rekey_spec : forall c, cs_rekey C c = mkCS (REKEY C (cs_k c)) (cs_n c).
Proof.
  intro c. unfold cs_rekey, REKEY. change (repeat xff 12) with nonce_rekey. rewrite <- zeros32_eq.
  pose proof (seal_ct_len C OK (cs_k c) nonce_rekey [] zeros32) as L.
  destruct (c_seal C (cs_k c) nonce_rekey [] zeros32) as [ct tag]. cbn [fst] in *.
  rewrite firstn_app_exact by exact L. reflexivity.
Qed.
Lemma REKEY_len : forall k, len (REKEY C k) = 32.
Proof.
  intro k. unfold REKEY. pose proof (seal_ct_len C OK k nonce_rekey [] zeros32) as L.
  destruct (c_seal C k nonce_rekey [] zeros32) as [ct tag]. cbn [fst] in *.
  rewrite firstn_app_exact by exact L. exact L.
Qed.

(** One call in transport mode: what happens to the sending cipher state. *)
Definition key_after (k : bytes) (c : call) (i : bool) : bytes :=
  match c with
  | RekeyLocal | RekeyRemote => if i then REKEY C k else k
  | ClearLocal => if i then Z else k
  | ClearRemote => if i then k else Z
  | _ => k
  end.

Definition hop (s : session) (c : call) : N :=
  match c, res (step C s c) with Send _ _, Ok _ => 1 | _, _ => 0 end.

Lemma step_snd : forall s c, 2 <= se_mc s -> se_transport s = true -> keys32 s -> no_clear c ->
  let s' := st (step C s c) in
  2 <= se_mc s' /\ se_transport s' = true /\ keys32 s' /\ se_i s' = se_i s /\
  cs_n (snd_cs s') = cs_n (snd_cs s) + hop s c /\
  cs_k (snd_cs s') = key_after (cs_k (snd_cs s)) c (se_i s).
Proof.
  intros s c Hm T [K1 K2] NC s'. unfold s', keys32, hop.
  destruct c as [rnd b|b| | | | |e]; cbn [step no_clear] in *; try contradiction.
  - destruct (send_cases rnd s b Hm) as [[_ ->]|[[_ [_ ->]]|[[_ [_ [_ ->]]]|[_ [_ [_ ->]]]]]];
      unfold st, res; cbn [fst snd key_after]; try (repeat split; auto; lia).
    unfold set_snd, snd_cs. destruct s as [hs h c1 c2 mc i t]. cbn in *.
    destruct i; cbn; repeat split; auto; lia.
  - destruct (recv_cases s b Hm) as [[_ ->]|[[_ [_ ->]]|[[_ [_ [_ ->]]]|[_ [_ [_ [ct [mac [pt [_ [_ [[_ ->]|[_ ->]]]]]]]]]]]]];
      unfold st, res; cbn [fst snd key_after]; try (repeat split; auto; lia).
    unfold set_rcv, rcv_cs, snd_cs. destruct s as [hs h c1 c2 mc i t]. cbn in *.
    destruct i; cbn; repeat split; auto; lia.
  - unfold st, rekey_local_cipherstate. rewrite rekey_spec. pose proof (REKEY_len (cs_k (se_cs1 s))) as RL.
    destruct s as [hs h c1 c2 mc i t]. unfold snd_cs, res.
    cbn [fst snd key_after se_i se_cs1 se_cs2 se_mc se_transport se_set_cs1 cs_n cs_k] in *.
    repeat (split; [first [assumption|reflexivity|split; assumption]|]).
    destruct i; cbn [cs_n cs_k]; (split; [lia|reflexivity]).
  - unfold st, rekey_remote_cipherstate. rewrite rekey_spec. pose proof (REKEY_len (cs_k (se_cs1 s))) as RL.
    destruct s as [hs h c1 c2 mc i t]. unfold snd_cs, res.
    cbn [fst snd key_after se_i se_cs1 se_cs2 se_mc se_transport se_set_cs1 cs_n cs_k] in *.
    repeat (split; [first [assumption|reflexivity|split; assumption]|]).
    destruct i; cbn [cs_n cs_k]; (split; [lia|reflexivity]).
  - unfold st. cbn. destruct s as [hs h c1 c2 mc i t]. cbn in *. unfold snd_cs. cbn. destruct i; repeat split; auto; lia.
Qed.

Lemma sends_from : forall cs s, 2 <= se_mc s -> se_transport s = true -> keys32 s -> Forall no_clear cs ->
  cs_n (snd_cs s) <= MAX_NONCE ->
  (forall j b o, nth_error (transport_sends C s cs) j = Some (b, o) ->
     cs_n (snd_cs s) + N.of_nat j < MAX_NONCE /\
     exists k, k <> Z /\ o = ENCRYPT C k (cs_n (snd_cs s) + N.of_nat j) [] (plaintext_of b) /\
               (Forall no_rekey cs -> k = cs_k (snd_cs s))) /\
  cs_n (snd_cs (run_calls C s cs)) = cs_n (snd_cs s) + len (transport_sends C s cs) /\
  cs_n (snd_cs (run_calls C s cs)) <= MAX_NONCE.
Proof.
  induction cs as [|c cs IH]; intros s Hm T K F HN.
  - cbn [transport_sends run_calls]. split; [intros [|j] b o H; discriminate|]. rewrite len_nil. lia.
  - inversion F as [|? ? NC F']; subst.
    destruct (step_snd s c Hm T K NC) as [Hm' [T' [K' [I' [N' Kk]]]]].
    rewrite run_calls_cons. cbn [transport_sends]. cbv zeta.
    assert (Here : (exists rnd b, c = Send rnd b /\ res (step C s c) = Ok tt /\ hop s c = 1 /\
                      cs_n (snd_cs s) <> MAX_NONCE /\ cs_k (snd_cs s) <> Z /\
                      out (step C s c) = ENCRYPT C (cs_k (snd_cs s)) (cs_n (snd_cs s)) [] (plaintext_of b)) \/
                   (match c, res (step C s c) with
                    | Send _ b, Ok _ => if is_transport s then [(b, out (step C s c))] else []
                    | _, _ => [] end = [] /\ hop s c = 0)).
    { destruct c as [rnd b|b| | | | |e]; try (right; split; reflexivity).
      unfold hop. cbn [step].
      destruct (send_cases rnd s b Hm) as [[_ E]|[[_ [_ E]]|[[_ [_ [_ E]]]|[_ [H1 [H2 E]]]]]];
        try (right; rewrite E; split; reflexivity).
      left. exists rnd, b. rewrite E. unfold out. cbn [fst snd res].
      repeat (split; [assumption||reflexivity|]). apply sealed_spec.
      destruct K as [KA KB]. unfold snd_cs. destruct (se_i s); assumption. }
    destruct Here as [[rnd [b0 [Ec [Er [Eh [H1 [H2 Eo]]]]]]]|[E0 Eh]].
    + assert (HN' : cs_n (snd_cs (st (step C s c))) <= MAX_NONCE) by lia.
      destruct (IH _ Hm' T' K' F' HN') as [A [B D]].
      assert (EL : match c, res (step C s c) with
                    | Send _ b, Ok _ => if is_transport s then [(b, out (step C s c))] else []
                    | _, _ => [] end = [(b0, out (step C s c))]).
      { rewrite Er, Ec. unfold is_transport. rewrite T. rewrite <- Ec. reflexivity. }
      rewrite EL. split; [|split].
      * intros [|j] b o Hj; cbn [app nth_error] in Hj.
        { injection Hj as <- <-. split; [lia|]. exists (cs_k (snd_cs s)).
          split; [exact H2|]. split; [|auto]. rewrite N.add_0_r. exact Eo. }
        { destruct (A j b o Hj) as [A1 [k [A2 [A3 A4]]]].
          split; [lia|]. exists k. split; [exact A2|].
          split. { rewrite A3. f_equal. lia. }
          intro FR. inversion FR; subst c. rewrite A4 by assumption. rewrite Kk. reflexivity. }
      * rewrite B, len_app, len_cons, len_nil. lia.
      * exact D.
    + rewrite E0. cbn [app].
      assert (HN' : cs_n (snd_cs (st (step C s c))) <= MAX_NONCE) by lia.
      destruct (IH _ Hm' T' K' F' HN') as [A [B D]]. split; [|split; [lia|exact D]].
      intros j b o Hj. destruct (A j b o Hj) as [A1 [k [A2 [A3 A4]]]].
      split; [lia|]. exists k. split; [exact A2|]. split. { rewrite A3. f_equal. lia. }
      intro FR. inversion FR as [|? ? NR FR']; subst. rewrite A4 by assumption. rewrite Kk.
      destruct c; cbn in *; try contradiction; reflexivity.
Qed.

(** Before transport mode: either still there, or just entered with fresh cipher states. *)
Definition early (s : session) : Prop := se_mc s < 2 /\ se_transport s = false.
Definition fresh (s : session) : Prop :=
  se_mc s = 2 /\ se_transport s = true /\ keys32 s /\ cs_n (se_cs1 s) = 0 /\ cs_n (se_cs2 s) = 0.

Lemma split_fields : forall ss, len (cs_k (fst (split C ss))) = 32 /\ len (cs_k (snd (split C ss))) = 32 /\
  cs_n (fst (split C ss)) = 0 /\ cs_n (snd (split C ss)) = 0.
Proof.
  intro ss. unfold split. pose proof (hkdf2_len C OK (ss_ck ss) []) as [L1 L2].
  destruct (hkdf2 C (ss_ck ss) []) as [k1 k2]. cbn [fst snd] in *. unfold from_slice_hashlen.
  cbn [cs_from_key cs_k cs_n]. rewrite !firstn_firstn, !len_firstn', L1, L2. auto.
Qed.

Lemma write_b_fresh : forall rnd h b h' b' hh c1 c2, write_message_b C rnd h b = (h', b', Ok (hh, c1, c2)) ->
  exists ss, c1 = fst (split C ss) /\ c2 = snd (split C ss).
Proof.
  intros * H. unfold write_message_b in H. destruct (len b <? 32); [discriminate|].
  destruct (len (skipn DHLEN b) <? 48); [discriminate|].
  destruct (encrypt_and_hash _ _ _) as [[sa ba] [ra|e|]]; try discriminate.
  destruct (encrypt_and_hash C (mix_key _ _ _) _) as [[sb bb] [rb|e|]]; try discriminate.
  exists sb. destruct (split C sb) as [d1 d2]. injection H as <- <- <- <- <-. auto.
Qed.
Lemma read_b_fresh : forall h b h' b' hh c1 c2, read_message_b C h b = (h', b', Ok (hh, c1, c2)) ->
  exists ss, c1 = fst (split C ss) /\ c2 = snd (split C ss).
Proof.
  intros * H. unfold read_message_b in H. destruct (len b <? 48); [discriminate|].
  destruct (public_key_from_bytes _); try discriminate.
  destruct (len (skipn DHLEN b) <? 48); [discriminate|].
  destruct (decrypt_and_hash _ _ _) as [[sa ba] [ra|e|]]; try discriminate.
  destruct (public_key_from_bytes (from_slice_hashlen ba)); try discriminate.
  destruct (decrypt_and_hash C (mix_key _ _ _) _) as [[sb bb] [rb|e|]]; try discriminate.
  exists sb. destruct (split C sb) as [d1 d2]. injection H as <- <- <- <- <-. auto.
Qed.

Lemma step_early : forall s c, early s -> early (st (step C s c)) \/ fresh (st (step C s c)).
Proof.
  intros s c [Hm T]. unfold early, fresh. destruct c as [rnd b|b| | | | |e]; cbn [step]; try (left; cbn; split; assumption).
  - unfold send_message, st.
    match goal with |- context [if ?c then _ else _] => destruct c; [left; auto|] end.
    destruct (se_mc s =? 0) eqn:E0.
    { left. destruct (write_message_a _ _ _ _) as [[h b'] [[]|e|]]; cbn; split; auto; lia. }
    destruct (se_mc s =? 1) eqn:E1; [|lia].
    destruct (write_message_b _ _ _ _) as [[h b'] [[[q1 q2] q3]|e|]] eqn:EW; [right|left|left]; cbn; auto.
    destruct (write_b_fresh _ _ _ _ _ _ _ _ EW) as [ss [-> ->]].
    destruct (split_fields ss) as [A1 [A2 [A3 A4]]]. unfold keys32. cbn. repeat split; auto; lia.
  - unfold recv_message, st.
    match goal with |- context [if ?c then _ else _] => destruct c; [left; auto|] end.
    destruct (se_mc s =? 0) eqn:E0.
    { left. destruct (read_message_a _ _ _) as [[h b'] [[]|e|]]; cbn; split; auto; lia. }
    destruct (se_mc s =? 1) eqn:E1; [|lia].
    destruct (read_message_b _ _ _) as [[h b'] [[[q1 q2] q3]|e|]] eqn:EW; [right|left|left]; cbn; auto.
    destruct (read_b_fresh _ _ _ _ _ _ _ EW) as [ss [-> ->]].
    destruct (split_fields ss) as [A1 [A2 [A3 A4]]]. unfold keys32. cbn. repeat split; auto; lia.
Qed.

Lemma early_init : forall i pro s, early (init_session C i pro s).
Proof. intros [] pro s; split; cbn; auto; lia. Qed.

(** From an early session: no transport sends until a fresh session is reached. *)
Lemma sends_early : forall cs s, early s ->
  (transport_sends C s cs = [] /\ early (run_calls C s cs)) \/
  (exists cs1 cs2 s', cs = cs1 ++ cs2 /\ run_calls C s cs1 = s' /\ fresh s' /\
     transport_sends C s cs = transport_sends C s' cs2).
Proof.
  induction cs as [|c cs IH]; intros s E.
  - left. auto.
  - cbn [transport_sends]. cbv zeta.
    assert (N0 : match c, res (step C s c) with
                 | Send _ b, Ok _ => if is_transport s then [(b, out (step C s c))] else []
                 | _, _ => [] end = []).
    { destruct c; try reflexivity. unfold is_transport. rewrite (proj2 E).
      destruct (res _); reflexivity. }
    rewrite N0. cbn [app]. rewrite run_calls_cons.
    destruct (step_early s c E) as [E'|F'].
    + destruct (IH _ E') as [[H1 H2]|[cs1 [cs2 [s' [-> [H2 [H3 H4]]]]]]]; [left; auto|].
      right. exists (c :: cs1), cs2, s'. split; [reflexivity|]. split; [exact H2|]. split; [exact H3|exact H4].
    + right. exists [c], cs, (st (step C s c)). split; [reflexivity|]. split; [reflexivity|]. split; [exact F'|reflexivity].
Qed.

Lemma fresh_n : forall s, fresh s -> cs_n (snd_cs s) = 0.
Proof. intros s [_ [_ [_ [A B]]]]. unfold snd_cs. destruct (se_i s); assumption. Qed.

Theorem history_sends : forall i pro s cs, Forall no_clear cs ->
  exists k0,
  (forall j b o, nth_error (transport_sends C (init_session C i pro s) cs) j = Some (b, o) ->
     N.of_nat j < 2 ^ 64 - 1 /\
     exists k, k <> zeros32 /\ o = ENCRYPT C k (N.of_nat j) [] (plaintext_of b) /\
               (Forall no_rekey cs -> k = k0)).
Proof.
  intros i pro s cs F.
  destruct (sends_early cs _ (early_init i pro s)) as [[-> _]|[cs1 [cs2 [s' [-> [_ [Fr ->]]]]]]].
  - exists Z. intros [|j] b o H; discriminate.
  - exists (cs_k (snd_cs s')). intros j b o H.
    apply Forall_app in F. destruct F as [_ F2].
    destruct Fr as [A1 [A2 [A3 A4]]].
    assert (N0 : cs_n (snd_cs s') = 0) by (apply fresh_n; unfold fresh; auto).
    destruct (sends_from cs2 s' ltac:(lia) A2 A3 F2 ltac:(rewrite N0; discriminate)) as [B _].
    destruct (B j b o H) as [B1 [k [B2 [B3 B4]]]]. rewrite N0, N.add_0_l in *.
    split; [exact B1|]. exists k. rewrite zeros32_eq. split; [exact B2|]. split; [exact B3|].
    intro FR. apply Forall_app in FR. apply B4, FR.
Qed.

Theorem history_exhausted : forall i pro s cs rnd b, Forall no_clear cs -> 16 <= len b <= 65535 ->
  len (transport_sends C (init_session C i pro s) cs) = 2 ^ 64 - 1 ->
  send_message C rnd (run_calls C (init_session C i pro s) cs) b =
  (run_calls C (init_session C i pro s) cs, b, Err ExhaustedNonceError).
Proof.
  intros i pro s cs rnd b F Hb HL.
  destruct (sends_early cs _ (early_init i pro s)) as [[E _]|[cs1 [cs2 [s' [-> [R [Fr E]]]]]]].
  - rewrite E, len_nil in HL. discriminate.
  - rewrite E in HL. rewrite run_calls_app, R. apply Forall_app in F. destruct F as [_ F2].
    pose proof (fresh_n s' Fr) as N0. destruct Fr as [A1 [A2 [A3 A4]]].
    destruct (sends_from cs2 s' ltac:(lia) A2 A3 F2 ltac:(rewrite N0; discriminate)) as [_ [B _]].
    rewrite N0, HL, N.add_0_l in B.
    assert (G : gate s') by (unfold gate; rewrite A2; split; [lia|reflexivity]).
    destruct (run_gate cs2 s' G) as [_ M].
    destruct (send_cases rnd (run_calls C s' cs2) b ltac:(lia)) as [[Q _]|[[_ [_ Q]]|[[_ [Q _]]|[_ [Q _]]]]].
    + contradiction.
    + exact Q.
    + exfalso. apply Q. exact B.
    + exfalso. apply Q. exact B.
Qed.

End Session.
