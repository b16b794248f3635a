(** * EndProofs: what a session dropped before transport mode leaves behind (C79). *)
From Coq Require Import Lia ZifyBool ZifyNat ZifyN.
From Verif Require Import Base SpecWire BaseFacts Noise Keys SpecNoise SpecSession SpecTransport SpecKeys SpecStory SpecEnd
  NoiseFacts NxProofs TransportProofs SessionProofs RecvProofs StoryProofs EraseProofs HistoryProofs.
Local Open Scope N_scope.
Local Open Scope list_scope.

Section End.
Variable C : crypto.
Hypothesis OK : crypto_ok C.
Variable L : list bytes.

Definition derived (s : sym) : Prop :=
  exists ck x y, In x L /\ sy_ck s = fst (fst (HKDF C ck (c_dh C x y))) /\ sy_k s = Some (snd (fst (HKDF C ck (c_dh C x y)))).
Definition own (p : party) : Prop := In (kp_private (p_s p)) L /\ In (kp_private (p_e p)) L.
Definition same (a b : sym) : Prop := sy_ck a = sy_ck b /\ sy_k a = sy_k b.
Lemma same_derived : forall a b, same a b -> derived b -> derived a.
Proof. intros a b [E F] (ck & x & y & A & B & D). exists ck, x, y. rewrite E, F. auto. Qed.
Lemma mixkey_derived : forall s x y, In x L -> derived (MixKey C s (c_dh C x y)).
Proof.
  intros s x y H. destruct (mix_all C s (c_dh C x y)) as (_ & A & B & _). exists (sy_ck s), x, y. split; [exact H|]. split; assumption.
Qed.
Lemma dh_derived : forall p t q, dh_token C p t = Some q -> own p -> own q /\ derived (p_sym q).
Proof.
  intros p t q H [A B]. assert (M : forall kp pk, In (kp_private kp) L -> mix_dh C p kp pk = Some q -> own q /\ derived (p_sym q)).
  { intros kp pk I M. unfold mix_dh in M. destruct pk; [|discriminate]. injection M as <-. split; [split; assumption|]. apply mixkey_derived. exact I. }
  destruct t; try discriminate; cbn [dh_token] in H; [exact (M _ _ B H)|]. destruct (p_initiator p); [exact (M _ _ B H)|exact (M _ _ A H)].
Qed.
Lemma enc_same : forall s pt, same (fst (EncryptAndHash C s pt)) s.
Proof. intros s pt. unfold EncryptAndHash. destruct (sy_k s) eqn:E; split; try reflexivity; cbn; congruence. Qed.
Lemma dec_same : forall s ct s' pt, DecryptAndHash C s ct = Some (s', pt) -> same s' s.
Proof.
  intros s ct s' pt. unfold DecryptAndHash. destruct (sy_k s) eqn:E.
  - destruct (DECRYPT C _ _ _ _); [|discriminate]. intro H. injection H as <- _. split; [reflexivity|cbn; congruence].
  - intro H. injection H as <- _. split; [reflexivity|cbn; congruence].
Qed.
Lemma tokens_written : forall ts p q o, write_tokens C p ts = Some (q, o) -> own p ->
  own q /\ (derived (p_sym p) \/ In TEE ts -> derived (p_sym q)).
Proof.
  induction ts as [|t ts IH]; intros p q o H O.
  - injection H as <- _. split; [exact O|]. intros [D|[]]. exact D.
  - cbn [write_tokens] in H. destruct t.
    + destruct (write_tokens C _ ts) as [[q' o']|] eqn:E; [|discriminate]. injection H as <- _.
      destruct (IH _ _ _ E O) as [A B]. split; [exact A|]. intros [D|[D|D]]; [|discriminate D|]; apply B; [left|right; exact D].
      apply (same_derived _ (p_sym p)); [split; reflexivity|exact D].
    + destruct (EncryptAndHash C (p_sym p) (kp_public (p_s p))) as [s ct] eqn:F.
      destruct (write_tokens C _ ts) as [[q' o']|] eqn:E; [|discriminate]. injection H as <- _.
      destruct (IH _ _ _ E O) as [A B]. split; [exact A|]. intros [D|[D|D]]; [|discriminate D|]; apply B; [left|right; exact D].
      cbn [with_sym p_sym]. apply (same_derived _ (p_sym p)); [|exact D]. pose proof (enc_same (p_sym p) (kp_public (p_s p))) as X. rewrite F in X. exact X.
    + destruct (dh_token C p TEE) as [p'|] eqn:F; [|discriminate]. destruct (write_tokens C p' ts) as [[q' o']|] eqn:E; [|discriminate]. injection H as <- _.
      destruct (dh_derived _ _ _ F O) as [A B]. destruct (IH _ _ _ E A) as [A' B']. split; [exact A'|]. intros _. apply B'. left. exact B.
    + destruct (dh_token C p TES) as [p'|] eqn:F; [|discriminate]. destruct (write_tokens C p' ts) as [[q' o']|] eqn:E; [|discriminate]. injection H as <- _.
      destruct (dh_derived _ _ _ F O) as [A B]. destruct (IH _ _ _ E A) as [A' B']. split; [exact A'|]. intros _. apply B'. left. exact B.
Qed.
Lemma tokens_read : forall ts p m q o, read_tokens C p ts m = Some (q, o) -> own p ->
  own q /\ (derived (p_sym p) \/ In TEE ts -> derived (p_sym q)).
Proof.
  induction ts as [|t ts IH]; intros p m q o H O.
  - injection H as <- _. split; [exact O|]. intros [D|[]]. exact D.
  - cbn [read_tokens] in H. destruct t.
    + destruct (len m <? 32); [discriminate|]. destruct (IH _ _ _ _ H O) as [A B]. split; [exact A|].
      intros [D|[D|D]]; [|discriminate D|]; apply B; [left|right; exact D]. apply (same_derived _ (p_sym p)); [split; reflexivity|exact D].
    + destruct (len m <? _); [discriminate|]. destruct (DecryptAndHash C _ _) as [[s rs]|] eqn:F; [|discriminate].
      destruct (IH _ _ _ _ H O) as [A B]. split; [exact A|].
      intros [D|[D|D]]; [|discriminate D|]; apply B; [left|right; exact D]. apply (same_derived _ (p_sym p)); [exact (dec_same _ _ _ _ F)|exact D].
    + destruct (dh_token C p TEE) as [p'|] eqn:F; [|discriminate].
      destruct (dh_derived _ _ _ F O) as [A B]. destruct (IH _ _ _ _ H A) as [A' B']. split; [exact A'|]. intros _. apply B'. left. exact B.
    + destruct (dh_token C p TES) as [p'|] eqn:F; [|discriminate].
      destruct (dh_derived _ _ _ F O) as [A B]. destruct (IH _ _ _ _ H A) as [A' B']. split; [exact A'|]. intros _. apply B'. left. exact B.
Qed.

Lemma drawn_own : forall rnd p, In rnd L -> own p -> own (acting false (drawn C rnd p)).
Proof.
  intros rnd p H [A B]. destruct (drawn_same C rnd p) as (_ & E & _ & F). split; cbn [acting p_s p_e]; [rewrite E; exact A|].
  destruct F as [->| ->]; [exact B|exact H].
Qed.

Definition keys_in (c : call) : Prop := match c with Send rnd _ => In rnd L | SetEphemeral e => In (kp_private e) L | _ => True end.
(** One call before transport mode. *)
Lemma step_end : forall i n p c n' p' b r, asked C i (Handshake n p) c (Handshake n' p') b r -> own p -> keys_in c ->
  own p' /\ ((~ (reached c /\ r <> Ok tt) /\ same (p_sym p') (p_sym p)) \/ (reached c /\ r <> Ok tt /\ derived (p_sym p'))).
Proof.
  intros * H O K. remember (Handshake n p) as g eqn:G. remember (Handshake n' p') as g' eqn:G'.
  destruct H; try discriminate G; try discriminate G'; try (injection G; clear G; intros); try (injection G'; clear G'; intros); subst; cbn [keys_in reached] in *.
  - split; [exact O|left]. split; [lia|split; reflexivity].
  - split; [exact O|left]. split; [lia|split; reflexivity].
  - split; [exact O|left]. split; [intros [_ X]; apply X; reflexivity|split; reflexivity].
  - split; [destruct O; split; assumption|left]. split; [intros [_ X]; apply X; reflexivity|split; reflexivity].
  - split; [exact O|left]. split; [lia|split; reflexivity].
  - unfold WriteMessage, NX1 in H0. cbn [write_tokens] in H0.
    match type of H0 with context [EncryptAndHash C ?s ?x] => pose proof (enc_same s x) as E; destruct (EncryptAndHash C s x) as [s1 ct] end.
    injection H0 as <- _. split.
    { destruct (drawn_own rnd _ K O) as [A B]. split; [exact A|exact B]. }
    left. split; [intros [_ X]; apply X; reflexivity|]. cbn [with_sym p_sym fst] in *. destruct E as [E F]. cbn in E, F. rewrite (proj1 (drawn_same C rnd _)) in E, F. split; [exact E|exact F].
  - split; [exact O|left]. split; [lia|split; reflexivity].
  - split; [exact O|left]. split; [intros [[_ X] _]; contradiction|split; reflexivity].
  - unfold ReadMessage, NX1 in H1. cbn [read_tokens] in H1. destruct (len m <? 32); [discriminate|].
    destruct (DecryptAndHash C _ _) as [[s1 pt]|] eqn:E; [|discriminate]. injection H1 as <- _. split; [exact O|left].
    split; [intros [_ X]; apply X; reflexivity|]. exact (dec_same _ _ _ _ E).
  - destruct (tokens_written _ _ _ _ H0 (drawn_own _ _ K O)) as [A B]. split; [exact A|right]. split; [lia|]. split; [discriminate|]. apply B. right. right. left. reflexivity.
  - destruct (tokens_written _ _ _ _ H0 (drawn_own _ _ K O)) as [A B]. split; [exact A|right]. split; [lia|]. split; [discriminate|]. apply B. right. right. left. reflexivity.
  - destruct (tokens_written _ _ _ _ H2 (drawn_own _ _ K O)) as [A B]. split; [exact A|right]. split; [lia|]. split; [discriminate|]. apply B. right. right. left. reflexivity.
  - destruct (tokens_written _ _ _ _ H2 (drawn_own _ _ K O)) as [A B]. split; [exact A|right]. split; [lia|]. split; [discriminate|]. apply B. right. right. left. reflexivity.
  - destruct (tokens_read _ _ _ _ _ H1 O) as [A B]. split; [exact A|right]. split; [split; [lia|assumption]|]. split; [discriminate|]. apply B. right. right. left. reflexivity.
  - destruct (tokens_read _ _ _ _ _ H1 O) as [A B]. split; [exact A|right]. split; [split; [lia|assumption]|]. split; [discriminate|]. apply B. right. right. left. reflexivity.
  - destruct (tokens_read _ _ _ _ _ H1 O) as [A B]. split; [exact A|right]. split; [split; [lia|assumption]|]. split; [discriminate|]. apply B. right. right. left. reflexivity.
  - destruct (tokens_read _ _ _ _ _ H3 O) as [A B]. split; [exact A|right]. split; [split; [lia|assumption]|]. split; [discriminate|]. apply B. right. right. left. reflexivity.
  - destruct (tokens_read _ _ _ _ _ H6 O) as [A B]. assert (D : derived (p_sym q2)) by (apply B; right; right; left; reflexivity).
    clear B. set (f := acting true p) in *. clearbody f. inversion H7; subst.
    1-3: split; [exact A|right]; split; [split; [lia|assumption]|]; split; [discriminate|exact D].
Qed.
Lemma done_stays : forall i g cs rs g', story C i g cs rs g' -> forall h k c, g = Done h k c -> exists h' k' c', g' = Done h' k' c'.
Proof.
  intros * H. induction H as [g|g c g1 b r cs rs g2 H1 H2 IH]; intros h k c0 E; [eauto|]. subst g. inversion H1; subst. eapply IH. reflexivity.
Qed.
Lemma story_end : forall i g cs rs g', story C i g cs rs g' -> forall n p n' p', g = Handshake n p -> g' = Handshake n' p' ->
  own p -> Forall keys_in cs ->
  own p' /\ (~ failed_late cs rs -> same (p_sym p') (p_sym p)) /\ (derived (p_sym p) \/ failed_late cs rs -> derived (p_sym p')).
Proof.
  intros i g cs rs g' H. induction H as [g|g c g1 b r cs rs g2 H1 H2 IH]; intros n p n' p' E E' O K.
  - rewrite E in E'. injection E' as _ <-. split; [exact O|]. split; [intros _; split; reflexivity|]. intros [D|D]; [exact D|inversion D].
  - destruct g1 as [n1 p1|h k c0]; [|destruct (done_stays _ _ _ _ _ H2 h k c0 eq_refl) as (x & y & z & X); rewrite X in E'; discriminate E'].
    inversion K as [|? ? K1 K2]; subst. destruct (step_end _ _ _ _ _ _ _ _ H1 O K1) as [O1 S].
    destruct (IH _ _ _ _ eq_refl eq_refl O1 K2) as (O2 & A & B). split; [exact O2|]. unfold failed_late in *. cbn [combine] in *. split.
    + intro N. assert (N1 : ~ Exists (fun x : call * (bytes * NResult unit) => reached (fst x) /\ snd (snd x) <> Ok tt) (combine cs rs)) by (intro X; apply N; right; exact X).
      destruct (A N1) as [X Y]. destruct S as [[_ [S1 S2]]|(S1 & S2 & _)].
      * split; congruence.
      * exfalso. apply N. left. split; assumption.
    + intros D. apply B. destruct S as [[S0 S1]|(_ & _ & S)]; [|left; exact S]. destruct D as [D|D]; [left; exact (same_derived _ _ S1 D)|].
      inversion D as [? ? X|? ? X]; subst; [contradiction|right; exact X].
Qed.
End End.

Lemma ended_fields : forall s k, In k (all_secrets (end_session s)) <->
  k = zeros32 \/ k = ss_ck (hs_ss (se_hs s)) \/ k = cs_k (ss_cs (hs_ss (se_hs s))).
Proof.
  intros s k. unfold all_secrets, handshake_secrets, end_session. cbn. split.
  - intro H. repeat destruct H as [H|H]; subst; auto. contradiction.
  - intros [->|[->| ->]]; auto 10.
Qed.

Theorem ended_exactly : forall C, crypto_ok C -> forall i pro kp cs, keypair_ok kp ->
  let s0 := init_session C i pro kp in let s := run_calls C s0 cs in
  let left k := In k (all_secrets (end_session s)) in
  (is_transport s = true -> forall k, left k <-> k = zeros32) /\
  (is_transport s = false -> ~ failed_late cs (results C s0 cs) -> forall k, left k <-> k = zeros32 \/ k = nx_name_hash C) /\
  (is_transport s = false -> failed_late cs (results C s0 cs) -> exists ck x y, In x (own_keys kp cs) /\
     let '(ck', key, _) := HKDF C ck (c_dh C x y) in forall k, left k <-> k = zeros32 \/ k = ck' \/ k = key).
Proof.
  intros C OK i pro kp cs K s0 s left.
  destruct (stage_run C OK i cs s0 _ (wf_init C i pro kp) (stage_new C OK i pro kp K)) as (g & S & A). fold s in A.
  assert (X : is_transport s = false -> exists n p, g = Handshake n p /\ own (own_keys kp cs) p /\
    (~ failed_late cs (results C s0 cs) -> same (p_sym p) (p_sym (newcomer C i pro kp))) /\
    (failed_late cs (results C s0 cs) -> derived C (own_keys kp cs) (p_sym p)) /\ forall k, left k <-> k = zeros32 \/ k = sy_ck (p_sym p) \/ sy_k (p_sym p) = Some k).
  { intro T. destruct g as [n p|h rs c]; [|destruct A as (X & _); rewrite X in T; discriminate T].
    destruct (story_end C (own_keys kp cs) _ _ _ _ _ S _ _ _ _ eq_refl eq_refl) as (O & N & D).
    { split; [left; reflexivity|right; left; reflexivity]. }
    { apply Forall_forall. intros c I. unfold keys_in, own_keys. destruct c; try exact Logic.I; right; right; apply in_flat_map; (eexists; split; [exact I|left; reflexivity]). }
    exists n, p. split; [reflexivity|]. split; [exact O|]. split; [exact N|]. split; [intro F; apply D; right; exact F|].
    intro k. unfold left. rewrite ended_fields. destruct A as (ss & rs & re & psk & h & c1 & c2 & Es & R & _). rewrite Es. cbn [se_hs hs_ss].
    destruct R as [R1 _ _ _ R5]. rewrite R1. destruct (sy_k (p_sym p)) as [q|].
    - destruct R5 as [-> _]. split; (intros [H|[H|H]]; [left; exact H|right; left; exact H|right; right; congruence]).
    - rewrite R5. split; [intros [H|[H|H]]|intros [H|[H|H]]]; auto; discriminate H. }
  split; [|split].
  - intros T k. pose proof (ended_transport C i pro kp cs T) as E. fold s0 in E. fold s in E. split.
    + intro H. symmetry. exact (proj1 (Forall_forall _ _) E k H).
    + intros ->. apply ended_fields. left. reflexivity.
  - intros T N k. destruct (X T) as (n & p & _ & _ & M & _ & E). destruct (M N) as [M1 M2]. rewrite E, M1, M2.
    change (sy_ck (p_sym (newcomer C i pro kp))) with (nx_name_hash C). change (sy_k (p_sym (newcomer C i pro kp))) with (@None bytes).
    split; [intros [H|[H|H]]|intros [H|H]]; auto; discriminate H.
  - intros T F. destruct (X T) as (n & p & _ & _ & _ & D & E). destruct (D F) as (ck & x & y & I & E1 & E2). exists ck, x, y. split; [exact I|].
    destruct (HKDF C ck (c_dh C x y)) as [[ck' key] z]. cbn [fst snd] in E1, E2. intro k. rewrite E, E1, E2.
    split; (intros [H|[H|H]]; [left; exact H|right; left; exact H|right; right; congruence]).
Qed.

(** ** All fields of a session dropped in transport mode *)
Section Whole.
Variable C : crypto.
Hypothesis OK : crypto_ok C.

Lemma mixed_len : forall s d, len (ss_h (mix_hash C s d)) = 32.
Proof.
  intros. unfold mix_hash, hash_with_context, from_slice_hashlen. cbn [ss_h].
  rewrite firstn_exact; apply (hash_len C OK).
Qed.
Lemma enc_done : forall s b s' b', encrypt_and_hash C s b = (s', b', Ok tt) ->
  cs_n (ss_cs s') = cs_n (ss_cs s) + 1 /\ len (ss_h s') = 32.
Proof.
  intros s b s' b' H. unfold encrypt_and_hash in H. destruct (len b <? 16); [discriminate|].
  destruct (split_mac b) as [[p m]|]; [|discriminate]. unfold cs_encrypt_with_ad in H.
  destruct (nonce_get (cs_n (ss_cs s))); [|discriminate|discriminate]. destruct (cs_has_key (ss_cs s)); [|discriminate].
  destruct (c_seal C _ _ _ _) as [ct mac]. apply (f_equal (fun x => fst (fst x))) in H. cbn [fst] in H. subst s'.
  split; [reflexivity|apply mixed_len].
Qed.
Lemma dec_done : forall s b s' b', decrypt_and_hash C s b = (s', b', Ok tt) ->
  cs_n (ss_cs s') = cs_n (ss_cs s) + 1 /\ len (ss_h s') = 32.
Proof.
  intros s b s' b' H. unfold decrypt_and_hash in H. destruct (2048 <? len b); [discriminate|].
  destruct (split_mac b) as [[p m]|]; [|discriminate]. unfold cs_decrypt_with_ad in H.
  destruct (nonce_get (cs_n (ss_cs s))); [|discriminate|discriminate]. destruct (cs_has_key (ss_cs s)); [|discriminate].
  destruct (c_open C _ _ _ _ _) as [[] pt]; [|discriminate]. apply (f_equal (fun x => fst (fst x))) in H. cbn [fst] in H. subst s'.
  split; [reflexivity|apply mixed_len].
Qed.
Definition spent (ss : symmetric_state) (h : bytes) : Prop := ss = mkSS (mkCS zeros32 1) zeros32 h.
Lemma spent_clear : forall s, cs_n (ss_cs s) = 0 + 1 -> len (ss_h s) = 32 -> spent (ss_clear s) (from_slice_hashlen (ss_h s)).
Proof.
  intros s E H. unfold spent, ss_clear, cs_clear_key. rewrite E. unfold from_slice_hashlen. rewrite firstn_exact by exact H. reflexivity.
Qed.
Lemma write_b_done : forall rnd h b h' b' hh c1 c2, write_message_b C rnd h b = (h', b', Ok (hh, c1, c2)) -> spent (hs_ss h') hh.
Proof.
  intros rnd h b h' b' hh c1 c2 H. unfold write_message_b in H. destruct (len b <? 32); [discriminate|]. cbv zeta in H.
  destruct (len (skipn DHLEN b) <? 48); [discriminate|].
  destruct (encrypt_and_hash C _ (kp_public _ ++ _)) as [[ss1 ns] [[]|e|]]; [|discriminate|discriminate].
  destruct (encrypt_and_hash C (mix_key C ss1 _) _) as [[ss2 rest] [[]|e|]] eqn:E; [|discriminate|discriminate].
  destruct (split C ss2) as [k1 k2]. destruct (enc_done _ _ _ _ E) as [E1 E2]. rewrite mix_key_n in E1.
  apply (f_equal (fun x => (fst (fst x), snd x))) in H. cbn [fst snd] in H. inversion H. subst. apply spent_clear; assumption.
Qed.
Lemma read_b_done : forall h b h' b' hh c1 c2, read_message_b C h b = (h', b', Ok (hh, c1, c2)) -> spent (hs_ss h') hh.
Proof.
  intros h b h' b' hh c1 c2 H. unfold read_message_b in H. destruct (len b <? 48); [discriminate|]. cbv zeta in H.
  destruct (public_key_from_bytes _) as [re|e|]; [|discriminate|discriminate].
  destruct (len (skipn DHLEN b) <? 48); [discriminate|].
  destruct (decrypt_and_hash C _ (firstn 48 _)) as [[ss1 ns] [[]|e|]]; [|discriminate|discriminate].
  destruct (public_key_from_bytes (from_slice_hashlen ns)) as [rs|e|]; [|discriminate|discriminate].
  destruct (decrypt_and_hash C (mix_key C ss1 _) _) as [[ss2 rest] [[]|e|]] eqn:E; [|discriminate|discriminate].
  destruct (split C ss2) as [k1 k2]. destruct (dec_done _ _ _ _ E) as [E1 E2]. rewrite mix_key_n in E1.
  apply (f_equal (fun x => (fst (fst x), snd x))) in H. cbn [fst snd] in H. inversion H. subst. apply spent_clear; assumption.
Qed.

Definition whole (s : session) : Prop := se_transport s = true -> spent (hs_ss (se_hs s)) (se_h s).
Lemma send_whole : forall rnd s b, gate s -> whole s -> whole (st (send_message C rnd s b)).
Proof.
  intros rnd s b G W. unfold send_message. destruct (_ || _); [exact W|].
  destruct (N.eqb_spec (se_mc s) 0) as [E0|E0].
  { assert (T : se_transport s = false) by (destruct (se_transport s) eqn:T; [apply (proj1 G) in T; lia|reflexivity]).
    destruct (write_message_a C rnd (se_hs s) b) as [[h x] [r|e|]]; intro X; cbn in X; congruence. }
  destruct (N.eqb_spec (se_mc s) 1) as [E1|E1].
  { assert (T : se_transport s = false) by (destruct (se_transport s) eqn:T; [apply (proj1 G) in T; lia|reflexivity]).
    destruct (write_message_b C rnd (se_hs s) b) as [[h x] [[[hh c1] c2]|e|]] eqn:E; intro X; [|cbn in X; congruence|cbn in X; congruence].
    exact (write_b_done _ _ _ _ _ _ _ _ E). }
  destruct (se_i s); destruct (cs_write_message_regular C _ b) as [[c x] [r|e|]]; exact W.
Qed.
Lemma recv_whole : forall s b, gate s -> whole s -> whole (st (recv_message C s b)).
Proof.
  intros s b G W. unfold recv_message. destruct (_ || _); [exact W|].
  destruct (N.eqb_spec (se_mc s) 0) as [E0|E0].
  { assert (T : se_transport s = false) by (destruct (se_transport s) eqn:T; [apply (proj1 G) in T; lia|reflexivity]).
    destruct (read_message_a C (se_hs s) b) as [[h x] [r|e|]]; intro X; cbn in X; congruence. }
  destruct (N.eqb_spec (se_mc s) 1) as [E1|E1].
  { assert (T : se_transport s = false) by (destruct (se_transport s) eqn:T; [apply (proj1 G) in T; lia|reflexivity]).
    destruct (read_message_b C (se_hs s) b) as [[h x] [[[hh c1] c2]|e|]] eqn:E; intro X; [|cbn in X; congruence|cbn in X; congruence].
    exact (read_b_done _ _ _ _ _ _ _ E). }
  destruct (se_i s); destruct (cs_read_message_regular C _ b) as [[c x] [r|e|]]; exact W.
Qed.
Lemma step_whole : forall s c, gate s -> whole s -> whole (st (step C s c)).
Proof.
  intros s [rnd b|b| | | | |e] G W; cbn [step]; try exact W; [apply send_whole|apply recv_whole]; assumption.
Qed.
Lemma run_whole : forall cs s, gate s -> whole s -> whole (run_calls C s cs).
Proof.
  induction cs as [|c cs IH]; intros s G W; [exact W|]. rewrite run_calls_cons.
  apply IH; [exact (proj1 (step_gate C s c G))|apply step_whole; assumption].
Qed.
Lemma send_role : forall rnd s b, se_i (st (send_message C rnd s b)) = se_i s.
Proof.
  intros. unfold send_message. destruct (_ || _); [reflexivity|]. destruct (se_mc s =? 0).
  { destruct (write_message_a C rnd (se_hs s) b) as [[h x] [r|e|]]; reflexivity. }
  destruct (se_mc s =? 1). { destruct (write_message_b C rnd (se_hs s) b) as [[h x] [[[hh c1] c2]|e|]]; reflexivity. }
  destruct (se_i s) eqn:E; destruct (cs_write_message_regular C _ b) as [[c x] [r|e|]]; exact E.
Qed.
Lemma recv_role : forall s b, se_i (st (recv_message C s b)) = se_i s.
Proof.
  intros. unfold recv_message. destruct (_ || _); [reflexivity|]. destruct (se_mc s =? 0).
  { destruct (read_message_a C (se_hs s) b) as [[h x] [r|e|]]; reflexivity. }
  destruct (se_mc s =? 1). { destruct (read_message_b C (se_hs s) b) as [[h x] [[[hh c1] c2]|e|]]; reflexivity. }
  destruct (se_i s) eqn:E; destruct (cs_read_message_regular C _ b) as [[c x] [r|e|]]; exact E.
Qed.
Lemma run_role : forall cs s, se_i (run_calls C s cs) = se_i s.
Proof.
  induction cs as [|c cs IH]; intro s; [reflexivity|]. rewrite run_calls_cons, IH.
  destruct c as [rnd b|b| | | | |e]; cbn [step]; try reflexivity; [apply send_role|apply recv_role].
Qed.
Theorem ended_whole : forall i pro kp cs, let s := run_calls C (init_session C i pro kp) cs in is_transport s = true ->
  exists rs h, get_remote_static_public_key s = Some rs /\ get_handshake_hash s = Some h /\ end_session s = only_public i rs h.
Proof.
  intros i pro kp cs s T.
  assert (W : whole s). { apply run_whole; [exact (proj1 (init_gate C i pro kp))|]. intro X. destruct i; discriminate. }
  assert (R : se_i s = i). { unfold s. rewrite run_role. destruct i; reflexivity. }
  exists (hs_rs (se_hs s)), (se_h s). unfold is_transport in T. specialize (W T).
  unfold get_remote_static_public_key, get_handshake_hash, end_session, hs_clear, only_public. rewrite T, R, W.
  repeat split; reflexivity.
Qed.
End Whole.

From Verif Require Import NoiseSamples.
Lemma early_only : let s0 := init_session demo_crypto false d_prologue d_sr in
  let b := [Recv (out d_x1); Send k_er (repeat x00 20); RekeyLocal] in ~ failed_late b (results demo_crypto s0 b).
Proof.
  intros s0 b H. unfold failed_late in H.
  assert (E : map snd (results demo_crypto s0 b) = [Ok tt; Err MissingneError; Ok tt]) by (vm_compute; reflexivity).
  unfold b in H at 1. destruct (results demo_crypto s0 b) as [|[x1 r1] [|[x2 r2] [|[x3 r3] [|]]]]; try discriminate E.
  cbn [map snd] in E. injection E as -> -> ->. cbn [combine] in H.
  inversion H as [? ? [_ X]|? ? H1]; subst; [apply X; reflexivity|].
  inversion H1 as [? ? [X _]|? ? H2]; subst; [cbn [fst reached] in X; destruct X as [X _]; apply X; reflexivity|].
  inversion H2 as [? ? [X _]|? ? H3]; subst; [exact X|]. inversion H3.
Qed.
