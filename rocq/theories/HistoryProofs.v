(** * HistoryProofs: the handshake hash and the keys after any history of calls (C126, C127). *)
From Coq Require Import Lia ZifyBool ZifyNat ZifyN.
From Verif Require Import Base SpecWire BaseFacts Noise SpecNoise SpecSession SpecTransport SpecBinding SpecRetry SpecStory SpecHistory
  NoiseFacts HandshakeProofs NxProofs BindingProofs RetryProofs NoiseClaims SessionProofs RecvProofs TransportProofs ActiveProofs StoryProofs
  Crypto CryptoFacts KeyProofs.
Local Open Scope N_scope.
Local Open Scope list_scope.

Section History.
Variable C : crypto.
Hypothesis OK : crypto_ok C.

Definition CK (ck d : bytes) : bytes := fst (fst (HKDF C ck d)).
Definition KK (ck d : bytes) : bytes := snd (fst (HKDF C ck d)).
Lemma mix_all : forall s d, sy_h (MixKey C s d) = sy_h s /\ sy_ck (MixKey C s d) = CK (sy_ck s) d /\
  sy_k (MixKey C s d) = Some (KK (sy_ck s) d) /\ sy_n (MixKey C s d) = 0.
Proof. intros s d. unfold MixKey, CK, KK. destruct (HKDF C (sy_ck s) d) as [[a b] c]. repeat split. Qed.

(** ** Tokens, with chaining key and hash *)
Lemma tok_ee : forall p m q rest, read_tokens C p [TE; TEE] m = Some (q, rest) ->
  let re := firstn 32 m in let d := c_dh C (kp_private (p_e p)) re in
  len re = 32 /\ p_e q = p_e p /\ p_s q = p_s p /\ sy_h (p_sym q) = c_hash C (sy_h (p_sym p) ++ re) /\ sy_ck (p_sym q) = CK (sy_ck (p_sym p)) d.
Proof.
  intros * H. cbn [read_tokens] in H. destruct (len m <? 32) eqn:L; [discriminate|].
  cbn [dh_token mix_dh with_sym p_re p_e p_sym] in H. injection H as <- _. cbv zeta. cbn [with_sym p_sym p_e p_s].
  match goal with |- context [MixKey C ?s ?d] => destruct (mix_all s d) as (-> & -> & _) end.
  split; [unfold len in *; rewrite firstn_length; lia|]. repeat split.
Qed.
Lemma tok_ees : forall p m q rest, read_tokens C p [TE; TEE; TS] m = Some (q, rest) ->
  let re := firstn 32 m in let d := c_dh C (kp_private (p_e p)) re in
  let h1 := c_hash C (sy_h (p_sym p) ++ re) in let box := firstn 48 (skipn 32 m) in
  exists rs, len re = 32 /\ len box = 48 /\ p_e q = p_e p /\ p_s q = p_s p /\ p_initiator q = p_initiator p /\
    p_rs q = Some rs /\ DECRYPT C (KK (sy_ck (p_sym p)) d) 0 h1 box = Some rs /\
    sy_h (p_sym q) = c_hash C (h1 ++ box) /\ sy_ck (p_sym q) = CK (sy_ck (p_sym p)) d /\ rest = skipn 80 m.
Proof.
  intros * H. cbn [read_tokens] in H. destruct (len m <? 32) eqn:L; [discriminate|].
  cbn [dh_token mix_dh with_sym p_re p_e p_sym] in H. cbv zeta.
  match type of H with context [MixKey C ?s ?d] => destruct (mix_all s d) as (H1 & H2 & H3 & H4); set (sy1 := MixKey C s d) in * end.
  unfold has_key in H. rewrite H3 in H. destruct (len (skipn 32 m) <? N.of_nat 48) eqn:L2; [discriminate|].
  unfold DecryptAndHash in H. rewrite H3, H4, H1 in H. cbn [MixHash sy_h sy_ck] in H, H1, H2, H3.
  destruct (DECRYPT C _ 0 _ (firstn 48 (skipn 32 m))) as [rs|] eqn:D; [|discriminate].
  injection H as <- <-. cbn [with_sym p_sym p_e p_s p_rs p_initiator MixHash next_nonce sy_h sy_ck]. exists rs.
  split; [unfold len in *; rewrite firstn_length; lia|]. split; [unfold len in *; rewrite firstn_length; lia|].
  rewrite H1, H2. do 4 (split; [reflexivity|]). split; [first [exact D|reflexivity]|]. split; [reflexivity|]. split; [reflexivity|].
  exact (skipn_skipn 48 32 m).
Qed.
Lemma tok_all : forall p m q rest, p_initiator p = true -> read_tokens C p NX2 m = Some (q, rest) ->
  let re := firstn 32 m in let d := c_dh C (kp_private (p_e p)) re in
  let h1 := c_hash C (sy_h (p_sym p) ++ re) in let box := firstn 48 (skipn 32 m) in
  exists rs, len re = 32 /\ len box = 48 /\ p_e q = p_e p /\ p_s q = p_s p /\
    p_rs q = Some rs /\ DECRYPT C (KK (sy_ck (p_sym p)) d) 0 h1 box = Some rs /\
    sy_h (p_sym q) = c_hash C (h1 ++ box) /\
    sy_ck (p_sym q) = CK (CK (sy_ck (p_sym p)) d) (c_dh C (kp_private (p_e p)) rs) /\ rest = skipn 80 m /\
    sy_k (p_sym q) <> None.
Proof.
  intros * Hi H.
  assert (X : exists ps r, read_tokens C p [TE; TEE; TS] m = Some (ps, r) /\ dh_token C ps TES = Some q /\ rest = r).
  { unfold NX2 in H. cbn [read_tokens] in H |- *. destruct (len m <? 32); [discriminate|].
    destruct (dh_token C _ TEE) as [p'|]; [|discriminate]. destruct (len (skipn 32 m) <? N.of_nat _); [discriminate|].
    destruct (DecryptAndHash C _ _) as [[s0 rs0]|]; [|discriminate].
    eexists _, _. split; [reflexivity|]. destruct (dh_token C _ TES) as [pz|] eqn:T; [|discriminate]. injection H as <- <-. split; [first [exact T|reflexivity]|reflexivity]. }
  destruct X as (ps & r & E1 & E2 & ->). destruct (tok_ees _ _ _ _ E1) as (rs & A1 & A2 & A3 & A4 & A5 & A6 & A7 & A8 & A9 & A10).
  cbv zeta. exists rs. cbn [dh_token] in E2. rewrite A5, Hi, A6, A3 in E2. cbn [mix_dh] in E2. injection E2 as <-. cbn [with_sym p_sym p_e p_s p_rs].
  destruct (mix_all (p_sym ps) (c_dh C (kp_private (p_e p)) rs)) as (-> & -> & -> & _). rewrite A8, A9.
  repeat (split; [first [assumption|reflexivity]|]). discriminate.
Qed.
Lemma tok_read2 : forall p m q pl, p_initiator p = true -> ReadMessage C p NX2 m = Some (q, pl) ->
  let re := firstn 32 m in let d := c_dh C (kp_private (p_e p)) re in
  let h1 := c_hash C (sy_h (p_sym p) ++ re) in let box := firstn 48 (skipn 32 m) in
  exists rs, len re = 32 /\ len box = 48 /\ p_rs q = Some rs /\
    DECRYPT C (KK (sy_ck (p_sym p)) d) 0 h1 box = Some rs /\
    sy_h (p_sym q) = c_hash C (c_hash C (h1 ++ box) ++ skipn 80 m) /\
    sy_ck (p_sym q) = CK (CK (sy_ck (p_sym p)) d) (c_dh C (kp_private (p_e p)) rs).
Proof.
  intros * Hi H. unfold ReadMessage in H. destruct (read_tokens C p NX2 m) as [[pz rest]|] eqn:E; [|discriminate].
  destruct (tok_all _ _ _ _ Hi E) as (rs & A1 & A2 & A3 & A4 & A5 & A6 & A7 & A8 & A9 & A10). subst rest.
  unfold DecryptAndHash in H. destruct (sy_k (p_sym pz)) as [k|]; [|contradiction].
  destruct (DECRYPT C k _ _ _) as [x|]; [|discriminate]. injection H as <- _. cbn [with_sym p_sym p_rs MixHash next_nonce sy_h sy_ck].
  rewrite A7, A8. cbv zeta. exists rs. repeat (split; [first [assumption|reflexivity]|]). reflexivity.
Qed.

Lemma tok_wee : forall p q o re, p_re p = Some re -> write_tokens C p [TE; TEE] = Some (q, o) ->
  let d := c_dh C (kp_private (p_e p)) re in
  o = kp_public (p_e p) /\ p_e q = p_e p /\ p_s q = p_s p /\ p_re q = Some re /\ p_initiator q = p_initiator p /\
  sy_h (p_sym q) = c_hash C (sy_h (p_sym p) ++ kp_public (p_e p)) /\ sy_ck (p_sym q) = CK (sy_ck (p_sym p)) d.
Proof.
  intros * Hre H. cbn [write_tokens dh_token with_sym p_re p_e] in H. rewrite Hre in H. cbn [mix_dh with_sym p_sym] in H. injection H as <- <-.
  cbv zeta. cbn [with_sym p_sym p_e p_s p_re p_initiator].
  match goal with |- context [MixKey C ?s ?d] => destruct (mix_all s d) as (-> & -> & _) end. rewrite !app_nil_r. repeat split. exact Hre.
Qed.
Lemma tok_wall : forall p q o re, p_re p = Some re -> p_initiator p = false -> write_tokens C p NX2 = Some (q, o) ->
  let e := kp_public (p_e p) in let d := c_dh C (kp_private (p_e p)) re in
  let h1 := c_hash C (sy_h (p_sym p) ++ e) in
  let box := ENCRYPT C (KK (sy_ck (p_sym p)) d) 0 h1 (kp_public (p_s p)) in
  o = e ++ box /\ p_e q = p_e p /\ p_s q = p_s p /\ p_re q = Some re /\ p_initiator q = false /\
  sy_h (p_sym q) = c_hash C (h1 ++ box) /\
  sy_ck (p_sym q) = CK (CK (sy_ck (p_sym p)) d) (c_dh C (kp_private (p_s p)) re) /\ sy_k (p_sym q) <> None.
Proof.
  intros * Hre Hi H. unfold NX2 in H. cbn [write_tokens dh_token with_sym p_re p_e p_sym] in H. rewrite Hre in H. cbn [mix_dh with_sym p_sym p_s] in H.
  cbv zeta.
  match type of H with context [MixKey C ?s ?d] => destruct (mix_all s d) as (H1 & H2 & H3 & H4); set (sy1 := MixKey C s d) in * end.
  unfold EncryptAndHash in H. rewrite H3, H4, H1 in H. cbn [with_sym p_initiator p_re p_s p_sym] in H. rewrite Hi, Hre in H. cbn [mix_dh with_sym p_sym] in H.
  injection H as <- <-. cbn [with_sym p_sym p_e p_s p_re p_initiator].
  match goal with |- context [MixKey C ?s ?d] => destruct (mix_all s d) as (-> & -> & -> & _) end.
  cbn [MixHash next_nonce sy_h sy_ck] in *. rewrite ?H1, ?H2, !app_nil_r. cbn [MixHash sy_h sy_ck].
  repeat (split; [first [assumption|reflexivity]|]). discriminate.
Qed.
Lemma tok_write2 : forall p q o re pl, p_re p = Some re -> p_initiator p = false -> WriteMessage C p NX2 pl = Some (q, o) ->
  let e := kp_public (p_e p) in let d := c_dh C (kp_private (p_e p)) re in
  let h1 := c_hash C (sy_h (p_sym p) ++ e) in
  let box := ENCRYPT C (KK (sy_ck (p_sym p)) d) 0 h1 (kp_public (p_s p)) in
  exists ct, o = e ++ box ++ ct /\ 16 <= len ct /\
  sy_h (p_sym q) = c_hash C (c_hash C (h1 ++ box) ++ ct) /\
  sy_ck (p_sym q) = CK (CK (sy_ck (p_sym p)) d) (c_dh C (kp_private (p_s p)) re).
Proof.
  intros * Hre Hi H. unfold WriteMessage in H. destruct (write_tokens C p NX2) as [[pz o']|] eqn:E; [|discriminate].
  destruct (tok_wall _ _ _ _ Hre Hi E) as (A1 & A2 & A3 & A4 & A5 & A6 & A7 & A8). unfold EncryptAndHash in H.
  destruct (sy_k (p_sym pz)) as [k|]; [|contradiction]. injection H as <- <-. cbn [with_sym p_sym MixHash next_nonce sy_h sy_ck].
  cbv zeta. eexists. rewrite A1, A6, A7, <- app_assoc. split; [reflexivity|]. split; [rewrite (enc_len C OK); lia|]. split; reflexivity.
Qed.

(** ** What a call adds to the hash *)
Definition hash_of (g : stage) : bytes := match g with Handshake _ p => sy_h (p_sym p) | Done h _ _ => h end.
Definition num (g : stage) : nat := match g with Handshake false _ => 0%nat | Handshake true _ => 1%nat | Done _ _ _ => 2%nat end.
Definition good_party (n : bool) (p : party) : Prop :=
  len (kp_public (p_e p)) = 32 /\ keypair_ok (p_s p) /\ (exists re, p_re p = Some re) /\ (n = false -> sy_k (p_sym p) = None).
Definition good (g : stage) : Prop := match g with Handshake n p => good_party n p | _ => True end.

Lemma drawn_same : forall rnd p, p_sym (drawn C rnd p) = p_sym p /\ p_s (drawn C rnd p) = p_s p /\ p_re (drawn C rnd p) = p_re p /\
  (p_e (drawn C rnd p) = p_e p \/ p_e (drawn C rnd p) = mkKeypair rnd (c_pub C rnd)).
Proof. intros. unfold drawn. destruct (bytes_eqb _ _); repeat split; auto. Qed.
Lemma drawn_good : forall n rnd p, good_party n p -> good_party n (acting false (drawn C rnd p)).
Proof.
  intros n rnd p (A & B & D & F). destruct (drawn_same rnd p) as (E1 & E2 & E3 & E4). unfold good_party. cbn [acting p_e p_s p_re p_sym].
  rewrite E1, E2, E3. split; [|auto]. destruct E4 as [->| ->]; [exact A|]. apply (pub_len C OK).
Qed.
Lemma chain2 : forall h a b, chain C h [a; b] = c_hash C (c_hash C (h ++ a) ++ b). Proof. reflexivity. Qed.
Lemma chain3 : forall h a b c, chain C h [a; b; c] = c_hash C (c_hash C (c_hash C (h ++ a) ++ b) ++ c). Proof. reflexivity. Qed.

Lemma first_front : forall (e x : bytes), len e = 32 -> firstn 32 (e ++ x) = e.
Proof. intros e x H. apply (firstn_app_exact _ 32 e). rewrite H. reflexivity. Qed.
Lemma skip_front : forall (e x : bytes), len e = 32 -> skipn 32 (e ++ x) = x.
Proof. intros e x H. apply (skipn_app_exact _ 32 e). rewrite H. reflexivity. Qed.
Lemma first_box : forall (e x : bytes), len e = 48 -> firstn 48 (e ++ x) = e.
Proof. intros e x H. apply (firstn_app_exact _ 48 e). rewrite H. reflexivity. Qed.
Lemma parts2_joined : forall e box ct : bytes, len e = 32 -> len box = 48 -> parts2 (e ++ box ++ ct) = [e; box; ct].
Proof.
  intros e box ct H1 H2. unfold parts2. rewrite first_front, skip_front, first_box by assumption. do 2 f_equal. f_equal.
  change 80%nat with (48 + 32)%nat. rewrite <- skipn_skipn, skip_front by assumption.
  apply (skipn_app_exact _ 48 box). rewrite H2. reflexivity.
Qed.

Lemma parts2_1 : forall m, firstn 1 (parts2 m) = [firstn 32 m]. Proof. reflexivity. Qed.
Lemma parts2_2 : forall m, firstn 2 (parts2 m) = [firstn 32 m; firstn 48 (skipn 32 m)]. Proof. reflexivity. Qed.
Lemma some_pair : forall A B (a c : A) (b d : B), Some (a, b) = Some (c, d) -> a = c /\ b = d. Proof. intros * H. injection H as -> ->. split; reflexivity. Qed.
Definition fit (c : call) (ds : list bytes) : Prop := not_33 c -> Forall (fun d : bytes => len d <> 1) ds.
Ltac lens := repeat match goal with X : _ = _ ++ _ |- _ => rewrite X; clear X | X : _ = kp_public _ |- _ => rewrite X; clear X end;
  unfold len in *; rewrite ?firstn_length, ?skipn_length, ?app_length, ?skipn_length, ?app_length in *; lia.
Ltac fits := let N := fresh "NOT" in intro N; cbn [not_33 message_of] in *; unfold parts2;
  repeat match goal with |- Forall _ (firstn _ [_; _; _]) => unfold firstn at 1 | |- Forall _ _ => constructor end; lens.
Ltac ra := first [solve [constructor; lens]
  | solve [apply ra_low_re; [lens|assumption]] | solve [apply ra_low_rs; [lens|assumption]]
  | solve [apply ra_seal_s; [lens|cbn; auto]] | solve [apply ra_seal_payload; [lens|cbn; auto]]].
Lemma step_adds : forall i g c g' b r, asked C i g c g' b r -> good g -> pairs_ok c ->
  good g' /\ exists ds, adds (num g) c b r (num g') ds /\ hash_of g' = chain C (hash_of g) ds /\ fit c ds.
Proof.
  intros i g c g' b r H G P.
  assert (Z : forall n b r (p : party) c, (forall m, message_of c b = Some m -> r <> Ok tt /\ refused_at m r 0) ->
    exists ds, adds (num (Handshake n p)) c b r (num (Handshake n p)) ds /\ sy_h (p_sym p) = chain C (sy_h (p_sym p)) ds /\ fit c ds).
  { intros n b0 r0 p c0 HN. exists []. split; [|split; [reflexivity|intro; constructor]]. destruct (message_of c0 b0) as [m|] eqn:EM.
    - destruct n; cbn [num]; [apply (ad_refused_second c0 b0 r0 m 0 EM (proj2 (HN m eq_refl)))|apply ad_refused_first; exact (proj1 (HN m eq_refl))].
    - apply ad_idle. exact EM. }
  destruct H; cbn [good hash_of] in *.
  - split; [exact G|]. apply Z. intros m0 HM; injection HM as <-; split; [discriminate|ra].
  - split; [exact G|]. apply Z. intros m0 HM; injection HM as <-; split; [discriminate|ra].
  - split; [exact G|]. apply Z. intros m HM. exfalso. destruct H as [<-|[<-|[<-|[<-|[]]]]]; discriminate HM.
  - cbn [pairs_ok] in P. destruct G as (A & B & D & F). split; [repeat split; cbn [with_pair p_e p_s p_re p_sym]; try apply P; try apply B; assumption|].
    exists []. split; [apply ad_idle; reflexivity|split; [reflexivity|intro; constructor]].
  - split; [exact G|]. apply Z. intros m0 HM; injection HM as <-; split; [discriminate|ra].
  - (* first message written *)
    destruct (drawn_good _ rnd _ G) as (A & B & D & F). cbn [acting p_e p_s p_re p_sym] in A, B, D, F.
    unfold WriteMessage, NX1 in H0. cbn [write_tokens] in H0. unfold EncryptAndHash in H0. cbn [with_sym p_sym MixHash sy_k] in H0.
    rewrite (F eq_refl) in H0. apply some_pair in H0. destruct H0 as [<- <-]. cbn [with_sym p_sym p_e p_s p_re good_party MixHash sy_h sy_k]. rewrite app_nil_r.
    destruct (drawn_same rnd p) as (E1 & E2 & E3 & E4). split; [repeat split; try assumption; try apply B; discriminate|].
    eexists. split; [apply ad_first; reflexivity|]. split; [cbn [message_of]; rewrite first_front, skip_front, chain2, E1 by exact A; reflexivity|fits].
  - split; [exact G|]. apply Z. intros m0 HM; injection HM as <-; split; [discriminate|ra].
  - split; [exact G|]. apply Z. intros m0 HM; injection HM as <-; split; [discriminate|ra].
  - (* first message read *)
    destruct G as (A & B & D & F). unfold ReadMessage, NX1 in H1. cbn [read_tokens] in H1. destruct (len m <? 32); [discriminate|].
    unfold DecryptAndHash in H1. cbn [p_sym MixHash sy_k] in H1. rewrite (F eq_refl) in H1. 
    apply (f_equal (fun x => match x with Some (q, _) => Some q | None => None end)) in H1. cbv beta iota in H1. apply (f_equal (fun x => match x with Some q => q | None => p' end)) in H1. cbv beta iota in H1. subst p'.
    cbn [with_sym p_sym p_e p_s p_re good_party MixHash sy_h sy_k].
    split; [repeat split; try assumption; try apply B; try discriminate; try (eexists; first [reflexivity|eassumption])|].
    eexists. split; [apply ad_first; first [reflexivity|eassumption]|]. split; [rewrite chain2; reflexivity|fits].
  - (* written up to ee *)
    destruct (drawn_good _ rnd _ G) as (A & B & (re & D) & F). destruct (drawn_same rnd p) as (E1 & E2 & E3 & E4).
    destruct (tok_wee _ _ _ _ D H0) as (T1 & T2 & T3 & T4 & T5 & T6 & T7). cbn [acting p_e p_s p_re p_sym p_initiator] in *.
    split; [unfold good_party; rewrite T2, T3; repeat split; try assumption; try apply B; try discriminate; try (eexists; first [reflexivity|eassumption])|].
    eexists. split; [eapply (ad_refused_second _ _ _ _ 1); [reflexivity|ra]|]. split; [rewrite parts2_1, T6, T1, E1; rewrite first_front by exact A; reflexivity|fits].
  - destruct (drawn_good _ rnd _ G) as (A & B & (re & D) & F). destruct (drawn_same rnd p) as (E1 & E2 & E3 & E4).
    destruct (tok_wee _ _ _ _ D H0) as (T1 & T2 & T3 & T4 & T5 & T6 & T7). cbn [acting p_e p_s p_re p_sym p_initiator] in *.
    split; [unfold good_party; rewrite T2, T3; repeat split; try assumption; try apply B; try discriminate; try (eexists; first [reflexivity|eassumption])|].
    pose proof (proj2 (proj1 (proj2 G))) as LS. cbn [message_of].
    eexists. split; [eapply (ad_refused_second _ _ _ _ 1); [reflexivity|ra]|]. split; [rewrite parts2_1, T6, T1, E1; rewrite first_front by exact A; reflexivity|fits].
  - (* written up to es *)
    destruct (drawn_good _ rnd _ G) as (A & B & (re & D) & F). destruct (drawn_same rnd p) as (E1 & E2 & E3 & E4).
    destruct (tok_wall _ _ _ _ D eq_refl H2) as (T1 & T2 & T3 & T4 & T5 & T6 & T7 & _). cbn [acting p_e p_s p_re p_sym p_initiator] in *.
    match type of T6 with context [ENCRYPT C ?k ?n ?h ?s] => assert (BL : len (ENCRYPT C k n h s) = 48) by (rewrite (enc_len C OK), (proj2 B); reflexivity); set (bx := ENCRYPT C k n h s) in * end.
    split; [unfold good_party; rewrite T2, T3; repeat split; try assumption; try apply B; try discriminate; try (eexists; first [reflexivity|eassumption])|].
    eexists. split; [eapply (ad_refused_second _ _ _ _ 2); [reflexivity|ra]|]. split; [rewrite T1, <- app_assoc, parts2_joined by assumption; unfold firstn; rewrite T6, chain2, E1; reflexivity|fits].
  - destruct (drawn_good _ rnd _ G) as (A & B & (re & D) & F). destruct (drawn_same rnd p) as (E1 & E2 & E3 & E4).
    destruct (tok_wall _ _ _ _ D eq_refl H2) as (T1 & T2 & T3 & T4 & T5 & T6 & T7 & _). cbn [acting p_e p_s p_re p_sym p_initiator] in *.
    match type of T6 with context [ENCRYPT C ?k ?n ?h ?s] => assert (BL : len (ENCRYPT C k n h s) = 48) by (rewrite (enc_len C OK), (proj2 B); reflexivity); set (bx := ENCRYPT C k n h s) in * end.
    split; [unfold good_party; rewrite T2, T3; repeat split; try assumption; try apply B; try discriminate; try (eexists; first [reflexivity|eassumption])|].
    eexists. split; [eapply (ad_refused_second _ _ _ _ 2); [reflexivity|ra]|]. split; [rewrite T1, <- app_assoc, parts2_joined by assumption; unfold firstn; rewrite T6, chain2, E1; reflexivity|fits].
  - (* second message written *)
    destruct (drawn_good _ rnd _ G) as (A & B & (re & D) & F). destruct (drawn_same rnd p) as (E1 & E2 & E3 & E4).
    destruct (tok_write2 _ _ _ _ _ D eq_refl H4) as (ct & T1 & LC & T2 & T3). cbn [acting p_e p_s p_re p_sym p_initiator] in *.
    match type of T2 with context [ENCRYPT C ?k ?n ?h ?s] => assert (BL : len (ENCRYPT C k n h s) = 48) by (rewrite (enc_len C OK), (proj2 B); reflexivity); set (bx := ENCRYPT C k n h s) in * end.
    unfold established. destruct (Split C (p_sym p2)) as [k1 k2]. split; [exact I|]. cbn [num hash_of].
    eexists. split; [apply ad_second; reflexivity|]. split; [rewrite T1, parts2_joined by assumption; rewrite T2, chain3, E1; reflexivity|fits].
  - (* read up to ee *)
    destruct G as (A & B & D & F). destruct (tok_ee _ _ _ _ H1) as (T1 & T2 & T3 & T4 & T5). cbn [acting p_e p_s p_sym] in *.
    assert (RE : exists re, p_re q = Some re).
    { cbn [read_tokens] in H1. destruct (len m <? 32); [discriminate|]. cbn [dh_token mix_dh with_sym p_re p_e p_sym] in H1. injection H1 as <- _. cbn [with_sym p_re]. eauto. }
    split; [unfold good_party; rewrite T2, T3; repeat split; try assumption; try apply B; discriminate|].
    eexists. split; [eapply (ad_refused_second _ _ _ _ 1); [reflexivity|ra]|]. split; [rewrite T4; reflexivity|fits].
  - destruct G as (A & B & D & F). destruct (tok_ee _ _ _ _ H1) as (T1 & T2 & T3 & T4 & T5). cbn [acting p_e p_s p_sym] in *.
    assert (RE : exists re, p_re q = Some re).
    { cbn [read_tokens] in H1. destruct (len m <? 32); [discriminate|]. cbn [dh_token mix_dh with_sym p_re p_e p_sym] in H1. injection H1 as <- _. cbn [with_sym p_re]. eauto. }
    split; [unfold good_party; rewrite T2, T3; repeat split; try assumption; try apply B; discriminate|].
    eexists. split; [eapply (ad_refused_second _ _ _ _ 1); [reflexivity|ra]|]. split; [rewrite T4; reflexivity|fits].
  - destruct G as (A & B & D & F). destruct (tok_ee _ _ _ _ H1) as (T1 & T2 & T3 & T4 & T5). cbn [acting p_e p_s p_sym] in *.
    assert (RE : exists re, p_re q = Some re).
    { cbn [read_tokens] in H1. destruct (len m <? 32); [discriminate|]. cbn [dh_token mix_dh with_sym p_re p_e p_sym] in H1. injection H1 as <- _. cbn [with_sym p_re]. eauto. }
    split; [unfold good_party; rewrite T2, T3; repeat split; try assumption; try apply B; discriminate|].
    eexists. split; [eapply (ad_refused_second _ _ _ _ 1); [reflexivity|ra]|]. split; [rewrite T4; reflexivity|fits].
  - (* the static key is of low order *)
    destruct G as (A & B & D & F). destruct (tok_ees _ _ _ _ H3) as (k' & T1 & T2 & T3 & T4 & T5 & T6 & T7 & T8 & T9 & T10). cbn [acting p_e p_s p_sym] in *.
    split; [unfold good_party; cbn [with_rs p_e p_s p_re p_sym]; rewrite T3, T4; repeat split; try assumption; try apply B; [|discriminate]|].
    { cbn [read_tokens] in H3. destruct (len m <? 32); [discriminate|]. cbn [dh_token mix_dh with_sym p_re p_e p_sym] in H3.
      destruct (len (skipn 32 m) <? _); [discriminate|]. destruct (DecryptAndHash C _ _) as [[? ?]|]; [|discriminate]. injection H3 as <- _. cbn [p_re with_sym]. eauto. }
    eexists. split; [eapply (ad_refused_second _ _ _ _ 2); [reflexivity|ra]|]. split; [cbn [with_rs p_sym]; rewrite T8; reflexivity|fits].
  - (* the static key has been accepted *)
    destruct G as (A & B & D & F). destruct (tok_all (acting true p) _ _ _ eq_refl H6) as (k' & T1 & T2 & T3 & T4 & T5 & T6 & T7 & T8 & T9 & T10). cbn [acting p_e p_s p_sym] in *.
    assert (RE : exists re, p_re q2 = Some re).
    { unfold NX2 in H6. cbn [read_tokens] in H6. destruct (len m <? 32); [discriminate|]. cbn [dh_token mix_dh with_sym p_re p_e p_sym] in H6.
      destruct (len (skipn 32 m) <? _); [discriminate|]. destruct (DecryptAndHash C _ _) as [[? ?]|]; [|discriminate].
      cbn [with_sym p_initiator acting mix_dh p_rs] in H6. injection H6 as <- _. cbn [p_re with_sym]. eauto. }
    assert (GQ : good_party true q2) by (unfold good_party; rewrite T3, T4; repeat split; try assumption; try apply B; discriminate).
    inversion H7; subst.
    + split; [exact GQ|]. eexists. split; [eapply (ad_refused_second _ _ _ _ 2); [reflexivity|ra]|]. split; [cbn [hash_of]; rewrite T7; reflexivity|fits].
    + split; [exact GQ|]. eexists. split; [eapply (ad_refused_second _ _ _ _ 2); [reflexivity|ra]|]. split; [cbn [hash_of]; rewrite T7; reflexivity|fits].
    + split; [exact GQ|]. eexists. split; [eapply (ad_refused_second _ _ _ _ 2); [reflexivity|ra]|]. split; [cbn [hash_of]; rewrite T7; reflexivity|fits].
    + match goal with X : ReadMessage C _ NX2 m = Some _ |- _ => destruct (tok_read2 (acting true p) _ _ _ eq_refl X) as (k2 & U1 & U2 & U3 & U4 & U5 & U6) end.
      unfold established. destruct (Split C (p_sym p2)) as [k1 k3]. split; [exact I|]. cbn [num hash_of].
      eexists. split; [apply ad_second; reflexivity|]. split; [rewrite U5; reflexivity|fits].
  - split; [exact I|]. exists []. split; [apply ad_after|split; [reflexivity|intro; constructor]].
Qed.

(** ** Histories *)
Lemma chain_app : forall h a b, chain C h (a ++ b) = chain C (chain C h a) b.
Proof. intros. unfold chain. apply fold_left_app. Qed.
Lemma story_adds : forall i cs g rs g', story C i g cs rs g' -> good g -> Forall pairs_ok cs ->
  good g' /\ exists ds, transcript (num g) cs rs (num g') ds /\ hash_of g' = chain C (hash_of g) ds /\
    (Forall not_33 cs -> Forall (fun d : bytes => len d <> 1) ds).
Proof.
  intros i cs g rs g' H. induction H as [g|g c g1 b r cs rs g2 H1 H2 IH]; intros G P.
  - split; [exact G|]. exists []. split; [constructor|]. split; [reflexivity|constructor].
  - inversion P as [|? ? P1 P2]; subst. destruct (step_adds _ _ _ _ _ _ H1 G P1) as (G1 & ds1 & A1 & A2 & A3).
    destruct (IH G1 P2) as (G2 & ds2 & B1 & B2 & B3). split; [exact G2|]. exists (ds1 ++ ds2). split; [econstructor; eassumption|].
    split; [rewrite chain_app, <- A2; exact B2|]. intro N. inversion N; subst. apply Forall_app. split; [apply A3; assumption|apply B3; assumption].
Qed.
Lemma newcomer_good : forall i pro kp, keypair_ok kp -> good (Handshake false (newcomer C i pro kp)).
Proof. intros i pro kp K. cbn [good newcomer]. split; [reflexivity|]. split; [exact K|]. split; [eexists; reflexivity|]. reflexivity. Qed.
Lemma newcomer_hash : forall i pro kp, hash_of (Handshake false (newcomer C i pro kp)) = chain C (h_name C) [pro].
Proof. reflexivity. Qed.

Theorem history_transcript : forall i pro kp cs, keypair_ok kp -> Forall pairs_ok cs ->
  let s := init_session C i pro kp in
  exists n ds, transcript 0 cs (results C s cs) n ds /\
    (Forall not_33 cs -> Forall (fun d : bytes => len d <> 1) ds) /\
    (is_transport (run_calls C s cs) = true ->
     n = 2%nat /\ get_handshake_hash (run_calls C s cs) = Some (chain C (h_name C) (pro :: ds))).
Proof.
  intros i pro kp cs K P s. destruct (story_exact C OK i pro kp cs K) as (g & S & X). fold s in S, X.
  destruct (story_adds _ _ _ _ _ S (newcomer_good i pro kp K) P) as (_ & ds & T1 & T2 & T3). exists (num g), ds. split; [exact T1|]. split; [exact T3|].
  intro IT. rewrite newcomer_hash, <- chain_app in T2. cbn [app] in T2. destruct g as [n p|h rs c].
  - destruct X as (X & _). rewrite X in IT. discriminate IT.
  - destruct X as (_ & _ & X & _). split; [reflexivity|]. rewrite X. cbn [hash_of] in T2. rewrite T2. reflexivity.
Qed.

Lemma collide_collision : forall ds ds', collide C (hashed C (h_name C) ds) (hashed C (h_name C) ds') ->
  collision C (all_hashed C ds) (all_hashed C ds').
Proof.
  intros ds ds' (j & x & y & X & Y & N & E). exists x, y. split; [right; exact (nth_error_In _ _ X)|]. split; [right; exact (nth_error_In _ _ Y)|]. split; assumption.
Qed.
Lemma collision_sym : forall xs ys, collision C xs ys -> collision C ys xs.
Proof. intros xs ys (x & y & X & Y & N & E). exists y, x. split; [exact Y|]. split; [exact X|]. split; [intro Q; apply N; symmetry; exact Q|symmetry; exact E]. Qed.
Lemma chains_bind : forall pro ds pro' ds', h_name C <> firstn 32 name ->
  Forall (fun d : bytes => len d <> 1) ds -> Forall (fun d : bytes => len d <> 1) ds' ->
  chain C (h_name C) (pro :: ds) = chain C (h_name C) (pro' :: ds') ->
  (pro = pro' /\ ds = ds') \/ collision C (all_hashed C (pro :: ds)) (all_hashed C (pro' :: ds')).
Proof.
  intros * HN F F' E. destruct (Nat.lt_trichotomy (length ds) (length ds')) as [L|[L|L]].
  - right. apply collision_sym. destruct (shifted C OK (pro :: ds) (pro' :: ds')) as [X|X]; [cbn; lia|exact F'|symmetry; exact E|contradiction|exact X].
  - destruct (chain_binds C OK (pro :: ds) (pro' :: ds') (h_name C) (h_name C)) as [[_ X]|X]; [cbn; lia|apply (hash_len C OK)|apply (hash_len C OK)|exact E| |].
    + injection X as -> ->. left. split; reflexivity.
    + right. apply collide_collision. exact X.
  - right. destruct (shifted C OK (pro' :: ds') (pro :: ds)) as [X|X]; [cbn; lia|exact F|exact E|contradiction|exact X].
Qed.

Lemma taken_after : forall n cs rs n' ds, transcript n cs rs n' ds -> n = 2%nat -> n' = 2%nat /\ ds = [].
Proof.
  intros n cs rs n' ds H. induction H as [n|n c b r n1 ds cs rs n2 ds' H1 H2 IH]; intro E; [split; [exact E|reflexivity]|].
  subst n. inversion H1; subst; (destruct (IH eq_refl) as [-> ->]; split; reflexivity).
Qed.
Lemma taken_between : forall n cs rs n' ds, transcript n cs rs n' ds -> n = 1%nat -> n' = 2%nat ->
  exists m2 mid more, taken cs rs = m2 :: more /\ ds = mid ++ parts2 m2.
Proof.
  intros n cs rs n' ds H. induction H as [n|n c b r n1 ds cs rs n2 ds' H1 H2 IH]; intros E E'; [lia|].
  subst n. inversion H1; subst.
  - destruct (IH eq_refl eq_refl) as (m2 & mid & more & X & Y). exists m2, mid, more. cbn [taken app]. rewrite H, X. split; [reflexivity|exact Y].
  - destruct (IH eq_refl eq_refl) as (m2 & mid & more & X & Y). eexists m2, (firstn k (parts2 m) ++ mid), more. cbn [taken]. rewrite H, X, Y, app_assoc.
    split; [|reflexivity]. destruct r as [[]| |]; [match goal with X : refused_at _ _ _ |- _ => inversion X end|reflexivity|reflexivity].
  - destruct (taken_after _ _ _ _ _ H2 eq_refl) as [_ ->]. exists m, [], (taken cs rs). cbn [taken]. rewrite H, app_nil_r. split; reflexivity.
Qed.
Lemma taken_all : forall n cs rs n' ds, transcript n cs rs n' ds -> n = 0%nat -> n' = 2%nat ->
  exists m1 m2 mid more, taken cs rs = m1 :: m2 :: more /\ ds = [firstn 32 m1; skipn 32 m1] ++ mid ++ parts2 m2.
Proof.
  intros n cs rs n' ds H. induction H as [n|n c b r n1 ds cs rs n2 ds' H1 H2 IH]; intros E E'; [lia|].
  subst n. inversion H1; subst.
  - destruct (IH eq_refl eq_refl) as (m1 & m2 & mid & more & X & Y). exists m1, m2, mid, more. cbn [taken app]. rewrite H, X. split; [reflexivity|exact Y].
  - destruct (IH eq_refl eq_refl) as (m1 & m2 & mid & more & X & Y). exists m1, m2, mid, more. cbn [taken app]. rewrite X. split; [|exact Y].
    destruct (message_of c b); [|reflexivity]. destruct r as [[]| |]; [contradiction|reflexivity|reflexivity].
  - destruct (taken_between _ _ _ _ _ H2 eq_refl eq_refl) as (m2 & mid & more & X & Y). exists m, m2, mid, more. cbn [taken]. rewrite H, X, Y. split; reflexivity.
Qed.
Lemma parts2_inj : forall m m', parts2 m = parts2 m' -> m = m'.
Proof.
  intros m m' H. unfold parts2 in H.
  assert (E : forall x : bytes, x = firstn 32 x ++ firstn 48 (skipn 32 x) ++ skipn 80 x).
  { intro x. change 80%nat with (48 + 32)%nat. rewrite <- skipn_skipn, firstn_skipn. symmetry. apply firstn_skipn. }
  pose proof (f_equal (fun l => nth 0 l []) H) as H1. pose proof (f_equal (fun l => nth 1 l []) H) as H2. pose proof (f_equal (fun l => nth 2 l []) H) as H3.
  cbv [nth] in H1, H2, H3. rewrite (E m), (E m'), H1, H2, H3. reflexivity.
Qed.
Lemma app3_inj : forall (A : Type) (a b c a' b' c' : A) l l', l ++ [a; b; c] = l' ++ [a'; b'; c'] -> l = l' /\ [a; b; c] = [a'; b'; c'].
Proof.
  intros * H. replace (l ++ [a; b; c]) with (((l ++ [a]) ++ [b]) ++ [c]) in H by (rewrite <- !app_assoc; reflexivity).
  replace (l' ++ [a'; b'; c']) with (((l' ++ [a']) ++ [b']) ++ [c']) in H by (rewrite <- !app_assoc; reflexivity).
  apply app_inj_tail in H. destruct H as [H ->]. apply app_inj_tail in H. destruct H as [H ->]. apply app_inj_tail in H. destruct H as [-> ->]. split; reflexivity.
Qed.

Theorem history_binding : forall i pro kp cs i' pro' kp' cs',
  keypair_ok kp -> Forall pairs_ok cs -> Forall not_33 cs -> keypair_ok kp' -> Forall pairs_ok cs' -> Forall not_33 cs' ->
  h_name C <> firstn 32 name ->
  let s := init_session C i pro kp in let s' := init_session C i' pro' kp' in
  is_transport (run_calls C s cs) = true -> is_transport (run_calls C s' cs') = true ->
  get_handshake_hash (run_calls C s cs) = get_handshake_hash (run_calls C s' cs') ->
  exists ds ds', transcript 0 cs (results C s cs) 2 ds /\ transcript 0 cs' (results C s' cs') 2 ds' /\
    ((pro = pro' /\ ds = ds' /\
      exists m1 m2 more more', taken cs (results C s cs) = m1 :: m2 :: more /\ taken cs' (results C s' cs') = m1 :: m2 :: more') \/
     collision C (all_hashed C (pro :: ds)) (all_hashed C (pro' :: ds'))).
Proof.
  intros i pro kp cs i' pro' kp' cs' K P N K' P' N' HN s s' T T' E.
  destruct (history_transcript i pro kp cs K P) as (n & ds & A1 & A2 & A3). destruct (A3 T) as [-> A4].
  destruct (history_transcript i' pro' kp' cs' K' P') as (n' & ds' & B1 & B2 & B3). destruct (B3 T') as [-> B4].
  exists ds, ds'. split; [exact A1|]. split; [exact B1|]. unfold s, s' in E. rewrite A4, B4 in E. injection E as E.
  destruct (chains_bind _ _ _ _ HN (A2 N) (B2 N') E) as [[-> <-]|X]; [left|right; exact X]. split; [reflexivity|]. split; [reflexivity|].
  destruct (taken_all _ _ _ _ _ A1 eq_refl eq_refl) as (m1 & m2 & mid & more & X1 & Y1).
  destruct (taken_all _ _ _ _ _ B1 eq_refl eq_refl) as (m1' & m2' & mid' & more' & X2 & Y2). fold s in X1. fold s' in X2.
  assert (m1 = m1' /\ m2 = m2') as [<- <-].
  { rewrite Y1 in Y2. cbn [app] in Y2.
    pose proof (f_equal (fun l => nth 0 l []) Y2) as U1. pose proof (f_equal (fun l => nth 1 l []) Y2) as U2. cbv [nth] in U1, U2.
    apply (f_equal (@tl _)) in Y2. apply (f_equal (@tl _)) in Y2. unfold tl in Y2. split.
    - rewrite <- (firstn_skipn 32 m1), <- (firstn_skipn 32 m1'), U1, U2. reflexivity.
    - apply parts2_inj. unfold parts2 in *. apply (app3_inj _ _ _ _ _ _ _ mid mid'). exact Y2. }
  exists m1, m2, more, more'. split; assumption.
Qed.

(** ** The two sides of a handshake with refused attempts *)
Lemma results_app : forall a b s, results C s (a ++ b) = results C s a ++ results C (run_calls C s a) b.
Proof. induction a as [|c a IH]; intros b s; [reflexivity|]. cbn [app results]. rewrite IH, run_calls_cons. reflexivity. Qed.
Lemma transcript_app : forall n a ra n1 ds, transcript n a ra n1 ds -> forall b rb n2 ds', transcript n1 b rb n2 ds' ->
  transcript n (a ++ b) (ra ++ rb) n2 (ds ++ ds').
Proof.
  intros n a ra n1 ds H. induction H as [n|n c b r n1 ds cs rs n2 ds' H1 H2 IH]; intros * T; [exact T|].
  cbn [app]. rewrite <- app_assoc. econstructor; [exact H1|]. apply IH. exact T.
Qed.
Lemma stage_run : forall i cs s g, wf s -> at_stage i s g ->
  exists g', story C i g cs (results C s cs) g' /\ at_stage i (run_calls C s cs) g'.
Proof.
  induction cs as [|c cs IH]; intros s g W A.
  - exists g. split; [constructor|exact A].
  - destruct (step_asked C OK i s g c W A) as (g1 & S1 & A1).
    destruct (IH _ g1 (wf_step C OK s c W) A1) as (g2 & S2 & X).
    exists g2. cbn [results]. rewrite run_calls_cons. split; [econstructor; eassumption|exact X].
Qed.
Lemma asked_num : forall i g c g' b r, asked C i g c g' b r -> (num g <= num g')%nat.
Proof.
  intros * H. destruct H; cbn [num]; try (destruct n); try lia.
  - unfold established. destruct (Split C (p_sym p2)). cbn [num]. lia.
  - match goal with X : payload_read _ _ _ _ _ _ _ _ |- _ => destruct X; cbn [num]; try lia end.
    unfold established. destruct (Split C (p_sym p2)). cbn [num]. lia.
Qed.
Lemma story_num : forall i g cs rs g', story C i g cs rs g' -> (num g <= num g')%nat.
Proof. intros * H. induction H as [g|g c g1 b r cs rs g2 H1 H2 IH]; [lia|]. pose proof (asked_num _ _ _ _ _ _ H1). lia. Qed.

Definition inst (e : keypair) (cs : list call) : keypair :=
  fold_left (fun e c => match c with SetEphemeral e' => e' | _ => e end) cs e.
Lemma before_first : forall i g cs rs g', story C i g cs rs g' -> forall p p', g = Handshake false p -> g' = Handshake false p' ->
  p_sym p' = p_sym p /\ p_s p' = p_s p /\ p_e p' = inst (p_e p) cs /\ transcript 0 cs rs 0 [].
Proof.
  intros i g cs rs g' H. induction H as [g|g c g1 b r cs rs g2 H1 H2 IH]; intros p p' E E'.
  - rewrite E in E'. injection E' as ->. repeat split. constructor.
  - subst g g2. pose proof (story_num _ _ _ _ _ H2) as N. destruct g1 as [[|] p1|]; [cbn in N; lia| |cbn in N; lia].
    destruct (IH p1 p' eq_refl eq_refl) as (B1 & B2 & B3 & B4).
    assert (X : p_sym p1 = p_sym p /\ p_s p1 = p_s p /\ p_e p1 = inst (p_e p) [c] /\ adds 0 c b r 0 []).
    { inversion H1; subst; repeat split; try (apply ad_refused_first; discriminate); try (apply ad_idle; reflexivity).
      all: match goal with X : In _ _ |- _ => destruct X as [<-|[<-|[<-|[<-|[]]]]] end; try reflexivity; apply ad_idle; reflexivity. }
    destruct X as (X1 & X2 & X3 & X4). rewrite B1, B2, B3, X1, X2, X3. repeat split. change (@nil bytes) with (@nil bytes ++ []). econstructor; eassumption.
Qed.

Definition keys (c : channel) : bytes * bytes := (fst (to_r c), fst (to_i c)).
Definition talks (c : call) : Prop := match c with Send _ _ | Recv _ | SetEphemeral _ => True | _ => False end.
Lemma done_keys : forall i g cs rs g', story C i g cs rs g' -> Forall talks cs -> forall h k c, g = Done h k c ->
  exists c', g' = Done h k c' /\ keys c' = keys c /\ transcript 2 cs rs 2 [].
Proof.
  intros i g cs rs g' H. induction H as [g|g c g1 b r cs rs g2 H1 H2 IH]; intros F h k ch E.
  - subst g. exists ch. split; [reflexivity|]. split; [reflexivity|constructor].
  - subst g. inversion F as [|? ? F1 F2]; subst. inversion H1; subst.
    destruct (IH F2 _ _ _ eq_refl) as (c2 & -> & K & T). exists c2. split; [reflexivity|]. split.
    + rewrite K. match goal with X : served _ _ _ _ _ _ _ |- _ => clear - F1 X; destruct X end; cbn [talks] in F1; try contradiction; try reflexivity;
        unfold sending, receiving, keys in *; destruct i; repeat match goal with X : channel |- _ => destruct X as [[? ?] [? ?]] end; cbn in *; congruence.
    + change (@nil bytes) with (@nil bytes ++ []). econstructor; [apply ad_after|exact T].
Qed.

Definition st2 (p : party) : bytes * bytes := (sy_h (p_sym p), sy_ck (p_sym p)).
Definition split_of (ck : bytes) : bytes * bytes := (fst (fst (HKDF C ck [])), snd (fst (HKDF C ck []))).
Lemma established_keys : forall p, exists c, established C p = Done (sy_h (p_sym p)) (match p_rs p with Some k => k | None => zeros32 end) c /\
  keys c = split_of (sy_ck (p_sym p)).
Proof.
  intro p. unfold established, Split, split_of. destruct (HKDF C (sy_ck (p_sym p)) []) as [[a b] c]. eexists. split; [reflexivity|]. reflexivity.
Qed.

(** The party that waits for the second message: what each attempt does to the hash and the chaining key. *)
Inductive eatA (e : keypair) : bytes * bytes -> list bytes -> bytes * bytes -> Prop :=
| ea_nil : forall s, eatA e s [] s
| ea_ee : forall h ck re l s, len re = 32 ->
    eatA e (c_hash C (h ++ re), CK ck (c_dh C (kp_private e) re)) l s -> eatA e (h, ck) (re :: l) s
| ea_s : forall h ck re box rs ck2 l s, len re = 32 -> len box = 48 ->
    let d := c_dh C (kp_private e) re in let h1 := c_hash C (h ++ re) in
    DECRYPT C (KK ck d) 0 h1 box = Some rs ->
    low_order rs \/ ck2 = CK (CK ck d) (c_dh C (kp_private e) rs) ->
    eatA e (c_hash C (h1 ++ box), ck2) l s -> eatA e (h, ck) (re :: box :: l) s.
(** The party that writes it, having read [re0] in the first one. *)
Inductive eatB (e sB : keypair) (re0 : bytes) : bytes * bytes -> list bytes -> bytes * bytes -> Prop :=
| eb_nil : forall s, eatB e sB re0 s [] s
| eb_ee : forall h ck eB l s, len (kp_public eB) = 32 -> dh_agree C e eB ->
    eatB e sB re0 (c_hash C (h ++ kp_public eB), CK ck (c_dh C (kp_private eB) re0)) l s ->
    eatB e sB re0 (h, ck) (kp_public eB :: l) s
| eb_s : forall h ck eB l s, len (kp_public eB) = 32 -> dh_agree C e eB ->
    let d := c_dh C (kp_private eB) re0 in let h1 := c_hash C (h ++ kp_public eB) in
    let box := ENCRYPT C (KK ck d) 0 h1 (kp_public sB) in
    eatB e sB re0 (c_hash C (h1 ++ box), CK (CK ck d) (c_dh C (kp_private sB) re0)) l s ->
    eatB e sB re0 (h, ck) (kp_public eB :: box :: l) s.
Lemma eatA_app : forall e s l1 s1, eatA e s l1 s1 -> forall l2 s2, eatA e s1 l2 s2 -> eatA e s (l1 ++ l2) s2.
Proof. intros * H. induction H; intros; cbn [app]; [assumption|eapply ea_ee; eauto|eapply ea_s; eauto]. Qed.
Lemma eatB_app : forall e sB re0 s l1 s1, eatB e sB re0 s l1 s1 -> forall l2 s2, eatB e sB re0 s1 l2 s2 -> eatB e sB re0 s (l1 ++ l2) s2.
Proof. intros * H. induction H; intros; cbn [app]; [assumption|eapply eb_ee; eauto|eapply eb_s; eauto]. Qed.

Lemma eat_same : forall e sB, keypair_ok sB -> dh_agree C e sB -> ~ low_order (kp_public sB) ->
  forall s l s1, eatA e s l s1 -> forall s2, eatB e sB (kp_public e) s l s2 -> s1 = s2.
Proof.
  intros e sB KB AB LO s l s1 H. induction H as [s|h ck re l s L H IH|h ck re box rs ck2 l s L1 L2 d h1 D K H IH]; intros s2 B.
  - inversion B. reflexivity.
  - inversion B; subst.
    + apply IH. match goal with X : dh_agree C e eB |- _ => rewrite X end. assumption.
    + exfalso. assert (BL : len box = 48) by (unfold box; rewrite (enc_len C OK), (proj2 KB); reflexivity). clearbody box. inversion H; subst; lia.
  - inversion B; subst.
    + exfalso. match goal with X : eatB _ _ _ _ (box :: l) _ |- _ => inversion X; subst end; lia.
    + apply IH. match goal with X : dh_agree C e eB |- _ => unfold dh_agree in X; repeat match goal with y := _ : bytes |- _ => subst y end; rewrite X in *; clear X end.
      rewrite (open_sealed C OK) in D. injection D as <-. destruct K as [K|K]; [contradiction|].
      rewrite K. rewrite AB. assumption.
Qed.

Lemma stepA : forall i p m g' b r, asked C i (Handshake true p) (Recv m) g' b r ->
  (exists p' l, g' = Handshake true p' /\ p_e p' = p_e p /\ eatA (p_e p) (st2 p) l (st2 p') /\ adds 1 (Recv m) b r 1 l /\ Forall (fun d => len d <> 1) l) \/
  (exists re box pl rs c, let d := c_dh C (kp_private (p_e p)) re in let h1 := c_hash C (sy_h (p_sym p) ++ re) in
     let ck := sy_ck (p_sym p) in
     g' = Done (chain C (sy_h (p_sym p)) [re; box; pl]) rs c /\
     DECRYPT C (KK ck d) 0 h1 box = Some rs /\ keys c = split_of (CK (CK ck d) (c_dh C (kp_private (p_e p)) rs)) /\
     adds 1 (Recv m) b r 2 [re; box; pl] /\ Forall (fun d => len d <> 1) [re; box; pl]).
Proof.
  intros i p m g' b r H.
  assert (Z : forall r0, refused_at m r0 0 -> (exists p' l, Handshake true p = Handshake true p' /\ p_e p' = p_e p /\ eatA (p_e p) (st2 p) l (st2 p') /\
     adds 1 (Recv m) b r0 1 l /\ Forall (fun d : bytes => len d <> 1) l)).
  { intros r0 N. exists p, []. split; [reflexivity|]. split; [reflexivity|]. split; [constructor|]. split; [|constructor].
    apply (ad_refused_second _ _ _ m 0); [reflexivity|exact N]. }
  assert (E : forall q rest r0, refused_at m r0 1 -> read_tokens C (acting true p) [TE; TEE] m = Some (q, rest) ->
     exists p' l, Handshake true q = Handshake true p' /\ p_e p' = p_e p /\ eatA (p_e p) (st2 p) l (st2 p') /\
     adds 1 (Recv m) b r0 1 l /\ Forall (fun d : bytes => len d <> 1) l).
  { intros q rest r0 N R. destruct (tok_ee _ _ _ _ R) as (T1 & T2 & T3 & T4 & T5). cbn [acting p_e p_s p_sym] in *.
    exists q, [firstn 32 m]. split; [reflexivity|]. split; [exact T2|]. split.
    - unfold st2. rewrite T4, T5. apply ea_ee; [exact T1|constructor].
    - split; [rewrite <- parts2_1; eapply ad_refused_second; [reflexivity|exact N]|]. constructor; [lia|constructor]. }
  inversion H; subst; try (left; apply Z; ra); try (left; eapply E; [ra|eassumption]).
  - match goal with X : In _ _ |- _ => destruct X as [X|[X|[X|[X|[]]]]]; discriminate X end.
  - left. match goal with X : read_tokens C _ [TE; TEE; TS] m = Some _ |- _ => destruct (tok_ees _ _ _ _ X) as (k' & T1 & T2 & T3 & T4 & T5 & T6 & T7 & T8 & T9 & T10) end.
    cbn [acting p_e p_s p_sym] in *. match goal with X : p_rs q' = Some k |- _ => rewrite T6 in X; injection X as -> end.
    eexists _, [firstn 32 m; firstn 48 (skipn 32 m)]. split; [reflexivity|]. cbn [with_rs p_e]. split; [exact T3|]. split.
    + unfold st2. cbn [with_rs p_sym]. rewrite T8. eapply ea_s; [exact T1|exact T2|exact T7|left; assumption|constructor].
    + split; [rewrite <- parts2_2; eapply ad_refused_second; [reflexivity|ra]|]. constructor; [lia|constructor; [lia|constructor]].
  - match goal with X : read_tokens C _ NX2 m = Some _ |- _ => destruct (tok_all (acting true p) _ _ _ eq_refl X) as (k' & T1 & T2 & T3 & T4 & T5 & T6 & T7 & T8 & T9 & T10) end.
    cbn [acting p_e p_s p_sym] in *.
    assert (Y : forall r0, refused_at m r0 2 -> exists p' l, Handshake true q2 = Handshake true p' /\ p_e p' = p_e p /\ eatA (p_e p) (st2 p) l (st2 p') /\
       adds 1 (Recv m) b r0 1 l /\ Forall (fun d : bytes => len d <> 1) l).
    { intros r0 N. exists q2, [firstn 32 m; firstn 48 (skipn 32 m)]. split; [reflexivity|]. split; [exact T3|]. split.
      - unfold st2. rewrite T7. eapply ea_s; [exact T1|exact T2|exact T6|right; exact T8|constructor].
      - split; [rewrite <- parts2_2; eapply ad_refused_second; [reflexivity|exact N]|]. constructor; [lia|constructor; [lia|constructor]]. }
    match goal with X : payload_read _ _ _ _ _ _ _ _ |- _ => inversion X; subst end; try (left; apply Y; ra).
    right. match goal with X : ReadMessage C _ NX2 m = Some _ |- _ => destruct (tok_read2 (acting true p) _ _ _ eq_refl X) as (k2 & U1 & U2 & U3 & U4 & U5 & U6) end.
    cbn [acting p_e p_s p_sym] in *. destruct (established_keys p2) as (c & -> & KS). rewrite U3, U5. rewrite U6 in KS.
    exists (firstn 32 m), (firstn 48 (skipn 32 m)), (skipn 80 m), k2, c. cbv zeta. split; [reflexivity|]. split; [exact U4|]. split; [exact KS|].
    split; [apply ad_second; reflexivity|]. constructor; [lia|constructor; [lia|constructor; [|constructor]]].
    unfold len in *. rewrite skipn_length. lia.
Qed.

Lemma runA : forall i g cs rs g', story C i g cs rs g' -> Forall listens cs -> forall p h k c, g = Handshake true p -> g' = Done h k c ->
  exists l h1 ck1 re box pl, eatA (p_e p) (st2 p) l (h1, ck1) /\ let d := c_dh C (kp_private (p_e p)) re in
    DECRYPT C (KK ck1 d) 0 (c_hash C (h1 ++ re)) box = Some k /\
    keys c = split_of (CK (CK ck1 d) (c_dh C (kp_private (p_e p)) k)) /\
    h = chain C (sy_h (p_sym p)) (l ++ [re; box; pl]) /\
    transcript 1 cs rs 2 (l ++ [re; box; pl]) /\ Forall (fun d => len d <> 1) (l ++ [re; box; pl]).
Proof.
  assert (HC : forall e s l s', eatA e s l s' -> fst s' = chain C (fst s) l).
  { intros * X. induction X; [reflexivity|exact IHX|exact IHX]. }
  intros i g cs rs g' H. induction H as [g|g c0 g1 b r cs rs g2 H1 H2 IH]; intros F p h k c E E'.
  - subst g. discriminate E'.
  - subst g g2. inversion F as [|? ? F1 F2]; subst. destruct c0 as [| m| | | | |]; try contradiction.
    destruct (stepA _ _ _ _ _ _ H1) as [(p' & l & -> & A1 & A2 & A3 & A4)|(re & box & pl & k' & c' & -> & A1 & A2 & A3 & A4)].
    + destruct (IH F2 p' h k c eq_refl eq_refl) as (l2 & h1 & ck1 & re & box & pl & B1 & B2 & B3 & B4 & B5 & B6). rewrite A1 in *.
      exists (l ++ l2), h1, ck1, re, box, pl. split; [eapply eatA_app; eassumption|]. cbv zeta in *. split; [exact B2|]. split; [exact B3|].
      rewrite <- app_assoc. split; [|split; [econstructor; eassumption|apply Forall_app; split; assumption]].
      rewrite chain_app. pose proof (HC _ _ _ _ A2) as Q. cbn [st2 fst] in Q. rewrite <- Q. exact B4.
    + assert (FT : Forall talks cs) by (eapply Forall_impl; [|exact F2]; intros [] X; cbn in *; auto).
      destruct (done_keys _ _ _ _ _ H2 FT _ _ _ eq_refl) as (c2 & Q & K & T). injection Q as -> -> ->.
      exists [], (sy_h (p_sym p)), (sy_ck (p_sym p)), re, box, pl. split; [constructor|]. cbv zeta in *. cbn [app]. split; [exact A1|]. split; [rewrite K; exact A2|].
      split; [reflexivity|]. split; [|exact A4]. rewrite <- (app_nil_r [re; box; pl]). econstructor; eassumption.
Qed.

Definition pairB (e : keypair) (p : party) : Prop :=
  kp_private (p_e p) = zeros32 \/ (len (kp_public (p_e p)) = 32 /\ dh_agree C e (p_e p)).
Lemma drawn_pair : forall e rnd p, pairB e p -> dh_agree C e (mkKeypair rnd (c_pub C rnd)) ->
  len (kp_public (p_e (drawn C rnd p))) = 32 /\ dh_agree C e (p_e (drawn C rnd p)).
Proof.
  intros e rnd p H A. unfold drawn. destruct (bytes_eqb (kp_private (p_e p)) zeros32) eqn:Q.
  - cbn [with_pair p_e]. split; [apply (pub_len C OK)|exact A].
  - destruct H as [H|H]; [|exact H]. rewrite H in Q. discriminate Q.
Qed.
Lemma stepB : forall i e p re0 c g' b r, asked C i (Handshake true p) c g' b r -> answers C e c -> pairB e p -> p_re p = Some re0 -> keypair_ok (p_s p) ->
  (exists p' l, g' = Handshake true p' /\ p_s p' = p_s p /\ p_re p' = Some re0 /\ pairB e p' /\
     eatB e (p_s p) re0 (st2 p) l (st2 p') /\ adds 1 c b r 1 l /\ Forall (fun d => len d <> 1) l) \/
  (exists eB pl c', let d := c_dh C (kp_private eB) re0 in let h1 := c_hash C (sy_h (p_sym p) ++ kp_public eB) in
     let ck := sy_ck (p_sym p) in let box := ENCRYPT C (KK ck d) 0 h1 (kp_public (p_s p)) in
     dh_agree C e eB /\ (exists k, g' = Done (chain C (sy_h (p_sym p)) [kp_public eB; box; pl]) k c') /\
     keys c' = split_of (CK (CK ck d) (c_dh C (kp_private (p_s p)) re0)) /\
     adds 1 c b r 2 [kp_public eB; box; pl] /\ Forall (fun d => len d <> 1) [kp_public eB; box; pl]).
Proof.
  intros i e p re0 c g' b r H A PB RE KS.
  assert (Z : forall r0, (forall m, message_of c b = Some m -> refused_at m r0 0) -> (exists p' l, Handshake true p = Handshake true p' /\ p_s p' = p_s p /\ p_re p' = Some re0 /\ pairB e p' /\
     eatB e (p_s p) re0 (st2 p) l (st2 p') /\ adds 1 c b r0 1 l /\ Forall (fun d : bytes => len d <> 1) l)).
  { intros r0 N. exists p, []. split; [reflexivity|]. split; [reflexivity|]. split; [exact RE|]. split; [exact PB|]. split; [constructor|]. split; [|constructor].
    destruct (message_of c b) as [m|] eqn:M; [|apply ad_idle; exact M].
    apply (ad_refused_second _ _ _ m 0); [exact M|exact (N m eq_refl)]. }
  destruct c as [rnd bb| | | | | |e']; cbn [answers] in A; try contradiction.
  2:{ inversion H; subst; [match goal with X : In _ _ |- _ => destruct X as [X|[X|[X|[X|[]]]]]; discriminate X end|].
      left. eexists _, []. split; [reflexivity|]. cbn [with_pair p_s p_re]. split; [reflexivity|]. split; [exact RE|]. split; [right; split; [apply (proj1 A)|apply (proj2 A)]|].
      split; [constructor|]. split; [apply ad_idle; reflexivity|constructor]. }
  destruct (drawn_pair _ rnd _ PB A) as [LP AG]. destruct (drawn_same rnd p) as (D1 & D2 & D3 & _).
  assert (E : forall q o r0 rest, refused_at (o ++ rest) r0 1 -> write_tokens C (acting false (drawn C rnd p)) [TE; TEE] = Some (q, o) ->
     exists p' l, Handshake true q = Handshake true p' /\ p_s p' = p_s p /\ p_re p' = Some re0 /\ pairB e p' /\
     eatB e (p_s p) re0 (st2 p) l (st2 p') /\ adds 1 (Send rnd bb) (o ++ rest) r0 1 l /\ Forall (fun d : bytes => len d <> 1) l).
  { intros q o r0 rest N W. destruct (tok_wee (acting false (drawn C rnd p)) _ _ re0 (eq_trans D3 RE) W) as (T1 & T2 & T3 & T4 & T5 & T6 & T7). cbn [acting p_e p_s p_sym] in *.
    exists q, [kp_public (p_e (drawn C rnd p))]. split; [reflexivity|]. split; [rewrite T3; exact D2|]. split; [exact T4|]. split; [right; rewrite T2; split; assumption|]. split.
    - unfold st2. rewrite T6, T7, D1. apply eb_ee; [exact LP|exact AG|constructor].
    - split; [|constructor; [lia|constructor]]. rewrite <- (first_front (kp_public (p_e (drawn C rnd p))) rest LP), <- T1, <- parts2_1.
      eapply ad_refused_second; [reflexivity|exact N]. }
  assert (Y : forall q o r0 rest, refused_at (o ++ rest) r0 2 -> write_tokens C (acting false (drawn C rnd p)) NX2 = Some (q, o) ->
     exists p' l, Handshake true q = Handshake true p' /\ p_s p' = p_s p /\ p_re p' = Some re0 /\ pairB e p' /\
     eatB e (p_s p) re0 (st2 p) l (st2 p') /\ adds 1 (Send rnd bb) (o ++ rest) r0 1 l /\ Forall (fun d : bytes => len d <> 1) l).
  { intros q o r0 rest N W. destruct (tok_wall (acting false (drawn C rnd p)) _ _ re0 (eq_trans D3 RE) eq_refl W) as (T1 & T2 & T3 & T4 & T5 & T6 & T7 & _). cbn [acting p_e p_s p_sym] in *.
    rewrite D1, D2 in *.
    match type of T6 with context [ENCRYPT C ?k ?n ?h ?s] => assert (BL : len (ENCRYPT C k n h s) = 48) by (rewrite (enc_len C OK), (proj2 KS); reflexivity); set (bx := ENCRYPT C k n h s) in * end.
    exists q, [kp_public (p_e (drawn C rnd p)); bx]. split; [reflexivity|]. split; [exact T3|]. split; [exact T4|]. split; [right; rewrite T2; split; assumption|]. split.
    - unfold st2. rewrite T6, T7. apply eb_s; [exact LP|exact AG|constructor].
    - split; [|constructor; [lia|constructor; [lia|constructor]]]. rewrite T1, <- app_assoc in N |- *.
      change [kp_public (p_e (drawn C rnd p)); bx] with (firstn 2 [kp_public (p_e (drawn C rnd p)); bx; rest]).
      rewrite <- (parts2_joined _ _ rest LP BL). eapply ad_refused_second; [reflexivity|exact N]. }
  assert (LE : forall q o, write_tokens C (acting false (drawn C rnd p)) [TE; TEE] = Some (q, o) -> len o = 32).
  { intros q o W. destruct (tok_wee (acting false (drawn C rnd p)) _ _ re0 (eq_trans D3 RE) W) as (T1 & _). rewrite T1. exact LP. }
  assert (LY : forall q o, write_tokens C (acting false (drawn C rnd p)) NX2 = Some (q, o) -> len o = 80).
  { intros q o W. destruct (tok_wall (acting false (drawn C rnd p)) _ _ re0 (eq_trans D3 RE) eq_refl W) as (T1 & _). cbn [acting p_e p_s p_sym] in T1. rewrite D2 in T1.
    rewrite T1, len_app, (enc_len C OK), (proj2 KS), LP. reflexivity. }
  pose proof (proj2 KS) as LS.
  inversion H; subst; try (left; apply Z; intros m0 HM; injection HM as <-; ra);
    try (left; match goal with X : write_tokens C _ [TE; TEE] = Some (?q, ?o) |- _ => apply (E q o); [pose proof (LE _ _ X); ra|exact X] end);
    try (left; match goal with X : write_tokens C _ NX2 = Some (?q, ?o) |- _ => apply (Y q o); [pose proof (LY _ _ X); ra|exact X] end).
  - match goal with X : In _ _ |- _ => destruct X as [X|[X|[X|[X|[]]]]]; discriminate X end.
  - right. match goal with X : WriteMessage C _ NX2 _ = Some _ |- _ => destruct (tok_write2 (acting false (drawn C rnd p)) _ _ re0 _ (eq_trans D3 RE) eq_refl X) as (ct & T1 & LC & T2 & T3) end.
    cbn [acting p_e p_s p_sym] in *. rewrite D1, D2 in *.
    match type of T2 with context [ENCRYPT C ?k ?n ?h ?s] => assert (BL : len (ENCRYPT C k n h s) = 48) by (rewrite (enc_len C OK), (proj2 KS); reflexivity) end.
    destruct (established_keys p2) as (c & -> & KE). exists (p_e (drawn C rnd p)), ct, c. cbv zeta. split; [exact AG|]. rewrite T2. split; [eexists; reflexivity|].
    split; [rewrite KE, T3; reflexivity|]. split; [|constructor; [lia|constructor; [lia|constructor; [lia|constructor]]]].
    rewrite <- (parts2_joined _ _ ct LP BL), <- T1. apply ad_second. reflexivity.
Qed.

Lemma runB : forall i e g cs rs g', story C i g cs rs g' -> Forall (answers C e) cs -> forall p re0 h k c, g = Handshake true p -> g' = Done h k c ->
  pairB e p -> p_re p = Some re0 -> keypair_ok (p_s p) ->
  exists l h1 ck1 eB pl, eatB e (p_s p) re0 (st2 p) l (h1, ck1) /\ dh_agree C e eB /\ let d := c_dh C (kp_private eB) re0 in
    let box := ENCRYPT C (KK ck1 d) 0 (c_hash C (h1 ++ kp_public eB)) (kp_public (p_s p)) in
    keys c = split_of (CK (CK ck1 d) (c_dh C (kp_private (p_s p)) re0)) /\
    h = chain C (sy_h (p_sym p)) (l ++ [kp_public eB; box; pl]) /\
    transcript 1 cs rs 2 (l ++ [kp_public eB; box; pl]) /\ Forall (fun d => len d <> 1) (l ++ [kp_public eB; box; pl]).
Proof.
  assert (HC : forall e sB re0 s l s', eatB e sB re0 s l s' -> fst s' = chain C (fst s) l).
  { intros * X. induction X; [reflexivity|exact IHX|exact IHX]. }
  intros i e g cs rs g' H. induction H as [g|g c0 g1 b r cs rs g2 H1 H2 IH]; intros F p re0 h k c E E' PB RE KS.
  - subst g. discriminate E'.
  - subst g g2. inversion F as [|? ? F1 F2]; subst.
    destruct (stepB _ _ _ _ _ _ _ _ H1 F1 PB RE KS) as [(p' & l & -> & A1 & A2 & A3 & A4 & A5 & A6)|(eB & pl & c' & A0 & (k' & ->) & A2 & A3 & A4)].
    + rewrite <- A1 in KS. destruct (IH F2 p' re0 h k c eq_refl eq_refl A3 A2 KS) as (l2 & h1 & ck1 & eB & pl & B1 & B2 & B3 & B4 & B5 & B6). rewrite A1 in *.
      exists (l ++ l2), h1, ck1, eB, pl. split; [eapply eatB_app; eassumption|]. cbv zeta in *. split; [exact B2|]. split; [exact B3|].
      rewrite <- app_assoc. split; [|split; [econstructor; eassumption|apply Forall_app; split; assumption]].
      rewrite chain_app. pose proof (HC _ _ _ _ _ _ A4) as Q. cbn [st2 fst] in Q. rewrite <- Q. exact B4.
    + assert (FT : Forall talks cs) by (eapply Forall_impl; [|exact F2]; intros [] X; cbn in *; auto).
      destruct (done_keys _ _ _ _ _ H2 FT _ _ _ eq_refl) as (c2 & Q & K & T). injection Q as -> -> ->.
      exists [], (sy_h (p_sym p)), (sy_ck (p_sym p)), eB, pl. split; [constructor|]. cbv zeta in *. cbn [app]. split; [exact A0|]. split; [rewrite K; exact A2|].
      split; [reflexivity|]. split; [|exact A4]. match goal with |- transcript _ _ _ _ ?x => rewrite <- (app_nil_r x) end. econstructor; eassumption.
Qed.

Lemma firstA : forall i p rnd b g' o r, asked C i (Handshake false p) (Send rnd b) g' o r -> num g' = 1%nat -> sy_k (p_sym p) = None -> len b <> 33 ->
  len (kp_public (p_e (drawn C rnd p))) = 32 ->
  exists p', g' = Handshake true p' /\ p_e p' = p_e (drawn C rnd p) /\
    st2 p' = (chain C (sy_h (p_sym p)) [kp_public (p_e p'); skipn 32 b], sy_ck (p_sym p)) /\
    adds 0 (Send rnd b) o r 1 [kp_public (p_e p'); skipn 32 b] /\ Forall (fun d => len d <> 1) [kp_public (p_e p'); skipn 32 b].
Proof.
  intros i p rnd b g' o r H N K L LP. inversion H; subst; try discriminate N.
  match goal with X : WriteMessage _ _ _ _ = _ |- _ => rename X into W end.
  unfold WriteMessage, NX1 in W. cbn [write_tokens] in W. unfold EncryptAndHash in W. cbn [with_sym p_sym MixHash sy_k] in W.
  destruct (drawn_same rnd p) as (D1 & D2 & D3 & _). rewrite D1, K in W. apply some_pair in W. destruct W as [<- <-].
  eexists. split; [reflexivity|]. cbn [with_sym p_e]. split; [reflexivity|]. split; [unfold st2; cbn [with_sym p_sym MixHash sy_h sy_ck]; rewrite ?D1; reflexivity|].
  rewrite app_nil_r. split.
  - set (e := kp_public (p_e (drawn C rnd p))) in *. rewrite <- (skip_front e (skipn 32 b) LP) at 2. rewrite <- (first_front e (skipn 32 b) LP) at 2.
    apply ad_first. reflexivity.
  - constructor; [lia|]. constructor; [|constructor]. unfold len in *. rewrite skipn_length. lia.
Qed.
Lemma firstB : forall i p m g' o r, asked C i (Handshake false p) (Recv m) g' o r -> num g' = 1%nat -> sy_k (p_sym p) = None ->
  exists p', g' = Handshake true p' /\ p_e p' = p_e p /\ p_s p' = p_s p /\ p_re p' = Some (firstn 32 m) /\
    st2 p' = (chain C (sy_h (p_sym p)) [firstn 32 m; skipn 32 m], sy_ck (p_sym p)) /\
    adds 0 (Recv m) o r 1 [firstn 32 m; skipn 32 m] /\ Forall (fun d => len d <> 1) [firstn 32 m; skipn 32 m].
Proof.
  intros i p m g' o r H N K. inversion H; subst; try discriminate N.
  match goal with X : ReadMessage _ _ _ _ = _ |- _ => rename X into W end.
  unfold ReadMessage, NX1 in W. cbn [read_tokens] in W. destruct (len o <? 32) eqn:LM; [discriminate|].
  unfold DecryptAndHash in W. cbn [p_sym MixHash sy_k] in W. rewrite K in W. apply some_pair in W. destruct W as [<- _].
  eexists. split; [reflexivity|]. cbn [with_sym p_e p_s p_re]. do 3 (split; [reflexivity|]). split; [reflexivity|].
  split; [apply ad_first; reflexivity|]. constructor; [|constructor; [|constructor]]; unfold len in *; rewrite ?skipn_length, ?firstn_length; lia.
Qed.

Lemma stage_new : forall i pro kp, keypair_ok kp -> at_stage i (init_session C i pro kp) (Handshake false (newcomer C i pro kp)).
Proof.
  intros i pro kp K. cbn [at_stage newcomer p_s p_e p_sym p_rs p_re].
  exists (ss0 C pro), zeros32, zeros32, EMPTY_KEY, EMPTY_KEY, cs_new, cs_new. split; [destruct i; reflexivity|].
  split; [apply (rel_init C OK)|]. do 2 (split; [reflexivity|]). split; [exact K|reflexivity].
Qed.
Lemma num_of : forall i s g, wf s -> at_stage i s g -> (get_message_count s < 2)%N -> num g = N.to_nat (get_message_count s) /\ exists n p, g = Handshake n p.
Proof.
  intros i s g W A L. pose proof (shows_at i s g W A) as X. destruct g as [n p|h k c]; cbn [shows] in X.
  - destruct X as (_ & X & _). rewrite X. split; [destruct n; reflexivity|eauto].
  - exfalso. destruct X as (_ & X & _). lia.
Qed.
Lemma inst_agrees : forall e cs e0, Forall (installs C e) cs -> kp_private e0 = zeros32 \/ (len (kp_public e0) = 32 /\ dh_agree C e e0) ->
  kp_private (inst e0 cs) = zeros32 \/ (len (kp_public (inst e0 cs)) = 32 /\ dh_agree C e (inst e0 cs)).
Proof.
  induction cs as [|c cs IH]; intros e0 F H; [exact H|]. inversion F as [|? ? F1 F2]; subst. cbn [inst fold_left]. apply IH; [exact F2|].
  destruct c; try exact H. right. split; [apply (proj1 F1)|apply F1].
Qed.

(** One party, up to and including the first message. *)
Lemma upto : forall i pro kp pre c, keypair_ok kp -> let s := init_session C i pro kp in
  get_message_count (run_calls C s pre) = 0 -> get_message_count (run_calls C s (pre ++ [c])) = 1 ->
  exists p p' b r, transcript 0 pre (results C s pre) 0 [] /\ sy_h (p_sym p) = chain C (h_name C) [pro] /\ sy_ck (p_sym p) = h_name C /\
    sy_k (p_sym p) = None /\ p_s p = kp /\ p_e p = inst no_pair pre /\
    asked C i (Handshake false p) c (Handshake true p') b r /\
    results C (run_calls C s pre) [c] = [(b, r)] /\ wf (run_calls C s (pre ++ [c])) /\
    at_stage i (run_calls C s (pre ++ [c])) (Handshake true p').
Proof.
  intros i pro kp pre c K s N0 N1.
  destruct (stage_run i pre s _ (wf_init C i pro kp) (stage_new i pro kp K)) as (g & S & A).
  pose proof (wf_run C OK pre s (wf_init C i pro kp)) as W.
  destruct (num_of _ _ _ W A ltac:(lia)) as [E (n & p & ->)]. rewrite N0 in E. destruct n; [discriminate E|]. clear E.
  destruct (before_first _ _ _ _ _ S _ p eq_refl eq_refl) as (B1 & B2 & B3 & B4).
  destruct (step_asked C OK i _ _ c W A) as (g1 & S1 & A1). pose proof (wf_step C OK _ c W) as W1.
  assert (RC : run_calls C s (pre ++ [c]) = st (step C (run_calls C s pre) c)) by (rewrite (run_calls_app C), run_calls_cons; reflexivity).
  rewrite RC in *. destruct (num_of _ _ _ W1 A1 ltac:(lia)) as [E (n & p' & ->)]. rewrite N1 in E. destruct n; [|discriminate E].
  exists p, p', (out (step C (run_calls C s pre) c)), (res (step C (run_calls C s pre) c)).
  split; [exact B4|]. rewrite B1. split; [reflexivity|]. split; [reflexivity|]. split; [reflexivity|]. split; [rewrite B2; reflexivity|]. split; [rewrite B3; reflexivity|].
  split; [exact S1|]. split; [reflexivity|]. split; assumption.
Qed.

Theorem same_keys : forall i pro si pre rnd1 b1 mid i' pro' sr pre' m1 mid',
  let ei := pair_used C rnd1 pre in
  keypair_ok si -> keypair_ok sr -> Forall pairs_ok pre -> dh_agree C ei sr -> ~ low_order (kp_public sr) ->
  Forall (installs C ei) pre' -> Forall listens mid -> Forall (answers C ei) mid' -> len b1 <> 33 -> h_name C <> firstn 32 name ->
  let s := init_session C i pro si in let cs := pre ++ [Send rnd1 b1] ++ mid in let I := run_calls C s cs in
  let s' := init_session C i' pro' sr in let cs' := pre' ++ [Recv m1] ++ mid' in let R := run_calls C s' cs' in
  get_message_count (run_calls C s pre) = 0 -> get_message_count (run_calls C s (pre ++ [Send rnd1 b1])) = 1 ->
  get_message_count (run_calls C s' pre') = 0 -> get_message_count (run_calls C s' (pre' ++ [Recv m1])) = 1 ->
  is_transport I = true -> is_transport R = true -> get_handshake_hash I = get_handshake_hash R ->
  exists ds ds', transcript 0 cs (results C s cs) 2 ds /\ transcript 0 cs' (results C s' cs') 2 ds' /\
    ((pro = pro' /\ ds = ds' /\ cs_k (se_cs1 I) = cs_k (se_cs1 R) /\ cs_k (se_cs2 I) = cs_k (se_cs2 R) /\
      get_remote_static_public_key I = Some (kp_public sr)) \/
     collision C (all_hashed C (pro :: ds)) (all_hashed C (pro' :: ds'))).
Proof.
  intros i pro si pre rnd1 b1 mid i' pro' sr pre' m1 mid' ei KI KR PO AS LO FI FL FA L33 HN s cs I s' cs' R N0 N1 N0' N1' TI TR HH.
  destruct (upto i pro si pre _ KI N0 N1) as (p & p1 & o & r & A1 & A2 & A3 & A4 & A5 & A6 & A7 & A8 & A9 & A10).
  destruct (upto i' pro' sr pre' _ KR N0' N1') as (q & q1 & o' & r' & B1 & B2 & B3 & B4 & B5 & B6 & B7 & B8 & B9 & B10).
  fold s in A1, A8, A9, A10. fold s' in B1, B8, B9, B10.
  assert (EI : p_e (drawn C rnd1 p) = ei).
  { unfold drawn, ei, pair_used. rewrite A6. change (installed pre) with (inst no_pair pre). destruct (bytes_eqb (kp_private (inst no_pair pre)) zeros32); [reflexivity|exact A6]. }
  assert (LE : len (kp_public (p_e (drawn C rnd1 p))) = 32).
  { destruct (drawn_same rnd1 p) as (_ & _ & _ & [E|E]); rewrite E; [|apply (pub_len C OK)]. rewrite A6.
    assert (Q : forall cs e0, Forall pairs_ok cs -> len (kp_public e0) = 32 -> len (kp_public (inst e0 cs)) = 32).
    { induction cs0 as [|c cs0 IH]; intros e0 F H; [exact H|]. inversion F as [|? ? F1 F2]; subst. cbn [inst fold_left]. apply IH; [exact F2|]. destruct c; try exact H. apply F1. }
    apply Q; [exact PO|reflexivity]. }
  destruct (firstA _ _ _ _ _ _ _ A7 eq_refl A4 L33 LE) as (p1' & Q & C1 & C2 & C3 & C4). injection Q as <-. rewrite EI in C1. rewrite C1 in C2, C3, C4.
  destruct (firstB _ _ _ _ _ _ B7 eq_refl B4) as (q1' & Q & D1 & D2 & D3 & D4 & D5 & D6). injection Q as <-.
  assert (PB : pairB ei q1).
  { unfold pairB. rewrite D1, B6. apply inst_agrees; [exact FI|left; reflexivity]. }
  assert (EC : I = run_calls C (run_calls C s (pre ++ [Send rnd1 b1])) mid) by (unfold I, cs; rewrite app_assoc, (run_calls_app C); reflexivity).
  assert (EC' : R = run_calls C (run_calls C s' (pre' ++ [Recv m1])) mid') by (unfold R, cs'; rewrite app_assoc, (run_calls_app C); reflexivity).
  destruct (stage_run i mid _ _ A9 A10) as (g & S2 & A11). rewrite <- EC in A11.
  destruct (stage_run i' mid' _ _ B9 B10) as (g' & S2' & B11). rewrite <- EC' in B11.
  assert (WI : wf I) by (apply (wf_run C OK), (wf_init C)). assert (WR : wf R) by (apply (wf_run C OK), (wf_init C)).
  pose proof (shows_at _ _ _ WI A11) as SI. pose proof (shows_at _ _ _ WR B11) as SR.
  destruct g as [|h k c]; [destruct SI as (X & _); rewrite TI in X; discriminate X|].
  destruct g' as [|h' k' c']; [destruct SR as (X & _); rewrite TR in X; discriminate X|].
  rewrite <- D2 in B5. rewrite <- B5 in KR.
  destruct (runA _ _ _ _ _ S2 FL _ _ _ _ eq_refl eq_refl) as (l & h1 & ck1 & re & box & pl & E1 & E2 & E3 & E4 & E5 & E6). rewrite C1 in *.
  destruct (runB _ _ _ _ _ _ S2' FA _ _ _ _ _ eq_refl eq_refl PB D3 KR) as (l' & h1' & ck1' & eB & pl' & F1 & F2 & F3 & F4 & F5 & F6).
  cbv zeta in *. set (box' := ENCRYPT C _ 0 _ _) in *.
  set (f1 := [kp_public ei; skipn 32 b1]) in *. set (f1' := [firstn 32 m1; skipn 32 m1]) in *.
  assert (HI : h = chain C (h_name C) (pro :: f1 ++ l ++ [re; box; pl])).
  { rewrite E4. pose proof (f_equal fst C2) as Q. cbn [fst st2] in Q. rewrite Q, A2. rewrite <- !chain_app. reflexivity. }
  assert (HR : h' = chain C (h_name C) (pro' :: f1' ++ l' ++ [kp_public eB; box'; pl'])).
  { rewrite F4. pose proof (f_equal fst D4) as Q. cbn [fst st2] in Q. rewrite Q, B2. rewrite <- !chain_app. reflexivity. }
  exists (f1 ++ l ++ [re; box; pl]), (f1' ++ l' ++ [kp_public eB; box'; pl']).
  split; [|split].
  - unfold cs. rewrite !results_app. change (f1 ++ l ++ [re; box; pl]) with ([] ++ f1 ++ l ++ [re; box; pl]).
    eapply transcript_app; [exact A1|]. eapply transcript_app; [rewrite A8; rewrite <- (app_nil_r f1); econstructor; [exact C3|constructor]|].
    rewrite <- (run_calls_app C). exact E5.
  - unfold cs'. rewrite !results_app. change (f1' ++ l' ++ [kp_public eB; box'; pl']) with ([] ++ f1' ++ l' ++ [kp_public eB; box'; pl']).
    eapply transcript_app; [exact B1|]. eapply transcript_app; [rewrite B8; rewrite <- (app_nil_r f1'); econstructor; [exact D5|constructor]|].
    rewrite <- (run_calls_app C). exact F5.
  - destruct SI as (_ & _ & SI & SK). destruct SR as (_ & _ & SR & _). rewrite SI, SR, HI, HR in HH. injection HH as HH.
    destruct (chains_bind _ _ _ _ HN ltac:(apply Forall_app; split; [exact C4|exact E6]) ltac:(apply Forall_app; split; [exact D6|exact F6]) HH) as [[<- DS]|X]; [left|right; exact X].
    split; [reflexivity|]. split; [exact DS|].
    assert (X : f1 = f1' /\ l ++ [re; box; pl] = l' ++ [kp_public eB; box'; pl']).
    { unfold f1, f1' in *. cbn [app] in DS. split.
      - pose proof (f_equal (firstn 2) DS) as Y. exact Y.
      - pose proof (f_equal (skipn 2) DS) as Y. exact Y. }
    destruct X as [X1 X2]. apply app3_inj in X2. destruct X2 as [<- X2].
    assert (re = kp_public eB /\ box = box') as [-> ->].
    { pose proof (f_equal (fun x => nth 0 x []) X2) as Y1. pose proof (f_equal (fun x => nth 1 x []) X2) as Y2. cbv [nth] in Y1, Y2. split; assumption. }
    assert (RE : firstn 32 m1 = kp_public ei).
    { pose proof (f_equal (fun x => nth 0 x []) X1) as Y1. unfold f1, f1' in Y1. cbv [nth] in Y1. symmetry. exact Y1. }
    assert (ST : st2 p1 = st2 q1).
    { rewrite C2, D4, A2, B2, A3, B3, X1. reflexivity. }
    rewrite RE, B5, <- ST in F1. rewrite <- B5 in AS, LO. rewrite B5 in KR, AS, LO.
    pose proof (eat_same ei sr KR AS LO _ _ _ E1 _ F1) as EQ. injection EQ as <- <-.
    unfold box' in E2. rewrite RE, B5 in E2. rewrite F2 in E2, E3. rewrite (open_sealed C OK) in E2. injection E2 as <-.
    assert (KEQ : keys c = keys c'). { rewrite E3, F3, RE, B5, AS. reflexivity. }
    destruct A11 as (_ & _ & _ & _ & CH). destruct B11 as (_ & _ & _ & _ & CH'). rewrite <- CH, <- CH' in KEQ. unfold keys, channel_of in KEQ. cbn [to_r to_i fst] in KEQ.
    injection KEQ as K1 K2. split; [exact K1|]. split; [exact K2|]. exact SK.
Qed.
End History.

(** ** Over BLAKE2s, ChaCha20-Poly1305 and X25519 *)
Lemma own_real : forall e, len (kp_private e) = 32 -> kp_public e = c_pub real_crypto (kp_private e) -> e = real_pair (kp_private e).
Proof. intros [a b] _ H. cbn [kp_private kp_public] in *. unfold real_pair. rewrite H. reflexivity. Qed.
Lemma used_real : forall rnd pre, Forall (own_pair real_crypto) pre -> exists k, pair_used real_crypto rnd pre = real_pair k.
Proof.
  intros rnd pre F. unfold pair_used. destruct (bytes_eqb _ _) eqn:E; [exists rnd; reflexivity|].
  assert (Q : forall cs e0, Forall (own_pair real_crypto) cs -> (kp_private e0 = zeros32 \/ exists k, e0 = real_pair k) ->
    kp_private (inst e0 cs) = zeros32 \/ exists k, inst e0 cs = real_pair k).
  { induction cs as [|c cs IH]; intros e0 G H; [exact H|]. inversion G as [|? ? G1 G2]; subst. cbn [inst fold_left]. apply IH; [exact G2|].
    destruct c; try exact H. right. eexists. apply own_real; apply G1. }
  change (installed pre) with (inst no_pair pre) in *. destruct (Q pre no_pair F (or_introl eq_refl)) as [H|H]; [|exact H].
  rewrite H in E. discriminate E.
Qed.
Lemma public_not_low : forall k, ~ low_order (kp_public (real_pair k)).
Proof.
  intros k H. pose proof (public_accepted k) as A. destruct (public_key_from_bytes_spec (c_pub real_crypto k) (pub_len _ real_crypto_ok k)) as [[L E]|[L E]].
  - rewrite E in A. discriminate A.
  - exact (L H).
Qed.
Theorem real_same_keys : forall i pro ksi pre rnd1 b1 mid i' pro' ksr pre' m1 mid',
  len ksi = 32 -> len ksr = 32 ->
  Forall (own_pair real_crypto) pre -> Forall (own_pair real_crypto) pre' -> Forall (own_pair real_crypto) mid' ->
  Forall listens mid -> Forall writes mid' -> len b1 <> 33 ->
  let s := init_session real_crypto i pro (real_pair ksi) in let cs := pre ++ [Send rnd1 b1] ++ mid in let I := run_calls real_crypto s cs in
  let s' := init_session real_crypto i' pro' (real_pair ksr) in let cs' := pre' ++ [Recv m1] ++ mid' in let R := run_calls real_crypto s' cs' in
  get_message_count (run_calls real_crypto s pre) = 0 -> get_message_count (run_calls real_crypto s (pre ++ [Send rnd1 b1])) = 1 ->
  get_message_count (run_calls real_crypto s' pre') = 0 -> get_message_count (run_calls real_crypto s' (pre' ++ [Recv m1])) = 1 ->
  is_transport I = true -> is_transport R = true -> get_handshake_hash I = get_handshake_hash R ->
  exists ds ds', transcript 0 cs (results real_crypto s cs) 2 ds /\ transcript 0 cs' (results real_crypto s' cs') 2 ds' /\
    ((pro = pro' /\ ds = ds' /\ cs_k (se_cs1 I) = cs_k (se_cs1 R) /\ cs_k (se_cs2 I) = cs_k (se_cs2 R) /\
      get_remote_static_public_key I = Some (kp_public (real_pair ksr))) \/
     collision real_crypto (all_hashed real_crypto (pro :: ds)) (all_hashed real_crypto (pro' :: ds'))).
Proof.
  intros i pro ksi pre rnd1 b1 mid i' pro' ksr pre' m1 mid' L1 L2 O1 O2 O3 FL FW L33.
  destruct (used_real rnd1 pre O1) as [k EK].
  assert (KK0 : forall k, len k = 32 -> keypair_ok (real_pair k)) by (intros k0 H; split; [exact H|apply (pub_len _ real_crypto_ok)]).
  assert (OW : forall e, len (kp_private e) = 32 -> kp_public e = c_pub real_crypto (kp_private e) ->
     keypair_ok e /\ dh_agree real_crypto (real_pair k) e).
  { intros e H1 H2. rewrite (own_real e H1 H2). split; [apply KK0; exact H1|apply real_agree]. }
  apply (same_keys real_crypto real_crypto_ok); rewrite ?EK.
  - apply KK0, L1.
  - apply KK0, L2.
  - eapply Forall_impl; [|exact O1]. intros [] X; cbn [pairs_ok own_pair] in *; auto. apply (OW e); apply X.
  - apply real_agree.
  - apply public_not_low.
  - eapply Forall_impl; [|exact O2]. intros [] X; cbn [installs own_pair] in *; auto. apply (OW e); apply X.
  - exact FL.
  - apply Forall_forall. intros c Hc. rewrite Forall_forall in O3, FW. specialize (O3 c Hc). specialize (FW c Hc).
    destruct c; cbn [answers own_pair writes] in *; try contradiction; [apply real_agree|apply (OW e); apply O3].
  - exact L33.
  - exact blake_name.
Qed.
