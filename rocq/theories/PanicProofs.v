(** * PanicProofs: exactly when recv_message panics, after any history (C51, C75). *)
From Coq Require Import Lia ZifyBool ZifyNat ZifyN.
From Verif Require Import Base SpecWire BaseFacts Noise SpecNoise SpecSession SpecTransport SpecStory NoiseFacts Network
  SessionProofs RecvProofs StoryProofs HistoryProofs SpecPass PassProofs NoiseSamples SessionClaims SpecPanic.
Local Open Scope N_scope.
Local Open Scope list_scope.

Section Panic.
Variable C : crypto.
Hypothesis OK : crypto_ok C.

Lemma read_tokens_app : forall ts us p m, read_tokens C p (ts ++ us) m =
  match read_tokens C p ts m with Some (q, r) => read_tokens C q us r | None => None end.
Proof.
  induction ts as [|t ts IH]; intros us p m; [reflexivity|]. cbn [app read_tokens]. destruct t.
  - destruct (len m <? 32); [reflexivity|apply IH].
  - match goal with |- context [if ?b then None else _] => destruct b; [reflexivity|] end.
    destruct (DecryptAndHash _ _ _) as [[s rs]|]; [apply IH|reflexivity].
  - destruct (dh_token C p _); [apply IH|reflexivity].
  - destruct (dh_token C p _); [apply IH|reflexivity].
Qed.
Lemma read_tokens_role : forall ts p m q r, read_tokens C p ts m = Some (q, r) -> p_initiator q = p_initiator p.
Proof.
  induction ts as [|t ts IH]; intros p m q r H; [injection H as <- _; reflexivity|]. cbn [read_tokens] in H.
  assert (D : forall p', dh_token C p t = Some p' -> p_initiator p' = p_initiator p).
  { intros p' E. unfold dh_token, mix_dh in E. destruct t; try discriminate.
    - destruct (p_re p); [|discriminate]. injection E as <-. reflexivity.
    - destruct (p_initiator p) eqn:I0; [destruct (p_rs p)|destruct (p_re p)]; try discriminate; injection E as <-; exact I0. }
  destruct t.
  - destruct (len m <? 32); [discriminate|]. apply IH in H. exact H.
  - match goal with H : context [if ?b then None else _] |- _ => destruct b; [discriminate|] end.
    destruct (DecryptAndHash _ _ _) as [[s rs]|]; [|discriminate]. apply IH in H. exact H.
  - destruct (dh_token C p _) as [p'|] eqn:E; [|discriminate]. apply IH in H. rewrite H. apply D. reflexivity.
  - destruct (dh_token C p _) as [p'|] eqn:E; [|discriminate]. apply IH in H. rewrite H. apply D. reflexivity.
Qed.

Lemma bursts_exact : forall i s g m, wf s -> at_stage i s g -> (res (recv_message C s m) = Panic <-> bursts C g m).
Proof.
  intros i s g m W A. destruct (step_asked C OK i s g (Recv m) W A) as (g' & S & _). cbn [step] in S. split.
  - intro P. rewrite P in S. inversion S; subst;
      try (match goal with H : In _ _ |- _ => cbn in H; intuition discriminate end).
    + match goal with H : payload_read _ _ _ _ _ _ _ _ |- _ => inversion H; subst end.
      match goal with H : read_tokens C (acting true ?p) [TE; TEE] m = Some (?q, ?r), H' : read_tokens C (acting true ?p) [TE; TEE; TS] m = Some (?q', ?r'), K : p_rs ?q' = Some ?k |- _ =>
        exists p; split; [reflexivity|]; split; [lia|]; split; [assumption|]; exists q, r, q', r', k; auto 10 end.
    + exfalso. match goal with H : served _ _ _ _ _ _ _ |- _ => inversion H end.
  - intros (p & -> & L & NL & pe & rest & ps & rest' & k & T1 & Z1 & T2 & K & NK).
    assert (T3 : exists q2 rest2, read_tokens C (acting true p) NX2 m = Some (q2, rest2)).
    { change NX2 with ([TE; TEE; TS] ++ [TES]). rewrite read_tokens_app, T2. cbn [read_tokens dh_token].
      rewrite (read_tokens_role _ _ _ _ _ T2). cbn [p_initiator acting]. unfold mix_dh. rewrite K. eauto. }
    destruct T3 as (q2 & rest2 & T3).
    assert (S' : asked C i (Handshake true p) (Recv m) (Handshake true q2) (firstn 32 m ++ k ++ skipn 64 m) Panic).
    { eapply as_static; try eassumption; [lia|]. constructor. lia. }
    exact (proj1 (proj2 (asked_unique C _ _ _ _ _ _ _ _ _ S S'))).
Qed.

Lemma history_panics : forall i pro kp cs, keypair_ok kp -> exists g,
  story C i (Handshake false (newcomer C i pro kp)) cs (results C (init_session C i pro kp) cs) g /\
  forall m, res (recv_message C (run_calls C (init_session C i pro kp) cs) m) = Panic <-> bursts C g m.
Proof.
  intros i pro kp cs K. pose proof (wf_init C i pro kp) as W. pose proof (stage_new C OK i pro kp K) as A.
  revert W A. generalize (init_session C i pro kp) (Handshake false (newcomer C i pro kp)).
  induction cs as [|c cs IH]; intros s g W A.
  - exists g. split; [constructor|]. intro m. exact (bursts_exact i s g m W A).
  - destruct (step_asked C OK i s g c W A) as (g1 & S & A1). pose proof (wf_step C OK s c W) as W1.
    destruct (IH _ _ W1 A1) as (g2 & H & P). exists g2. split; [|exact P]. cbn [results]. econstructor; eassumption.
Qed.

Lemma recv_handshake_panic : forall rnd s m, snd (recv_handshake C rnd s m) = Panic <-> res (recv_message C s m) = Panic.
Proof.
  intros rnd s m. unfold recv_handshake. destruct (recv_message C s m) as [[s1 b1] r1]. unfold res. cbn [snd].
  destruct r1 as [[]|e|]; [|split; discriminate|split; reflexivity].
  pose proof (send_no_panic C rnd s1 b1) as P. destruct (send_message C rnd s1 b1) as [[s2 b2] r2]. unfold res in P. cbn [snd] in *.
  destruct r2 as [[]|e|]; [split; discriminate|split; discriminate|contradiction].
Qed.

Lemma calls_panics : forall i kp cs, keypair_ok kp -> exists g,
  handling C i (Handshake false (newcomer C i [] kp)) cs (fst (enc_run C (init_session C i [] kp) cs)) g /\
  forall rnd m, snd (recv_handshake C rnd (snd (enc_run C (init_session C i [] kp) cs)) m) = Panic <-> bursts C g m.
Proof.
  intros i kp cs K. destruct (run_handling C OK i cs _ _ (wf_init C i [] kp) (stage_new C OK i [] kp K)) as (g & H & W & A).
  exists g. split; [exact H|]. intros rnd m. rewrite recv_handshake_panic. exact (bursts_exact i _ g m W A).
Qed.
End Panic.

Theorem inbound_panics : forall C, crypto_ok C -> forall sk rs cs,
  match sk with Some k => keypair_ok k | None => len rs = 32 end ->
  let own := match sk with Some k => k | None => mkKeypair rs (c_pub C rs) end in
  let x := enc_run C (new_inbound C sk rs) cs in
  exists g, handling C false (Handshake false (newcomer C false [] own)) cs (fst x) g /\
    forall rnd m, snd (recv_handshake C rnd (snd x) m) = Panic <-> bursts C g m.
Proof.
  intros C OK sk rs cs K own x.
  assert (E : new_inbound C sk rs = init_session C false [] own) by (unfold new_inbound, own; destruct sk; reflexivity).
  unfold x. rewrite E. apply (calls_panics C OK). unfold own. destruct sk; [exact K|]. split; [exact K|]. apply (pub_len C OK).
Qed.
Theorem outbound_panics : forall C, crypto_ok C -> forall rs cs, len rs = 32 ->
  let x := enc_run C (new_outbound C rs) cs in
  exists g, handling C true (Handshake false (newcomer C true [] (mkKeypair rs (c_pub C rs)))) cs (fst x) g /\
    forall rnd m, snd (recv_handshake C rnd (snd x) m) = Panic <-> bursts C g m.
Proof.
  intros C OK rs cs K x. apply (calls_panics C OK true (mkKeypair rs (c_pub C rs)) cs). split; [exact K|]. apply (pub_len C OK).
Qed.
