(** * ReuseProofs: when an initiator uses a key and counter twice (C71). *)
From Coq Require Import Lia ZifyBool ZifyNat ZifyN.
From Verif Require Import Base SpecWire BaseFacts Noise SpecNoise SpecSession SpecTransport SpecReuse
  NoiseFacts RecvProofs TransportProofs RekeyProofs.
Local Open Scope N_scope.
Local Open Scope list_scope.

Section Reuse.
Variable C : crypto.
Hypothesis OK : crypto_ok C.

Lemma sv_others : forall i c call c' b r, served C i c call c' b r ->
  (call = ClearLocal -> r = Ok tt) /\ (call = ClearLocal -> to_r c' = (zeros32, 0)) /\
  (call = ClearRemote \/ (exists e, call = SetEphemeral e) -> to_r c' = to_r c) /\
  (call = RekeyLocal \/ call = RekeyRemote -> to_r c' = (REKEY C (fst (to_r c)), snd (to_r c))).
Proof.
  intros * H. destruct H; repeat split; try discriminate; try (intros [X|X]; try discriminate X; try (destruct X; discriminate)); try reflexivity;
    match goal with X : to_r c = _ |- _ => rewrite X; reflexivity end.
Qed.
Lemma sends_spots : forall cs s k0 p, wf s -> is_transport s = true -> se_i s = true ->
  to_r (channel_of s) = (key_at C k0 p, sent p) ->
  Forall2 (fun x q => key_at C k0 q <> zeros32 /\ sent q < 2 ^ 64 - 1 /\ snd x = ENCRYPT C (key_at C k0 q) (sent q) [] (plaintext_of (fst x)))
    (transport_sends C s cs) (spots p cs (results C s cs)).
Proof.
  induction cs as [|c cs IH]; intros s k0 p W T HI K; [constructor|].
  destruct (step_stays C OK s c W T) as [W' T']. pose proof (step_role C s c) as R. rewrite HI in R.
  pose proof (step_served C OK s c W T) as SV. rewrite HI in SV.
  cbn [results spots transport_sends]. cbv zeta. 
  destruct c as [rnd b|b| | | | |e].
  - destruct (res (step C s (Send rnd b))) as [[]|e|] eqn:Er.
    + rewrite T. destruct (served_send C _ _ _ _ _ _ SV) as (k & n & E & LN & NZ & O & E' & _).
      change (sending true (channel_of s)) with (to_r (channel_of s)) in E. rewrite K in E. injection E as <- <-.
      cbn [app]. constructor; [cbn [fst snd]; auto|]. apply IH; try assumption.
    + cbn [app]. apply IH; try assumption. rewrite (served_fail C _ _ _ _ _ _ _ SV); [exact K|discriminate].
    + cbn [app]. apply IH; try assumption. rewrite (served_fail C _ _ _ _ _ _ _ SV); [exact K|discriminate].
  - assert (X : to_r (channel_of (st (step C s (Recv b)))) = (key_at C k0 p, sent p)).
    { pose proof (served_recv C _ _ _ _ _ _ SV) as Q. unfold sending in Q. rewrite Q. exact K. }
    destruct (res (step C s (Recv b))); cbn [app]; apply IH; assumption.
  - cbn [app]. apply IH; try assumption. destruct (sv_others _ _ _ _ _ _ SV) as (_ & X & _). rewrite X by reflexivity. reflexivity.
  - cbn [app]. apply IH; try assumption.
  - cbn [app]. apply IH; try assumption. destruct (sv_others _ _ _ _ _ _ SV) as (_ & _ & _ & X). rewrite X by (left; reflexivity). rewrite K. reflexivity.
  - cbn [app]. apply IH; try assumption. destruct (sv_others _ _ _ _ _ _ SV) as (_ & _ & _ & X). rewrite X by (right; reflexivity). rewrite K. reflexivity.
  - cbn [app]. apply IH; try assumption.
Qed.

Theorem initiator_spots : forall s cs, reachable C s -> is_transport s = true -> se_i s = true ->
  let k0 := cs_k (se_cs1 s) in
  let ps := spots (mkSpot false 0 (cs_n (se_cs1 s))) cs (results C s cs) in
  Forall2 (fun x q => key_at C k0 q <> zeros32 /\ sent q < 2 ^ 64 - 1 /\ snd x = ENCRYPT C (key_at C k0 q) (sent q) [] (plaintext_of (fst x)))
    (transport_sends C s cs) ps.
Proof.
  intros s cs RE T HI. apply sends_spots; try assumption; [|reflexivity]. apply (wf_reachable C OK). exact RE.
Qed.
Lemma spots_cleared : forall cs rs p, cleared p = true -> Forall (fun q => cleared q = true) (spots p cs rs).
Proof.
  induction cs as [|c cs IH]; intros rs p H; [constructor|]. destruct rs as [|[b r] rs]; [constructor|]. cbn [spots].
  destruct c; try (apply IH; first [exact H|reflexivity]). destruct r as [u|e|]; [constructor; [exact H|]|..]; apply IH; exact H.
Qed.
Lemma spots_up : forall cs rs p q, In q (spots p cs rs) -> cleared q = false -> sent p <= sent q.
Proof.
  induction cs as [|c cs IH]; intros rs p q H Z; [contradiction|]. destruct rs as [|[b r] rs]; [contradiction|]. cbn [spots] in H.
  destruct c; try exact (IH _ _ _ H Z).
  - destruct r as [u|e|]; try exact (IH _ _ _ H Z). destruct H as [<-|H]; [lia|]. pose proof (IH _ _ _ H Z) as X. cbn [sent] in X. lia.
  - pose proof (spots_cleared cs rs (mkSpot true 0 0) eq_refl) as X. rewrite Forall_forall in X. rewrite (X _ H) in Z. discriminate Z.
Qed.
(** Of two messages with the same counter the later one comes after a clearing. *)
Theorem later_cleared : forall cs rs p j j' q q', (j < j')%nat -> nth_error (spots p cs rs) j = Some q -> nth_error (spots p cs rs) j' = Some q' ->
  sent q = sent q' -> cleared q' = true.
Proof.
  induction cs as [|c cs IH]; intros rs p j j' q q' L H H' E; [destruct j; discriminate H|].
  destruct rs as [|[b r] rs]; [destruct j; discriminate H|]. cbn [spots] in H, H'.
  destruct c; try exact (IH _ _ _ _ _ _ L H H' E). destruct r as [u|e|]; try exact (IH _ _ _ _ _ _ L H H' E).
  destruct j' as [|j']; [lia|]. cbn [nth_error] in H'. destruct j as [|j]; [|cbn [nth_error] in H; exact (IH _ _ j j' _ _ ltac:(lia) H H' E)].
  injection H as <-. destruct (cleared q') eqn:Z; [reflexivity|]. pose proof (spots_up _ _ _ _ (nth_error_In _ _ H') Z) as X. cbn [sent] in X. lia.
Qed.
End Reuse.

Theorem reuse_exactly : forall C, crypto_ok C -> forall s cs, reachable C s -> is_transport s = true -> se_i s = true ->
  let k0 := cs_k (se_cs1 s) in
  let ps := spots (mkSpot false 0 (cs_n (se_cs1 s))) cs (results C s cs) in
  Forall2 (fun x p => key_at C k0 p <> zeros32 /\ sent p < 2 ^ 64 - 1 /\ snd x = ENCRYPT C (key_at C k0 p) (sent p) [] (plaintext_of (fst x)))
    (transport_sends C s cs) ps /\
  forall j j' p p', (j < j')%nat -> nth_error ps j = Some p -> nth_error ps j' = Some p' -> sent p = sent p' ->
    cleared p' = true /\ (key_at C k0 p = key_at C k0 p' ->
      (exists r n, p = mkSpot true r n /\ p' = mkSpot true r n /\ (0 < r)%nat) \/
      ((cleared p, rekeys p) <> (cleared p', rekeys p') /\
       rekeyed C (rekeys p) (if cleared p then zeros32 else k0) = rekeyed C (rekeys p') zeros32)).
Proof.
  intros C OK s cs RE T HI k0 ps. pose proof (initiator_spots C OK s cs RE T HI) as F. cbv zeta in F. fold k0 in F. fold ps in F. split; [exact F|].
  intros j j' p p' L H H' E. pose proof (later_cleared cs _ _ j j' p p' L H H' E) as Z. split; [exact Z|]. intro K.
  assert (NZ : key_at C k0 p' <> zeros32).
  { clear - F H'. revert j' H'. induction F as [|x q l l' X F IH]; intros [|j'] H'; try discriminate H'; [injection H' as <-; apply X|exact (IH j' H')]. }
  destruct p as [c r n], p' as [c' r' n']. unfold key_at in *. cbn [cleared rekeys sent] in *. subst c' n'.
  destruct (Nat.eq_dec r r') as [<-|N]; [|right; split; [congruence|exact K]].
  destruct c; [|right; split; [discriminate|exact K]]. left. exists r, n. split; [reflexivity|]. split; [reflexivity|].
  destruct r; [contradiction NZ; reflexivity|apply Nat.lt_0_succ].
Qed.
