(** * FamilyProofs: frames that two message types of one family accept (C25). *)
From Coq Require Import Lia ZifyBool ZifyNat ZifyN.
From Verif Require Import Base Codec Types Messages Frame SpecWire SpecTypes SpecDecode BaseFacts TypesFacts MsgProofs DecodeProofs FrameProofs Catalog WriterProofs Macro SpecMacro MacroProofs.
Local Open Scope N_scope.
Local Open Scope list_scope.

Lemma next_ok : forall A B (a : reading A) (f : A -> reading B) rest x, next a f rest (Ok x) <->
  exists y rest', a rest (Ok (y, rest')) /\ f y rest' (Ok x).
Proof.
  intros A B a f rest x. unfold next. split.
  - intros (ra & H & K). destruct ra as [[y rest']|e|]; [eauto|discriminate|contradiction].
  - intros (y & rest' & H & K). exists (Ok (y, rest')). auto.
Qed.
Lemma check_ok : forall A wrong e (k : reading A) rest x, check wrong e k rest (Ok x) <-> ~ wrong /\ k rest (Ok x).
Proof. intros A wrong e k rest x. unfold check. split; [intros [[_ H]|H]; [discriminate|exact H]|auto]. Qed.
Lemma flag_bits_ok : forall fs rest v l, flag_bits fs rest (Ok (v, l)) <-> int 4 rest (Ok (v, l)) /\ flags_ok fs v.
Proof.
  intros fs rest v l. unfold flag_bits. rewrite next_ok. split.
  - intros (y & rest' & H & K). apply check_ok in K as [K E]. unfold gives in E. injection E as -> ->. split; [exact H|].
    destruct (flags_dec fs y) as [D|D]; [exact D|contradiction].
  - intros [H K]. exists v, l. split; [exact H|]. apply check_ok. split; [auto|reflexivity].
Qed.
Lemma flags_more : forall f1 f2 v, flag_width f1 <= flag_width f2 -> flags_ok f1 v -> flags_ok f2 v.
Proof. intros f1 f2 v L H i T. specialize (H i T). lia. Qed.

Lemma read_sc_two : forall f1 f2 rest v l, flag_width f1 <= flag_width f2 ->
  (read_sc f1 rest (Ok (v, l)) <-> read_sc f2 rest (Ok (v, l)) /\ flags_ok f1 (sc_flags v)).
Proof.
  intros f1 f2 rest v l L.
  assert (G : forall fs, read_sc fs rest (Ok (v, l)) -> flags_ok fs (sc_flags v)).
  { intros fs H. unfold read_sc in H.
    apply next_ok in H as (mi & r1 & _ & H). apply next_ok in H as (ma & r2 & _ & H). apply next_ok in H as (fl & r3 & F & H).
    do 6 (apply next_ok in H as (? & ? & _ & H)). apply check_ok in H as [_ H]. apply check_ok in H as [_ H].
    unfold gives in H. injection H as -> _. cbn [sc_flags]. apply flag_bits_ok in F. tauto. }
  split.
  - intro H. split; [|exact (G f1 H)]. unfold read_sc in *.
    apply next_ok in H as (mi & r1 & H1 & H). apply next_ok in H as (ma & r2 & H2 & H). apply next_ok in H as (fl & r3 & F & H).
    apply next_ok. exists mi, r1. split; [exact H1|]. apply next_ok. exists ma, r2. split; [exact H2|]. apply next_ok. exists fl, r3.
    split; [|exact H]. apply flag_bits_ok in F as [F K]. apply flag_bits_ok. split; [exact F|exact (flags_more _ _ _ L K)].
  - intros [H K0]. unfold read_sc in *.
    apply next_ok in H as (mi & r1 & H1 & H). apply next_ok in H as (ma & r2 & H2 & H). apply next_ok in H as (fl & r3 & F & H).
    apply next_ok. exists mi, r1. split; [exact H1|]. apply next_ok. exists ma, r2. split; [exact H2|]. apply next_ok. exists fl, r3.
    split; [|exact H]. apply flag_bits_ok in F as [F _]. apply flag_bits_ok. split; [exact F|].
    do 6 (apply next_ok in H as (? & ? & _ & H)). apply check_ok in H as [_ H]. apply check_ok in H as [_ H].
    unfold gives in H. injection H as -> _. exact K0.
Qed.

Section Frame.
Variable m : message.
Hypothesis RS : rust_slice (m_payload m).

Lemma unframe_iff : forall k pf v, unframe (frameable_of k) pf m = Ok v <->
  fr_type (frameable_of k) = m_type m /\ exists left, reading_of k (m_payload m) (Ok (v, left)).
Proof.
  intros k pf v. split.
  - intro H. pose proof (eq_sym (unframe_ok_type _ _ _ _ H)) as T. split; [exact T|]. exact (proj1 (proj1 (unframe_outcome k pf m RS T) v) H).
  - intros [T H]. exact (proj2 (proj1 (unframe_outcome k pf m RS T) v) H).
Qed.

Lemma setups : forall pf pf' v, unframe (frameable_of K_JnSetupConnection) pf m = Ok v <->
  unframe (frameable_of K_MiningSetupConnection) pf' m = Ok v /\ flags_ok JnSetupFlags (sc_flags v).
Proof.
  intros pf pf' v. rewrite (unframe_iff K_JnSetupConnection pf v), (unframe_iff K_MiningSetupConnection pf' v).
  cbn [reading_of fr_type frameable_of]. split.
  - intros [T [l H]]. apply (read_sc_two JnSetupFlags MiningSetupFlags) in H; [|discriminate]. destruct H as [H K].
    split; [split; [exact T|exists l; exact H]|exact K].
  - intros [[T [l H]] K]. split; [exact T|]. exists l. apply (read_sc_two JnSetupFlags MiningSetupFlags); [discriminate|]. split; assumption.
Qed.
Lemma successes_both : forall pf pf' v, unframe (frameable_of K_JnSetupConnectionSuccess) pf m = Ok v <->
  unframe (frameable_of K_MiningSetupConnectionSuccess) pf' m = Ok v /\ scs_flags v = 0.
Proof.
  intros pf pf' v. rewrite (unframe_iff K_JnSetupConnectionSuccess pf v), (unframe_iff K_MiningSetupConnectionSuccess pf' v).
  cbn [reading_of fr_type frameable_of].
  assert (Z0 : forall f, flags_ok JnSuccessFlags f <-> f = 0).
  { intro f. split; [|intros -> i T; rewrite N.bits_0 in T; discriminate].
    intro H. apply N.bits_inj. intro i. rewrite N.bits_0. destruct (N.testbit f i) eqn:T; [|reflexivity].
    specialize (H i T). cbn [flag_width] in H. lia. }
  split.
  - intros [T [l H]]. apply next_ok in H as (u & r1 & H1 & H). apply next_ok in H as (fl & r2 & F & H).
    pose proof H as E. unfold gives in E. injection E as -> ->. apply flag_bits_ok in F as [F K].
    cbn [scs_flags]. split; [|apply Z0; exact K]. split; [exact T|]. exists r2. apply next_ok. exists u, r1. split; [exact H1|].
    apply next_ok. exists fl, r2. split; [|exact H]. apply flag_bits_ok. split; [exact F|].
    apply (flags_more JnSuccessFlags); [discriminate|exact K].
  - intros [[T [l H]] K]. apply next_ok in H as (u & r1 & H1 & H). apply next_ok in H as (fl & r2 & F & H).
    pose proof H as E. unfold gives in E. injection E as -> ->. apply flag_bits_ok in F as [F _]. cbn [scs_flags] in K.
    split; [exact T|]. exists r2. apply next_ok. exists u, r1. split; [exact H1|].
    apply next_ok. exists fl, r2. split; [|exact H]. apply flag_bits_ok. split; [exact F|]. apply Z0. exact K.
Qed.
Lemma errors_both : forall pf pf' v, unframe (frameable_of K_JnSetupConnectionError) pf m = Ok v <->
  unframe (frameable_of K_MiningSetupConnectionError) pf' m = Ok v /\ flags_ok JnSetupFlags (sce_flags v).
Proof.
  intros pf pf' v. rewrite (unframe_iff K_JnSetupConnectionError pf v), (unframe_iff K_MiningSetupConnectionError pf' v).
  cbn [reading_of fr_type frameable_of]. split.
  - intros [T [l H]]. apply next_ok in H as (fl & r1 & F & H). pose proof H as H'. apply next_ok in H as (c & r2 & _ & H).
    apply check_ok in H as [_ H]. unfold gives in H. injection H as -> ->. apply flag_bits_ok in F as [F K].
    cbn [sce_flags]. split; [|exact K]. split; [exact T|]. exists r2. apply next_ok. exists fl, r1. split; [|exact H'].
    apply flag_bits_ok. split; [exact F|]. apply (flags_more JnSetupFlags); [discriminate|exact K].
  - intros [[T [l H]] K]. apply next_ok in H as (fl & r1 & F & H). pose proof H as H'. apply next_ok in H as (c & r2 & _ & H).
    apply check_ok in H as [_ H]. unfold gives in H. injection H as -> ->. apply flag_bits_ok in F as [F _]. cbn [sce_flags] in K.
    split; [exact T|]. exists r2. apply next_ok. exists fl, r1. split; [|exact H']. apply flag_bits_ok. split; assumption.
Qed.
End Frame.

Lemma rust_slice_tail : forall x (b : bytes), rust_slice (x :: b) -> rust_slice b.
Proof. intros x b H. unfold rust_slice, len in *. cbn [length] in H. lia. Qed.

Lemma int1_ok : forall p y r, int 1 p (Ok (y, r)) <-> exists x, p = x :: r /\ y = Byte.to_N x.
Proof.
  intros p y r. unfold int. rewrite next_ok. unfold raw, gives. split.
  - intros (b & rest' & [[_ H]|[L H]] & E); [discriminate|]. injection H as -> ->. injection E as -> ->.
    destruct p as [|x p]; [cbn in L; unfold len in L; cbn in L; lia|]. exists x. cbn. split; [reflexivity|].
    destruct x; reflexivity.
  - intros (x & -> & ->). exists [x], r. split; [|destruct x; reflexivity].
    right. split; [unfold len; cbn [length]; lia|reflexivity].
Qed.

(** The common type reads a protocol byte and then what the other two read. *)
Lemma commons : forall t p pf pf' c, rust_slice p ->
  (unframe (frameable_of K_CommonSetupConnection) pf (mkMessage t p) = Ok c <->
   exists rest v,
     (p = x00 :: rest /\ unframe (frameable_of K_MiningSetupConnection) pf' (mkMessage t rest) = Ok v /\ c = CSC_Mining v) \/
     (p = x01 :: rest /\ unframe (frameable_of K_JnSetupConnection) pf' (mkMessage t rest) = Ok v /\ c = CSC_JobNegotiation v)).
Proof.
  intros t p pf pf' c RS. rewrite (unframe_iff (mkMessage t p) RS K_CommonSetupConnection pf c). cbn [m_type m_payload reading_of fr_type frameable_of].
  split.
  - intros [T [l H]]. apply next_ok in H as (y & r & I1 & H). apply int1_ok in I1 as (x & -> & ->).
    pose proof (rust_slice_tail _ _ RS) as RS'.
    assert (D : x = x00 \/ x = x01 \/ forall A e1 e2 (a b : reading A) s z, ~ (match Byte.to_N x with 0 => a | 1 => b | 2 | 3 => fails e1 | _ => fails e2 end) s (Ok z)).
    { destruct x; try (left; reflexivity); try (right; left; reflexivity); right; right; intros; cbn; discriminate. }
    destruct D as [->|[->|D]]; [| |exfalso; exact (D _ _ _ _ _ _ _ H)].
    + cbn in H. apply next_ok in H as (v & r' & H & E). unfold gives in E. injection E as -> ->.
      exists r, v. left. split; [reflexivity|]. split; [|reflexivity]. apply (unframe_iff (mkMessage t r) RS' K_MiningSetupConnection pf' v).
      split; [exact T|]. exists r'. exact H.
    + cbn in H. apply next_ok in H as (v & r' & H & E). unfold gives in E. injection E as -> ->.
      exists r, v. right. split; [reflexivity|]. split; [|reflexivity]. apply (unframe_iff (mkMessage t r) RS' K_JnSetupConnection pf' v).
      split; [exact T|]. exists r'. exact H.
  - intros (rest & v & [(-> & H & ->)|(-> & H & ->)]); pose proof (rust_slice_tail _ _ RS) as RS';
      [apply (unframe_iff (mkMessage t rest) RS' K_MiningSetupConnection) in H as [T [l H]]
      |apply (unframe_iff (mkMessage t rest) RS' K_JnSetupConnection) in H as [T [l H]]];
      (split; [exact T|]); exists l; apply next_ok.
    + exists 0, rest. split; [apply int1_ok; exists x00; split; reflexivity|]. apply next_ok. exists v, l. split; [exact H|reflexivity].
    + exists 1, rest. split; [apply int1_ok; exists x01; split; reflexivity|]. apply next_ok. exists v, l. split; [exact H|reflexivity].
Qed.

(** ** Messages of any length (C121) *)
Lemma frame_lengths : forall ts M (open : M -> fields ts) (new : fields ts -> Result M) T m,
  fields_ok ts (open m) ->
  let announced := len (fields_lay ts (open m)) mod 2 ^ 32 in
  exists fr, frame (im_frameable ts open new T) m = Ok fr /\ m_type fr = T /\ wire (m_payload fr) = fields_lay ts (open m) /\
    (16777215 < announced -> forall W (wr : writer W) w, run wr (ser_message fr) w = (w, Err RequirementError)) /\
    (announced <= 16777215 -> exists enc, wire enc = frame_layout fr /\
       forall w, run vec_writer (ser_message fr) w = (w ++ enc, Ok (6 + len (fields_lay ts (open m))))).
Proof.
  intros ts M open new T m H announced. destruct (im_writes ts (open m) H) as (bs & W & S & _).
  exists (mkMessage T bs). unfold frame, im_frameable. cbn [fr_ser fr_type]. rewrite S. do 2 (split; [reflexivity|]). split; [exact W|].
  pose proof (frame_every_length (mkMessage T bs)) as X. cbv zeta in X. cbn [m_payload] in X.
  unfold announced. rewrite <- W, len_wire. exact X.
Qed.

Fixpoint copies (n : nat) : list ty := match n with O => [] | S k => T_B0 B0_16M :: copies k end.
Fixpoint same (v : b0) (n : nat) : fields (copies n) := match n return fields (copies n) with O => tt | S k => (v, same v k) end.
Lemma long_message : exists ts (v : fields ts), fields_ok ts v /\ len (fields_lay ts v) = 2 ^ 32 + 512.
Proof.
  destruct b0_full as (v & K & L).
  assert (G : forall n, fields_ok (copies n) (same v n) /\ len (fields_lay (copies n) (same v n)) = N.of_nat n * 16777218).
  { induction n as [|n [I1 I2]]; [split; [exact Logic.I|reflexivity]|]. cbn [copies same fields_ok fields_lay fst snd].
    split; [split; assumption|]. rewrite len_app, L, I2. lia. }
  exists (copies 256), (same v 256). destruct (G 256%nat) as [G1 G2]. split; [exact G1|]. rewrite G2. reflexivity.
Qed.
