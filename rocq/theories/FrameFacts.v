(** * FrameFacts: frames, and the catalogue of all wire types. *)
From Verif Require Import Base Codec Types Messages Frame Catalog SpecWire SpecTypes
  BaseFacts CodecFacts Utf8Facts TypesFacts MessagesFacts.
Ltac Zify.zify_post_hook ::= Z.div_mod_to_equations.

(** ** Message type table *)
Lemma mt_eqb_iff : forall a b, mt_eqb a b = true <-> a = b.
Proof.
  intros a b. unfold mt_eqb. split.
  - apply internal_message_type_dec_bl.
  - apply internal_message_type_dec_lb.
Qed.

Lemma mt_row_spec : forall t, mt_row t = (0, fst (spec_code t), snd (spec_code t)).
Proof. destruct t; reflexivity. Qed.
Lemma mt_ext_0 : forall t, mt_ext_type t = 0.
Proof. intros t. unfold mt_ext_type. rewrite mt_row_spec. reflexivity. Qed.
Lemma mt_msg_code : forall t, mt_msg_type t = fst (spec_code t).
Proof. intros t. unfold mt_msg_type. rewrite mt_row_spec. reflexivity. Qed.
Lemma mt_chan : forall t, mt_channel_bit t = snd (spec_code t).
Proof. intros t. unfold mt_channel_bit. rewrite mt_row_spec. reflexivity. Qed.

Lemma mt_table_all : mt_table = map (fun t => (t, (0, fst (spec_code t), snd (spec_code t)))) all_types.
Proof. reflexivity. Qed.

Lemma all_types_in : forall t, In t all_types.
Proof.
  intros t. destruct t; unfold all_types;
    repeat (first [left; reflexivity | right]).
Qed.

Lemma spec_lookup_self : forall t, spec_lookup 0 (fst (spec_code t)) = Some t.
Proof. destruct t; reflexivity. Qed.
Lemma spec_lookup_inv : forall e c t, spec_lookup e c = Some t -> e = 0 /\ c = fst (spec_code t).
Proof.
  intros e c t H. unfold spec_lookup in H. destruct (e =? 0) eqn:E; [|discriminate].
  apply find_some in H as [_ H]. apply N.eqb_eq in H. lia.
Qed.

Lemma find_map : forall A B (f : A -> B) p l,
  find p (map f l) = option_map f (find (fun x => p (f x)) l).
Proof. intros A B f p l. induction l; cbn; [reflexivity|]. destruct (p (f a)); [reflexivity|exact IHl]. Qed.

Lemma mt_new_spec : forall e c,
  mt_new e c = match spec_lookup e c with Some t => Ok t | None => Err UnknownMessageType end.
Proof.
  intros e c. unfold mt_new, spec_lookup. rewrite mt_table_all, find_map. cbn [fst snd].
  destruct (e =? 0) eqn:E.
  - apply N.eqb_eq in E. subst e. rewrite N.eqb_refl. cbn [andb].
    destruct (find _ all_types) eqn:F; reflexivity.
  - assert (X : (0 =? e) = false) by lia. rewrite X. cbn [andb].
    assert (F : find (fun _ : message_type => false) all_types = None) by reflexivity.
    rewrite F. reflexivity.
Qed.

(** ** Header arithmetic *)
Lemma land_7fff : forall e, N.land e EXTENSION_TYPE_MASK = e mod 32768.
Proof.
  intros e. change EXTENSION_TYPE_MASK with (N.ones 15). rewrite N.land_ones. reflexivity.
Qed.
Lemma land_8000 : forall e, e < 65536 -> negb (N.land e CHANNEL_BIT_MASK =? 0) = (32768 <=? e).
Proof.
  intros e He. assert (X : N.land e CHANNEL_BIT_MASK = if N.testbit e 15 then 32768 else 0).
  { apply N.bits_inj. intros i. rewrite N.land_spec. change CHANNEL_BIT_MASK with (2 ^ 15).
    destruct (N.eq_dec i 15) as [->|Hi].
    - rewrite N.pow2_bits_true. destruct (N.testbit e 15); reflexivity.
    - rewrite N.pow2_bits_false by congruence. rewrite andb_false_r.
      destruct (N.testbit e 15); [change 32768 with (2 ^ 15); rewrite N.pow2_bits_false by congruence|rewrite N.bits_0]; reflexivity. }
  rewrite X. rewrite N.testbit_eqb. change (2 ^ 15) with 32768.
  destruct (e / 32768 mod 2 =? 1) eqn:E; cbn [negb N.eqb]; lia.
Qed.

Definition hdr_ext (t : message_type) : N := if snd (spec_code t) then 32768 else 0.
Lemma ser_ext : forall t,
  (if mt_channel_bit t then N.lor (mt_ext_type t) CHANNEL_BIT_MASK else mt_ext_type t) = hdr_ext t.
Proof. intros t. rewrite mt_chan, mt_ext_0. unfold hdr_ext. destruct (snd (spec_code t)); reflexivity. Qed.

Lemma spec_code_u8 : forall t, fst (spec_code t) < 256.
Proof. destruct t; cbn; lia. Qed.

Lemma frame_layout_eq : forall m,
  frame_layout m = spec_le 2 (hdr_ext (m_type m)) ++ spec_le 1 (fst (spec_code (m_type m))) ++
                   spec_le 3 (len (m_payload m)) ++ wire (m_payload m).
Proof.
  intros [t p]. unfold frame_layout, hdr_ext. cbn [m_type m_payload].
  pose proof (spec_code_u8 t) as B. destruct (spec_code t) as [c b]. cbn [fst snd] in *.
  change (spec_le 1 c) with [c / 1 mod 256]. rewrite N.div_1_r, N.mod_small by exact B.
  destruct b; reflexivity.
Qed.

(** ** Frames as a field *)
Lemma message_field : field ser_message de_message
  (fun m => len (m_payload m) < 16777216) frame_layout.
Proof.
  apply mk_field.
  - intros [t p] H. rewrite frame_layout_eq. unfold ser_message. rewrite ser_ext, mt_msg_code.
    cbn [m_type m_payload] in *.
    rewrite N.mod_small by lia. rewrite u24_new_ok by lia. cbn [wbind].
    eapply em_cons; [exact u16_field | unfold hdr_ext, u16_ok; destruct (snd _); lia |intros n1].
    eapply em_cons; [exact u8_field | apply spec_code_u8 |intros n2].
    eapply em_cons; [exact u24_field | exact H |intros n3].
    exists [p]. cbn [concat]. rewrite app_nil_r. split; [|reflexivity].
    unfold wwrite, wok. cbn [wbind]. rewrite N.add_0_l. repeat constructor.
  - intros [t p] H. rewrite frame_layout_eq. unfold de_message. cbn [m_type m_payload] in *.
    eapply rd_cons; [exact u16_field | unfold hdr_ext, u16_ok; destruct (snd _); lia |].
    eapply rd_cons; [exact u8_field | apply spec_code_u8 |].
    assert (E1 : N.land (hdr_ext t) EXTENSION_TYPE_MASK = 0) by (unfold hdr_ext; destruct (snd _); reflexivity).
    assert (E2 : negb (N.land (hdr_ext t) CHANNEL_BIT_MASK =? 0) = snd (spec_code t))
      by (unfold hdr_ext; destruct (snd _); reflexivity).
    rewrite E1, E2, mt_new_spec, spec_lookup_self.
    intros c Hc. rewrite <- (app_nil_l c). eapply reads_bind; [apply reads_lift; reflexivity|].
    rewrite mt_chan. rewrite Bool.eqb_reflx. cbn [negb]. revert c Hc.
    change (readsL (de_bind de_u24 (fun message_length => de_bind (next_by message_length)
      (fun payload => de_ret (mkMessage t payload)))) (spec_le 3 (len p) ++ wire p) (mkMessage t p)).
    eapply rd_cons; [exact u24_field | exact H |].
    intros c Hc. apply wire_inj in Hc. subst c.
    eapply reads_bind_last; [apply reads_next_by; reflexivity|]. apply reads_ret.
  - unfold de_message. eapply gd_cons; [exact u16_field|]. intros e He.
    eapply gd_cons; [exact u8_field|]. intros c Hc.
    rewrite mt_new_spec, land_7fff, land_8000 by (unfold u16_ok in He; lia).
    destruct (spec_lookup (e mod 32768) c) as [t|] eqn:EL.
    2:{ unfold goodL. eapply good_bind with (Qm := fun _ _ => False);
          [apply good_lift; discriminate | intros a ca []]. }
    apply spec_lookup_inv in EL as [Ee Ec].
    unfold goodL. eapply good_bind with (Qm := fun x cx => x = t /\ cx = []).
    { apply good_lift; [discriminate|]. intros a E; injection E as <-; auto. }
    intros x cx [-> ->]. cbn [app]. rewrite mt_chan.
    destruct (Bool.eqb (snd (spec_code t)) (32768 <=? e)) eqn:EB; cbn [negb].
    2:{ apply good_lift; discriminate. }
    apply Bool.eqb_prop in EB.
    destruct u24_field as (_ & _ & Lg).
    eapply good_bind; [exact Lg|]. intros n cn [Hn Hcn].
    eapply good_bind; [apply good_next_by; lia|]. intros a ca [-> Hca].
    apply good_ret. cbn [m_type m_payload]. split; [lia|].
    rewrite frame_layout_eq. cbn [m_type m_payload]. rewrite app_nil_r, !wire_app, Hcn, Hca, Ec.
    f_equal. f_equal. unfold hdr_ext. rewrite EB. destruct (32768 <=? e) eqn:E; unfold u16_ok in He; lia.
Qed.

(** ** The whole catalogue *)
Lemma spec_b0_hdr_eq : forall t, spec_b0_hdr t = hdr_size t.
Proof. destruct t; reflexivity. Qed.
Lemma spec_b0_limit_eq : forall t, spec_b0_limit t = b0_max t.
Proof. destruct t; reflexivity. Qed.
Lemma spec_str_limit_eq : forall t, spec_str_limit t = str0_max t.
Proof. destruct t; reflexivity. Qed.

Lemma field_ext : forall A (ser : A -> wprog N) de ok (l1 l2 : A -> list N),
  (forall a, l1 a = l2 a) -> field ser de ok l1 -> field ser de ok l2.
Proof.
  intros A ser de ok0 l1 l2 E (H1 & H2 & H3). split; [|split].
  - intros a Ha. destruct (H1 a Ha) as (cs & X & Y). rewrite E in Y. eauto.
  - intros a c Ha Hc. apply H2; [exact Ha|]. rewrite E. exact Hc.
  - eapply good_weaken; [exact H3|]. intros a c [X Y]. rewrite <- E. auto.
Qed.

Lemma ty_field : forall t, t <> T_bool -> field (ser_of t) (de_of t) (ok t) (lay t).
Proof.
  intros t Ht. destruct t; cbn [ser_of de_of ok lay val].
  - exact u8_field.
  - exact u16_field.
  - exact u32_field.
  - exact f32_field.
  - congruence.
  - exact u24_field.
  - exact u256_field.
  - rewrite spec_b0_hdr_eq, spec_b0_limit_eq. apply b0_field.
  - rewrite spec_str_limit_eq. apply str0_field.
  - apply flags_field.
  - exact sc_code_field.
  - exact omc_code_field.
  - eapply field_ext; [|exact protocol_field]. intros []; reflexivity.
  - apply msg_field.
  - exact message_field.
Qed.

(** Everything except canonicity also holds for bool. *)
Definition encodes (t : ty) : Prop :=
  (forall a, ok t a -> exists cs, emits (ser_of t a) cs (len (concat cs)) /\ wire (concat cs) = lay t a) /\
  (forall a c, ok t a -> wire c = lay t a -> reads (de_of t) c a) /\
  good (de_of t) (fun a _ => ok t a).

Lemma ty_encodes : forall t, encodes t.
Proof.
  intros t. assert (D : t = T_bool \/ t <> T_bool) by (destruct t; (left; reflexivity) || (right; discriminate)).
  destruct D as [->|D].
  - split; [|split]; cbn [ser_of de_of ok lay val].
    + intros a _. exists [[if a then x01 else x00]]. split; [|destruct a; reflexivity].
      apply emits_bool.
    + intros a c _ Hc. assert (c = [if a then x01 else x00]) as ->.
      { apply wire_inj. rewrite Hc. destruct a; reflexivity. }
      pose proof (reads_bool (if a then x01 else x00)) as R. destruct a; exact R.
    + eapply good_weaken; [exact good_bool|]. auto.
  - destruct (ty_field t D) as (H1 & H2 & H3). split; [|split]; auto.
    eapply good_weaken; [exact H3|]. cbn. tauto.
Qed.
