(** * DecodeProofs: every decoder follows its reading. *)
From Verif Require Import Base Codec Types Messages Frame Catalog SpecWire SpecTypes SpecDecode
  BaseFacts CodecFacts Utf8Facts TypesFacts MessagesFacts FrameFacts CodecProofs MsgProofs TypesProofs.
Ltac Zify.zify_post_hook ::= Z.div_mod_to_equations.

(** The decoder [d] does what the reading [t] says; the values satisfy [Q]. *)
Definition follows {A} (Q : A -> Prop) (d : De A) (t : reading A) : Prop :=
  forall pf pre rest, rust_slice (pre ++ rest) -> exists r, t rest r /\
  match r with
  | Ok (v, rest') => Q v /\ exists c, rest = c ++ rest' /\ d pf (cursor pre rest) = (cursor (pre ++ c) rest', Ok v)
  | Err e => snd (d pf (cursor pre rest)) = Err e
  | Panic => False
  end.
Definition single {A} (t : reading A) : Prop := forall rest r1 r2, t rest r1 -> t rest r2 -> r1 = r2.

(** ** Functionality *)
Lemma gives_single : forall A (v : A), single (gives v).
Proof. intros A v rest r1 r2 -> ->. reflexivity. Qed.
Lemma fails_single : forall A e, single (@fails A e).
Proof. intros A v rest r1 r2 -> ->. reflexivity. Qed.
Lemma next_single : forall A B (a : reading A) (f : A -> reading B),
  single a -> (forall x, single (f x)) -> single (next a f).
Proof.
  intros A B a f Ha Hf rest r1 r2 (x & Ax & Rx) (y & Ay & Ry).
  rewrite (Ha _ _ _ Ay Ax) in Ry. clear y Ay. destruct x as [[v rest']|e|].
  - exact (Hf _ _ _ _ Rx Ry).
  - congruence.
  - contradiction.
Qed.
Lemma check_single : forall A w e (k : reading A), single k -> single (check w e k).
Proof.
  intros A w e k Hk rest r1 r2 [(A1 & ->)|(A1 & B1)] [(A2 & ->)|(A2 & B2)];
    try reflexivity; try contradiction. exact (Hk _ _ _ B1 B2).
Qed.
Lemma raw_single : forall k, single (raw k).
Proof.
  intros k rest r1 r2 [(A1 & ->)|(A1 & ->)] [(A2 & ->)|(A2 & ->)]; try reflexivity; exfalso; lia.
Qed.
Lemma int_single : forall k, single (int k).
Proof. intros k. apply next_single; [apply raw_single|intros; apply gives_single]. Qed.
Lemma flag_bits_single : forall fs, single (flag_bits fs).
Proof. intros fs. apply next_single; [apply int_single|]. intros v. apply check_single, gives_single. Qed.
Lemma text_single : single text.
Proof.
  intros rest r1 r2 (x & Ax & ->) (y & Ay & ->).
  rewrite (spec_decode_str_functional _ _ _ _ Ax Ay). reflexivity.
Qed.
Lemma prefix32_single : single prefix32.
Proof. intros rest r1 r2 -> ->. reflexivity. Qed.
Lemma code_single : forall A (image : A -> list N), (forall a b, image a = image b -> a = b) -> single (code image).
Proof.
  intros A image I. apply next_single; [exact text_single|].
  intros s rest r1 r2 [(c & C1 & ->)|(C1 & ->)] [(d & C2 & ->)|(C2 & ->)]; try reflexivity.
  - rewrite C1 in C2. apply I in C2. subst. reflexivity.
  - destruct (C2 _ C1).
  - destruct (C1 _ C2).
Qed.
Lemma lay_sc_code_inj : forall a b, lay_sc_code a = lay_sc_code b -> a = b.
Proof. destruct a, b; intros H; try reflexivity; discriminate. Qed.
Lemma lay_omc_code_inj : forall a b, lay_omc_code a = lay_omc_code b -> a = b.
Proof. destruct a, b; intros H; try reflexivity; discriminate. Qed.

Ltac one := repeat first
  [ apply gives_single | apply fails_single | apply check_single | apply raw_single | apply int_single
  | apply flag_bits_single | apply text_single | apply prefix32_single
  | apply (code_single _ _ lay_sc_code_inj) | apply (code_single _ _ lay_omc_code_inj)
  | apply next_single; [|intros ?] ].

Lemma read_sc_single : forall fs, single (read_sc fs).
Proof. intros fs. unfold read_sc. one. Qed.

Lemma reading_single : forall k, single (reading_of k).
Proof.
  destruct k; cbn [reading_of]; one; try apply read_sc_single.
  destruct x as [|[[p|p|]|[p|p|]|]]; one; apply read_sc_single.
Qed.

(** ** Following *)
Lemma follows_next : forall A B (Q : A -> Prop) (R : B -> Prop) (d : De A) (t : reading A) (f : A -> De B) (g : A -> reading B),
  follows Q d t -> (forall x, Q x -> follows R (f x) (g x)) -> follows R (de_bind d f) (next t g).
Proof.
  intros A B Q R d t f g Hd Hf pf pre rest Hs.
  destruct (Hd pf pre rest Hs) as (ra & Ta & Da). destruct ra as [[x rest']|e|]; [|clear Hf|contradiction].
  - destruct Da as (Qx & c & -> & E).
    assert (Hs' : rust_slice ((pre ++ c) ++ rest')) by (rewrite <- app_assoc; exact Hs).
    destruct (Hf x Qx pf (pre ++ c) rest' Hs') as (r & Tr & Dr).
    exists r. split; [exists (Ok (x, rest')); auto|].
    rewrite (de_bind_ok _ _ _ _ _ _ _ _ E).
    destruct r as [[v rest2]|e|]; auto. destruct Dr as (Rv & c2 & -> & E2).
    split; [exact Rv|]. exists (c ++ c2). rewrite <- !app_assoc. split; [reflexivity|].
    rewrite <- app_assoc in E2. exact E2.
  - exists (Err e). split; [exists (Err e); auto|]. unfold de_bind.
    destruct (d pf (cursor pre rest)) as [p [y|e'|]]; cbn [snd] in *; try discriminate. congruence.
Qed.

Lemma follows_lift : forall A (Q : A -> Prop) (o : Result A) (v : A), o = Ok v -> Q v -> follows Q (de_lift o) (gives v).
Proof.
  intros A Q o v -> Qv pf pre rest Hs. exists (Ok (v, rest)). split; [reflexivity|].
  split; [exact Qv|]. exists []. rewrite app_nil_r. split; reflexivity.
Qed.
Lemma follows_fail : forall A (Q : A -> Prop) (o : Result A) e, o = Err e -> follows Q (de_lift o) (fails e).
Proof. intros A Q o e -> pf pre rest Hs. exists (Err e). split; reflexivity. Qed.
Lemma follows_check : forall A (Q : A -> Prop) (w : Prop) e d (t : reading A),
  w \/ ~ w -> (w -> follows Q d (fails e)) -> (~ w -> follows Q d t) -> follows Q d (check w e t).
Proof.
  intros A Q w e d t [W|W] H1 H2 pf pre rest Hs.
  - destruct (H1 W pf pre rest Hs) as (r & T & D). exists r. split; [left; auto|exact D].
  - destruct (H2 W pf pre rest Hs) as (r & T & D). exists r. split; [right; auto|exact D].
Qed.

Lemma follows_raw : forall k, N.of_nat k <= 2 ^ 63 -> follows (fun c => len c = N.of_nat k) (next_by (N.of_nat k)) (raw k).
Proof.
  intros k Hk pf pre rest Hs. destruct (N.lt_ge_cases (len rest) (N.of_nat k)) as [L|L].
  - exists (Err ParseError). split; [left; auto|]. toP. rewrite next_by_short; auto.
  - exists (Ok (firstn k rest, skipn k rest)). split; [right; auto|].
    assert (E : len (firstn k rest) = N.of_nat k) by (unfold len in *; rewrite firstn_length; lia).
    split; [exact E|]. exists (firstn k rest). split; [symmetry; apply firstn_skipn|].
    rewrite <- E. toP. rewrite <- (firstn_skipn k rest) at 2. apply next_by_ok. rewrite firstn_skipn. exact Hs.
Qed.

Lemma val_of_le : forall b, spec_val (wire b) = of_le b.
Proof.
  induction b as [|x b IH]; [reflexivity|]. unfold spec_val in *. cbn [wire map fold_right of_le]. fold (wire b).
  rewrite IH. reflexivity.
Qed.
Lemma follows_int : forall k, (k <= 8)%nat -> follows (fun v => v < 256 ^ N.of_nat k) (de_uint k) (int k).
Proof.
  intros k Hk. unfold de_uint, int. eapply follows_next; [apply follows_raw; lia|].
  intros b Hb pf pre rest Hs. exists (Ok (spec_val (wire b), rest)). split; [reflexivity|].
  rewrite val_of_le. split; [rewrite <- Hb; apply of_le_bound|].
  exists []. rewrite app_nil_r. split; [reflexivity|].
  unfold de_bind, de_lift, de_ret. rewrite clone_from_slice_ok by exact Hb. reflexivity.
Qed.

Lemma follows_u256 : follows (fun c => len c = 32) de_u256 (raw 32).
Proof.
  intros pf pre rest Hs. destruct (follows_raw 32 ltac:(lia) pf pre rest Hs) as (r & T & D).
  exists r. split; [exact T|]. change (N.of_nat 32) with 32 in D. unfold de_u256, de_bind.
  destruct r as [[v rest']|e|]; auto.
  - destruct D as (L & c & -> & E). split; [exact L|]. exists c. split; [reflexivity|]. rewrite E.
    unfold de_lift. rewrite clone_from_slice_ok by exact L. reflexivity.
  - destruct (next_by 32 pf (cursor pre rest)) as [p [y|e'|]]; cbn [snd] in *; congruence.
Qed.

Lemma cursor_at : forall pre rest n, n <= len rest ->
  mkParser (pre ++ rest) (len pre + n) = cursor (pre ++ firstn (N.to_nat n) rest) (skipn (N.to_nat n) rest).
Proof.
  intros pre rest n H. unfold cursor. rewrite <- app_assoc, firstn_skipn, len_app.
  f_equal. f_equal. unfold len in *. rewrite firstn_length. lia.
Qed.

Lemma follows_text : follows (str_ok 255) (de_str0 STR0_255) text.
Proof.
  intros pf pre rest Hs. destruct (str_table STR0_255 pf pre rest Hs) as (r & T & D).
  destruct r as [[v n]|e|]; [| |contradiction].
  - exists (Ok (v, skipn (N.to_nat n) rest)). split; [exists (Ok (v, n)); auto|].
    destruct rest as [|h body]; [discriminate|]. cbn [spec_decode_str] in T.
    destruct T as [(A & T)|[(A & B & T)|[(A & B & C & T)|(A & B & C & T)]]]; try discriminate.
    injection T as -> ->. assert (L : 1 + Byte.to_N h <= len (h :: body)) by (rewrite len_cons; lia).
    split.
    { unfold str_ok. cbn [str0_data str0_length]. split; [exact B|].
      assert (E : len (firstn (N.to_nat (Byte.to_N h)) body) = Byte.to_N h)
        by (unfold len in *; rewrite firstn_length; lia).
      rewrite E. split; [exact C|reflexivity]. }
    eexists. split; [symmetry; apply firstn_skipn|]. rewrite D, cursor_at by exact L. reflexivity.
  - exists (Err e). split; [exists (Err e); auto|exact D].
Qed.

Lemma follows_prefix32 : follows (b0_ok 32) (de_b0 B0_32) prefix32.
Proof.
  intros pf pre rest Hs. pose proof (b0_table B0_32 pf pre rest Hs) as D. unfold prefix32.
  destruct (spec_decode_b0 B0_32 rest) as [[v n]|e|] eqn:T; [| |contradiction]; eexists; (split; [reflexivity|]).
  - unfold spec_decode_b0 in T. cbn [spec_b0_hdr spec_b0_limit] in T.
    destruct (_ <? _) eqn:E1; [discriminate|]. destruct (_ <? _) eqn:E2 in T; [discriminate|].
    destruct (32 <? _) eqn:E3; [discriminate|].
    set (m := spec_val (wire (firstn 1 rest))) in *. change (N.of_nat 1) with 1 in *.
    assert (X : v = mkB0 m (firstn (N.to_nat m) (skipn 1 rest)) /\ n = 1 + m).
    { inversion T. split; reflexivity. }
    destruct X as (-> & ->).
    apply N.ltb_ge in E1, E2, E3.
    assert (L : 1 + m <= len rest).
    { unfold len in *. rewrite firstn_length in E1. rewrite skipn_length in E2. lia. }
    split.
    { unfold b0_ok. cbn [b0_data b0_length].
      assert (E : len (firstn (N.to_nat m) (skipn 1 rest)) = m)
        by (clear -E2; unfold len in *; rewrite firstn_length; lia).
      rewrite E. split; [exact E3|reflexivity]. }
    eexists. split; [symmetry; apply firstn_skipn|]. rewrite D, cursor_at by exact L. reflexivity.
  - exact D.
Qed.

Lemma flags_dec : forall fs v, flags_ok fs v \/ ~ flags_ok fs v.
Proof.
  intros fs v. destruct (N.lt_ge_cases v (2 ^ flag_width fs)) as [L|L].
  - left. intros i Hi. destruct (N.lt_ge_cases i (flag_width fs)) as [H|H]; [exact H|].
    rewrite N.testbit_eqb, N.div_small in Hi; [discriminate|].
    eapply N.lt_le_trans; [exact L|]. apply N.pow_le_mono_r; lia.
  - right. intros H. destruct (N.eq_dec v 0) as [->|Z].
    { assert (0 < 2 ^ flag_width fs) by (apply N.neq_0_lt_0, N.pow_nonzero; lia). lia. }
    specialize (H (N.log2 v) (N.bit_log2 v Z)).
    apply N.log2_lt_pow2 in H; lia.
Qed.

Lemma follows_flags : forall fs, follows (flags_ok fs) (de_flags fs) (flag_bits fs).
Proof.
  intros fs. unfold de_flags, flag_bits. eapply follows_next; [apply (follows_int 4); lia|].
  intros v Hv. apply follows_check.
  - destruct (flags_dec fs v); auto.
  - intros W. apply follows_fail. destruct (flags_from_bits fs v) eqn:E; [|reflexivity].
    apply flags_from_bits_iff in E as (_ & E). contradiction.
  - intros W. destruct (flags_dec fs v) as [F|F]; [|contradiction].
    assert (E : flags_from_bits fs v = Some v) by (apply flags_from_bits_iff; auto).
    rewrite E. apply follows_lift; auto.
Qed.

Lemma follows_code : forall A (image : A -> list N) (from : bytes -> Result A),
  (forall s, (forall c, len s :: wire s = image c -> from s = Ok c) /\
             ((forall c, len s :: wire s <> image c) -> from s = Err UnknownErrorCode)) ->
  (forall s, (exists c, from s = Ok c /\ len s :: wire s = image c) \/ (forall c, len s :: wire s <> image c)) ->
  follows (fun _ => True) (de_bind (de_str0 STR0_255) (fun s => de_lift (from (str0_data s)))) (code image).
Proof.
  intros A image from X D. unfold code. eapply follows_next; [apply follows_text|].
  intros s Hs pf pre rest Hr. destruct (X (str0_data s)) as (X1 & X2).
  destruct (D (str0_data s)) as [(c & F & E)|F].
  - exists (Ok (c, rest)). split; [left; eauto|]. split; [exact I|]. exists []. rewrite app_nil_r.
    split; [reflexivity|]. unfold de_lift. rewrite F. reflexivity.
  - exists (Err UnknownErrorCode). split; [right; auto|]. unfold de_lift. cbn [snd]. auto.
Qed.
Lemma follows_sc_code : follows (fun _ => True) de_sc_code (code lay_sc_code).
Proof.
  apply follows_code; [exact sc_code_exact|]. intros s.
  assert (D : forall c, (exists c, sc_code_from_str s = Ok c /\ len s :: wire s = lay_sc_code c) \/ len s :: wire s <> lay_sc_code c).
  { intros c. destruct (list_eq_dec N.eq_dec (len s :: wire s) (lay_sc_code c)) as [E|E]; [left|right; exact E].
    exists c. split; [apply sc_code_exact, E|exact E]. }
  destruct (D UnsupportedFeatureFlags) as [E|E1]; [left; exact E|].
  destruct (D UnsupportedProtocol) as [E|E2]; [left; exact E|].
  destruct (D ProtocolVersionMismatch) as [E|E3]; [left; exact E|].
  right. intros []; assumption.
Qed.
Lemma follows_omc_code : follows (fun _ => True) de_omc_code (code lay_omc_code).
Proof.
  apply follows_code; [exact omc_code_exact|]. intros s.
  assert (D : forall c, (exists c, omc_code_from_str s = Ok c /\ len s :: wire s = lay_omc_code c) \/ len s :: wire s <> lay_omc_code c).
  { intros c. destruct (list_eq_dec N.eq_dec (len s :: wire s) (lay_omc_code c)) as [E|E]; [left|right; exact E].
    exists c. split; [apply omc_code_exact, E|exact E]. }
  destruct (D UnknownUser) as [E|E1]; [left; exact E|].
  destruct (D MaxTargetOutOfRange) as [E|E2]; [left; exact E|].
  right. intros []; assumption.
Qed.

Ltac flw := first
  [ apply (follows_int 1); lia | apply (follows_int 2); lia | apply (follows_int 4); lia | apply follows_flags
  | apply follows_text | apply follows_prefix32 | apply follows_u256 | apply follows_sc_code | apply follows_omc_code ].
Ltac nxt := eapply follows_next; [flw|cbn beta; intros ? ?].

Lemma empty_iff : forall s, is_empty s = true <-> s = [].
Proof.
  intros s. unfold is_empty. rewrite N.eqb_eq. split; [|intros ->; reflexivity].
  destruct s; [reflexivity|]. rewrite len_cons. lia.
Qed.

Lemma follows_sc : forall fs, follows (fun _ => True) (de_sc fs) (read_sc fs).
Proof.
  intros fs. unfold de_sc, read_sc. do 9 nxt. unfold sc_new.
  destruct (is_empty (str0_data x4)) eqn:E1; [|destruct (is_empty (str0_data x6)) eqn:E2].
  - apply empty_iff in E1. apply follows_check; [auto|intros _; apply follows_fail; reflexivity|]. intros NE; destruct NE; auto.
  - apply empty_iff in E2. apply follows_check; [auto|intros _; apply follows_fail; reflexivity|]. intros NE; destruct NE; auto.
  - assert (NE : ~ (str0_data x4 = [] \/ str0_data x6 = [])).
    { intros [G|G]; apply empty_iff in G; congruence. }
    apply follows_check; [auto|intros G; contradiction|intros _].
    destruct (x <? 2) eqn:E3; [|destruct (x0 <? 2) eqn:E4].
    + apply follows_check; [lia|intros _; apply follows_fail; reflexivity|intros; lia].
    + apply follows_check; [lia|intros _; apply follows_fail; reflexivity|intros; lia].
    + apply follows_check; [lia|intros; lia|intros _]. apply follows_lift; [|exact I].
      rewrite !str_new_same by assumption. reflexivity.
Qed.

Lemma follows_sce : forall fs, follows (fun _ => True) (de_sce fs)
  (next (flag_bits fs) (fun fl => next (code lay_sc_code) (fun c =>
      check (fl = 0 /\ c = UnsupportedFeatureFlags) RequirementError (gives (mkSCE fl c))))).
Proof.
  intros fs. unfold de_sce. do 2 nxt. unfold sce_new, flags_is_empty.
  destruct (x =? 0) eqn:E; destruct x0; cbn [andb sc_code_eqb];
    apply follows_check; try (intros _; apply follows_fail; reflexivity);
    try (intros _; apply follows_lift; [reflexivity|exact I]);
    try (intros (A & B); first [discriminate | exfalso; lia]);
    try (intros A; exfalso; apply A; split; [lia|reflexivity]);
    first [left; split; [lia|reflexivity] | right; intros (A & B); first [discriminate|lia]].
Qed.

Lemma decoder_follows : forall k, follows (fun _ => True) (fr_de (frameable_of k)) (reading_of k).
Proof.
  destruct k; cbn [frameable_of fr_de reading_of msg_of];
    try apply follows_sc; try apply follows_sce;
    unfold de_scs, de_cec, de_osmc, de_osmcs, de_omce, de_oemc, de_oemcs, de_uc;
    try (repeat nxt; apply follows_lift; [|exact I];
         unfold scs_new, cec_new, osmc_new, osmcs_new, omce_new, oemc_new, oemcs_new, uc_new;
         rewrite ?str_new_same, ?(b0_new_same B0_32) by assumption; reflexivity).
  unfold de_csc, de_protocol.
  assert (AS : forall pf p, de_bind (de_bind de_u8 (fun b => de_lift (protocol_try_from b)))
      (fun p => match p with
       | PMining => de_bind (de_sc MiningSetupFlags) (fun v => de_ret (CSC_Mining v))
       | PJobNegotiation => de_bind (de_sc JnSetupFlags) (fun v => de_ret (CSC_JobNegotiation v))
       | _ => de_lift (Err Unimplemented)
       end) pf p =
    de_bind de_u8 (fun b => match b with
       | 0 => de_bind (de_sc MiningSetupFlags) (fun v => de_ret (CSC_Mining v))
       | 1 => de_bind (de_sc JnSetupFlags) (fun v => de_ret (CSC_JobNegotiation v))
       | 2 | 3 => de_lift (Err Unimplemented)
       | _ => de_lift (Err DeserializationError)
       end) pf p).
  { intros pf p. unfold de_bind. destruct (de_u8 pf p) as [p' [b|e|]]; try reflexivity.
    unfold de_lift. destruct b as [|[[b|b|]|[b|b|]|]]; reflexivity. }
  intros pf pre rest Hs. rewrite AS. revert pf pre rest Hs.
  eapply follows_next; [apply (follows_int 1); lia|]. cbn beta. intros p _.
  destruct p as [|[[p|p|]|[p|p|]|]]; try (apply follows_fail; reflexivity).
  - eapply follows_next; [apply follows_sc|]. intros v _. apply follows_lift; [reflexivity|exact I].
  - eapply follows_next; [apply follows_sc|]. intros v _. apply follows_lift; [reflexivity|exact I].
Qed.

(** ** The statements *)
Lemma decode_table : forall k pf pre rest, rust_slice (pre ++ rest) ->
  exists r, reading_of k rest r /\ (forall r', reading_of k rest r' -> r' = r) /\
  match r with
  | Ok (v, rest') => exists c, rest = c ++ rest' /\
      fr_de (frameable_of k) pf (cursor pre rest) = (cursor (pre ++ c) rest', Ok v)
  | Err e => snd (fr_de (frameable_of k) pf (cursor pre rest)) = Err e
  | Panic => False
  end.
Proof.
  intros k pf pre rest Hs. destruct (decoder_follows k pf pre rest Hs) as (r & T & D).
  exists r. split; [exact T|]. split; [intros r' T'; exact (reading_single k _ _ _ T' T)|].
  destruct r as [[v rest']|e|]; [apply D|exact D|exact D].
Qed.

Lemma decode_outcome : forall k pf bs, rust_slice bs ->
  (forall v, deserialize (fr_de (frameable_of k)) pf bs = Ok v <-> exists left, reading_of k bs (Ok (v, left))) /\
  (forall e, deserialize (fr_de (frameable_of k)) pf bs = Err e <-> reading_of k bs (Err e)) /\
  deserialize (fr_de (frameable_of k)) pf bs <> Panic.
Proof.
  intros k pf bs Hs. destruct (decode_table k pf [] bs Hs) as (r & T & U & D).
  unfold deserialize. change (mkParser bs 0) with (cursor [] bs).
  destruct r as [[v rest']|e|]; [| |contradiction].
  - destruct D as (c & _ & ->). cbn [snd]. split; [|split].
    + intros w. split; [intros E; exists rest'; congruence|]. intros (l & E). apply U in E. congruence.
    + intros e. split; [discriminate|]. intros E. apply U in E. discriminate.
    + discriminate.
  - rewrite D. split; [|split].
    + intros w. split; [discriminate|]. intros (l & E). apply U in E. discriminate.
    + intros e'. split; [intros E; congruence|]. intros E. apply U in E. congruence.
    + discriminate.
Qed.

Lemma unframe_outcome : forall k pf m, rust_slice (m_payload m) -> fr_type (frameable_of k) = m_type m ->
  (forall v, unframe (frameable_of k) pf m = Ok v <-> exists left, reading_of k (m_payload m) (Ok (v, left))) /\
  (forall e, unframe (frameable_of k) pf m = Err e <-> reading_of k (m_payload m) (Err e)).
Proof.
  intros k pf m Hs E. unfold unframe.
  rewrite (proj2 (mt_eqb_iff _ _) E). cbn [negb].
  destruct (decode_outcome k pf (m_payload m) Hs) as (A & B & _). split; assumption.
Qed.
