(** * ReasonProofs: the texts that errors carry. *)
From Coq Require Import Strings.String.
From Verif Require Import Base Codec Types Messages Frame Certs Display Reasons Catalog SpecWire SpecTypes SpecDecode SpecTexts SpecReason
  BaseFacts CodecFacts Utf8Facts TypesFacts MessagesFacts FrameFacts CodecProofs MsgProofs TypesProofs DecodeProofs TextProofs SpecCerts Base58Facts CertProofs.
Local Open Scope N_scope.
Local Open Scope list_scope.
Ltac Zify.zify_post_hook ::= Z.div_mod_to_equations.

(** ** UTF-8 *)
Lemma begins_iff : forall bs, begins_text bs <-> exists more, utf8_valid (bs ++ more) = true.
Proof. intros bs. unfold begins_text. split; intros (m & H); exists m; apply utf8_valid_iff; exact H. Qed.
Lemma text_iff : forall bs, utf8_text bs <-> utf8_valid bs = true.
Proof. intros. symmetry. apply utf8_valid_iff. Qed.
Lemma begins_prefix : forall a b, begins_text (a ++ b) -> begins_text a.
Proof. intros a b (m & H). exists (b ++ m). rewrite app_assoc. exact H. Qed.
Lemma begins_firstn : forall bs i j, (i <= j)%nat -> begins_text (firstn j bs) -> begins_text (firstn i bs).
Proof.
  intros bs i j H B. replace (firstn i bs) with (firstn i (firstn j bs)) by (rewrite firstn_firstn, Nat.min_l by lia; reflexivity).
  rewrite <- (firstn_skipn i (firstn j bs)) in B. exact (begins_prefix _ _ B).
Qed.
Lemma text_begins : forall bs, utf8_text bs -> begins_text bs.
Proof. intros bs H. exists []. rewrite app_nil_r. exact H. Qed.
Lemma text_char : forall c n t, utf8_char c n -> (utf8_text (c ++ t) <-> utf8_text t).
Proof. intros c n t H. rewrite !text_iff, (utf8_valid_char _ _ _ H). reflexivity. Qed.
Lemma begins_char : forall c n t, utf8_char c n -> (begins_text (c ++ t) <-> begins_text t).
Proof.
  intros c n t H. rewrite !begins_iff. split; intros (m & E); exists m; rewrite <- app_assoc in *;
    [rewrite (utf8_valid_char _ _ _ H) in E|rewrite (utf8_valid_char _ _ _ H)]; exact E.
Qed.
Lemma text_nil : utf8_text [].
Proof. apply text_iff. reflexivity. Qed.

Lemma fault_char : forall c n t v k, utf8_char c n -> utf8_fault t v k -> utf8_fault (c ++ t) (length c + v) k.
Proof.
  intros c n t v k C (L & T & M & K). pose proof (utf8_char_nonempty _ _ C) as P.
  assert (F : forall i, firstn (length c + i) (c ++ t) = c ++ firstn i t)
    by (intros i; rewrite firstn_app_2; reflexivity).
  unfold utf8_fault. rewrite app_length, F. split; [lia|]. split; [apply (text_char _ _ _ C); exact T|]. split.
  - intros i Hi. replace i with (length c + (i - length c))%nat by lia. rewrite F, (text_char _ _ _ C). apply M. lia.
  - destruct k as [k|].
    + destruct K as (j & A & B & D & ->). exists j. split; [lia|].
      replace (length c + v + j + 1)%nat with (length c + (v + j + 1))%nat by lia.
      rewrite <- Nat.add_assoc, !F, !(begins_char _ _ _ C). auto.
    + destruct K as (A & B). split; [lia|]. apply (begins_char _ _ _ C). exact B.
Qed.

(** A fault in the first character. *)
Lemma fault_some : forall bs j, (j < length bs)%nat ->
  (forall i, (0 < i <= j)%nat -> utf8_valid (firstn i bs) = false) ->
  begins_text (firstn j bs) -> (forall m, utf8_valid (firstn (j + 1) bs ++ m) = false) ->
  utf8_fault bs 0 (Some (Nat.max 1 j)).
Proof.
  intros bs j L A B D.
  assert (N1 : ~ begins_text (firstn (0 + j + 1) bs)).
  { cbn [Nat.add]. intros X. apply begins_iff in X as (m & X). rewrite D in X. discriminate. }
  split; [lia|]. split; [exact text_nil|]. split.
  - intros i Hi X. destruct (le_lt_dec i j) as [G|G].
    + apply text_iff in X. rewrite A in X by lia. discriminate.
    + apply N1. apply (begins_firstn bs _ i); [lia|]. apply text_begins, X.
  - exists j. auto.
Qed.
Lemma fault_none : forall bs, bs <> [] ->
  (forall i, (0 < i <= length bs)%nat -> utf8_valid (firstn i bs) = false) ->
  begins_text bs -> utf8_fault bs 0 None.
Proof.
  intros bs L A B. split; [lia|]. split; [exact text_nil|]. split.
  - intros i Hi X. apply text_iff in X. rewrite A in X by lia. discriminate.
  - split; [destruct bs; [contradiction|cbn; lia]|exact B].
Qed.

Lemma begins3 : forall a, 224 <= Byte.to_N a <= 239 -> begins_text [a].
Proof.
  intros a H. apply begins_iff. destruct (N.eq_dec (Byte.to_N a) 237) as [E|E].
  - exists [x80; x80]. cbn [app utf8_valid]. unfold is_cont. ranges. reflexivity.
  - exists [xa0; x80]. cbn [app utf8_valid].
    assert (Byte.to_N a = 224 \/ (225 <= Byte.to_N a <= 236) \/ 238 <= Byte.to_N a) as [?|[?|?]] by lia;
      ranges; reflexivity.
Qed.
Lemma begins4 : forall a, 240 <= Byte.to_N a <= 244 -> begins_text [a].
Proof.
  intros a H. apply begins_iff. destruct (N.eq_dec (Byte.to_N a) 240) as [E|E].
  - exists [x90; x80; x80]. cbn [app utf8_valid]. ranges. reflexivity.
  - exists [x80; x80; x80]. cbn [app utf8_valid].
    assert ((241 <= Byte.to_N a <= 243) \/ Byte.to_N a = 244) as [?|?] by lia; ranges; reflexivity.
Qed.

Definition good3 (a b : byte) : bool :=
  (in_range 224 224 a && in_range 160 191 b) || (in_range 225 236 a && in_range 128 191 b)
  || (in_range 237 237 a && in_range 128 159 b) || (in_range 238 239 a && in_range 128 191 b).
Definition good4 (a b : byte) : bool :=
  (in_range 240 240 a && in_range 144 191 b) || (in_range 241 243 a && in_range 128 191 b)
  || (in_range 244 244 a && in_range 128 143 b).

Ltac small i := let H := fresh in assert (H : (i = 1 \/ i = 2 \/ i = 3)%nat) by (cbn [length] in *; lia); destruct H as [->|[->| ->]].
Ltac red8 := cbn [firstn app utf8_valid Nat.add]; unfold is_cont in *.

Lemma run_fault : forall n bs at_, (length bs <= n)%nat ->
  match utf8_run at_ bs with
  | None => utf8_valid bs = true
  | Some (v, k) => exists v' k', v = at_ + N.of_nat v' /\ k = option_map N.of_nat k' /\ utf8_fault bs v' k'
  end.
Proof.
  induction n as [|n IH]; intros bs at_ L.
  { destruct bs; [reflexivity|cbn in L; lia]. }
  assert (STEP : forall c m t, utf8_char c m -> bs = c ++ t -> forall q, q = at_ + len c ->
    match utf8_run q t with
    | None => utf8_valid bs = true
    | Some (v, k) => exists v' k', v = at_ + N.of_nat v' /\ k = option_map N.of_nat k' /\ utf8_fault bs v' k'
    end).
  { intros c m t C -> q ->. pose proof (utf8_char_nonempty _ _ C) as P. rewrite app_length in L.
    specialize (IH t (at_ + len c) ltac:(lia)). destruct (utf8_run (at_ + len c) t) as [[v k]|].
    - destruct IH as (v' & k' & -> & -> & F). exists (length c + v')%nat, k'.
      split; [unfold len; lia|]. split; [reflexivity|]. exact (fault_char _ _ _ _ _ C F).
    - rewrite (utf8_valid_char _ _ _ C). exact IH. }
  assert (HERE : forall k', utf8_fault bs 0 k' -> exists v' k0, at_ = at_ + N.of_nat v' /\
            option_map N.of_nat k' = option_map N.of_nat k0 /\ utf8_fault bs v' k0).
  { intros k' F. exists 0%nat, k'. split; [lia|]. split; [reflexivity|exact F]. }
  destruct bs as [|a t]; [reflexivity|]. cbn [utf8_run].
  destruct (in_range 0 127 a) eqn:E1.
  { apply in_range_iff in E1. apply (STEP [a] (Byte.to_N a) t); [constructor; lia|reflexivity|reflexivity]. }
  apply in_range_false in E1.
  destruct (in_range 194 223 a) eqn:E2.
  { apply in_range_iff in E2. destruct t as [|b t].
    - apply (HERE None). apply fault_none; [discriminate| |].
      + intros i Hi. cbn [length] in Hi. replace i with 1%nat by lia. red8. ranges. reflexivity.
      + apply begins_iff. exists [x80]. red8. ranges. reflexivity.
    - destruct (is_cont b) eqn:E3.
      + apply in_range_iff in E3. eapply (STEP [a; b]); [apply uc2; lia|reflexivity|reflexivity].
      + apply (HERE (Some 1%nat)). apply (fault_some _ 1); [cbn; lia| | |].
        * intros i Hi. replace i with 1%nat by lia. red8. ranges. reflexivity.
        * apply begins_iff. exists [x80]. red8. ranges. reflexivity.
        * intros m. red8. rewrite E3. ranges. reflexivity. }
  apply in_range_false in E2.
  destruct (in_range 224 239 a) eqn:E3.
  { apply in_range_iff in E3. destruct t as [|b t].
    - apply (HERE None). apply fault_none; [discriminate| |apply begins3; lia].
      intros i Hi. cbn [length] in Hi. replace i with 1%nat by lia. red8. ranges. reflexivity.
    - fold (good3 a b). destruct (good3 a b) eqn:G.
      + assert (Hb : 128 <= Byte.to_N b <= 191 /\ (Byte.to_N a = 224 -> 160 <= Byte.to_N b) /\ (Byte.to_N a = 237 -> Byte.to_N b <= 159)).
        { unfold good3 in G. repeat (apply orb_prop in G as [G|G]); boolh; lia. }
        destruct Hb as (Hb1 & Hb2 & Hb3).
        assert (B2 : begins_text [a; b]).
        { apply begins_iff. exists [x80]. cbn [app utf8_valid]. fold (good3 a b). rewrite G. red8. ranges. reflexivity. }
        destruct t as [|c t].
        * apply (HERE None). apply fault_none; [discriminate| |exact B2].
          intros i Hi. cbn [length] in Hi. assert (i = 1 \/ i = 2)%nat as [->| ->] by lia; red8; ranges; reflexivity.
        * destruct (is_cont c) eqn:E4.
          { apply in_range_iff in E4. eapply (STEP [a; b; c]); [apply uc3; auto; lia|reflexivity|reflexivity]. }
          apply (HERE (Some 2%nat)). apply (fault_some _ 2); [cbn; lia| | |].
          { intros i Hi. assert (i = 1 \/ i = 2)%nat as [->| ->] by lia; red8; ranges; reflexivity. }
          { exact B2. }
          { intros m. red8. rewrite E4. ranges. rewrite ?andb_false_r. reflexivity. }
      + apply (HERE (Some 1%nat)). apply (fault_some _ 1); [cbn; lia| |apply begins3; lia|].
        * intros i Hi. replace i with 1%nat by lia. red8. ranges. reflexivity.
        * intros m. red8. fold (good3 a b). rewrite G. ranges. destruct m; reflexivity. }
  apply in_range_false in E3.
  destruct (in_range 240 244 a) eqn:E4.
  { apply in_range_iff in E4. destruct t as [|b t].
    - apply (HERE None). apply fault_none; [discriminate| |apply begins4; lia].
      intros i Hi. cbn [length] in Hi. replace i with 1%nat by lia. red8. ranges. reflexivity.
    - fold (good4 a b). destruct (good4 a b) eqn:G.
      + assert (Hb : 128 <= Byte.to_N b <= 191 /\ (Byte.to_N a = 240 -> 144 <= Byte.to_N b) /\ (Byte.to_N a = 244 -> Byte.to_N b <= 143)).
        { unfold good4 in G. repeat (apply orb_prop in G as [G|G]); boolh; lia. }
        destruct Hb as (Hb1 & Hb2 & Hb3).
        assert (B3 : forall c, is_cont c = true -> begins_text [a; b; c]).
        { intros c C. apply begins_iff. exists [x80]. cbn [app utf8_valid]. fold (good4 a b). rewrite G, C. red8. ranges. reflexivity. }
        assert (B2 : begins_text [a; b]).
        { apply (begins_prefix [a; b] [x80]). apply (B3 x80). reflexivity. }
        destruct t as [|c t].
        * apply (HERE None). apply fault_none; [discriminate| |exact B2].
          intros i Hi. cbn [length] in Hi. assert (i = 1 \/ i = 2)%nat as [->| ->] by lia; red8; ranges; reflexivity.
        * destruct (is_cont c) eqn:E5.
          2:{ apply (HERE (Some 2%nat)). apply (fault_some _ 2); [cbn; lia| | |].
            { intros i Hi. assert (i = 1 \/ i = 2)%nat as [->| ->] by lia; red8; ranges; reflexivity. }
            { exact B2. }
            { intros m. red8. rewrite E5. ranges. destruct m; rewrite ?andb_false_r; reflexivity. } }
          destruct t as [|d t].
          { apply (HERE None). apply fault_none; [discriminate| |exact (B3 c E5)].
            intros i Hi. small i; red8; ranges; reflexivity. }
          destruct (is_cont d) eqn:E6.
          { apply in_range_iff in E5, E6. eapply (STEP [a; b; c; d]); [apply uc4; auto; lia|reflexivity|reflexivity]. }
          apply (HERE (Some 3%nat)). apply (fault_some _ 3); [cbn; lia| | |].
          { intros i Hi. small i; red8; ranges; reflexivity. }
          { exact (B3 c E5). }
          { intros m. red8. rewrite E6. ranges. rewrite ?andb_false_r. reflexivity. }
      + apply (HERE (Some 1%nat)). apply (fault_some _ 1); [cbn; lia| |apply begins4; lia|].
        * intros i Hi. replace i with 1%nat by lia. red8. ranges. reflexivity.
        * intros m. red8. fold (good4 a b). rewrite G. ranges. destruct m as [|? [|? m]]; reflexivity. }
  apply in_range_false in E4.
  apply (HERE (Some 1%nat)). apply (fault_some _ 0); [cbn; lia|intros; lia|apply text_begins, text_nil|].
  intros m. red8. ranges. reflexivity.
Qed.

(** ** The specification says one thing only *)
Lemma fault_fun : forall bs v k v' k', utf8_fault bs v k -> utf8_fault bs v' k' -> v = v' /\ k = k'.
Proof.
  intros bs v k v' k' (L & T & M & K) (L' & T' & M' & K').
  assert (E : v = v').
  { destruct (lt_eq_lt_dec v v') as [[G|G]|G]; [|exact G|].
    - destruct (M v' ltac:(lia) T').
    - destruct (M' v ltac:(lia) T). }
  split; [exact E|]. subst v'.
  assert (NB : forall i, (i <= length bs)%nat -> ~ begins_text (firstn i bs) -> ~ begins_text bs).
  { intros i Hi X B. apply X. rewrite <- (firstn_all bs) in B. exact (begins_firstn _ _ _ Hi B). }
  destruct k as [k|], k' as [k'|]; try reflexivity.
  - destruct K as (j & A & B & C & ->), K' as (j' & A' & B' & C' & ->). f_equal.
    destruct (lt_eq_lt_dec j j') as [[G|G]|G]; [|congruence|]; exfalso.
    + apply C. apply (begins_firstn bs _ (v + j')); [lia|exact B'].
    + apply C'. apply (begins_firstn bs _ (v + j)); [lia|exact B].
  - destruct K as (j & A & B & C & ->), K' as (_ & X). destruct (NB (v + j + 1)%nat ltac:(lia) C X).
  - destruct K' as (j & A & B & C & ->), K as (_ & X). destruct (NB (v + j + 1)%nat ltac:(lia) C X).
Qed.

Definition dval (l : list N) : N := fold_left (fun acc d => 10 * acc + (d - 48)) l 0.
Lemma dval_snoc : forall l d, dval (l ++ [d]) = 10 * dval l + (d - 48).
Proof. intros l d. unfold dval. rewrite fold_left_app. reflexivity. Qed.
Definition proper (l : list N) : Prop := Forall (fun d => 48 <= d <= 57) l /\ hd_error l <> Some 48.
Lemma proper_snoc : forall l d, proper (l ++ [d]) -> proper l /\ 48 <= d <= 57 /\ 1 <= dval (l ++ [d]).
Proof.
  induction l as [|x l IH] using rev_ind; intros d (F & H).
  - cbn [app] in *. inversion F; subst. split; [split; [constructor|discriminate]|]. split; [assumption|].
    unfold dval. cbn [fold_left]. cbn [hd_error] in H. assert (d <> 48) by congruence. lia.
  - apply Forall_app in F as (F1 & F2). inversion F2; subst.
    assert (P : proper (l ++ [x])) by (split; [exact F1|destruct l; exact H]).
    split; [exact P|]. split; [assumption|]. rewrite dval_snoc. apply IH in P as (_ & _ & P). lia.
Qed.
Lemma dval_inj : forall a b, proper a -> proper b -> dval a = dval b -> a = b.
Proof.
  induction a as [|x a IH] using rev_ind; intros b PA PB E; destruct b as [|y b _] using rev_ind; [reflexivity|..].
  - apply proper_snoc in PB as (_ & _ & G). change (dval []) with 0 in E. lia.
  - apply proper_snoc in PA as (_ & _ & G). change (dval []) with 0 in E. lia.
  - apply proper_snoc in PA as (PA & X & _). apply proper_snoc in PB as (PB & Y & _).
    rewrite !dval_snoc in E. assert (dval a = dval b /\ x = y) as (E1 & ->) by lia. rewrite (IH b PA PB E1). reflexivity.
Qed.
Lemma decimal_unique : forall a b n, decimal a n -> decimal b n -> a = b.
Proof.
  assert (Z : forall a n, decimal a n -> a = [x30] /\ n = 0 \/ proper (wire a)).
  { intros a n (A1 & A2 & A3 & A4). destruct a as [|x a]; [contradiction|]. cbn [wire map hd_error] in *.
    destruct (N.eq_dec (Byte.to_N x) 48) as [E|E].
    - left. assert (x = x30). { apply (f_equal Byte.of_N) in E. rewrite Byte.of_to_N in E. change (Byte.of_N 48) with (Some x30) in E. congruence. }
      subst x. specialize (A4 eq_refl). split; [exact A4|]. injection A4 as ->. rewrite <- A3. reflexivity.
    - right. split; [exact A2|]. cbn. congruence. }
  assert (P : forall a, decimal a 0 -> ~ proper (wire a)).
  { intros a (A1 & _ & A3 & _) Q. destruct (exists_last A1) as (l & d & ->). unfold wire in *. rewrite map_app in *.
    cbn [map] in *. apply proper_snoc in Q as (_ & _ & Q). unfold dval in Q. lia. }
  intros a b n DA DB. destruct (Z _ _ DA) as [(-> & ->)|PA], (Z _ _ DB) as [(-> & E)|PB]; try reflexivity.
  - destruct (P _ DB PB).
  - subst n. destruct (P _ DA PA).
  - apply wire_inj, dval_inj; try assumption. destruct DA as (_ & _ & A & _), DB as (_ & _ & B & _). unfold dval. congruence.
Qed.

Lemma message_fun : forall bs t t', utf8_message bs t -> utf8_message bs t' -> t = t'.
Proof.
  intros bs t t' (v & k & dv & F & D & M) (v' & k' & dv' & F' & D' & M').
  destruct (fault_fun _ _ _ _ _ F F') as (<- & <-). rewrite (decimal_unique _ _ _ D' D) in M'. destruct k as [k|].
  - destruct M as (dk & E & ->), M' as (dk' & E' & ->). rewrite (decimal_unique _ _ _ E' E). reflexivity.
  - congruence.
Qed.

Lemma utf8_text_dec : forall s, utf8_text s \/ ~ utf8_text s.
Proof. intros s. rewrite text_iff. destruct (utf8_valid s); [left; reflexivity|right; discriminate]. Qed.
Lemma fault_not_text : forall bs v k, utf8_fault bs v k -> ~ utf8_text bs.
Proof.
  intros bs v k (L & T & M & K) X. rewrite <- (firstn_all bs) in X.
  destruct (le_lt_dec (length bs) v) as [G|G].
  - destruct k as [k|]; [destruct K as (j & K & _)|destruct K as (K & _)]; lia.
  - exact (M (length bs) ltac:(lia) X).
Qed.
Lemma from_utf8_said : forall s, (utf8_text s /\ string_from_utf8_t s = Ok s) \/
  (~ utf8_text s /\ exists t, utf8_message s t /\ string_from_utf8_t s = Err (FromUtf8Error, t)).
Proof.
  intros s. unfold string_from_utf8_t. pose proof (run_fault (length s) s 0 (le_n _)) as H.
  destruct (utf8_run 0 s) as [[v k]|].
  - destruct H as (v' & k' & -> & -> & F). right. split; [exact (fault_not_text _ _ _ F)|]. eexists. split; [|reflexivity].
    exists v', k', (dec (N.of_nat v')). split; [exact F|]. split; [apply dec_decimal|]. rewrite N.add_0_l.
    destruct k' as [k'|]; cbn [option_map utf8_error_text]; [|reflexivity].
    exists (dec (N.of_nat k')). split; [apply dec_decimal|reflexivity].
  - left. split; [apply text_iff, H|reflexivity].
Qed.

Definition t_single {A} (t : telling A) : Prop := forall rest r1 r2, t rest r1 -> t rest r2 -> r1 = r2.
Lemma t_gives_single : forall A (v : A), t_single (t_gives v).
Proof. intros A v rest r1 r2 -> ->. reflexivity. Qed.
Lemma t_fails_single : forall A e s, t_single (@t_fails A e s).
Proof. intros A e s rest r1 r2 -> ->. reflexivity. Qed.
Lemma t_next_single : forall A B (a : telling A) (f : A -> telling B),
  t_single a -> (forall x, t_single (f x)) -> t_single (t_next a f).
Proof.
  intros A B a f Ha Hf rest r1 r2 (x & Ax & Rx) (y & Ay & Ry).
  rewrite (Ha _ _ _ Ay Ax) in Ry. clear y Ay. destruct x as [[v rest']|e|].
  - exact (Hf _ _ _ _ Rx Ry).
  - congruence.
  - contradiction.
Qed.
Lemma t_check_single : forall A w e s (k : telling A), t_single k -> t_single (t_check w e s k).
Proof.
  intros A w e s k Hk rest r1 r2 [(A1 & ->)|(A1 & B1)] [(A2 & ->)|(A2 & B2)];
    try reflexivity; try contradiction. exact (Hk _ _ _ B1 B2).
Qed.
Lemma t_raw_single : forall k, t_single (t_raw k).
Proof. intros k rest r1 r2 [(A1 & ->)|(A1 & ->)] [(A2 & ->)|(A2 & ->)]; try reflexivity; exfalso; lia. Qed.
Lemma t_int_single : forall k, t_single (t_int k).
Proof. intros k. apply t_next_single; [apply t_raw_single|intros; apply t_gives_single]. Qed.
Lemma t_flags_single : forall fs, t_single (t_flags fs).
Proof. intros fs. apply t_next_single; [apply t_int_single|]. intros v. apply t_check_single, t_gives_single. Qed.
Lemma t_text_single : t_single t_text.
Proof.
  apply t_next_single; [apply t_int_single|]. intros n. apply t_next_single; [apply t_raw_single|].
  intros s rest r1 r2 [(A1 & ->)|(A1 & t1 & B1 & ->)] [(A2 & ->)|(A2 & t2 & B2 & ->)]; try reflexivity; try contradiction.
  rewrite (message_fun _ _ _ B1 B2). reflexivity.
Qed.
Lemma t_prefix32_single : t_single t_prefix32.
Proof.
  apply t_next_single; [apply t_int_single|]. intros n. apply t_next_single; [apply t_raw_single|].
  intros d. apply t_check_single, t_gives_single.
Qed.
Lemma t_code_single : forall A (image : A -> list N), (forall a b, image a = image b -> a = b) -> t_single (t_code image).
Proof.
  intros A image I. apply t_next_single; [exact t_text_single|].
  intros s rest r1 r2 [(c & C1 & ->)|(C1 & ->)] [(d & C2 & ->)|(C2 & ->)]; try reflexivity.
  - rewrite C1 in C2. apply I in C2. subst. reflexivity.
  - destruct (C2 _ C1).
  - destruct (C1 _ C2).
Qed.
Ltac t_one := repeat first
  [ apply t_gives_single | apply t_fails_single | apply t_check_single | apply t_raw_single | apply t_int_single
  | apply t_flags_single | apply t_text_single | apply t_prefix32_single
  | apply (t_code_single _ _ lay_sc_code_inj) | apply (t_code_single _ _ lay_omc_code_inj)
  | apply t_next_single; [|intros ?] ].
Lemma t_sc_single : forall fs, t_single (t_sc fs).
Proof. intros fs. unfold t_sc. t_one. Qed.
Lemma t_sce_single : forall fs, t_single (t_sce fs).
Proof. intros fs. unfold t_sce. t_one. Qed.
Lemma telling_single : forall k, t_single (telling_of k).
Proof.
  destruct k; cbn [telling_of]; t_one; try apply t_sc_single; try apply t_sce_single.
  destruct x as [|[[p|p|]|[p|p|]|]]; t_one; apply t_sc_single.
Qed.

(** ** The decoders with texts do what the model does *)
Definition same {A} (dt : DeT A) (d : De A) : Prop :=
  forall pf p, d pf p = (fst (dt pf p), erase (snd (dt pf p))).
Lemma erase_tag : forall A t (o : Result A), erase (tag t o) = o.
Proof. intros A t [a|e|]; reflexivity. Qed.
Lemma same_bind : forall A B (dt : DeT A) d (ft : A -> DeT B) f,
  same dt d -> (forall x, same (ft x) (f x)) -> same (det_bind dt ft) (de_bind d f).
Proof.
  intros A B dt d ft f H G pf p. unfold de_bind, det_bind. rewrite H. destruct (dt pf p) as [p' [a|[e t]|]]; cbn; [apply G|reflexivity..].
Qed.
Lemma same_lift : forall A (ot : TResult A) o, erase ot = o -> same (det_lift ot) (de_lift o).
Proof. intros A ot o <- pf p. reflexivity. Qed.
Lemma same_next_by : forall n, same (next_by_t n) (next_by n).
Proof. intros n pf p. unfold next_by_t. destruct (next_by n pf p) as [p' o]. cbn. rewrite erase_tag. reflexivity. Qed.
Lemma same_uint : forall k, same (de_uint_t k) (de_uint k).
Proof.
  intros k. unfold de_uint_t, de_uint. apply same_bind; [apply same_next_by|]. intros b.
  apply same_bind; [apply same_lift, erase_tag|]. intros x. apply same_lift. reflexivity.
Qed.
Lemma same_u24 : same de_u24_t de_u24.
Proof.
  unfold de_u24_t, de_u24. apply same_bind; [apply same_next_by|]. intros b.
  apply same_bind; [apply same_lift, erase_tag|]. intros x. apply same_lift, erase_tag.
Qed.
Lemma same_u256 : same de_u256_t de_u256.
Proof. unfold de_u256_t, de_u256. apply same_bind; [apply same_next_by|]. intros b. apply same_lift, erase_tag. Qed.
Lemma same_b0 : forall t, same (de_b0_t t) (de_b0 t).
Proof.
  intros t. unfold de_b0_t, de_b0. apply same_bind.
  - unfold de_len_t, de_len. destruct (b0_lentype t); [apply same_uint|apply same_uint|apply same_u24].
  - intros n. apply same_bind; [apply same_next_by|]. intros b. apply same_lift, erase_tag.
Qed.
Lemma erase_utf8 : forall s, erase (string_from_utf8_t s) = string_from_utf8 s.
Proof.
  intros s. unfold string_from_utf8. destruct (from_utf8_said s) as [(T & ->)|(T & t & _ & ->)]; rewrite text_iff in T; cbn [erase].
  - rewrite T. reflexivity.
  - destruct (utf8_valid s); [contradiction T; reflexivity|reflexivity].
Qed.
Lemma same_str0 : forall t, same (de_str0_t t) (de_str0 t).
Proof.
  intros t. unfold de_str0_t, de_str0. apply same_bind; [apply same_uint|]. intros n.
  apply same_bind; [apply same_next_by|]. intros b. apply same_bind; [apply same_lift, erase_utf8|].
  intros s. apply same_lift, erase_tag.
Qed.
Lemma same_flags : forall fs, same (de_flags_t fs) (de_flags fs).
Proof.
  intros fs. unfold de_flags_t, de_flags. apply same_bind; [apply same_uint|]. intros b. apply same_lift.
  destruct (flags_from_bits fs b); reflexivity.
Qed.
Lemma erase_bind : forall A B (ot : TResult A) o (ft : A -> TResult B) f, erase ot = o -> (forall x, erase (ft x) = f x) ->
  erase (obind ot ft) = obind o f.
Proof. intros A B [a|[e t]|] o ft f <- H; cbn; auto. Qed.
Lemma erase_sc_new : forall mi ma fl eh ep ve hv fw di,
  erase (sc_new_t mi ma fl eh ep ve hv fw di) = sc_new mi ma fl eh ep ve hv fw di.
Proof.
  intros. unfold sc_new_t, sc_new. destruct (is_empty ve); [reflexivity|]. destruct (is_empty fw); [reflexivity|].
  destruct (mi <? 2); [reflexivity|]. destruct (ma <? 2); [reflexivity|].
  do 5 (apply erase_bind; [apply erase_tag|intros ?]). reflexivity.
Qed.
Ltac same_step := first
  [ apply same_uint | apply same_u256 | apply same_b0 | apply same_str0 | apply same_flags | apply same_next_by | apply same_u24
  | apply same_lift; first [apply erase_tag | reflexivity | apply erase_sc_new | apply erase_bind; [apply erase_tag|reflexivity]]
  | apply same_bind; [|intros ?] ].
Lemma same_sc : forall fs, same (de_sc_t fs) (de_sc fs).
Proof. intros fs. unfold de_sc_t, de_sc. repeat same_step. Qed.
Lemma same_kind : forall k, same (de_kind_t k) (fr_de (frameable_of k)).
Proof.
  destruct k; cbn [de_kind_t frameable_of fr_de msg_of]; try apply same_sc;
    unfold de_scs_t, de_scs, de_sce_t, de_sce, de_cec_t, de_cec, de_osmc_t, de_osmc, de_osmcs_t, de_osmcs, de_omce_t, de_omce,
      de_oemc_t, de_oemc, de_oemcs_t, de_oemcs, de_uc_t, de_uc, de_sc_code_t, de_sc_code, de_omc_code_t, de_omc_code,
      osmc_new_t, osmc_new, oemc_new_t, oemc_new, osmcs_new_t, osmcs_new, oemcs_new_t, oemcs_new, sce_new_t;
    try (repeat same_step; fail).
  unfold de_csc_t, de_csc, de_protocol_t, de_protocol. apply same_bind.
  - unfold protocol_try_from_t. repeat same_step.
  - intros []; try (apply same_lift; reflexivity); (apply same_bind; [apply same_sc|intros ? ? ?; reflexivity]).
Qed.
Lemma same_message : same de_message_t de_message.
Proof.
  unfold de_message_t, de_message. apply same_bind; [apply same_uint|intros ext]. apply same_bind; [apply same_uint|intros msg].
  apply same_bind; [apply same_lift, erase_tag|intros mt].
  destruct (negb _); [apply same_lift; reflexivity|]. repeat same_step.
Qed.

(** ** The decoders follow the tellings *)
Definition t_follows {A} (Q : A -> Prop) (d : DeT A) (t : telling A) : Prop :=
  forall pf pre rest, rust_slice (pre ++ rest) -> exists r, t rest r /\
  match r with
  | Ok (v, rest') => Q v /\ exists c, rest = c ++ rest' /\ d pf (cursor pre rest) = (cursor (pre ++ c) rest', Ok v)
  | Err f => snd (d pf (cursor pre rest)) = Err f
  | Panic => False
  end.
Lemma t_follows_next : forall A B (Q : A -> Prop) (R : B -> Prop) (d : DeT A) (t : telling A) (f : A -> DeT B) (g : A -> telling B),
  t_follows Q d t -> (forall x, Q x -> t_follows R (f x) (g x)) -> t_follows R (det_bind d f) (t_next t g).
Proof.
  intros A B Q R d t f g Hd Hf pf pre rest Hs.
  destruct (Hd pf pre rest Hs) as (ra & Ta & Da). destruct ra as [[x rest']|e|]; [|clear Hf|contradiction].
  - destruct Da as (Qx & c & -> & E).
    assert (Hs' : rust_slice ((pre ++ c) ++ rest')) by (rewrite <- app_assoc; exact Hs).
    destruct (Hf x Qx pf (pre ++ c) rest' Hs') as (r & Tr & Dr).
    exists r. split; [exists (Ok (x, rest')); auto|]. unfold det_bind. rewrite E.
    destruct r as [[v rest2]|e|]; auto. destruct Dr as (Rv & c2 & -> & E2).
    split; [exact Rv|]. exists (c ++ c2). rewrite <- !app_assoc. split; [reflexivity|].
    rewrite <- app_assoc in E2. exact E2.
  - exists (Err e). split; [exists (Err e); auto|]. unfold det_bind.
    destruct (d pf (cursor pre rest)) as [p [y|e'|]]; cbn [snd] in *; try discriminate. congruence.
Qed.
Lemma t_follows_lift : forall A (Q : A -> Prop) (o : TResult A) (v : A), o = Ok v -> Q v -> t_follows Q (det_lift o) (t_gives v).
Proof.
  intros A Q o v -> Qv pf pre rest Hs. exists (Ok (v, rest)). split; [reflexivity|].
  split; [exact Qv|]. exists []. rewrite app_nil_r. split; reflexivity.
Qed.
Lemma t_follows_fail : forall A (Q : A -> Prop) (o : TResult A) e s, o = Err (e, says s) -> t_follows Q (det_lift o) (t_fails e s).
Proof. intros A Q o e s -> pf pre rest Hs. exists (Err (e, says s)). split; reflexivity. Qed.
Lemma t_follows_check : forall A (Q : A -> Prop) (w : Prop) e s d (t : telling A),
  w \/ ~ w -> (w -> t_follows Q d (t_fails e s)) -> (~ w -> t_follows Q d t) -> t_follows Q d (t_check w e s t).
Proof.
  intros A Q w e s d t [W|W] H1 H2 pf pre rest Hs.
  - destruct (H1 W pf pre rest Hs) as (r & T & D). exists r. split; [left; auto|exact D].
  - destruct (H2 W pf pre rest Hs) as (r & T & D). exists r. split; [right; auto|exact D].
Qed.
Lemma t_follows_raw : forall k, k <= 2 ^ 63 -> t_follows (fun c => len c = k) (next_by_t k) (t_raw k).
Proof.
  intros k Hk pf pre rest Hs. pose proof (follows_raw (N.to_nat k) ltac:(lia) pf pre rest Hs) as F.
  rewrite N2Nat.id in F. destruct F as (r & T & D). unfold next_by_t, raw in *. rewrite N2Nat.id in T.
  destruct T as [(A & ->)|(A & ->)].
  - exists (Err (ParseError, says "out of bounds error")). split; [left; auto|].
    destruct (next_by k pf (cursor pre rest)) as [p o]; cbn [snd] in *. rewrite D. reflexivity.
  - exists (Ok (firstn (N.to_nat k) rest, skipn (N.to_nat k) rest)). split; [right; auto|].
    destruct D as (L & c & E & D). split; [exact L|]. exists c. split; [exact E|].
    destruct (next_by k pf (cursor pre rest)) as [p o]. injection D as -> ->. reflexivity.
Qed.
Lemma t_follows_int : forall k, (k <= 8)%nat -> t_follows (fun v => v < 256 ^ N.of_nat k) (de_uint_t k) (t_int (N.of_nat k)).
Proof.
  intros k Hk. unfold de_uint_t, t_int. eapply t_follows_next; [apply t_follows_raw; lia|].
  intros b Hb pf pre rest Hs. exists (Ok (spec_val (wire b), rest)). split; [reflexivity|].
  rewrite val_of_le. split; [rewrite <- Hb; apply of_le_bound|].
  exists []. rewrite app_nil_r. split; [reflexivity|].
  unfold det_bind, det_lift. rewrite clone_from_slice_ok by exact Hb. reflexivity.
Qed.
Lemma t_follows_u256 : t_follows (fun c => len c = 32) de_u256_t (t_raw 32).
Proof.
  intros pf pre rest Hs. destruct (t_follows_raw 32 ltac:(lia) pf pre rest Hs) as (r & T & D).
  exists r. split; [exact T|]. unfold de_u256_t, det_bind.
  destruct r as [[v rest']|e|]; auto.
  - destruct D as (L & c & -> & E). split; [exact L|]. exists c. split; [reflexivity|]. rewrite E.
    unfold det_lift. rewrite clone_from_slice_ok by exact L. reflexivity.
  - destruct (next_by_t 32 pf (cursor pre rest)) as [p [y|e'|]]; cbn [snd] in *; congruence.
Qed.
Lemma t_follows_text : t_follows (str_ok 255) (de_str0_t STR0_255) t_text.
Proof.
  unfold de_str0_t, t_text. eapply t_follows_next; [apply (t_follows_int 1); lia|]. cbn beta. intros n Hn.
  change (256 ^ N.of_nat 1) with 256 in Hn. eapply t_follows_next; [apply t_follows_raw; lia|].
  cbn beta. intros s Hl pf pre rest Hs. unfold det_bind, det_lift.
  destruct (from_utf8_said s) as [(T & ->)|(T & t & M & ->)].
  - exists (Ok (mkStr0 n s, rest)). split; [left; auto|]. split.
    + split; [exact T|]. cbn [str0_data str0_length]. split; [lia|auto].
    + exists []. rewrite app_nil_r. split; [reflexivity|]. unfold str0_new_t, str0_new. cbn [str0_max].
      destruct (255 <? len s) eqn:E; [lia|]. cbn [tag]. rewrite N.mod_small by lia. rewrite Hl. reflexivity.
  - exists (Err (FromUtf8Error, t)). split; [right; eauto|reflexivity].
Qed.
Lemma t_follows_prefix32 : t_follows (b0_ok 32) (de_b0_t B0_32) t_prefix32.
Proof.
  unfold de_b0_t, t_prefix32. cbn [b0_lentype de_len_t]. eapply t_follows_next; [apply (t_follows_int 1); lia|]. cbn beta. intros n Hn.
  change (256 ^ N.of_nat 1) with 256 in Hn. eapply t_follows_next; [apply t_follows_raw; lia|]. cbn beta. intros d Hd.
  unfold b0_new_t, b0_new. cbn [b0_max b0_lentype len_try_into_unwrap]. rewrite Hd.
  apply t_follows_check; [lia| |]; intros W.
  - apply t_follows_fail. destruct (32 <? n) eqn:E; [reflexivity|lia].
  - destruct (32 <? n) eqn:E; [lia|]. apply t_follows_lift.
    + destruct (n <? 2 ^ 8) eqn:E2; [reflexivity|]. change (2 ^ 8) with 256 in E2. lia.
    + split; cbn [b0_data b0_length]; lia.
Qed.
Lemma t_follows_flags : forall fs, t_follows (flags_ok fs) (de_flags_t fs) (t_flags fs).
Proof.
  intros fs. unfold de_flags_t, t_flags. eapply t_follows_next; [apply (t_follows_int 4); lia|].
  intros v Hv. apply t_follows_check.
  - destruct (flags_dec fs v); auto.
  - intros W. apply t_follows_fail. destruct (flags_from_bits fs v) eqn:E; [|reflexivity].
    apply flags_from_bits_iff in E as (_ & E). contradiction.
  - intros W. destruct (flags_dec fs v) as [F|F]; [|contradiction].
    assert (E : flags_from_bits fs v = Some v) by (apply flags_from_bits_iff; auto).
    rewrite E. apply t_follows_lift; auto.
Qed.
Lemma t_follows_code : forall A (image : A -> list N) (from : bytes -> Result A),
  (forall s, (forall c, len s :: wire s = image c -> from s = Ok c) /\
             ((forall c, len s :: wire s <> image c) -> from s = Err UnknownErrorCode)) ->
  (forall s, (exists c, len s :: wire s = image c) \/ (forall c, len s :: wire s <> image c)) ->
  t_follows (fun _ => True) (det_bind (de_str0_t STR0_255) (fun s => det_lift (plain (from (str0_data s))))) (t_code image).
Proof.
  intros A image from X D. unfold t_code. eapply t_follows_next; [apply t_follows_text|].
  intros s Hs pf pre rest Hr. destruct (X (str0_data s)) as (X1 & X2). unfold det_lift, plain.
  destruct (D (str0_data s)) as [(c & E)|F].
  - exists (Ok (c, rest)). split; [left; eauto|]. split; [exact I|]. exists []. rewrite app_nil_r.
    split; [reflexivity|]. rewrite (X1 _ E). reflexivity.
  - exists (Err (UnknownErrorCode, [])). split; [right; auto|]. cbn [snd]. rewrite (X2 F). reflexivity.
Qed.
Lemma t_follows_sc_code : t_follows (fun _ => True) de_sc_code_t (t_code lay_sc_code).
Proof.
  apply t_follows_code; [exact sc_code_exact|]. intros s.
  assert (D : forall c, len s :: wire s = lay_sc_code c \/ len s :: wire s <> lay_sc_code c).
  { intros c. destruct (list_eq_dec N.eq_dec (len s :: wire s) (lay_sc_code c)); auto. }
  destruct (D UnsupportedFeatureFlags) as [E|E1]; [left; eauto|].
  destruct (D UnsupportedProtocol) as [E|E2]; [left; eauto|].
  destruct (D ProtocolVersionMismatch) as [E|E3]; [left; eauto|].
  right. intros []; assumption.
Qed.
Lemma t_follows_omc_code : t_follows (fun _ => True) de_omc_code_t (t_code lay_omc_code).
Proof.
  apply t_follows_code; [exact omc_code_exact|]. intros s.
  assert (D : forall c, len s :: wire s = lay_omc_code c \/ len s :: wire s <> lay_omc_code c).
  { intros c. destruct (list_eq_dec N.eq_dec (len s :: wire s) (lay_omc_code c)); auto. }
  destruct (D UnknownUser) as [E|E1]; [left; eauto|].
  destruct (D MaxTargetOutOfRange) as [E|E2]; [left; eauto|].
  right. intros []; assumption.
Qed.

Ltac t_flw := first
  [ apply (t_follows_int 1); lia | apply (t_follows_int 2); lia | apply (t_follows_int 4); lia | apply t_follows_flags
  | apply t_follows_text | apply t_follows_prefix32 | apply t_follows_u256 | apply t_follows_sc_code | apply t_follows_omc_code ].
Ltac t_nxt := eapply t_follows_next; [t_flw|cbn beta; intros ? ?].
Lemma str_new_same_t : forall s, str_ok 255 s -> str0_new_t STR0_255 (str0_data s) = Ok s.
Proof. intros s H. unfold str0_new_t. rewrite str_new_same by exact H. reflexivity. Qed.
Lemma b0_new_same_t : forall s, b0_ok 32 s -> b0_new_t B0_32 (b0_data s) = Ok s.
Proof. intros s H. unfold b0_new_t. rewrite (b0_new_same B0_32) by exact H. reflexivity. Qed.

Lemma t_follows_sc : forall fs, t_follows (fun _ => True) (de_sc_t fs) (t_sc fs).
Proof.
  intros fs. unfold de_sc_t, t_sc. do 9 t_nxt. unfold sc_new_t.
  apply t_follows_check.
  { rewrite <- empty_iff. destruct (is_empty (str0_data x4)); auto. }
  { intros W. apply empty_iff in W. rewrite W. apply t_follows_fail. reflexivity. }
  intros W. rewrite <- empty_iff in W. apply not_true_is_false in W. rewrite W. clear W. apply t_follows_check.
  { rewrite <- empty_iff. destruct (is_empty (str0_data x6)); auto. }
  { intros W. apply empty_iff in W. rewrite W. apply t_follows_fail. reflexivity. }
  intros W. rewrite <- empty_iff in W. apply not_true_is_false in W. rewrite W. clear W. apply t_follows_check; [lia| |].
  { intros W. apply N.ltb_lt in W. rewrite W. apply t_follows_fail. reflexivity. }
  intros W. apply N.nlt_ge, N.ltb_ge in W. rewrite W. clear W. apply t_follows_check; [lia| |].
  { intros W. apply N.ltb_lt in W. rewrite W. apply t_follows_fail. reflexivity. }
  intros W. apply N.nlt_ge, N.ltb_ge in W. rewrite W. clear W. apply t_follows_lift; [|exact I].
  rewrite !str_new_same_t by assumption. reflexivity.
Qed.
Lemma t_follows_sce : forall fs, t_follows (fun _ => True) (de_sce_t fs) (t_sce fs).
Proof.
  intros fs. unfold de_sce_t, t_sce. do 2 t_nxt. unfold sce_new_t, sce_new, flags_is_empty.
  destruct (x =? 0) eqn:E; destruct x0; cbn [andb sc_code_eqb tag];
    apply t_follows_check; try (intros _; apply t_follows_fail; reflexivity);
    try (intros _; apply t_follows_lift; [reflexivity|exact I]);
    try (intros (A & B); first [discriminate | exfalso; lia]);
    try (intros A; exfalso; apply A; split; [lia|reflexivity]);
    first [left; split; [lia|reflexivity] | right; intros (A & B); first [discriminate|lia]].
Qed.
Lemma t_decoder_follows : forall k, t_follows (fun _ => True) (de_kind_t k) (telling_of k).
Proof.
  destruct k; cbn [de_kind_t telling_of msg_of];
    try apply t_follows_sc; try apply t_follows_sce;
    unfold de_scs_t, de_cec_t, de_osmc_t, de_osmcs_t, de_omce_t, de_oemc_t, de_oemcs_t, de_uc_t;
    try (repeat t_nxt; apply t_follows_lift; [|exact I];
         unfold scs_new, cec_new, osmc_new_t, osmcs_new_t, omce_new, oemc_new_t, oemcs_new_t, uc_new;
         rewrite ?str_new_same_t, ?b0_new_same_t by assumption; reflexivity).
  unfold de_csc_t, de_protocol_t.
  assert (AS : forall pf p, det_bind (det_bind (de_uint_t 1) (fun b => det_lift (protocol_try_from_t b)))
      (fun p => match p with
       | PMining => det_bind (de_sc_t MiningSetupFlags) (fun v => det_lift (Ok (CSC_Mining v)))
       | PJobNegotiation => det_bind (de_sc_t JnSetupFlags) (fun v => det_lift (Ok (CSC_JobNegotiation v)))
       | _ => det_lift (Err (Unimplemented, []))
       end) pf p =
    det_bind (de_uint_t 1) (fun b => match b with
       | 0 => det_bind (de_sc_t MiningSetupFlags) (fun v => det_lift (Ok (CSC_Mining v)))
       | 1 => det_bind (de_sc_t JnSetupFlags) (fun v => det_lift (Ok (CSC_JobNegotiation v)))
       | 2 | 3 => det_lift (Err (Unimplemented, []))
       | _ => det_lift (Err (DeserializationError, lit "received unknown protocol byte in setup connection message"))
       end) pf p).
  { intros pf p. unfold det_bind. destruct (de_uint_t 1 pf p) as [p' [b|e|]]; try reflexivity.
    unfold det_lift. destruct b as [|[[b|b|]|[b|b|]|]]; reflexivity. }
  intros pf pre rest Hs. rewrite AS. revert pf pre rest Hs.
  eapply t_follows_next; [apply (t_follows_int 1); lia|]. cbn beta. intros p _.
  destruct p as [|[[p|p|]|[p|p|]|]]; try (apply t_follows_fail; reflexivity).
  - eapply t_follows_next; [apply t_follows_sc|]. intros v _. apply t_follows_lift; [reflexivity|exact I].
  - eapply t_follows_next; [apply t_follows_sc|]. intros v _. apply t_follows_lift; [reflexivity|exact I].
Qed.
Lemma decode_told : forall k pf pre rest, rust_slice (pre ++ rest) ->
  exists r, telling_of k rest r /\ (forall r', telling_of k rest r' -> r' = r) /\
  match r with
  | Ok (v, rest') => exists c, rest = c ++ rest' /\ de_kind_t k pf (cursor pre rest) = (cursor (pre ++ c) rest', Ok v)
  | Err f => snd (de_kind_t k pf (cursor pre rest)) = Err f
  | Panic => False
  end.
Proof.
  intros k pf pre rest Hs. destruct (t_decoder_follows k pf pre rest Hs) as (r & T & D).
  exists r. split; [exact T|]. split; [intros r' T'; exact (telling_single k _ _ _ T' T)|].
  destruct r as [[v rest']|e|]; [apply D|exact D|exact D].
Qed.

(** ** SetupConnection::new *)
Lemma str0_new_t_cases : forall s, (255 < len s /\ str0_new_t STR0_255 s = Err (RequirementError, says "string size cannot be greater than MAX_LENGTH")) \/
  (len s <= 255 /\ exists x, str0_new_t STR0_255 s = Ok x /\ str0_data x = s).
Proof.
  intros s. unfold str0_new_t, str0_new. change (str0_max STR0_255) with 255. destruct (N.ltb_spec 255 (len s)).
  - left. split; [lia|reflexivity].
  - right. split; [lia|]. eexists. split; reflexivity.
Qed.
Lemma setup_table : forall mi ma fl eh ep ve hv fw di,
  let r := sc_new_t mi ma fl eh ep ve hv fw di in
  (forall e s n, first_violated (setup_complaints mi ma eh ve hv fw di) n (e, s) -> r = Err (e, says s)) /\
  (none_violated (setup_complaints mi ma eh ve hv fw di) -> exists v, r = Ok v) /\
  ((exists n e s, first_violated (setup_complaints mi ma eh ve hv fw di) n (e, s)) \/
   none_violated (setup_complaints mi ma eh ve hv fw di)).
Proof.
  intros mi ma fl eh ep ve hv fw di r. subst r. unfold sc_new_t.
  assert (EM : forall s, is_empty s = false -> s <> []) by (intros s A B; apply empty_iff in B; congruence).
  unfold setup_complaints.
  set (W1 := ve = []). set (W2 := fw = []). set (W3 := mi < 2). set (W4 := ma < 2).
  set (W5 := too_long eh \/ too_long ve \/ too_long hv \/ too_long fw \/ too_long di).
  assert (U : forall e s n i w e' s', first_violated (setup_complaints mi ma eh ve hv fw di) n (e, s) ->
     nth_error (setup_complaints mi ma eh ve hv fw di) i = Some (w, (e', s')) -> w ->
     (forall j w' a', (j < i)%nat -> nth_error (setup_complaints mi ma eh ve hv fw di) j = Some (w', a') -> ~ w') ->
     e = e' /\ s = s').
  { intros e s n i w e' s' (w0 & N0 & H0 & F0) Ni Hi Fi. destruct (lt_eq_lt_dec n i) as [[G|G]|G].
    - destruct (Fi _ _ _ G N0 H0).
    - subst. rewrite N0 in Ni. injection Ni as -> -> ->. auto.
    - destruct (F0 _ _ _ G Ni Hi). }
  assert (BAD : forall i w e' s', nth_error (setup_complaints mi ma eh ve hv fw di) i = Some (w, (e', s')) -> w ->
     (forall j w' a', (j < i)%nat -> nth_error (setup_complaints mi ma eh ve hv fw di) j = Some (w', a') -> ~ w') ->
     (forall e s n, first_violated (setup_complaints mi ma eh ve hv fw di) n (e, s) ->
        @Err (error * bytes) setup_connection (e', says s') = Err (e, says s)) /\
     (none_violated (setup_complaints mi ma eh ve hv fw di) -> exists v, @Err (error * bytes) setup_connection (e', says s') = Ok v) /\
     ((exists n e s, first_violated (setup_complaints mi ma eh ve hv fw di) n (e, s)) \/
      none_violated (setup_complaints mi ma eh ve hv fw di))).
  { intros i w e' s' Ni Hi Fi. split; [|split].
    - intros e s n F. destruct (U _ _ _ _ _ _ _ F Ni Hi Fi) as (-> & ->). reflexivity.
    - intros X. apply nth_error_In in Ni. destruct (X _ _ Ni Hi).
    - left. exists i, e', s', w. auto. }
  unfold setup_complaints in BAD. fold W1 W2 W3 W4 W5 in BAD.
  destruct (is_empty ve) eqn:E1.
  { apply empty_iff in E1. apply (BAD 0%nat W1); [reflexivity|exact E1|intros; lia]. }
  apply EM in E1. fold W1 in E1. destruct (is_empty fw) eqn:E2.
  { apply empty_iff in E2. apply (BAD 1%nat W2); [reflexivity|exact E2|].
    intros [|j] w' a' Hj N0; [injection N0 as <- _; exact E1|lia]. }
  apply EM in E2. fold W2 in E2. destruct (mi <? 2) eqn:E3.
  { apply (BAD 2%nat W3); [reflexivity|unfold W3; lia|].
    intros [|[|j]] w' a' Hj N0; [injection N0 as <- _; assumption..|lia]. }
  assert (N3 : ~ W3) by (unfold W3; lia). destruct (ma <? 2) eqn:E4.
  { apply (BAD 3%nat W4); [reflexivity|unfold W4; lia|].
    intros [|[|[|j]]] w' a' Hj N0; [injection N0 as <- _; assumption..|lia]. }
  assert (N4 : ~ W4) by (unfold W4; lia).
  assert (LONG : W5 -> (forall j w' a', (j < 4)%nat -> nth_error [(W1, (RequirementError, "vendor field in SetupConnection MUST NOT be empty"%string));
     (W2, (RequirementError, "firmware field in SetupConnection MUST NOT be empty"%string));
     (W3, (VersionError, "min_version must be atleast 2"%string)); (W4, (VersionError, "max_version must be atleast 2"%string));
     (W5, (RequirementError, "string size cannot be greater than MAX_LENGTH"%string))] j = Some (w', a') -> ~ w')).
  { intros _ [|[|[|[|j]]]] w' a' Hj N0; [injection N0 as <- _; assumption..|lia]. }
  destruct (str0_new_t_cases eh) as [(G & ->)|(G1 & x1 & -> & _)]; cbn [obind].
  { assert (H5 : W5) by (left; exact G). apply (BAD 4%nat W5); [reflexivity|exact H5|exact (LONG H5)]. }
  destruct (str0_new_t_cases ve) as [(G & ->)|(G2 & x2 & -> & _)]; cbn [obind].
  { assert (H5 : W5) by (right; left; exact G). apply (BAD 4%nat W5); [reflexivity|exact H5|exact (LONG H5)]. }
  destruct (str0_new_t_cases hv) as [(G & ->)|(G3 & x3 & -> & _)]; cbn [obind].
  { assert (H5 : W5) by (right; right; left; exact G). apply (BAD 4%nat W5); [reflexivity|exact H5|exact (LONG H5)]. }
  destruct (str0_new_t_cases fw) as [(G & ->)|(G4 & x4 & -> & _)]; cbn [obind].
  { assert (H5 : W5) by (right; right; right; left; exact G). apply (BAD 4%nat W5); [reflexivity|exact H5|exact (LONG H5)]. }
  destruct (str0_new_t_cases di) as [(G & ->)|(G5 & x5 & -> & _)]; cbn [obind].
  { assert (H5 : W5) by (right; right; right; right; exact G). apply (BAD 4%nat W5); [reflexivity|exact H5|exact (LONG H5)]. }
  assert (N5 : ~ W5) by (unfold W5, too_long; lia).
  assert (NV : none_violated [(W1, (RequirementError, "vendor field in SetupConnection MUST NOT be empty"%string));
     (W2, (RequirementError, "firmware field in SetupConnection MUST NOT be empty"%string));
     (W3, (VersionError, "min_version must be atleast 2"%string)); (W4, (VersionError, "max_version must be atleast 2"%string));
     (W5, (RequirementError, "string size cannot be greater than MAX_LENGTH"%string))]).
  { intros w a [H|[H|[H|[H|[H|[]]]]]]; injection H as <- _; assumption. }
  split; [|split].
  - intros e s n (w & N0 & H0 & _). apply nth_error_In in N0. destruct (NV _ _ N0 H0).
  - eauto.
  - right. exact NV.
Qed.
Lemma setup_same_text : exists long short fl f,
  too_long long /\ ~ too_long short /\ short <> [] /\
  sc_new_t 2 2 fl long 1 short short short short = Err f /\ sc_new_t 2 2 fl short 1 short short short long = Err f.
Proof.
  exists (repeat x41 256), [x41], 0. eexists. split; [vm_compute; reflexivity|]. split; [vm_compute; discriminate|].
  split; [discriminate|]. split; vm_compute; reflexivity.
Qed.

(** ** Which failures decoding can end with *)
Definition known : list (error * bytes) :=
  [ (ParseError, says "out of bounds error"); (RequirementError, says "U24 cannot be greater than 2^24-1");
    (RequirementError, says "bytes size cannot be greater than MAX_LENGTH");
    (RequirementError, says "string size cannot be greater than MAX_LENGTH"); (UnknownFlags, []); (UnknownErrorCode, []);
    (RequirementError, says "vendor field in SetupConnection MUST NOT be empty");
    (RequirementError, says "firmware field in SetupConnection MUST NOT be empty");
    (VersionError, says "min_version must be atleast 2"); (VersionError, says "max_version must be atleast 2");
    (RequirementError, says "a full set of unsupported flags MUST be returned to the client");
    (DeserializationError, says "received unknown protocol byte in setup connection message"); (Unimplemented, []);
    (UnknownMessageType, []); (UnexpectedChannelBit true, []); (UnexpectedChannelBit false, []);
    (RequirementError, says "the valid_from time cannot be greater than or equal to the not_valid_after time") ].
Definition possible (f : error * bytes) : Prop :=
  In f known \/ (exists v k, f = (FromUtf8Error, utf8_error_text v k)) \/ (exists a b, f = (UnexpectedMessageType a b, [])).
Definition can_fail {A} (d : DeT A) : Prop := forall pf p f, snd (d pf p) = Err f -> possible f.
Definition may_fail {A} (o : TResult A) : Prop := forall f, o = Err f -> possible f.
Lemma cf_bind : forall A B (d : DeT A) (f : A -> DeT B), can_fail d -> (forall x, can_fail (f x)) -> can_fail (det_bind d f).
Proof.
  intros A B d f Hd Hf pf p x. unfold det_bind. specialize (Hd pf p). destruct (d pf p) as [p' [a|e|]]; cbn [snd].
  - apply Hf.
  - intros H. apply Hd. cbn. congruence.
  - discriminate.
Qed.
Lemma cf_lift : forall A (o : TResult A), may_fail o -> can_fail (det_lift o).
Proof. intros A o H pf p f E. exact (H f E). Qed.
Lemma mf_tag : forall A t (o : Result A), (forall e, o = Err e -> possible (e, t)) -> may_fail (tag t o).
Proof. intros A t [a|e|] H f E; try discriminate. injection E as <-. apply H. reflexivity. Qed.
Lemma mf_bind : forall A B (o : TResult A) (f : A -> TResult B), may_fail o -> (forall x, may_fail (f x)) -> may_fail (obind o f).
Proof. intros A B [a|e|] f H G x E; cbn in E; [exact (G a x E)|apply H; congruence|discriminate]. Qed.
Lemma mf_ok : forall A (a : A), may_fail (Ok a).
Proof. intros A a f E. discriminate. Qed.
Lemma mf_if : forall A (b : bool) (x y : TResult A), may_fail x -> may_fail y -> may_fail (if b then x else y).
Proof. intros A [] x y; auto. Qed.
Ltac inknown := left; cbn [known In]; unfold says, lit; tauto.
Lemma mf_err : forall A f, possible f -> may_fail (@Err (error * bytes) A f).
Proof. intros A f H g E. injection E as <-. exact H. Qed.

Lemma cf_next_by : forall n, can_fail (next_by_t n).
Proof.
  intros n pf p f. unfold next_by_t. destruct (next_by n pf p) as [p' o] eqn:E. cbn [snd]. apply mf_tag. intros e ->.
  unfold next_by in E. destruct (usize_add pf (p_start p) n); [|discriminate]. destruct (slice_get _ _ _); [discriminate|].
  injection E as _ <-. inknown.
Qed.
Lemma mf_clone : forall k b, may_fail (plain (clone_from_slice k b)).
Proof. intros k b. apply mf_tag. unfold clone_from_slice. destruct (len b =? k); discriminate. Qed.
Lemma cf_uint : forall k, can_fail (de_uint_t k).
Proof. intros k. apply cf_bind; [apply cf_next_by|intros b]. apply cf_bind; [apply cf_lift, mf_clone|intros x]. apply cf_lift, mf_ok. Qed.
Lemma mf_u24 : forall v, may_fail (u24_new_t v).
Proof.
  intros v. apply mf_tag. unfold u24_new, u24_try_from_usize. destruct (_ <? _); [|discriminate]. intros e E. injection E as <-. inknown.
Qed.
Lemma cf_u24 : can_fail de_u24_t.
Proof. apply cf_bind; [apply cf_next_by|intros b]. apply cf_bind; [apply cf_lift, mf_clone|intros x]. apply cf_lift, mf_u24. Qed.
Lemma cf_u256 : can_fail de_u256_t.
Proof. apply cf_bind; [apply cf_next_by|intros b]. apply cf_lift, mf_clone. Qed.
Lemma mf_b0 : forall t v, may_fail (b0_new_t t v).
Proof.
  intros t v. apply mf_tag. unfold b0_new. destruct (_ <? _).
  - intros e E. injection E as <-. inknown.
  - unfold len_try_into_unwrap. destruct (b0_lentype t); [destruct (_ <? _); discriminate..|].
    destruct (u24_try_from_usize (len v)); discriminate.
Qed.
Lemma cf_b0 : forall t, can_fail (de_b0_t t).
Proof.
  intros t. apply cf_bind; [unfold de_len_t; destruct (b0_lentype t); [apply cf_uint..|apply cf_u24]|intros n].
  apply cf_bind; [apply cf_next_by|intros b]. apply cf_lift, mf_b0.
Qed.
Lemma mf_str0 : forall t v, may_fail (str0_new_t t v).
Proof.
  intros t v. apply mf_tag. unfold str0_new. destruct (_ <? _); [|discriminate]. intros e E. injection E as <-. inknown.
Qed.
Lemma cf_str0 : forall t, can_fail (de_str0_t t).
Proof.
  intros t. apply cf_bind; [apply cf_uint|intros n]. apply cf_bind; [apply cf_next_by|intros b]. apply cf_bind.
  - apply cf_lift. unfold string_from_utf8_t. destruct (utf8_run 0 b) as [[v k]|]; [|apply mf_ok].
    apply mf_err. right. left. eauto.
  - intros s. apply cf_lift, mf_str0.
Qed.
Lemma cf_flags : forall fs, can_fail (de_flags_t fs).
Proof.
  intros fs. apply cf_bind; [apply cf_uint|intros b]. apply cf_lift. destruct (flags_from_bits fs b); [apply mf_ok|]. apply mf_err. inknown.
Qed.
Lemma cf_sc_code : can_fail de_sc_code_t.
Proof.
  apply cf_bind; [apply cf_str0|intros s]. apply cf_lift, mf_tag. unfold sc_code_from_str.
  do 3 (destruct (bytes_eqb _ _); [discriminate|]). intros e E. injection E as <-. inknown.
Qed.
Lemma cf_omc_code : can_fail de_omc_code_t.
Proof.
  apply cf_bind; [apply cf_str0|intros s]. apply cf_lift, mf_tag. unfold omc_code_from_str.
  do 2 (destruct (bytes_eqb _ _); [discriminate|]). intros e E. injection E as <-. inknown.
Qed.
Lemma mf_sc : forall mi ma fl eh ep ve hv fw di, may_fail (sc_new_t mi ma fl eh ep ve hv fw di).
Proof.
  intros. unfold sc_new_t. do 4 (apply mf_if; [apply mf_err; inknown|]).
  do 5 (apply mf_bind; [apply mf_str0|intros ?]). apply mf_ok.
Qed.
Ltac cf_step := first
  [ apply cf_uint | apply cf_u256 | apply cf_b0 | apply cf_str0 | apply cf_flags | apply cf_next_by | apply cf_u24
  | apply cf_sc_code | apply cf_omc_code
  | apply cf_lift; first [apply mf_ok | apply mf_sc | apply mf_tag; discriminate | apply mf_bind; [first [apply mf_str0|apply mf_b0]|intros ?; apply mf_ok]]
  | apply cf_bind; [|intros ?] ].
Lemma cnf_sc : forall fs, can_fail (de_sc_t fs).
Proof. intros fs. unfold de_sc_t. repeat cf_step. Qed.
Lemma cnf_kind : forall k, can_fail (de_kind_t k).
Proof.
  destruct k; cbn [de_kind_t msg_of]; try apply cnf_sc;
    unfold de_scs_t, de_cec_t, de_osmc_t, de_osmcs_t, de_omce_t, de_oemc_t, de_oemcs_t, de_uc_t; try (repeat cf_step; fail).
  - apply cf_bind.
    + apply cf_bind; [apply cf_uint|intros b]. apply cf_lift, mf_tag. unfold protocol_try_from.
      destruct b as [|[[b|b|]|[b|b|]|]]; try discriminate; intros e E; injection E as <-; inknown.
    + intros []; try (apply cf_lift, mf_err; inknown); (apply cf_bind; [apply cnf_sc|intros v; apply cf_lift, mf_ok]).
  - unfold de_sce_t. do 2 (apply cf_bind; [cf_step|intros ?]). apply cf_lift, mf_tag. unfold sce_new.
    destruct (_ && _); [|discriminate]. intros e E. injection E as <-. inknown.
  - unfold de_sce_t. do 2 (apply cf_bind; [cf_step|intros ?]). apply cf_lift, mf_tag. unfold sce_new.
    destruct (_ && _); [|discriminate]. intros e E. injection E as <-. inknown.
Qed.
Lemma cnf_message : can_fail de_message_t.
Proof.
  unfold de_message_t. do 2 (apply cf_bind; [apply cf_uint|intros ?]). apply cf_bind.
  - apply cf_lift, mf_tag. unfold mt_new. destruct (find _ mt_table); [discriminate|]. intros e E. injection E as <-. inknown.
  - intros mt. destruct (negb (Bool.eqb _ _)).
    + apply cf_lift, mf_err. destruct (negb _); inknown.
    + repeat cf_step.
Qed.
Lemma mf_unframe : forall k pf m, may_fail (unframe_t k pf m).
Proof.
  intros k pf m. unfold unframe_t. destruct (negb _).
  - apply mf_err. right. right. eauto.
  - intros f. apply cnf_kind.
Qed.
Lemma mf_cert : forall a b c d, may_fail (cert_new_t a b c d).
Proof.
  intros a b c d. apply mf_tag. unfold cert_new. destruct (_ <=? _); [|discriminate]. intros e E. injection E as <-. inknown.
Qed.

(** ** Their texts are different *)
Definition keys_of (l : list (error * bytes)) : list bytes := map shown l.
Fixpoint distinct (l : list bytes) : bool :=
  match l with [] => true | x :: l' => forallb (fun y => negb (bytes_eqb x y)) l' && distinct l' end.
Lemma bytes_eqb_refl : forall b, bytes_eqb b b = true.
Proof. induction b as [|x b IH]; [reflexivity|]. cbn [bytes_eqb]. rewrite IH, andb_true_r. destruct x; reflexivity. Qed.
Lemma distinct_inj : forall l f g, distinct (keys_of l) = true -> In f l -> In g l -> shown f = shown g -> f = g.
Proof.
  induction l as [|x l IH]; intros f g D Hf Hg E; [destruct Hf|]. cbn [keys_of map distinct] in D.
  apply andb_prop in D as (D1 & D2).
  assert (K : forall h, In h l -> shown x = shown h -> False).
  { intros h Hh Eh. rewrite forallb_forall in D1. specialize (D1 (shown h) (in_map shown _ _ Hh)).
    rewrite Eh, bytes_eqb_refl in D1. discriminate. }
  destruct Hf as [<-|Hf], Hg as [<-|Hg]; auto.
  - destruct (K _ Hg E).
  - destruct (K _ Hf (eq_sym E)).
Qed.
Lemma utf8_text_head : forall v k, exists t, utf8_error_text v k = x69 :: t.
Proof. intros v [n|]; eexists; reflexivity. Qed.
Lemma type_text_head : forall a b p, exists t, shown (UnexpectedMessageType a b, p) = says "parsed m" ++ t.
Proof. intros a b p. eexists. reflexivity. Qed.
Lemma known_heads : forallb (fun t => negb (bytes_eqb (firstn 1 t) [x69]) && negb (bytes_eqb (firstn 8 t) (says "parsed m")))
  (keys_of known) = true.
Proof. vm_compute. reflexivity. Qed.
Lemma shown_tells : forall f g, possible f -> possible g -> shown f = shown g -> f = g.
Proof.
  assert (H1 : forall f, In f known -> forall v k, shown f <> utf8_error_text v k).
  { intros f Hf v k E. pose proof known_heads as K. rewrite forallb_forall in K. specialize (K _ (in_map shown _ _ Hf)).
    destruct (utf8_text_head v k) as (t & T). rewrite E, T in K. discriminate K. }
  assert (H2 : forall f, In f known -> forall a b p, shown f <> shown (UnexpectedMessageType a b, p)).
  { intros f Hf a b p E. pose proof known_heads as K. rewrite forallb_forall in K. specialize (K _ (in_map shown _ _ Hf)).
    destruct (type_text_head a b p) as (t & T). rewrite E, T in K. apply andb_prop in K as (_ & K).
    replace (firstn 8 (says "parsed m" ++ t)) with (says "parsed m") in K by reflexivity. discriminate K. }
  assert (H3 : forall v k a b p, utf8_error_text v k <> shown (UnexpectedMessageType a b, p)).
  { intros v k a b p E. destruct (utf8_text_head v k) as (t & T), (type_text_head a b p) as (t' & T'). rewrite T, T' in E. discriminate E. }
  intros f g [Hf|[(v & k & ->)|(a & b & ->)]] [Hg|[(v' & k' & ->)|(a' & b' & ->)]] E.
  - apply (distinct_inj known); [vm_compute; reflexivity|assumption..].
  - destruct (H1 _ Hf _ _ E).
  - destruct (H2 _ Hf _ _ _ E).
  - destruct (H1 _ Hg _ _ (eq_sym E)).
  - f_equal. exact E.
  - destruct (H3 _ _ _ _ _ E).
  - destruct (H2 _ Hg _ _ _ (eq_sym E)).
  - destruct (H3 _ _ _ _ _ (eq_sym E)).
  - unfold shown in E. cbn [fst snd error_display] in E. apply app_inv_head in E.
    apply (types_inj a b a' b') in E as (-> & ->). reflexivity.
Qed.

Lemma not_space : forall n, ~ In x20 (dec n).
Proof. intros n X. apply dec_no in X. revert X. vm_compute. intros [X _]. apply X. reflexivity. Qed.
Lemma utf8_text_inj : forall v k v' k', utf8_error_text v k = utf8_error_text v' k' -> v = v' /\ k = k'.
Proof.
  intros v [k|] v' [k'|] E; unfold utf8_error_text in E; try discriminate E.
  - apply app_inv_head in E. change (lit " bytes from index ") with (x20 :: lit "bytes from index ") in E. cbn [app] in E.
    apply split_sep in E as (E1 & E2); [|apply not_space|apply not_space]. apply app_inv_head in E2.
    apply dec_inj in E1, E2. subst. auto.
  - apply app_inv_head in E. apply dec_inj in E. auto.
Qed.
Lemma message_text : forall s t v k, utf8_message s t -> utf8_fault s v k -> t = utf8_error_text (N.of_nat v) (option_map N.of_nat k).
Proof.
  intros s t v k (v' & k' & dv & F & D & M) G. destruct (fault_fun _ _ _ _ _ F G) as (-> & ->).
  rewrite (decimal_unique _ _ _ D (dec_decimal _)) in M. destruct k as [k|]; [|exact M].
  destruct M as (dk & E & ->). rewrite (decimal_unique _ _ _ E (dec_decimal _)). reflexivity.
Qed.
Lemma message_tells : forall s s' t v k v' k', utf8_message s t -> utf8_message s' t -> utf8_fault s v k -> utf8_fault s' v' k' ->
  v = v' /\ k = k'.
Proof.
  intros s s' t v k v' k' M M' F F'. pose proof (message_text _ _ _ _ M F) as A. rewrite (message_text _ _ _ _ M' F') in A.
  apply utf8_text_inj in A as (A & B). split; [lia|]. destruct k as [k|], k' as [k'|]; try discriminate B; [|reflexivity].
  injection B as B. f_equal. lia.
Qed.

(** ** Frames *)
Definition frame_text (e : error) : bytes := match e with ParseError => says "out of bounds error" | _ => [] end.
Definition in_frame (f : error * bytes) : Prop := snd f = frame_text (fst f) \/ fst f = RequirementError.
Lemma message_in_frame : forall pf p f, snd (de_message_t pf p) = Err f -> in_frame f.
Proof.
  assert (NB : forall n pf p f, snd (next_by_t n pf p) = Err f -> in_frame f).
  { intros n pf p f. unfold next_by_t. destruct (next_by n pf p) as [p' o] eqn:E. cbn [snd]. unfold next_by in E.
    destruct (usize_add pf (p_start p) n); [|injection E as _ <-; discriminate].
    destruct (slice_get _ _ _); injection E as _ <-; [discriminate|]. intros X. injection X as <-. left. reflexivity. }
  assert (B : forall A B (d : DeT A) (g : A -> DeT B), (forall pf p f, snd (d pf p) = Err f -> in_frame f) ->
    (forall x pf p f, snd (g x pf p) = Err f -> in_frame f) -> forall pf p f, snd (det_bind d g pf p) = Err f -> in_frame f).
  { intros A B d g Hd Hg pf p f. unfold det_bind. specialize (Hd pf p). destruct (d pf p) as [p' [a|e|]]; cbn [snd]; [apply Hg| |discriminate].
    intros H. apply Hd. cbn. congruence. }
  assert (CL : forall k b pf p f, snd (det_lift (plain (clone_from_slice k b)) pf p) = Err f -> in_frame f).
  { intros k b pf p f. cbn [det_lift snd]. unfold clone_from_slice. destruct (len b =? k); discriminate. }
  assert (UI : forall k pf p f, snd (de_uint_t k pf p) = Err f -> in_frame f).
  { intros k. apply B; [apply NB|intros b]. apply B; [apply CL|intros x pf p f]. discriminate. }
  unfold de_message_t. do 2 (apply B; [apply UI|intros ?]). apply B.
  - intros pf p f. unfold mt_new. cbn [det_lift snd]. destruct (find _ mt_table); [discriminate|]. intros E. injection E as <-. left. reflexivity.
  - intros mt. destruct (negb (Bool.eqb _ _)).
    + intros pf p f E. injection E as <-. left. reflexivity.
    + apply B.
      * apply B; [apply NB|intros b]. apply B; [apply CL|intros y pf p f]. cbn [det_lift snd]. unfold u24_new_t, u24_new, u24_try_from_usize.
        destruct (_ <? _); [|discriminate]. intros E. injection E as <-. right. reflexivity.
      * intros n. apply B; [apply NB|intros y pf p f]. discriminate.
Qed.
Lemma frame_told : forall pf pre rest, rust_slice (pre ++ rest) ->
  match spec_decode_frame rest with
  | Ok (m, n) => de_message_t pf (cursor pre rest) = (mkParser (pre ++ rest) (len pre + n), Ok m)
  | Err e => snd (de_message_t pf (cursor pre rest)) = Err (e, match e with ParseError => says "out of bounds error" | _ => [] end)
  | Panic => False
  end.
Proof.
  intros pf pre rest Hs. pose proof (frame_table pf pre rest Hs) as F. pose proof (same_message pf (cursor pre rest)) as S.
  destruct (spec_decode_frame rest) as [[m n]|e|] eqn:D; [| |exact F].
  - rewrite F in S. destruct (de_message_t pf (cursor pre rest)) as [p [x|[x ?]|]]; cbn [fst snd erase] in S; try discriminate. injection S as -> ->. reflexivity.
  - pose proof (message_in_frame pf (cursor pre rest)) as I. rewrite S in F. cbn [snd] in F. rename F into S2.
    destruct (snd (de_message_t pf (cursor pre rest))) as [x|[e' t]|]; try discriminate. cbn [erase] in S2. injection S2 as ->.
    destruct (I _ eq_refl) as [T|T]; cbn [fst snd] in T; [subst t; reflexivity|].
    subst e. exfalso. unfold spec_decode_frame in D.
    repeat (match type of D with context [if ?b then _ else _] => destruct b | context [match ?b with _ => _ end] => destruct b end; try discriminate D).
Qed.

(** ** Certificates *)
Section Ed.
Variable E : ed_ops.
Variable base58_text : bytes -> bytes.
Variable ed_text : bytes.
Variable time_text : system_time -> bytes.
Lemma erase_cf_new : forall a s m, erase (cf_new_t E base58_text ed_text a s m) = cf_new E a s m.
Proof.
  intros a s m. unfold cf_new_t, cf_new. destruct (base58_from a) as [k|e|]; [|reflexivity..]. cbn [tag obind].
  destruct (len k =? 32); [|reflexivity]. destruct (ed_valid E k); reflexivity.
Qed.
Lemma erase_cf_verify : forall now c, erase (cf_verify_t E ed_text time_text now c) = cf_verify E now c.
Proof.
  intros now c. unfold cf_verify_t, cf_verify. destruct (system_unix_time_to_u32 now) as [k|e|]; [|reflexivity..]. cbn [tag obind].
  destruct (_ <=? k); [reflexivity|]. destruct (serialize (ser_cf c)) as [b|e|]; [|reflexivity..]. cbn [plain tag obind].
  destruct (ed_verify E _ _ _); reflexivity.
Qed.
Lemma cf_new_told : forall text static m,
  ((forall k, ~ base58 text k) -> cf_new_t E base58_text ed_text text static m = Err (Base58Error, base58_text text)) /\
  (forall k, base58 text k ->
     cf_new_t E base58_text ed_text text static m =
       if len k =? 32 then if ed_valid E k then Ok (mkCf k static m) else Err (AuthorityKeyError, ed_text)
       else Err (ParseError, says "Failed to deserialize the base58 public key")).
Proof.
  intros text static m. destruct (base58_from_spec text) as [A B]. unfold cf_new_t. split.
  - intro H. destruct B as [ [k Bk] | B ]; [exfalso; eapply H; exact Bk | rewrite B; reflexivity].
  - intros k Hk. rewrite (proj2 (A k) Hk). reflexivity.
Qed.
Lemma cf_verify_told : forall now c,
  let m := cf_message c in
  exists signed, wire signed = cert_layout (sn_version m) (sn_valid_from m) (sn_not_valid_after m) (cf_static c) /\
  cf_verify_t E ed_text time_text now c =
    if (now <? 0)%Z then Err (SystemTimeError, time_text now)
    else if sn_not_valid_after m <=? Z.to_N (now / 10 ^ 9) mod 2 ^ 32
    then Err (RequirementError, says "the signature noise message is expired")
    else if ed_verify E (cf_authority c) signed (sn_signature m) then Ok tt else Err (AuthorityKeyError, ed_text).
Proof.
  intros now c m. eexists. split; [apply wire_cert|].
  unfold cf_verify_t, system_unix_time_to_u32. fold m. destruct (now <? 0)%Z; [reflexivity|]. cbn [tag obind].
  change (10 ^ 9)%Z with 1000000000%Z. destruct (_ <=? _); [reflexivity|].
  rewrite ser_cf_bytes. cbn [plain tag obind]. fold m. reflexivity.
Qed.
End Ed.
Lemma cert_new_told : forall v f t key,
  (t <= f -> cert_new_t v f t key = Err (RequirementError, says "the valid_from time cannot be greater than or equal to the not_valid_after time")) /\
  (f < t -> cert_new_t v f t key = Ok (mkCert v f t key)).
Proof. intros v f t key. unfold cert_new_t, cert_new. split; intro H; destruct (N.leb_spec t f); try lia; reflexivity. Qed.

(** ** Where failures come from *)
Inductive arises : error * bytes -> Prop :=
| from_kind : forall k pf bs f, deserialize_t (de_kind_t k) pf bs = Err f -> arises f
| from_frame : forall pf bs f, deserialize_t de_message_t pf bs = Err f -> arises f
| from_unframe : forall k pf m f, unframe_t k pf m = Err f -> arises f
| from_setup : forall mi ma fl eh ep ve hv fw di f, sc_new_t mi ma fl eh ep ve hv fw di = Err f -> arises f
| from_cert : forall v a b key f, cert_new_t v a b key = Err f -> arises f.
Lemma arises_possible : forall f, arises f -> possible f.
Proof.
  intros f [k pf bs g H|pf bs g H|k pf m g H|mi ma fl eh ep ve hv fw di g H|v a b key g H].
  - exact (cnf_kind k pf _ g H).
  - exact (cnf_message pf _ g H).
  - exact (mf_unframe k pf m g H).
  - exact (mf_sc _ _ _ _ _ _ _ _ _ g H).
  - exact (mf_cert _ _ _ _ g H).
Qed.
Lemma failure_identified : forall f g, arises f -> arises g -> shown f = shown g -> f = g.
Proof. intros f g Hf Hg. apply shown_tells; apply arises_possible; assumption. Qed.
Lemma position_identified : forall s s' t, string_from_utf8_t s = Err (FromUtf8Error, t) -> string_from_utf8_t s' = Err (FromUtf8Error, t) ->
  exists v k, utf8_fault s v k /\ utf8_fault s' v k.
Proof.
  intros s s' t H H'. destruct (from_utf8_said s) as [(_ & X)|(_ & u & M & X)]; [congruence|].
  destruct (from_utf8_said s') as [(_ & X')|(_ & u' & M' & X')]; [congruence|].
  rewrite X in H. rewrite X' in H'. injection H as ->. injection H' as ->.
  pose proof M as (v & k & dv & F & _). pose proof M' as (v' & k' & dv' & F' & _).
  destruct (message_tells _ _ _ _ _ _ _ M M' F F') as (<- & <-). eauto.
Qed.
Lemma unframe_erased : forall k pf m, erase (unframe_t k pf m) = unframe (frameable_of k) pf m.
Proof.
  intros k pf m. unfold unframe_t, unframe. destruct (negb _); [reflexivity|]. unfold deserialize_t, deserialize.
  rewrite (same_kind k pf). reflexivity.
Qed.
Lemma kind_erased : forall k pf bs, erase (deserialize_t (de_kind_t k) pf bs) = deserialize (fr_de (frameable_of k)) pf bs.
Proof. intros k pf bs. unfold deserialize_t, deserialize. rewrite (same_kind k pf). reflexivity. Qed.
Lemma frame_erased : forall pf bs, erase (deserialize_t de_message_t pf bs) = deserialize de_message pf bs.
Proof. intros pf bs. unfold deserialize_t, deserialize. rewrite (same_message pf). reflexivity. Qed.
Lemma spec_frame_errors : forall rest e, spec_decode_frame rest = Err e ->
  e = ParseError \/ e = UnknownMessageType \/ exists b, e = UnexpectedChannelBit b.
Proof.
  intros rest e H. unfold spec_decode_frame in H. destruct (wire rest) as [|e0 [|e1 [|code t]]]; try (injection H as <-; auto; fail).
  destruct (spec_lookup _ _) as [T|]; [|injection H as <-; auto]. destruct (negb _); [injection H as <-; eauto|]. cbv zeta in H.
  destruct (_ <? 3); [injection H as <-; auto|]. destruct (_ <? _); [injection H as <-; auto|discriminate].
Qed.
Lemma frame_shown : forall pf pre rest f, rust_slice (pre ++ rest) -> snd (de_message_t pf (cursor pre rest)) = Err f ->
  exists e, spec_decode_frame rest = Err e /\ shown f = frame_shows e.
Proof.
  intros pf pre rest f R H. pose proof (frame_told pf pre rest R) as T. destruct (spec_decode_frame rest) as [[m n]|e|] eqn:S; [| |contradiction].
  - rewrite T in H. discriminate H.
  - exists e. split; [reflexivity|]. rewrite T in H. injection H as <-. unfold shown. cbn [fst snd].
    destruct (spec_frame_errors rest e S) as [->|[->|([] & ->)]]; reflexivity.
Qed.
Lemma type_shown : forall k pf m, fr_type (frameable_of k) <> m_type m -> exists f d,
  unframe_t k pf m = Err f /\ decimal d (fst (spec_code (fr_type (frameable_of k)))) /\
  shown f = says "parsed message type `0/" ++ d ++ says "` does not match expected message".
Proof.
  intros k pf m H. unfold unframe_t. assert (E : mt_eqb (fr_type (frameable_of k)) (m_type m) = false).
  { destruct (mt_eqb _ _) eqn:E; [|reflexivity]. apply mt_eqb_iff in E. contradiction. }
  rewrite E. cbn [negb]. eexists _, (dec (fst (spec_code (fr_type (frameable_of k))))). split; [reflexivity|]. split; [apply dec_decimal|].
  unfold shown. cbn [fst snd error_display]. destruct (FrameProofs.mt_spec (fr_type (frameable_of k))) as (-> & <-). reflexivity.
Qed.
