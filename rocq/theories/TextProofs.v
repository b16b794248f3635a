(** * TextProofs: texts of flags and errors. *)
From Coq Require Import Strings.String Strings.Ascii ZArith Lia ZifyBool ZifyNat ZifyN Decimal DecimalString DecimalN DecimalFacts.
From Verif Require Import Base Types SpecWire TypesFacts Display DecodeProofs CutProofs SpecTexts.
Local Open Scope N_scope.
Local Open Scope list_scope.

(** ** Flags *)
Lemma flags_small : forall fs f, flags_ok fs f -> f < 2 ^ flag_width fs.
Proof.
  intros fs f H. destruct (N.lt_ge_cases f (2 ^ flag_width fs)) as [L|L]; [exact L|].
  assert (F0 : f <> 0) by (intros ->; pose proof (N.pow_nonzero 2 (flag_width fs)); lia).
  pose proof (N.bit_log2 f F0) as B. apply H in B.
  apply N.log2_lt_pow2 in B; [|lia]. lia.
Qed.
Lemma flags_cases : forall fs f, flags_ok fs f -> In (fs, f)
  ([(JnSuccessFlags, 0); (JnSetupFlags, 0); (JnSetupFlags, 1);
    (MiningSuccessFlags, 0); (MiningSuccessFlags, 1); (MiningSuccessFlags, 2); (MiningSuccessFlags, 3);
    (MiningSetupFlags, 0); (MiningSetupFlags, 1); (MiningSetupFlags, 2); (MiningSetupFlags, 3);
    (MiningSetupFlags, 4); (MiningSetupFlags, 5); (MiningSetupFlags, 6); (MiningSetupFlags, 7)]).
Proof.
  intros fs f H. apply flags_small in H. destruct fs; cbn [flag_width] in H.
  - assert (X : f = 0 \/ f = 1 \/ f = 2 \/ f = 3 \/ f = 4 \/ f = 5 \/ f = 6 \/ f = 7) by lia.
    repeat (destruct X as [-> | X]); [..|subst]; cbn; tauto.
  - assert (X : f = 0 \/ f = 1 \/ f = 2 \/ f = 3) by lia.
    repeat (destruct X as [-> | X]); [..|subst]; cbn; tauto.
  - assert (X : f = 0 \/ f = 1) by lia. destruct X as [-> | ->]; cbn; tauto.
  - assert (f = 0) as -> by lia. cbn. tauto.
Qed.
Lemma flags_text_exact : forall fs f, flags_ok fs f -> flags_debug fs f = flags_text fs f.
Proof.
  intros fs f H. apply flags_cases in H. cbn [In] in H.
  repeat (destruct H as [H|H]; [injection H as <- <-; vm_compute; reflexivity|]). contradiction.
Qed.
Lemma flags_text_tells : forall fs f g, flags_ok fs f -> flags_ok fs g -> flags_debug fs f = flags_debug fs g -> f = g.
Proof.
  intros fs f g Hf Hg E. apply flags_cases in Hf. apply flags_cases in Hg. cbn [In] in Hf, Hg.
  repeat (destruct Hf as [Hf|Hf]; [injection Hf as <- <-;
    repeat (destruct Hg as [Hg|Hg]; [try discriminate Hg; injection Hg as <-; try reflexivity; vm_compute in E; discriminate E|]);
    contradiction|]).
  contradiction.
Qed.

(** ** Numbers *)
Lemma lit_inj : forall a b, lit a = lit b -> a = b.
Proof.
  intros a b H. unfold lit in H. apply (f_equal string_of_list_byte) in H.
  rewrite !string_of_list_byte_of_string in H. exact H.
Qed.
Lemma lit_app : forall a b, lit (a ++ b)%string = lit a ++ lit b.
Proof. intros a b. unfold lit. induction a as [|c a IH]; [reflexivity|]. cbn [String.append list_byte_of_string app]. cbn. f_equal. exact IH. Qed.
Definition dig (acc d : N) : N := 10 * acc + (d - 48).
Lemma digits_acc : forall d p, fold_left dig (wire (lit (NilEmpty.string_of_uint d))) (Npos p) = Npos (Pos.of_uint_acc d p).
Proof.
  induction d; intro p; [reflexivity|..].
  - refine (eq_trans (f_equal (fold_left dig (wire (lit (NilEmpty.string_of_uint d)))) (_ : dig (Npos p) 48 = Npos (Pos.mul 10 p))) (IHd _)). unfold dig. lia.
  - refine (eq_trans (f_equal (fold_left dig (wire (lit (NilEmpty.string_of_uint d)))) (_ : dig (Npos p) 49 = Npos (Pos.add 1 (Pos.mul 10 p)))) (IHd _)). unfold dig. lia.
  - refine (eq_trans (f_equal (fold_left dig (wire (lit (NilEmpty.string_of_uint d)))) (_ : dig (Npos p) 50 = Npos (Pos.add 2 (Pos.mul 10 p)))) (IHd _)). unfold dig. lia.
  - refine (eq_trans (f_equal (fold_left dig (wire (lit (NilEmpty.string_of_uint d)))) (_ : dig (Npos p) 51 = Npos (Pos.add 3 (Pos.mul 10 p)))) (IHd _)). unfold dig. lia.
  - refine (eq_trans (f_equal (fold_left dig (wire (lit (NilEmpty.string_of_uint d)))) (_ : dig (Npos p) 52 = Npos (Pos.add 4 (Pos.mul 10 p)))) (IHd _)). unfold dig. lia.
  - refine (eq_trans (f_equal (fold_left dig (wire (lit (NilEmpty.string_of_uint d)))) (_ : dig (Npos p) 53 = Npos (Pos.add 5 (Pos.mul 10 p)))) (IHd _)). unfold dig. lia.
  - refine (eq_trans (f_equal (fold_left dig (wire (lit (NilEmpty.string_of_uint d)))) (_ : dig (Npos p) 54 = Npos (Pos.add 6 (Pos.mul 10 p)))) (IHd _)). unfold dig. lia.
  - refine (eq_trans (f_equal (fold_left dig (wire (lit (NilEmpty.string_of_uint d)))) (_ : dig (Npos p) 55 = Npos (Pos.add 7 (Pos.mul 10 p)))) (IHd _)). unfold dig. lia.
  - refine (eq_trans (f_equal (fold_left dig (wire (lit (NilEmpty.string_of_uint d)))) (_ : dig (Npos p) 56 = Npos (Pos.add 8 (Pos.mul 10 p)))) (IHd _)). unfold dig. lia.
  - refine (eq_trans (f_equal (fold_left dig (wire (lit (NilEmpty.string_of_uint d)))) (_ : dig (Npos p) 57 = Npos (Pos.add 9 (Pos.mul 10 p)))) (IHd _)). unfold dig. lia.
Qed.
Lemma digits_value : forall d, fold_left dig (wire (lit (NilEmpty.string_of_uint d))) 0 = N.of_uint d.
Proof. induction d; [reflexivity|exact IHd|..]; exact (digits_acc d _). Qed.
Lemma digits_range : forall d, Forall (fun c => 48 <= c <= 57) (wire (lit (NilEmpty.string_of_uint d))).
Proof. induction d; [constructor|..]; constructor; try exact IHd; cbn; lia. Qed.
Lemma to_uint_nonnil : forall n, N.to_uint n <> Nil.
Proof. intros [|p]; [discriminate|]. exact (DecimalPos.Unsigned.to_uint_nonnil p). Qed.
Lemma dec_empty : forall n, dec n = lit (NilEmpty.string_of_uint (N.to_uint n)).
Proof. intros n. unfold dec, NilZero.string_of_uint. pose proof (to_uint_nonnil n). destruct (N.to_uint n); [contradiction|reflexivity..]. Qed.
Lemma to_uint_norm : forall n, unorm (N.to_uint n) = N.to_uint n.
Proof. intros n. rewrite <- Unsigned.to_of, Unsigned.of_to. reflexivity. Qed.
Lemma dec_decimal : forall n, decimal (dec n) n.
Proof.
  intros n. rewrite dec_empty. split; [|split; [apply digits_range|split]].
  - pose proof (to_uint_nonnil n). destruct (N.to_uint n); [contradiction|discriminate..].
  - change (fold_left dig (wire (lit (NilEmpty.string_of_uint (N.to_uint n)))) 0 = n).
    rewrite digits_value. apply Unsigned.of_to.
  - intro H. pose proof (to_uint_norm n) as E. destruct (N.to_uint n) as [|d| | | | | | | | |] eqn:U; try discriminate H.
    unfold unorm in E. destruct (nzhead (D0 d)) eqn:Z; try discriminate E; try (injection E as <-; reflexivity).
    exfalso. apply (nzhead_nonzero (D0 d) u). exact Z.
Qed.
Lemma decimal_inj : forall ds a b, decimal ds a -> decimal ds b -> a = b.
Proof. intros ds a b (_ & _ & A & _) (_ & _ & B & _). congruence. Qed.
Lemma dec_no : forall n c, In c (dec n) -> 48 <= Byte.to_N c <= 57.
Proof.
  intros n c H. destruct (dec_decimal n) as (_ & F & _). rewrite Forall_forall in F. apply F. apply in_map, H.
Qed.

(** Texts are split at the first separator. *)
Lemma split_sep : forall (c : byte) a b x y, ~ In c a -> ~ In c b -> a ++ c :: x = b ++ c :: y -> a = b /\ x = y.
Proof.
  induction a as [|d a IH]; intros [|e b] x y HA HB E.
  - injection E as <-. auto.
  - injection E as <- _. exfalso. apply HB. left. reflexivity.
  - injection E as -> _. exfalso. apply HA. left. reflexivity.
  - injection E as -> E. destruct (IH b x y) as [-> ->]; auto; intro X; [apply HA|apply HB]; right; exact X.
Qed.
Lemma dec_inj : forall a b, dec a = dec b -> a = b.
Proof. intros a b H. apply (decimal_inj (dec a)); [apply dec_decimal|rewrite H; apply dec_decimal]. Qed.
Lemma types_inj : forall a b c d s, dec a ++ lit "/" ++ dec b ++ x60 :: s = dec c ++ lit "/" ++ dec d ++ x60 :: s -> a = c /\ b = d.
Proof.
  intros a b c d s H. change (lit "/") with [x2f] in H. cbn [app] in H.
  apply split_sep in H as [H1 H2];
    [|intro X; apply dec_no in X; revert X; vm_compute; intros [X _]; apply X; reflexivity
     |intro X; apply dec_no in X; revert X; vm_compute; intros [X _]; apply X; reflexivity].
  apply split_sep in H2 as [H2 _];
    [|intro X; apply dec_no in X; revert X; vm_compute; intros [_ X]; apply X; reflexivity
     |intro X; apply dec_no in X; revert X; vm_compute; intros [_ X]; apply X; reflexivity].
  split; apply dec_inj; assumption.
Qed.
Lemma quoted_inj : forall p q, quoted_text p = quoted_text q -> p = q.
Proof. intros p q H. unfold quoted_text in H. apply app_inv_head in H. apply app_inv_tail in H. exact H. Qed.

(** ** Errors *)
Lemma error_clash : forall p, exists a b, a <> b /\ own_text a /\ own_text b /\ error_display a p = error_display b p.
Proof. intros p. exists VersionError, ParseError. split; [discriminate|]. split; [exact I|]. split; [exact I|reflexivity]. Qed.
Lemma error_exact : forall a b p q, own_text a -> own_text b ->
  error_display a p = error_display b q <->
  (~ quotes a /\ a = b) \/ (quotes a /\ quotes b /\ p = q) \/ (wrong_length a /\ wrong_length b).
Proof.
  assert (QN : forall e, quotes e <-> match e with VersionError | ProtocolMismatchError | RequirementError | DeserializationError | ParseError => True | _ => False end).
  { intros e. split.
    - cbn. intros H. repeat (destruct H as [<-|H]; [exact I|]). contradiction.
    - destruct e; try contradiction; cbn; tauto. }
  intros a b p q HA HB. split.
  - intro H. rewrite !QN. destruct a, b; try contradiction HA; try contradiction HB;
      try (right; left; split; [exact I|split; [exact I|apply quoted_inj, H]]);
      try (left; split; [intros []|reflexivity]); try discriminate H.
    all: try (destruct e; try contradiction HA; try contradiction HB; discriminate H).
    + left. split; [intros []|]. cbn [error_display] in H. apply app_inv_head in H. apply types_inj in H as [-> ->]. reflexivity.
    + left. split; [intros []|]. destruct b, b0; try reflexivity; discriminate H.
    + cbn [error_display] in H.
      assert (N1 : e <> HexError) by (intros ->; exact HA). assert (N2 : e0 <> HexError) by (intros ->; exact HB).
      assert (H' : noise_display p e = noise_display p e0).
      { rewrite H. destruct e0; try reflexivity; contradiction. }
      apply texts_equal in H' as [-> | [A B]]; [left; split; [intros []|reflexivity]| |assumption|assumption].
      right. right. unfold wrong_length. cbn in A, B |- *.
      split; [decompose [or] A; subst; tauto|decompose [or] B; subst; tauto].
  - rewrite !QN. intros [[N ->]|[(A & B & ->)|(A & B)]].
    + destruct b; try contradiction HA; try reflexivity; try (exfalso; apply N; exact I). destruct e; try reflexivity; contradiction.
    + destruct a, b; try contradiction A; try contradiction B; reflexivity.
    + cbn in A, B. decompose [or] A; decompose [or] B; subst; try contradiction; reflexivity.
Qed.
Lemma unexpected_text : forall ext msg p, exists e m, decimal e ext /\ decimal m msg /\
  error_display (UnexpectedMessageType ext msg) p =
    list_byte_of_string "parsed message type `" ++ e ++ list_byte_of_string "/" ++ m ++ list_byte_of_string "` does not match expected message".
Proof. intros ext msg p. exists (dec ext), (dec msg). split; [apply dec_decimal|]. split; [apply dec_decimal|reflexivity]. Qed.
