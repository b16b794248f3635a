(** * Utf8Facts: the UTF-8 validator accepts exactly the encodings of scalar value sequences. *)
From Verif Require Import Base Codec Types SpecWire BaseFacts.
Ltac Zify.zify_post_hook ::= Z.div_mod_to_equations.

Lemma in_range_iff : forall lo hi b, in_range lo hi b = true <-> lo <= Byte.to_N b /\ Byte.to_N b <= hi.
Proof. intros. unfold in_range. lia. Qed.

(** One-character decomposition of the validator. *)
Inductive utf8_char : bytes -> N -> Prop :=
| uc1 : forall a, Byte.to_N a <= 127 -> utf8_char [a] (Byte.to_N a)
| uc2 : forall a b, 194 <= Byte.to_N a <= 223 -> 128 <= Byte.to_N b <= 191 ->
    utf8_char [a; b] ((Byte.to_N a - 192) * 64 + (Byte.to_N b - 128))
| uc3 : forall a b c, 224 <= Byte.to_N a <= 239 -> 128 <= Byte.to_N b <= 191 ->
    128 <= Byte.to_N c <= 191 ->
    (Byte.to_N a = 224 -> 160 <= Byte.to_N b) -> (Byte.to_N a = 237 -> Byte.to_N b <= 159) ->
    utf8_char [a; b; c] ((Byte.to_N a - 224) * 4096 + (Byte.to_N b - 128) * 64 + (Byte.to_N c - 128))
| uc4 : forall a b c d, 240 <= Byte.to_N a <= 244 -> 128 <= Byte.to_N b <= 191 ->
    128 <= Byte.to_N c <= 191 -> 128 <= Byte.to_N d <= 191 ->
    (Byte.to_N a = 240 -> 144 <= Byte.to_N b) -> (Byte.to_N a = 244 -> Byte.to_N b <= 143) ->
    utf8_char [a; b; c; d]
      ((Byte.to_N a - 240) * 262144 + (Byte.to_N b - 128) * 4096
       + (Byte.to_N c - 128) * 64 + (Byte.to_N d - 128)).

Ltac boolh := repeat match goal with
  | H : _ && _ = true |- _ => apply andb_prop in H as [? ?]
  | H : in_range _ _ _ = true |- _ => apply in_range_iff in H
  | H : is_cont _ = true |- _ => apply in_range_iff in H
  end.

Lemma in_range_false : forall lo hi b, in_range lo hi b = false <-> ~ (lo <= Byte.to_N b /\ Byte.to_N b <= hi).
Proof. intros. rewrite <- in_range_iff. destruct (in_range lo hi b); split; congruence. Qed.

Lemma utf8_valid_step : forall bs, utf8_valid bs = true ->
  bs = [] \/ exists c n t, bs = c ++ t /\ utf8_char c n /\ utf8_valid t = true.
Proof.
  intros [|a t] H; [left; reflexivity|right].
  cbn [utf8_valid] in H.
  destruct (in_range 0 127 a) eqn:E1.
  { exists [a], (Byte.to_N a), t. boolh. repeat split; auto. constructor; lia. }
  destruct (in_range 194 223 a) eqn:E2.
  { destruct t as [|b t]; [discriminate|]. boolh.
    exists [a; b]. eexists. exists t. repeat split; auto. constructor; lia. }
  destruct (in_range 224 239 a) eqn:E3.
  { destruct t as [|b [|c t]]; try discriminate.
    apply andb_prop in H as [H H3]. apply andb_prop in H as [H H2].
    apply in_range_iff in E3. apply in_range_iff in H2.
    assert (Hb : 128 <= Byte.to_N b <= 191 /\ (Byte.to_N a = 224 -> 160 <= Byte.to_N b)
                 /\ (Byte.to_N a = 237 -> Byte.to_N b <= 159)).
    { repeat (apply orb_prop in H as [H|H]); boolh; lia. }
    destruct Hb as (Hb1 & Hb2 & Hb3).
    exists [a; b; c]. eexists. exists t. repeat split; auto. constructor; auto; lia. }
  destruct (in_range 240 244 a) eqn:E4; [|discriminate].
  { destruct t as [|b [|c [|d t]]]; try discriminate.
    apply andb_prop in H as [H H4]. apply andb_prop in H as [H H3]. apply andb_prop in H as [H H2].
    apply in_range_iff in E4. apply in_range_iff in H2. apply in_range_iff in H3.
    assert (Hb : 128 <= Byte.to_N b <= 191 /\ (Byte.to_N a = 240 -> 144 <= Byte.to_N b)
                 /\ (Byte.to_N a = 244 -> Byte.to_N b <= 143)).
    { repeat (apply orb_prop in H as [H|H]); boolh; lia. }
    destruct Hb as (Hb1 & Hb2 & Hb3).
    exists [a; b; c; d]. eexists. exists t. repeat split; auto. constructor; auto; lia. }
Qed.

Ltac ranges := repeat match goal with
  | |- context [in_range ?lo ?hi ?b] =>
      first [ let H := fresh in
              assert (H : in_range lo hi b = true) by (apply in_range_iff; lia); rewrite H; clear H
            | let H := fresh in
              assert (H : in_range lo hi b = false) by (apply in_range_false; lia); rewrite H; clear H ]
  end.

Lemma utf8_valid_char : forall c n t, utf8_char c n -> utf8_valid (c ++ t) = utf8_valid t.
Proof.
  intros c n t H. inversion H; subst; cbn [app utf8_valid]; unfold is_cont; ranges; try reflexivity.
  - assert (Byte.to_N a = 224 \/ (225 <= Byte.to_N a <= 236) \/ Byte.to_N a = 237 \/ (238 <= Byte.to_N a))
      as [?|[?|[?|?]]] by lia; ranges; reflexivity.
  - assert (Byte.to_N a = 240 \/ (241 <= Byte.to_N a <= 243) \/ Byte.to_N a = 244)
      as [?|[?|?]] by lia; ranges; reflexivity.
Qed.

Lemma utf8_char_encode : forall c n, utf8_char c n -> scalar_value n /\ utf8_encode n = wire c.
Proof.
  intros c n H. unfold scalar_value, utf8_encode. inversion H; subst; cbn [wire map].
  - destruct (Byte.to_N a <=? 127) eqn:E; [|lia]. split; [lia|reflexivity].
  - set (x := Byte.to_N a) in *. set (y := Byte.to_N b) in *. clearbody x y.
    destruct ((x - 192) * 64 + (y - 128) <=? 127) eqn:E; [lia|].
    destruct ((x - 192) * 64 + (y - 128) <=? 2047) eqn:E2; [|lia].
    split; [lia|]. repeat f_equal; lia.
  - set (x := Byte.to_N a) in *. set (y := Byte.to_N b) in *. set (z := Byte.to_N c0) in *. clearbody x y z.
    set (v := (x - 224) * 4096 + (y - 128) * 64 + (z - 128)).
    assert (2048 <= v) by (subst v; lia).
    assert (v <= 65535) by (subst v; lia).
    destruct (v <=? 127) eqn:E; [lia|].
    destruct (v <=? 2047) eqn:E2; [lia|].
    destruct (v <=? 65535) eqn:E3; [|lia].
    split; [subst v; lia|]. repeat f_equal; subst v; lia.
  - set (x := Byte.to_N a) in *. set (y := Byte.to_N b) in *. set (z := Byte.to_N c0) in *.
    set (w := Byte.to_N d) in *. clearbody x y z w.
    set (v := (x - 240) * 262144 + (y - 128) * 4096 + (z - 128) * 64 + (w - 128)).
    assert (65536 <= v) by (subst v; lia).
    assert (v <= 1114111) by (subst v; lia).
    destruct (v <=? 127) eqn:E; [lia|].
    destruct (v <=? 2047) eqn:E2; [lia|].
    destruct (v <=? 65535) eqn:E3; [lia|].
    split; [lia|]. repeat f_equal; subst v; lia.
Qed.

Lemma wire_b8 : forall l, Forall (fun n => n < 256) l -> wire (map b8 l) = l.
Proof.
  induction 1; cbn; [reflexivity|]. rewrite to_N_b8, N.mod_small by assumption. f_equal. exact IHForall.
Qed.

Lemma encode_char : forall n, scalar_value n ->
  exists c, utf8_char c n /\ wire c = utf8_encode n.
Proof.
  intros n H. unfold scalar_value in H.
  assert (G : forall m, m < 256 -> Byte.to_N (b8 m) = m) by (intros; rewrite to_N_b8; apply N.mod_small; auto).
  unfold utf8_encode.
  destruct (n <=? 127) eqn:E1.
  { exists [b8 n]. split; [|cbn; rewrite G by lia; reflexivity].
    assert (X : Byte.to_N (b8 n) = n) by (apply G; lia).
    rewrite <- X at 2. constructor. lia. }
  destruct (n <=? 2047) eqn:E2.
  { exists [b8 (192 + n / 64); b8 (128 + n mod 64)].
    assert (X : Byte.to_N (b8 (192 + n / 64)) = 192 + n / 64) by (apply G; lia).
    assert (Y : Byte.to_N (b8 (128 + n mod 64)) = 128 + n mod 64) by (apply G; lia).
    split; [|cbn [wire map]; rewrite X, Y; reflexivity].
    replace n with ((Byte.to_N (b8 (192 + n / 64)) - 192) * 64 + (Byte.to_N (b8 (128 + n mod 64)) - 128)) at 3.
    - constructor; lia.
    - rewrite X, Y. lia. }
  destruct (n <=? 65535) eqn:E3.
  { set (x := 224 + n / 4096). set (y := 128 + n / 64 mod 64). set (z := 128 + n mod 64).
    assert (X : Byte.to_N (b8 x) = x) by (apply G; subst x; lia).
    assert (Y : Byte.to_N (b8 y) = y) by (apply G; subst y; lia).
    assert (Z : Byte.to_N (b8 z) = z) by (apply G; subst z; lia).
    exists [b8 x; b8 y; b8 z].
    split; [|cbn [wire map]; rewrite X, Y, Z; reflexivity].
    replace n with ((Byte.to_N (b8 x) - 224) * 4096 + (Byte.to_N (b8 y) - 128) * 64 + (Byte.to_N (b8 z) - 128)).
    - constructor; rewrite ?X, ?Y, ?Z; subst x y z; lia.
    - rewrite X, Y, Z. subst x y z. lia. }
  { set (x := 240 + n / 262144). set (y := 128 + n / 4096 mod 64).
    set (z := 128 + n / 64 mod 64). set (w := 128 + n mod 64).
    assert (X : Byte.to_N (b8 x) = x) by (apply G; subst x; lia).
    assert (Y : Byte.to_N (b8 y) = y) by (apply G; subst y; lia).
    assert (Z : Byte.to_N (b8 z) = z) by (apply G; subst z; lia).
    assert (W : Byte.to_N (b8 w) = w) by (apply G; subst w; lia).
    exists [b8 x; b8 y; b8 z; b8 w].
    split; [|cbn [wire map]; rewrite X, Y, Z, W; reflexivity].
    replace n with ((Byte.to_N (b8 x) - 240) * 262144 + (Byte.to_N (b8 y) - 128) * 4096
       + (Byte.to_N (b8 z) - 128) * 64 + (Byte.to_N (b8 w) - 128)).
    - constructor; rewrite ?X, ?Y, ?Z, ?W; subst x y z w; lia.
    - rewrite X, Y, Z, W. subst x y z w. lia. }
Qed.

Lemma utf8_char_nonempty : forall c n, utf8_char c n -> (0 < length c)%nat.
Proof. intros c n H; inversion H; cbn; lia. Qed.

Theorem utf8_valid_iff : forall bs, utf8_valid bs = true <-> utf8_text bs.
Proof.
  intros bs; split.
  - assert (G : forall k bs, (length bs <= k)%nat -> utf8_valid bs = true -> utf8_text bs).
    { induction k; intros l Hl Hv.
      - destruct l; [|cbn in Hl; lia]. exists []. split; [constructor|reflexivity].
      - destruct (utf8_valid_step l Hv) as [->|(c & n & t & -> & Hc & Ht)].
        + exists []. split; [constructor|reflexivity].
        + pose proof (utf8_char_nonempty _ _ Hc). rewrite app_length in Hl.
          destruct (IHk t) as (cs & Hcs & Ecs); [lia|assumption|].
          destruct (utf8_char_encode _ _ Hc) as [Hn En].
          exists (n :: cs). split; [constructor; auto|].
          rewrite wire_app, Ecs. cbn [flat_map]. rewrite En. reflexivity. }
    apply (G (length bs)). lia.
  - intros (cs & Hcs & E). revert bs E. induction Hcs as [|n cs Hn Hcs IH]; intros bs E.
    + destruct bs; [reflexivity|discriminate].
    + cbn [flat_map] in E. destruct (encode_char n Hn) as (c & Hc & Ec).
      rewrite <- Ec in E.
      destruct (split_at _ (len c) bs) as (c' & t & -> & Hl).
      { assert (X : len (wire bs) = len (wire c ++ flat_map utf8_encode cs)) by (rewrite E; reflexivity).
        rewrite len_app, !len_wire in X. lia. }
      rewrite wire_app in E. apply app_inj_len in E as [E1 E2]; [|rewrite !len_wire; exact Hl].
      apply wire_inj in E1. subst c'.
      rewrite (utf8_valid_char c n t Hc). apply IH, E2.
Qed.
