(** * BaseFacts: lemmas on bytes, little-endian integers, lists. *)
From Verif Require Import Base SpecWire.
From Coq Require Export Lia ZArith ZifyBool ZifyNat ZifyN.
From Coq Require Import Strings.Byte.
Ltac Zify.zify_post_hook ::= Z.div_mod_to_equations.

Lemma to_N_lt : forall b, Byte.to_N b < 256.
Proof. intros b. pose proof (Byte.to_N_bounded b). lia. Qed.

Lemma to_N_b8 : forall v, Byte.to_N (b8 v) = v mod 256.
Proof.
  intros v. unfold b8.
  assert (H : v mod 256 < 256) by (apply N.mod_lt; lia).
  destruct (Byte.of_N (v mod 256)) eqn:E.
  - apply Byte.to_of_N_iff in E. rewrite E. reflexivity || auto.
  - apply Byte.of_N_None_iff in E. lia.
Qed.

Lemma to_N_inj : forall a b, Byte.to_N a = Byte.to_N b -> a = b.
Proof.
  intros a b H. assert (Some a = Some b) as E.
  { rewrite <- (Byte.of_to_N a), <- (Byte.of_to_N b), H. reflexivity. }
  injection E; auto.
Qed.

Lemma b8_to_N : forall b, b8 (Byte.to_N b) = b.
Proof.
  intros b. apply to_N_inj. rewrite to_N_b8. apply N.mod_small, to_N_lt.
Qed.

Lemma b8_add_mul : forall b v, b8 (Byte.to_N b + 256 * v) = b.
Proof.
  intros b v. apply to_N_inj. rewrite to_N_b8.
  pose proof (to_N_lt b). lia.
Qed.

Lemma byte_eqb_iff : forall a b, Byte.eqb a b = true <-> a = b.
Proof.
  intros a b; split; intros H.
  - apply Byte.byte_dec_bl, H.
  - apply Byte.byte_dec_lb, H.
Qed.

Lemma bytes_eqb_iff : forall a b, bytes_eqb a b = true <-> a = b.
Proof.
  induction a as [|x a IH]; intros [|y b]; simpl; split; intros H; try easy.
  - apply andb_prop in H as [H1 H2]. apply byte_eqb_iff in H1. apply IH in H2. congruence.
  - injection H as -> ->. apply andb_true_intro; split; [apply byte_eqb_iff|apply IH]; reflexivity.
Qed.

Lemma bytes_eqb_refl : forall a, bytes_eqb a a = true.
Proof. intros; apply bytes_eqb_iff; reflexivity. Qed.

Lemma len_nil : forall A, len (@nil A) = 0.
Proof. reflexivity. Qed.
Lemma len_cons : forall A (x : A) l, len (x :: l) = 1 + len l.
Proof. intros; unfold len; simpl length; lia. Qed.
Lemma len_app : forall A (a b : list A), len (a ++ b) = len a + len b.
Proof. intros; unfold len; rewrite app_length; lia. Qed.
Lemma len_0 : forall A (l : list A), len l = 0 -> l = [].
Proof. intros A [|x l]; auto. rewrite len_cons; lia. Qed.
Lemma len_map : forall A B (f : A -> B) l, len (map f l) = len l.
Proof. intros; unfold len; rewrite map_length; reflexivity. Qed.
Lemma len_repeat : forall A (x : A) n, len (repeat x n) = N.of_nat n.
Proof. intros; unfold len; rewrite repeat_length; reflexivity. Qed.

Lemma len_to_le : forall k v, len (to_le k v) = N.of_nat k.
Proof.
  induction k; intros v; [reflexivity|]. simpl to_le. rewrite len_cons, IHk. lia.
Qed.
Lemma length_to_le : forall k v, length (to_le k v) = k.
Proof. intros. pose proof (len_to_le k v). unfold len in H. lia. Qed.

Lemma pow256_S : forall k, 256 ^ N.of_nat (S k) = 256 * 256 ^ N.of_nat k.
Proof. intros. rewrite Nat2N.inj_succ, N.pow_succ_r'. reflexivity. Qed.

Lemma of_le_to_le : forall k v, v < 256 ^ N.of_nat k -> of_le (to_le k v) = v.
Proof.
  induction k; intros v H.
  - simpl in *. lia.
  - rewrite pow256_S in H. cbn [to_le of_le]. rewrite to_N_b8, IHk.
    + lia.
    + apply N.div_lt_upper_bound; lia.
Qed.

Lemma of_le_bound : forall bs, of_le bs < 256 ^ len bs.
Proof.
  induction bs as [|b bs IH].
  - cbn. lia.
  - unfold len in *. simpl length. rewrite pow256_S. cbn [of_le].
    pose proof (to_N_lt b). lia.
Qed.

Lemma to_le_of_le : forall bs, to_le (length bs) (of_le bs) = bs.
Proof.
  induction bs as [|b bs IH]; [reflexivity|].
  cbn [length to_le of_le]. rewrite b8_add_mul. f_equal.
  pose proof (to_N_lt b).
  replace ((Byte.to_N b + 256 * of_le bs) / 256) with (of_le bs) by lia.
  exact IH.
Qed.

Lemma of_le_spec_val : forall bs, of_le bs = spec_val (wire bs).
Proof. induction bs; cbn; [reflexivity|]. rewrite IHbs. reflexivity. Qed.

Lemma wire_app : forall a b, wire (a ++ b) = wire a ++ wire b.
Proof. intros; apply map_app. Qed.
Lemma len_wire : forall a, len (wire a) = len a.
Proof. intros; apply len_map. Qed.
Lemma wire_inj : forall a b, wire a = wire b -> a = b.
Proof.
  induction a as [|x a IH]; intros [|y b] H; try discriminate; auto.
  cbn in H. injection H as H1 H2. apply to_N_inj in H1. f_equal; auto.
Qed.

Lemma wire_to_le : forall k v, wire (to_le k v) = spec_le k v.
Proof.
  assert (G : forall k v s, wire (to_le k (v / 256 ^ N.of_nat s))
            = map (fun i => (v / 256 ^ N.of_nat i) mod 256) (seq s k)).
  { induction k; intros v s; [reflexivity|].
    cbn [to_le wire map seq]. rewrite to_N_b8. f_equal.
    fold (wire (to_le k (v / 256 ^ N.of_nat s / 256))).
    rewrite N.div_div by (try apply N.pow_nonzero; lia).
    rewrite (N.mul_comm _ 256), <- pow256_S. apply IHk. }
  intros k v. specialize (G k v 0%nat). cbn [N.of_nat] in G.
  rewrite N.pow_0_r, N.div_1_r in G. exact G.
Qed.

Lemma firstn_to_le : forall j k v, (j <= k)%nat -> firstn j (to_le k v) = to_le j v.
Proof.
  induction j; intros k v H; [reflexivity|].
  destruct k; [lia|]. cbn [to_le firstn]. f_equal. apply IHj. lia.
Qed.

Lemma firstn_len_app : forall A (a b : list A), firstn (N.to_nat (len a)) (a ++ b) = a.
Proof.
  intros. unfold len. rewrite Nat2N.id, firstn_app, Nat.sub_diag, firstn_all.
  simpl. apply app_nil_r.
Qed.
Lemma skipn_len_app : forall A (a b : list A), skipn (N.to_nat (len a)) (a ++ b) = b.
Proof.
  intros. unfold len. rewrite Nat2N.id, skipn_app, Nat.sub_diag, skipn_all. reflexivity.
Qed.
Lemma len_firstn : forall A n (l : list A), n <= len l -> len (firstn (N.to_nat n) l) = n.
Proof. intros A n l H. unfold len in *. rewrite firstn_length. lia. Qed.
Lemma split_at : forall A n (l : list A), n <= len l ->
  exists a b, l = a ++ b /\ len a = n.
Proof.
  intros A n l H. exists (firstn (N.to_nat n) l), (skipn (N.to_nat n) l).
  rewrite firstn_skipn. split; [reflexivity|apply len_firstn, H].
Qed.
Lemma app_inj_len : forall A (a b c d : list A), len a = len c -> a ++ b = c ++ d -> a = c /\ b = d.
Proof.
  induction a as [|x a IH]; intros b [|y c] d H E; rewrite ?len_cons, ?len_nil in H; try lia; auto.
  simpl in E. injection E as -> E. destruct (IH b c d) as [-> ->]; auto. lia.
Qed.
