(** * Field25519: 2^255 - 19 is prime; the arithmetic of [Crypto.v] is its field. *)
From Coq Require Import ZArith Znumtheory Lia ZifyBool ZifyNat ZifyN Eqdep_dec Ring_theory Ring Field_theory Field.
From Verif Require Import Base Noise Crypto X25519Facts NumberTheory.
Open Scope N_scope.

(** ** Powers *)
Lemma fpow_pos_spec : forall e a, a < p -> fpow_pos a e < p /\ fpow_pos a e = a ^ Npos e mod p.
Proof.
  assert (P0 : p <> 0) by discriminate.
  induction e as [e IH|e IH|]; intros a Ha; cbn [fpow_pos].
  - destruct (IH a Ha) as [L E]. split; [repeat (apply fmul_lt; try assumption)|].
    rewrite fmul_mod by (try apply fmul_lt; assumption). rewrite fmul_mod by assumption.
    rewrite E, <- N.mul_mod, N.mul_mod_idemp_r by exact P0. f_equal.
    replace (Npos e~1) with (N.succ (Npos e + Npos e)) by lia. rewrite N.pow_succ_r', N.pow_add_r. reflexivity.
  - destruct (IH a Ha) as [L E]. split; [apply fmul_lt; assumption|].
    rewrite fmul_mod by assumption. rewrite E, <- N.mul_mod by exact P0. f_equal.
    replace (Npos e~0) with (Npos e + Npos e) by lia. rewrite N.pow_add_r. reflexivity.
  - split; [assumption|]. rewrite N.pow_1_r, N.mod_small by assumption. reflexivity.
Qed.
Lemma fpow_pos_Z : forall e a, a < p -> (Z.of_N a ^ Zpos e mod Z.of_N p)%Z = Z.of_N (fpow_pos a e).
Proof.
  intros e a H. destruct (fpow_pos_spec e a H) as [_ ->].
  rewrite N2Z.inj_mod, N2Z.inj_pow by discriminate. reflexivity.
Qed.

Theorem prime_p : prime (Z.of_N p).
Proof.
  apply (pocklington_one (Z.of_N p) 2 74058212732561358302231226437062788676166966415465897661863160754340907 781764).
  - reflexivity.
  - exact prime_74058212732561358302231226437062788676166966415465897661863160754340907.
  - discriminate.
  - reflexivity.
  - reflexivity.
  - change (Z.of_N p - 1)%Z with (Zpos 57896044618658097711785492504343953926634992332820282019728792003956564819948).
    change 2%Z with (Z.of_N 2). rewrite fpow_pos_Z by reflexivity. vm_compute. reflexivity.
  - rewrite (fpow_pos_Z 781764 2 eq_refl : (2 ^ 781764 mod Z.of_N p)%Z = _). vm_compute. reflexivity.
Qed.

Theorem fermat_p : forall a, 0 < a < p -> fpow_pos a 57896044618658097711785492504343953926634992332820282019728792003956564819948 = 1.
Proof.
  intros a H. apply N2Z.inj. rewrite <- fpow_pos_Z by lia.
  change (Zpos 57896044618658097711785492504343953926634992332820282019728792003956564819948) with (Z.of_N p - 1)%Z.
  apply fermat; [exact prime_p|]. intro D. apply Z.divide_pos_le in D; lia.
Qed.
Lemma finv_lt : forall a, a < p -> finv a < p.
Proof. intros a H. apply fpow_pos_spec. exact H. Qed.
Lemma finv_l : forall a, 0 < a < p -> fmul (finv a) a = 1.
Proof.
  intros a H. rewrite <- (fermat_p a H). unfold finv.
  rewrite fmul_mod by (try apply fpow_pos_spec; lia).
  destruct (fpow_pos_spec 57896044618658097711785492504343953926634992332820282019728792003956564819947 a) as [_ ->]; [lia|].
  destruct (fpow_pos_spec 57896044618658097711785492504343953926634992332820282019728792003956564819948 a) as [_ ->]; [lia|].
  rewrite N.mul_mod_idemp_l by discriminate. f_equal. rewrite N.mul_comm, <- N.pow_succ_r'. reflexivity.
Qed.

(** ** The field as a type *)
Record fe := mkfe { fv : N; fv_ok : (fv <? p) = true }.
Lemma fe_eq : forall a b, fv a = fv b -> a = b.
Proof. intros [a A] [b B] E. cbn in E. subst b. f_equal. apply UIP_dec. decide equality. Qed.
Lemma fe_lt : forall a, fv a < p.
Proof. intro a. apply N.ltb_lt. apply fv_ok. Qed.
Definition fe_dec (a b : fe) : {a = b} + {a <> b}.
Proof.
  destruct (N.eq_dec (fv a) (fv b)) as [E|E].
  - left. apply fe_eq. exact E.
  - right. intro H. apply E. rewrite H. reflexivity.
Defined.

Lemma mul_ok : forall a b, (fmul (fv a) (fv b) <? p) = true.
Proof. intros. apply N.ltb_lt. apply fmul_lt; apply fe_lt. Qed.
Lemma add_ok : forall a b, (fadd (fv a) (fv b) <? p) = true.
Proof. intros. apply N.ltb_lt. apply fadd_lt; apply fe_lt. Qed.
Lemma sub_ok : forall a b, (fsub (fv a) (fv b) <? p) = true.
Proof. intros. apply N.ltb_lt. apply fsub_lt; apply fe_lt. Qed.
Lemma inv_ok : forall a, (finv (fv a) <? p) = true.
Proof. intros. apply N.ltb_lt. apply finv_lt; apply fe_lt. Qed.
Definition f0 : fe := mkfe 0 eq_refl.
Definition f1 : fe := mkfe 1 eq_refl.
Definition mul (a b : fe) : fe := mkfe (fmul (fv a) (fv b)) (mul_ok a b).
Definition add (a b : fe) : fe := mkfe (fadd (fv a) (fv b)) (add_ok a b).
Definition sub (a b : fe) : fe := mkfe (fsub (fv a) (fv b)) (sub_ok a b).
Definition opp (a : fe) : fe := sub f0 a.
Definition inv (a : fe) : fe := mkfe (finv (fv a)) (inv_ok a).
Definition div (a b : fe) : fe := mul a (inv b).

Lemma fv_mul : forall a b, fv (mul a b) = fv a * fv b mod p.
Proof. intros. apply fmul_mod; apply fe_lt. Qed.
Lemma fv_add : forall a b, fv (add a b) = (fv a + fv b) mod p.
Proof. intros. apply fadd_mod; apply fe_lt. Qed.
Lemma fv_sub : forall a b, fv (sub a b) = (fv a + p - fv b) mod p.
Proof. intros. apply fsub_mod; apply fe_lt. Qed.

Lemma P0 : p <> 0. Proof. discriminate. Qed.
Theorem fe_ring : ring_theory f0 f1 add mul sub opp (@eq fe).
Proof.
  split.
  - intro a. apply fe_eq. rewrite fv_add. cbn [f0 fv]. rewrite N.add_0_l. apply N.mod_small, fe_lt.
  - intros a b. apply fe_eq. rewrite !fv_add, N.add_comm. reflexivity.
  - intros a b c. apply fe_eq. rewrite !fv_add, N.add_mod_idemp_r, N.add_mod_idemp_l, N.add_assoc by exact P0. reflexivity.
  - intro a. apply fe_eq. rewrite fv_mul. cbn [f1 fv]. rewrite N.mul_1_l. apply N.mod_small, fe_lt.
  - intros a b. apply fe_eq. rewrite !fv_mul, N.mul_comm. reflexivity.
  - intros a b c. apply fe_eq. rewrite !fv_mul, N.mul_mod_idemp_r, N.mul_mod_idemp_l, N.mul_assoc by exact P0. reflexivity.
  - intros a b c. apply fe_eq. rewrite !fv_mul, !fv_add, !fv_mul, N.mul_mod_idemp_l, <- N.add_mod, N.mul_add_distr_r by exact P0. reflexivity.
  - intros a b. apply fe_eq. unfold opp. rewrite fv_add, !fv_sub. cbn [f0 fv]. rewrite N.add_mod_idemp_r by exact P0.
    pose proof (fe_lt b). f_equal. lia.
  - intro a. apply fe_eq. unfold opp. rewrite fv_add, fv_sub. cbn [f0 fv]. rewrite N.add_mod_idemp_r by exact P0.
    pose proof (fe_lt a). replace (fv a + (0 + p - fv a)) with (1 * p) by lia. apply N.mod_mul. exact P0.
Qed.
Theorem fe_field : field_theory f0 f1 add mul sub opp div inv (@eq fe).
Proof.
  split.
  - exact fe_ring.
  - intro H. apply (f_equal fv) in H. discriminate H.
  - reflexivity.
  - intros a H. apply fe_eq. cbn [mul inv fv f1]. apply finv_l. pose proof (fe_lt a).
    assert (fv a <> 0) by (intro Z; apply H, fe_eq; exact Z). lia.
Qed.
Lemma inv_f0 : inv f0 = f0.
Proof. apply fe_eq. exact finv_0. Qed.

(** Euler: the square of an element has power (p-1)/2 equal to 0 or 1. *)
Lemma fv_pow_pos : forall e a, a < p -> fpow_pos (fmul a a) e = fpow_pos a e~0.
Proof.
  intros e a H. assert (fmul a a < p) by (apply fmul_lt; exact H).
  destruct (fpow_pos_spec e (fmul a a) H0) as [_ ->]. destruct (fpow_pos_spec e~0 a H) as [_ ->].
  rewrite fmul_mod by exact H. rewrite <- (N.mod_mod _ _ P0).
  assert (Q : forall n, (a * a mod p) ^ n mod p = (a * a) ^ n mod p).
  { intro n. induction n as [|n IH] using N.peano_ind; [reflexivity|].
    rewrite !N.pow_succ_r', N.mul_mod, IH, N.mod_mod, <- N.mul_mod by exact P0. reflexivity. }
  rewrite N.mod_mod, Q by exact P0. f_equal.
  replace (Npos e~0) with (Npos e + Npos e) by lia. rewrite N.pow_mul_l, N.pow_add_r. reflexivity.
Qed.
Theorem euler_nonsquare : forall c : fe,
  fpow_pos (fv c) 28948022309329048855892746252171976963317496166410141009864396001978282409974 = p - 1 ->
  forall s, mul s s <> c.
Proof.
  intros c E s H. subst c. cbn [mul fv] in E. rewrite fv_pow_pos in E by apply fe_lt.
  destruct (N.eq_dec (fv s) 0) as [Z|Z].
  - rewrite Z in E. revert E. vm_compute. discriminate.
  - pose proof (fe_lt s). rewrite fermat_p in E by lia. revert E. vm_compute. discriminate.
Qed.
