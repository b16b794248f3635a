(** * NumberTheory: Fermat's little theorem, Pocklington's criterion, and a large prime factor of 2^255 - 20. *)
From Coq Require Import Bool ZArith Znumtheory Zpow_facts List Permutation Lia.
Import ListNotations.
Local Open Scope Z_scope.

Lemma mod_eq_divide : forall p a b, 0 < p -> a mod p = b mod p -> (p | a - b).
Proof.
  intros p a b H E. apply Z.mod_divide; [lia|]. rewrite Zminus_mod, E, Z.sub_diag. apply Z.mod_0_l. lia.
Qed.
Lemma divide_mod_eq : forall p a b, 0 < p -> (p | a - b) -> a mod p = b mod p.
Proof.
  intros p a b H [k E]. replace a with (b + k * p) by lia. apply Z_mod_plus_full.
Qed.

(** ** Fermat *)
Definition prod (l : list Z) : Z := fold_right Z.mul 1 l.
Lemma prod_perm : forall l l', Permutation l l' -> prod l = prod l'.
Proof.
  intros l l' H. unfold prod. induction H; cbn [fold_right]; [reflexivity|rewrite IHPermutation; reflexivity|ring|congruence].
Qed.
Lemma prod_scaled : forall p a l, prod (map (fun x => a * x mod p) l) mod p = (a ^ Z.of_nat (length l) * prod l) mod p.
Proof.
  intros p a l. induction l as [|x l IH]; [reflexivity|].
  cbn [map prod fold_right]. fold (prod (map (fun x => a * x mod p) l)). fold (prod l).
  rewrite Zmult_mod, IH, Zmod_mod. cbn [length]. rewrite Nat2Z.inj_succ, Z.pow_succ_r by lia.
  rewrite <- Zmult_mod. f_equal. ring.
Qed.
Lemma prime_prod : forall p l, prime p -> (p | prod l) -> exists x, In x l /\ (p | x).
Proof.
  intros p l HP. induction l as [|x l IH]; cbn; intro D.
  - destruct HP as [H1 _]. apply Z.divide_1_r_nonneg in D; lia.
  - destruct (prime_mult p HP _ _ D) as [H|H]; [exists x; auto|].
    destruct (IH H) as [y [Y1 Y2]]. exists y; auto.
Qed.
Theorem fermat : forall p a, prime p -> ~ (p | a) -> a ^ (p - 1) mod p = 1.
Proof.
  intros p a HP NA. pose proof (prime_ge_2 p HP) as P2.
  set (l := map Z.of_nat (seq 1 (Z.to_nat (p - 1)))).
  assert (IL : forall x, In x l <-> 1 <= x < p).
  { intro x. unfold l. rewrite in_map_iff. split.
    - intros [n [E I]]. apply in_seq in I. lia.
    - intro H. exists (Z.to_nat x). split; [lia|]. apply in_seq. lia. }
  assert (LL : Z.of_nat (length l) = p - 1) by (unfold l; rewrite map_length, seq_length; lia).
  assert (ND : NoDup l).
  { unfold l. apply FinFun.Injective_map_NoDup; [intros x y E; lia|apply seq_NoDup]. }
  assert (PE : Permutation (map (fun x => a * x mod p) l) l).
  { apply NoDup_Permutation_bis.
    - assert (G : forall m, NoDup m -> (forall x, In x m -> 1 <= x < p) -> NoDup (map (fun x => a * x mod p) m)).
      { induction m as [|x m IH]; intros N1 H; cbn; [constructor|]. inversion N1 as [|? ? N2 N3]; subst.
        constructor; [|apply IH; [exact N3|intros; apply H; right; assumption]].
        intro I. apply in_map_iff in I. destruct I as [y [E I]].
        apply mod_eq_divide in E; [|lia]. replace (a * y - a * x) with (a * (y - x)) in E by ring.
        destruct (prime_mult p HP _ _ E) as [D|D]; [exact (NA D)|].
        destruct D as [k D]. pose proof (H x (or_introl eq_refl)). pose proof (H y (or_intror I)).
        assert (k = 0) by nia. assert (y = x) by lia. subst y. exact (N2 I). }
      apply G; [exact ND|]. intros x I. apply IL. exact I.
    - rewrite map_length. lia.
    - intros y I. apply in_map_iff in I. destruct I as [x [E I]]. apply IL in I. subst y. apply IL.
      pose proof (Z.mod_pos_bound (a * x) p ltac:(lia)).
      destruct (Z.eq_dec (a * x mod p) 0) as [Z0|Z0]; [|lia]. exfalso.
      apply Z.mod_divide in Z0; [|lia]. destruct (prime_mult p HP _ _ Z0) as [D|D]; [exact (NA D)|].
      destruct D as [k D]. assert (k = 0) by nia. lia. }
  pose proof (prod_scaled p a l) as E. rewrite (prod_perm _ _ PE), LL in E.
  apply mod_eq_divide in E; [|lia]. replace (prod l - a ^ (p - 1) * prod l) with ((1 - a ^ (p - 1)) * prod l) in E by ring.
  destruct (prime_mult p HP _ _ E) as [D|D].
  - replace 1 with (1 mod p) at 2 by (apply Z.mod_small; lia). symmetry. apply divide_mod_eq; [lia|exact D].
  - exfalso. destruct (prime_prod p l HP D) as [x [I [k X]]]. apply IL in I. assert (k = 0) by nia. lia.
Qed.

(** ** Exponents *)
Lemma pow_one_mul : forall r a x k, 1 < r -> 0 <= x -> 0 <= k -> a ^ x mod r = 1 -> a ^ (x * k) mod r = 1.
Proof.
  intros r a x k R X K H. rewrite Z.pow_mul_r by lia. rewrite Zpower_mod, H by lia.
  rewrite Z.pow_1_l by lia. apply Z.mod_small. lia.
Qed.
Lemma pow_one_gcd : forall r a, 1 < r -> forall n x y, (Z.to_nat y <= n)%nat -> 0 <= x -> 0 <= y ->
  a ^ x mod r = 1 -> a ^ y mod r = 1 -> a ^ (Z.gcd x y) mod r = 1.
Proof.
  intros r a R. induction n as [|n IH]; intros x y N X Y AX AY.
  - replace y with 0 by lia. rewrite Z.gcd_0_r, Z.abs_eq by lia. exact AX.
  - destruct (Z.eq_dec y 0) as [->|NY]; [rewrite Z.gcd_0_r, Z.abs_eq by lia; exact AX|].
    rewrite Z.gcd_comm, <- Z.gcd_mod, Z.gcd_comm by lia.
    pose proof (Z.mod_pos_bound x y ltac:(lia)). pose proof (Z.div_pos x y X ltac:(lia)).
    apply IH; [lia|lia|lia|exact AY|].
    rewrite (Z.div_mod x y NY) in AX. rewrite Z.pow_add_r in AX by nia.
    rewrite Zmult_mod, (pow_one_mul r a y (x / y) R Y ltac:(lia) AY), Z.mul_1_l, Zmod_mod in AX. exact AX.
Qed.

(** ** Prime divisors *)
Lemma prime_divisor : forall n, 1 < n -> exists r, prime r /\ (r | n).
Proof.
  intros n. assert (G : forall k m, (Z.to_nat m <= k)%nat -> 1 < m -> exists r, prime r /\ (r | m)).
  { induction k as [|k IH]; intros m K M; [lia|].
    destruct (prime_dec m) as [P|P]; [exists m; split; [exact P|apply Z.divide_refl]|].
    destruct (not_prime_divide m M P) as [d [D1 D2]].
    destruct (IH d ltac:(lia) ltac:(lia)) as [r [R1 R2]]. exists r. split; [exact R1|].
    apply Z.divide_trans with d; assumption. }
  intro H. apply (G (Z.to_nat n) n); [lia|exact H].
Qed.
Lemma small_prime_divisor : forall n, 1 < n -> ~ prime n -> exists r, prime r /\ (r | n) /\ r * r <= n.
Proof.
  intros n H NP. destruct (not_prime_divide n H NP) as [d [D1 [e D2]]].
  destruct (Z.le_gt_cases (d * d) n) as [L|L].
  - destruct (prime_divisor d ltac:(lia)) as [r [R1 R2]]. exists r. split; [exact R1|].
    split; [apply Z.divide_trans with d; [exact R2|exists e; lia]|].
    pose proof (prime_ge_2 r R1). apply Z.divide_pos_le in R2; [|lia].
    apply Z.le_trans with (d * d); [apply Z.mul_le_mono_nonneg; lia|exact L].
  - assert (1 < e) by nia. destruct (prime_divisor e ltac:(lia)) as [r [R1 R2]]. exists r. split; [exact R1|].
    split; [apply Z.divide_trans with e; [exact R2|exists d; lia]|].
    pose proof (prime_ge_2 r R1). apply Z.divide_pos_le in R2; [|lia].
    apply Z.le_trans with (e * e); [apply Z.mul_le_mono_nonneg; lia|nia].
Qed.

(** ** Trial division *)
Fixpoint no_divisor (n d : Z) (fuel : nat) : bool :=
  match fuel with
  | O => n <? d * d
  | S f => if n <? d * d then true else if n mod d =? 0 then false else no_divisor n (d + 1) f
  end.
Lemma no_divisor_sound : forall n f d r, no_divisor n d f = true -> 2 <= d -> d <= r -> (r | n) -> r * r <= n -> False.
Proof.
  intros n f. induction f as [|f IH]; intros d r E D2 DR RN RR; cbn [no_divisor] in E.
  - apply Z.ltb_lt in E. nia.
  - destruct (n <? d * d) eqn:E1; [apply Z.ltb_lt in E1; nia|].
    destruct (n mod d =? 0) eqn:E2; [discriminate|]. apply Z.eqb_neq in E2.
    destruct (Z.eq_dec d r) as [->|NE].
    + apply E2. apply Z.mod_divide; [lia|exact RN].
    + apply (IH (d + 1) r E); lia || assumption.
Qed.
Lemma trial_prime : forall n f, 1 < n -> no_divisor n 2 f = true -> prime n.
Proof.
  intros n f N E. destruct (prime_dec n) as [P|P]; [exact P|exfalso].
  destruct (small_prime_divisor n N P) as [r [R1 [R2 R3]]].
  exact (no_divisor_sound n f 2 r E ltac:(lia) (prime_ge_2 r R1) R2 R3).
Qed.

(** ** Pocklington *)
Lemma pocklington_divisor : forall n a q m r, prime r -> (r | n) -> 1 < n -> prime q -> 0 <= m -> n - 1 = q * m ->
  a ^ (n - 1) mod n = 1 -> Z.gcd (a ^ m mod n - 1) n = 1 -> (q | r - 1).
Proof.
  intros n a q m r PR RN N PQ M NM A1 G. pose proof (prime_ge_2 r PR) as R2. pose proof (prime_ge_2 q PQ) as Q2.
  assert (TO : forall k, 0 <= k -> a ^ k mod n = 1 -> a ^ k mod r = 1).
  { intros k K E. replace 1 with (1 mod r) by (apply Z.mod_small; lia). apply divide_mod_eq; [lia|].
    apply Z.divide_trans with n; [exact RN|]. apply mod_eq_divide; [lia|].
    rewrite E. symmetry. apply Z.mod_small. lia. }
  assert (AR : a ^ (n - 1) mod r = 1) by (apply TO; [lia|exact A1]).
  assert (NA : ~ (r | a)).
  { intros [k ->]. rewrite Zpower_mod, Z_mod_mult, Z.pow_0_l, Z.mod_0_l in AR by lia. discriminate. }
  pose proof (fermat r a PR NA) as F.
  pose proof (pow_one_gcd r a ltac:(lia) (Z.to_nat (r - 1)) (n - 1) (r - 1) ltac:(lia) ltac:(lia) ltac:(lia) AR F) as AG.
  destruct (Zdivide_dec q (r - 1)) as [D|ND]; [exact D|exfalso].
  set (g := Z.gcd (n - 1) (r - 1)) in *.
  assert (G1 : (g | n - 1)) by apply Z.gcd_divide_l. assert (G2 : (g | r - 1)) by apply Z.gcd_divide_r.
  assert (GM : (g | m)).
  { rewrite NM in G1. apply Gauss with q; [exact G1|]. apply rel_prime_sym. apply prime_rel_prime; [exact PQ|].
    intro D. apply ND. apply Z.divide_trans with g; assumption. }
  destruct GM as [k GM]. assert (0 <= g) by apply Z.gcd_nonneg.
  assert (0 < g).
  { destruct (Z.eq_dec g 0) as [E|E]; [|lia]. destruct G2 as [z G2]. rewrite E in G2. lia. }
  assert (AM : a ^ m mod r = 1).
  { rewrite GM, Z.mul_comm. apply pow_one_mul; [lia|lia|nia|exact AG]. }
  assert (D : (r | Z.gcd (a ^ m mod n - 1) n)).
  { apply Z.gcd_greatest; [|exact RN].
    assert (D1 : (r | a ^ m - 1)) by (apply mod_eq_divide; [lia|rewrite AM; symmetry; apply Z.mod_small; lia]).
    assert (D2 : (r | a ^ m - a ^ m mod n)).
    { apply Z.divide_trans with n; [exact RN|]. apply mod_eq_divide; [lia|]. rewrite Zmod_mod. reflexivity. }
    replace (a ^ m mod n - 1) with ((a ^ m - 1) - (a ^ m - a ^ m mod n)) by ring. apply Z.divide_sub_r; assumption. }
  rewrite G in D. apply Z.divide_1_r_nonneg in D; lia.
Qed.
Lemma pocklington : forall n a q1 m1 q2 m2, 1 < n -> prime q1 -> prime q2 -> q1 <> q2 -> 0 <= m1 -> 0 <= m2 ->
  n - 1 = q1 * m1 -> n - 1 = q2 * m2 -> n < q1 * q2 * (q1 * q2) ->
  a ^ (n - 1) mod n = 1 -> Z.gcd (a ^ m1 mod n - 1) n = 1 -> Z.gcd (a ^ m2 mod n - 1) n = 1 -> prime n.
Proof.
  intros n a q1 m1 q2 m2 N P1 P2 NE M1 M2 E1 E2 B A G1 G2. destruct (prime_dec n) as [P|NP]; [exact P|exfalso].
  destruct (small_prime_divisor n N NP) as [r [R1 [R2 R3]]]. pose proof (prime_ge_2 r R1).
  pose proof (pocklington_divisor n a q1 m1 r R1 R2 N P1 M1 E1 A G1) as D1.
  pose proof (pocklington_divisor n a q2 m2 r R1 R2 N P2 M2 E2 A G2) as D2.
  pose proof (prime_ge_2 q1 P1). pose proof (prime_ge_2 q2 P2).
  assert (RP : rel_prime q1 q2).
  { apply prime_rel_prime; [exact P1|]. intro D. apply NE. apply prime_div_prime; assumption. }
  destruct D1 as [k D1]. rewrite D1, Z.mul_comm in D2. apply Gauss in D2; [|apply rel_prime_sym; exact RP].
  destruct D2 as [j D2]. assert (0 < j) by nia. nia.
Qed.
Lemma pocklington_one : forall n a q m, 1 < n -> prime q -> 0 <= m -> n - 1 = q * m -> n < q * q ->
  a ^ (n - 1) mod n = 1 -> Z.gcd (a ^ m mod n - 1) n = 1 -> prime n.
Proof.
  intros n a q m H1 PQ H3 H5 H7 H8 H9. pose proof (prime_ge_2 q PQ) as Q2.
  destruct (prime_dec n) as [P|NP]; [exact P|exfalso].
  destruct (small_prime_divisor n H1 NP) as [r [R1 [R2 R3]]]. pose proof (prime_ge_2 r R1).
  pose proof (pocklington_divisor n a q m r R1 R2 H1 PQ H3 H5 H8 H9) as D.
  apply Z.divide_pos_le in D; [|lia]. nia.
Qed.
(** The same with exponentiation by [Zpow_mod], for computation. *)
Lemma pocklington_check : forall n a q1 m1 q2 m2, prime q1 -> prime q2 ->
  (1 <? n) && negb (q1 =? q2) && (0 <=? m1) && (0 <=? m2) && (n - 1 =? q1 * m1) && (n - 1 =? q2 * m2) &&
  (n <? q1 * q2 * (q1 * q2)) && (Zpow_mod a (n - 1) n =? 1) && (Z.gcd (Zpow_mod a m1 n - 1) n =? 1) &&
  (Z.gcd (Zpow_mod a m2 n - 1) n =? 1) = true -> prime n.
Proof.
  intros n a q1 m1 q2 m2 P1 P2 H. rewrite !Bool.andb_true_iff in H.
  destruct H as [[[[[[[[[H1 H2] H3] H4] H5] H6] H7] H8] H9] H10].
  apply Z.ltb_lt in H1. apply Bool.negb_true_iff, Z.eqb_neq in H2. apply Z.leb_le in H3. apply Z.leb_le in H4.
  apply Z.eqb_eq in H5. apply Z.eqb_eq in H6. apply Z.ltb_lt in H7. apply Z.eqb_eq in H8. apply Z.eqb_eq in H9. apply Z.eqb_eq in H10.
  rewrite Zpow_mod_correct in H8, H9, H10 by lia.
  exact (pocklington n a q1 m1 q2 m2 H1 P1 P2 H2 H3 H4 H5 H6 H7 H8 H9 H10).
Qed.

(** ** Towards 2^255 - 19 *)
Lemma prime_991 : prime 991. Proof. apply (trial_prime 991 1000); vm_compute; reflexivity. Qed.
Lemma prime_103 : prime 103. Proof. apply (trial_prime 103 1000); vm_compute; reflexivity. Qed.
Lemma prime_127 : prime 127. Proof. apply (trial_prime 127 1000); vm_compute; reflexivity. Qed.
Lemma prime_4153 : prime 4153. Proof. apply (trial_prime 4153 1000); vm_compute; reflexivity. Qed.
Lemma prime_430751 : prime 430751. Proof. apply (trial_prime 430751 1000); vm_compute; reflexivity. Qed.
Lemma prime_75707 : prime 75707. Proof. apply (trial_prime 75707 1000); vm_compute; reflexivity. Qed.
Lemma prime_8574133 : prime 8574133.
Proof. apply (pocklington_check 8574133 2 991 8652 103 83244 prime_991 prime_103). vm_compute. reflexivity. Qed.
Lemma prime_1919519569386763 : prime 1919519569386763.
Proof.
  apply (pocklington_check 1919519569386763 2
    8574133 223873314
    127 15114327318006
    prime_8574133 prime_127).
  vm_compute. reflexivity.
Qed.
Lemma prime_31757755568855353 : prime 31757755568855353.
Proof.
  apply (pocklington_check 31757755568855353 2
    430751 73726481352
    4153 7646943310584
    prime_430751 prime_4153).
  vm_compute. reflexivity.
Qed.
Lemma prime_75445702479781427272750846543864801 : prime 75445702479781427272750846543864801.
Proof.
  apply (pocklington_check 75445702479781427272750846543864801 2
    1919519569386763 39304471641247389600
    75707 996548568557483816196003626400
    prime_1919519569386763 prime_75707).
  vm_compute. reflexivity.
Qed.
Lemma prime_74058212732561358302231226437062788676166966415465897661863160754340907 : prime 74058212732561358302231226437062788676166966415465897661863160754340907.
Proof.
  apply (pocklington_check 74058212732561358302231226437062788676166966415465897661863160754340907 2
    75445702479781427272750846543864801 981609426360740691344999861639072106
    31757755568855353 2331972502653487852620185443007392165117953542933313402
    prime_75445702479781427272750846543864801 prime_31757755568855353).
  vm_compute. reflexivity.
Qed.
