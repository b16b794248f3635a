(** * PolyBound: roots of polynomials modulo a prime; how many values of r give two messages Poly1305 sums
    with a given difference. *)
From Coq Require Import ZArith Znumtheory Lia List Bool.
From Verif Require Import NumberTheory GroupOrder.
Import ListNotations.
Open Scope Z_scope.

(** ** Polynomials modulo a prime, low coefficient first *)
Section Roots.
Variable p : Z.
Hypothesis P : prime p.
Fixpoint pe (cs : list Z) (x : Z) : Z := match cs with [] => 0 | c :: t => c + x * pe t x end.
Fixpoint pdiv (a : Z) (cs : list Z) : list Z :=
  match cs with [] => [] | c :: t => match t with [] => [] | _ => pe t a :: pdiv a t end end.
Lemma pdiv_length : forall a cs, length (pdiv a cs) = (length cs - 1)%nat.
Proof.
  intros a cs. induction cs as [|c t IH]; [reflexivity|]. destruct t as [|d t]; [reflexivity|].
  change (length (pdiv a (c :: d :: t))) with (S (length (pdiv a (d :: t)))). rewrite IH. cbn. lia.
Qed.
Lemma pdiv_spec : forall a x cs, pe cs x - pe cs a = (x - a) * pe (pdiv a cs) x.
Proof.
  intros a x cs. induction cs as [|c t IH]; [cbn; ring|]. destruct t as [|d t]; [cbn; ring|].
  change (pdiv a (c :: d :: t)) with (pe (d :: t) a :: pdiv a (d :: t)).
  cbn [pe] in *. set (u := d + x * pe t x) in *. set (v := d + a * pe t a) in *.
  replace (c + x * u - (c + a * v)) with (x * (u - v) + (x - a) * v) by ring. rewrite IH. ring.
Qed.
Lemma pe_zero : forall cs x, Forall (fun c => (p | c)) cs -> (p | pe cs x).
Proof.
  intros cs x F. induction F as [|c t Hc F IH]; [apply Z.divide_0_r|]. cbn. apply Z.divide_add_r; [exact Hc|].
  apply Z.divide_mul_r. exact IH.
Qed.
Lemma pdiv_zero : forall a cs, Forall (fun c => (p | c)) (pdiv a cs) -> Forall (fun c => (p | c)) (tl cs).
Proof.
  intros a cs. induction cs as [|c t IH]; [intro; constructor|]. destruct t as [|d t]; [intro; constructor|].
  change (pdiv a (c :: d :: t)) with (pe (d :: t) a :: pdiv a (d :: t)). intro F. inversion F as [|x l F1 F2]; subst.
  specialize (IH F2). cbn [tl] in *. constructor; [|exact IH].
  cbn [pe] in F1. replace d with (d + a * pe t a - a * pe t a) by ring. apply Z.divide_sub_r; [exact F1|].
  apply Z.divide_mul_r. apply pe_zero. exact IH.
Qed.
Theorem roots_zero : forall roots cs, NoDup roots -> (forall x, In x roots -> 0 <= x < p) ->
  (forall x, In x roots -> (p | pe cs x)) -> (length cs <= length roots)%nat -> Forall (fun c => (p | c)) cs.
Proof.
  induction roots as [|a roots IH]; intros cs ND B R L.
  - destruct cs; [constructor|cbn in L; lia].
  - destruct cs as [|c t]; [constructor|]. inversion ND as [|? ? NI ND']; subst.
    assert (Q : Forall (fun c => (p | c)) (pdiv a (c :: t))).
    { apply IH; [exact ND'|intros; apply B; right; assumption| |rewrite pdiv_length; cbn in *; lia].
      intros x X. assert (D : (p | (x - a) * pe (pdiv a (c :: t)) x)).
      { rewrite <- pdiv_spec. apply Z.divide_sub_r; apply R; [right; exact X|left; reflexivity]. }
      apply prime_mult in D; [|exact P]. destruct D as [D|D]; [exfalso|exact D].
      pose proof (B x (or_intror X)) as BX. pose proof (B a (or_introl eq_refl)) as BA.
      assert (NE : x <> a) by (intro E; subst; contradiction).
      destruct D as [k D]. assert (k = 0 \/ 1 <= k \/ k <= -1) as [K|[K|K]] by lia; nia. }
    apply pdiv_zero in Q. cbn [tl] in Q. constructor; [|exact Q].
    pose proof (R a (or_introl eq_refl)) as RA. cbn [pe] in RA.
    replace c with (c + a * pe t a - a * pe t a) by ring. apply Z.divide_sub_r; [exact RA|].
    apply Z.divide_mul_r. apply pe_zero. exact Q.
Qed.
End Roots.

(** ** The prime 2^130 - 5 *)
Lemma prime_221101 : prime 221101. Proof. apply (trial_prime 221101 1000); vm_compute; reflexivity. Qed.
Lemma prime_37003 : prime 37003. Proof. apply (trial_prime 37003 1000); vm_compute; reflexivity. Qed.
Lemma prime_4024685905107147541 : prime 4024685905107147541.
Proof. apply (pocklington_check 4024685905107147541 2 221101 18202929453540 37003 108766475829180 prime_221101 prime_37003). vm_compute. reflexivity. Qed.
Lemma prime_897064739519922787230182993783 : prime 897064739519922787230182993783.
Proof. apply (pocklington_check_one 897064739519922787230182993783 2 4024685905107147541 222890620702 prime_4024685905107147541). vm_compute. reflexivity. Qed.
Lemma prime_1361129467683753853853498429727072845819 : prime 1361129467683753853853498429727072845819.
Proof. apply (pocklington_check_one 1361129467683753853853498429727072845819 2 897064739519922787230182993783 1517314646 prime_897064739519922787230182993783). vm_compute. reflexivity. Qed.
Definition q1305 : Z := 2 ^ 130 - 5.
Lemma prime_q1305 : prime q1305. Proof. exact prime_1361129467683753853853498429727072845819. Qed.

(** ** The Poly1305 sum, in integers *)
Definition psum (r : Z) (cs : list Z) : Z := fold_left (fun a c => ((a + c) * r) mod q1305) cs 0.
(** Coefficients, low first, of the polynomial whose value at r is the sum. *)
Definition pcoef (cs : list Z) : list Z := 0 :: rev cs.

Lemma psum_pe : forall r cs, (psum r cs) mod q1305 = pe (pcoef cs) r mod q1305.
Proof.
  intros r cs. unfold pcoef. induction cs as [|c cs IH] using rev_ind.
  { cbn [rev pe psum fold_left]. unfold psum. cbn [fold_left]. rewrite Z.mul_0_r. reflexivity. }
  unfold psum in *. rewrite fold_left_app. cbn [fold_left]. rewrite rev_app_distr. cbn [rev app pe].
  rewrite Zmod_mod. cbn [pe] in IH. rewrite Z.add_0_l in *.
  rewrite Z.mul_mod, Z.add_mod, IH, <- Z.add_mod, <- Z.mul_mod by (unfold q1305; lia).
  f_equal. ring.
Qed.
Lemma psum_range : forall r cs, 0 <= psum r cs < q1305.
Proof.
  intros r cs. unfold psum. destruct cs as [|c cs] using rev_ind; [cbn; unfold q1305; lia|].
  rewrite fold_left_app. cbn [fold_left]. apply Z.mod_pos_bound. reflexivity.
Qed.

(** Difference of two coefficient lists. *)
Fixpoint pminus (a b : list Z) : list Z :=
  match a, b with
  | [], _ => map Z.opp b
  | _, [] => a
  | x :: a', y :: b' => (x - y) :: pminus a' b'
  end.
Lemma pe_opp : forall b x, pe (map Z.opp b) x = - pe b x.
Proof. induction b as [|c b IH]; intro x; cbn; [reflexivity|]. rewrite IH. ring. Qed.
Lemma pe_minus : forall a b x, pe (pminus a b) x = pe a x - pe b x.
Proof.
  induction a as [|c a IH]; intros [|d b] x; cbn [pminus pe].
  - reflexivity.
  - rewrite pe_opp. cbn. ring.
  - ring.
  - rewrite IH. ring.
Qed.
Lemma pminus_length : forall a b, length (pminus a b) = Nat.max (length a) (length b).
Proof.
  induction a as [|c a IH]; intros [|d b]; cbn [pminus length]; try reflexivity.
  - rewrite map_length. reflexivity.
  - rewrite IH. reflexivity.
Qed.
(** If the difference vanishes modulo the prime, lists of small positive coefficients are equal. *)
Definition smallc (c : Z) : Prop := 0 < c < q1305.
Lemma opp_zero : forall b, Forall smallc b -> Forall (fun c => (q1305 | c)) (map Z.opp b) -> b = [].
Proof.
  intros [|c b] F D; [reflexivity|exfalso]. inversion F as [|? ? Fc _]; subst. cbn [map] in D. inversion D as [|? ? Dc _]; subst.
  apply (proj1 (Z.divide_opp_r _ _)) in Dc. apply Z.divide_pos_le in Dc; unfold smallc in Fc; lia.
Qed.
Lemma pminus_zero : forall a b, Forall smallc a -> Forall smallc b ->
  Forall (fun c => (q1305 | c)) (pminus a b) -> a = b.
Proof.
  induction a as [|c a IH]; intros [|d b] FA FB D; cbn [pminus] in D.
  - reflexivity.
  - symmetry. apply opp_zero; assumption.
  - exfalso. inversion FA as [|? ? Fc _]; subst. inversion D as [|? ? Dc _]; subst.
    apply Z.divide_pos_le in Dc; unfold smallc in Fc; lia.
  - inversion FA as [|? ? Fc FA']; subst. inversion FB as [|? ? Fd FB']; subst. inversion D as [|? ? Dc D']; subst.
    rewrite (IH b FA' FB' D'). f_equal. destruct Dc as [k Dc]. unfold smallc in *.
    assert (k = 0 \/ 1 <= k \/ k <= -1) as [K|[K|K]] by lia; nia.
Qed.

Lemma same_rem : forall a b, a mod q1305 = b mod q1305 -> (q1305 | a - b).
Proof.
  intros a b E. exists (a / q1305 - b / q1305). pose proof (Z_div_mod_eq_full a q1305). pose proof (Z_div_mod_eq_full b q1305). lia.
Qed.
(** One value of the difference. *)
Lemma one_difference : forall cs cs' v rs, Forall smallc cs -> Forall smallc cs' -> cs <> cs' ->
  NoDup rs -> (forall r, In r rs -> 0 <= r < q1305 /\ psum r cs' - psum r cs = v) ->
  (length rs <= Nat.max (length cs) (length cs'))%nat.
Proof.
  intros cs cs' v rs F F' NE ND H. destruct (Nat.le_gt_cases (length rs) (Nat.max (length cs) (length cs'))) as [L|L]; [exact L|exfalso].
  assert (Z0 : Forall (fun c => (q1305 | c)) (- v :: pminus (rev cs') (rev cs))).
  { apply (roots_zero q1305 prime_q1305 rs); [exact ND|intros x X; apply H; exact X| |].
    - intros x X. destruct (H x X) as [_ E]. cbn [pe]. rewrite pe_minus.
      pose proof (psum_pe x cs) as S1. pose proof (psum_pe x cs') as S2. unfold pcoef in S1, S2. cbn [pe] in S1, S2.
      rewrite Z.add_0_l in S1, S2.
      apply same_rem in S1. apply same_rem in S2.
      replace (- v + x * (pe (rev cs') x - pe (rev cs) x)) with ((psum x cs - x * pe (rev cs) x) - (psum x cs' - x * pe (rev cs') x)) by (rewrite <- E; ring).
      apply Z.divide_sub_r; assumption.
    - cbn [length]. rewrite pminus_length, !rev_length. lia. }
  inversion Z0 as [|? ? _ Z1]; subst. apply pminus_zero in Z1; [|apply Forall_rev; assumption|apply Forall_rev; assumption].
  apply NE. rewrite <- (rev_involutive cs), <- Z1, rev_involutive. reflexivity.
Qed.

(** ** Differences modulo 2^128 *)
Lemma filter_split : forall (A : Type) (f : A -> bool) l, length l = (length (filter f l) + length (filter (fun x => negb (f x)) l))%nat.
Proof. intros A f l. induction l as [|x l IH]; [reflexivity|]. cbn. destruct (f x); cbn; lia. Qed.
Lemma by_value : forall (g : Z -> Z) bound vs rs,
  (forall r, In r rs -> In (g r) vs) ->
  (forall v sub, NoDup sub -> (forall r, In r sub -> In r rs /\ g r = v) -> (length sub <= bound)%nat) ->
  NoDup rs -> (length rs <= length vs * bound)%nat.
Proof.
  intros g bound. induction vs as [|v vs IH]; intros rs I B ND.
  - destruct rs as [|r rs]; [cbn; lia|]. destruct (I r (or_introl eq_refl)).
  - rewrite (filter_split _ (fun r => g r =? v) rs). cbn [length Nat.mul]. apply Nat.add_le_mono.
    + apply (B v); [apply NoDup_filter; exact ND|]. intros r R. apply filter_In in R. destruct R as [R E]. split; [exact R|lia].
    + apply IH; [| |apply NoDup_filter; exact ND].
      * intros r R. apply filter_In in R. destruct R as [R E]. destruct (I r R) as [Q|Q]; [subst; rewrite Z.eqb_refl in E; discriminate|exact Q].
      * intros w sub NDs S. apply (B w sub NDs). intros r R. destruct (S r R) as [Q E]. apply filter_In in Q. split; [apply Q|exact E].
Qed.
Definition eight (d : Z) : list Z := map (fun j => d + 2 ^ 128 * j) [-4; -3; -2; -1; 0; 1; 2; 3].
Lemma in_eight : forall d u, 0 <= d < 2 ^ 128 -> - q1305 < u < q1305 -> u mod 2 ^ 128 = d -> In u (eight d).
Proof.
  intros d u D U M. unfold q1305 in U. pose proof (Z.div_mod u (2 ^ 128) ltac:(lia)) as E. rewrite M in E. set (j := u / 2 ^ 128) in *.
  assert (J : -4 <= j <= 3) by lia. unfold eight. apply in_map_iff. exists j. split; [lia|]. cbn. lia.
Qed.
Theorem few_r : forall cs cs' d rs, Forall smallc cs -> Forall smallc cs' -> cs <> cs' -> NoDup rs ->
  (forall r, In r rs -> 0 <= r < q1305 /\ (psum r cs' - psum r cs) mod 2 ^ 128 = d) ->
  (length rs <= 8 * Nat.max (length cs) (length cs'))%nat.
Proof.
  intros cs cs' d rs F F' NE ND H. change 8%nat with (length (eight d)).
  apply (by_value (fun r => psum r cs' - psum r cs)); [| |exact ND].
  - intros r R. destruct (H r R) as [_ E]. apply in_eight; [| |exact E].
    + rewrite <- E. apply Z.mod_pos_bound. reflexivity.
    + pose proof (psum_range r cs). pose proof (psum_range r cs'). lia.
  - intros v sub NDs S. apply (one_difference cs cs' v); try assumption. intros r R. destruct (S r R) as [Q E]. split; [apply H; exact Q|exact E].
Qed.
