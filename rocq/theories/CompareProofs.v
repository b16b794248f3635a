(** * CompareProofs: comparing wire values with plain values. *)
From Coq Require Import Lia ZifyBool ZifyNat ZifyN.
From Verif Require Import Base BaseFacts Codec Types Messages SpecWire SpecTypes Compare TypesFacts TypesProofs MsgProofs.
Local Open Scope N_scope.

Lemma eqb_sym : forall a b, bytes_eqb a b = bytes_eqb b a.
Proof.
  intros. destruct (bytes_eqb a b) eqn:E; destruct (bytes_eqb b a) eqn:F; try reflexivity.
  - apply bytes_eqb_iff in E. subst. rewrite bytes_eqb_refl in F. discriminate.
  - apply bytes_eqb_iff in F. subst. rewrite bytes_eqb_refl in E. discriminate.
Qed.

Theorem b0_compare : forall t v a, b0_new t v = Ok a ->
  b0_into_vec a = v /\ (forall w, b0_eq_vec a w = true <-> v = w) /\ (forall w, vec_eq_b0 w a = true <-> v = w) /\
  (forall w b, b0_new t w = Ok b -> (b0_eqb a b = true <-> v = w)).
Proof.
  intros t v a H. assert (A : a = mkB0 (len v) v).
  { destruct (b0_new_exact t v) as [G B]. destruct (N.le_gt_cases (len v) (spec_b0_limit t)) as [L|L]; [rewrite (G L) in H|rewrite (B L) in H]; congruence. }
  subst a. unfold b0_into_vec, b0_eq_vec, vec_eq_b0. cbn [b0_data]. repeat split.
  1-4: try (intro E; apply bytes_eqb_iff in E; congruence); intros ->; apply bytes_eqb_refl.
  - intro E. assert (B : b = mkB0 (len w) w).
    { destruct (b0_new_exact t w) as [G B]. destruct (N.le_gt_cases (len w) (spec_b0_limit t)) as [L|L]; [rewrite (G L) in H0|rewrite (B L) in H0]; congruence. }
    subst b. unfold b0_eqb in E. cbn [b0_data b0_length] in E. apply andb_true_iff in E as [_ E]. apply bytes_eqb_iff, E.
  - intros ->. rewrite H in H0. injection H0 as <-. unfold b0_eqb. rewrite N.eqb_refl, bytes_eqb_refl. reflexivity.
Qed.
Theorem str0_compare : forall t v a, str0_new t v = Ok a ->
  str0_into_string a = v /\ (forall w, str0_eq_string a w = true <-> v = w) /\ (forall w, string_eq_str0 w a = true <-> v = w) /\
  (forall w b, str0_new t w = Ok b -> (str0_eqb a b = true <-> v = w)).
Proof.
  intros t v a H. assert (A : str0_data a = v) by (unfold str0_new in H; destruct (_ <? _); [discriminate|injection H as <-; reflexivity]).
  unfold str0_into_string, str0_eq_string, string_eq_str0. rewrite A. repeat split.
  1-4: try (intro E; apply bytes_eqb_iff in E; congruence); intros ->; apply bytes_eqb_refl.
  - intro E. assert (B : str0_data b = w) by (unfold str0_new in H0; destruct (str0_max t <? len w); [discriminate|injection H0 as <-; reflexivity]).
    unfold str0_eqb in E. apply andb_true_iff in E as [_ E]. apply bytes_eqb_iff in E. congruence.
  - intros ->. rewrite H in H0. injection H0 as <-. unfold str0_eqb. rewrite N.eqb_refl, bytes_eqb_refl. reflexivity.
Qed.
Theorem u24_compare : forall v a, v < 2 ^ 32 -> u24_new v = Ok a ->
  u24_into_u32 a = v /\ u24_into_usize a = v /\ (forall w, u24_eq_u32 a w = true <-> v = w) /\ (forall w, u32_eq_u24 w a = true <-> v = w) /\
  (forall w b, w < 2 ^ 32 -> u24_new w = Ok b -> (u24_eqb a b = true <-> v = w)).
Proof.
  assert (K : forall v a, v < 2 ^ 32 -> u24_new v = Ok a -> a = v).
  { intros v a L H. unfold u24_new, u24_try_from_usize in H. destruct (_ <? _); [discriminate|]. injection H as <-. apply N.mod_small, L. }
  intros v a L H. rewrite (K v a L H). unfold u24_into_u32, u24_into_usize, u24_eq_u32, u32_eq_u24, u24_eqb. repeat split; intros; try lia.
  - rewrite (K w b H0 H1) in H2. lia.
  - rewrite (K w b H0 H1). lia.
Qed.
Theorem u256_compare : forall v, let a := u256_from_array v in
  u256_into_array a = v /\ (forall w, u256_eq_array a w = true <-> v = w) /\ (forall w, array_eq_u256 w a = true <-> v = w) /\
  (forall w, u256_eqb a (u256_from_array w) = true <-> v = w).
Proof.
  intros v a. unfold u256_into_array, u256_eq_array, array_eq_u256, u256_eqb, u256_from_array in *. subst a. repeat split.
  1-6: try (intro E; apply bytes_eqb_iff in E; congruence); intros ->; apply bytes_eqb_refl.
Qed.
(** Hand-built values. *)
Theorem sides_agree : (forall a v, b0_eq_vec a v = vec_eq_b0 v a) /\ (forall a v, str0_eq_string a v = string_eq_str0 v a) /\
  (forall a v, u24_eq_u32 a v = u32_eq_u24 v a) /\ (forall a v, u256_eq_array a v = array_eq_u256 v a).
Proof. repeat split; intros; try apply eqb_sym. apply N.eqb_sym. Qed.
Theorem through_vec : forall v, exists a b, b0_length a < 2 ^ 8 /\ b0_length b < 2 ^ 8 /\
  b0_eq_vec a v = true /\ vec_eq_b0 v b = true /\ b0_eqb a b = false.
Proof.
  intro v. exists (mkB0 0 v), (mkB0 1 v). split; [reflexivity|]. split; [reflexivity|]. unfold b0_eq_vec, vec_eq_b0. cbn [b0_data].
  rewrite bytes_eqb_refl. repeat split.
Qed.
Theorem through_string : forall v, exists a b, str0_length a < 2 ^ 8 /\ str0_length b < 2 ^ 8 /\
  str0_eq_string a v = true /\ string_eq_str0 v b = true /\ str0_eqb a b = false.
Proof.
  intro v. exists (mkStr0 0 v), (mkStr0 1 v). split; [reflexivity|]. split; [reflexivity|]. unfold str0_eq_string, string_eq_str0. cbn [str0_data].
  rewrite bytes_eqb_refl. repeat split.
Qed.
(** The text of a code is the string on the wire. *)
Theorem code_texts : (forall c, len (sc_code_display c) :: wire (sc_code_display c) = lay_sc_code c) /\
  (forall c, len (omc_code_display c) :: wire (omc_code_display c) = lay_omc_code c).
Proof. split; intros []; reflexivity. Qed.
