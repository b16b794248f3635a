(** * DebugTextProofs: the texts of messages are told apart. *)
From Coq Require Import Strings.String ZArith Lia ZifyBool ZifyNat ZifyN.
From Verif Require Import Base Codec Types Messages Frame SpecWire SpecTypes BaseFacts Utf8Facts TypesFacts Display SpecTexts TextProofs DebugTexts SpecDebugTexts.
Local Open Scope N_scope.
Local Open Scope list_scope.
Ltac Zify.zify_post_hook ::= Z.div_mod_to_equations.

(** What may follow the text of a field. *)
Definition ender (r : bytes) : Prop := match r with [] => True | c :: r' => c = x2c \/ (c = x20 /\ exists r'', r' = x7d :: r'') end.
(** Two texts that agree, whatever ends them, belong to values that agree. *)
Definition tells (a b : bytes) (P : Prop) : Prop := forall r s, ender r -> ender s -> a ++ r = b ++ s -> P /\ r = s.
Definition tells' (a b : bytes) (P : Prop) : Prop := forall r s, a ++ r = b ++ s -> P /\ r = s.
Lemma tells_weak : forall a b P, tells' a b P -> tells a b P.
Proof. intros a b P H r s _ _ E. exact (H r s E). Qed.
Lemma tells_imp : forall a b (P Q : Prop), (P -> Q) -> tells a b P -> tells a b Q.
Proof. intros a b P Q I H r s R S E. destruct (H r s R S E). auto. Qed.

(** ** Numbers *)
Lemma span : forall (p : byte -> Prop) a b r s, Forall p a -> Forall p b ->
  match r with [] => True | c :: _ => ~ p c end -> match s with [] => True | c :: _ => ~ p c end ->
  a ++ r = b ++ s -> a = b /\ r = s.
Proof.
  intros p a. induction a as [|x a IH]; intros [|y b] r s A B R S E; cbn [app] in E.
  - auto.
  - subst r. inversion B; subst. contradiction.
  - subst s. inversion A; subst. contradiction.
  - injection E as <- E. inversion A; inversion B; subst. destruct (IH b r s) as [-> ->]; auto.
Qed.
Lemma dec_all : forall n, Forall (fun c => 48 <= Byte.to_N c <= 57) (dec n).
Proof. intros n. apply Forall_forall. intros c. apply dec_no. Qed.
Definition stop (r : bytes) : Prop := match r with [] => True | c :: _ => ~ 48 <= Byte.to_N c <= 57 end.
Lemma dec_peel : forall a b r s, stop r -> stop s -> dec a ++ r = dec b ++ s -> a = b /\ r = s.
Proof.
  intros a b r s R S E. apply (span (fun c => 48 <= Byte.to_N c <= 57)) in E as [E ->]; auto using dec_all.
  split; [apply dec_inj, E|reflexivity].
Qed.
Lemma ender_stop : forall r, ender r -> stop r.
Proof. intros [|c r]; [trivial|]. intros [->|[-> _]]; cbn; lia. Qed.
Lemma dec_tells : forall a b, tells (dec a) (dec b) (a = b).
Proof. intros a b r s R S E. apply dec_peel in E; auto using ender_stop. Qed.

(** ** Structs *)
Inductive all_tell : list (string * bytes) -> list (string * bytes) -> Prop -> Prop :=
| at_nil : all_tell [] [] True
| at_cons : forall f t u l l' (P Q : Prop), tells t u P -> all_tell l l' Q -> all_tell ((f, t) :: l) ((f, u) :: l') (P /\ Q).
Lemma fields_ender : forall l r, ender (debug_fields false l ++ r).
Proof. intros [|[f t] l] r; cbn; [right; split; [reflexivity|eexists; reflexivity]|left; reflexivity]. Qed.
Lemma fields_tell : forall l l' P, all_tell l l' P -> forall fst, tells' (debug_fields fst l) (debug_fields fst l') P.
Proof.
  induction 1 as [|f t u l l' P Q T A IH]; intros fst r s E.
  - apply app_inv_head in E. auto.
  - cbn [debug_fields] in E. rewrite <- !app_assoc in E. apply app_inv_head, app_inv_head, app_inv_head in E.
    apply T in E as [p E]; [|apply fields_ender..]. apply IH in E as [q ->]. auto.
Qed.
Lemma struct_tells' : forall n l l' P, all_tell l l' P -> tells' (debug_struct n l) (debug_struct n l') P.
Proof.
  intros n l l' P A r s E. unfold debug_struct in E. rewrite <- !app_assoc in E. apply app_inv_head in E.
  exact (fields_tell l l' P A true r s E).
Qed.
Lemma struct_tells : forall n l l' P, all_tell l l' P -> tells (debug_struct n l) (debug_struct n l') P.
Proof. intros. apply tells_weak, struct_tells'. assumption. Qed.

(** ** Lists of bytes *)
Lemma byte_inj : forall a b, Byte.to_N a = Byte.to_N b -> a = b.
Proof. intros a b H. apply (f_equal Byte.of_N) in H. rewrite !Byte.of_to_N in H. congruence. Qed.
Lemma join_tells : forall a b r s, join (lit ", ") (map (fun c => dec (Byte.to_N c)) a) ++ x5d :: r =
  join (lit ", ") (map (fun c => dec (Byte.to_N c)) b) ++ x5d :: s -> a = b /\ r = s.
Proof.
  assert (ne : forall n, exists c t, dec n = c :: t /\ 48 <= Byte.to_N c <= 57).
  { intros n. pose proof (dec_all n) as F. destruct (dec_decimal n) as (X & _). destruct (dec n); [contradiction|].
    inversion F; subst. eauto. }
  assert (C : forall n l r, exists c t, join (lit ", ") (dec n :: l) ++ r = c :: t /\ 48 <= Byte.to_N c <= 57).
  { intros n l r. destruct (ne n) as (c & t & E & D). cbn [join]. rewrite E. destruct l; cbn [app]; eauto. }
  induction a as [|x a IH]; intros [|y b] r s E.
  - injection E as <-. auto.
  - exfalso. cbn [map] in E. destruct (C (Byte.to_N y) (map (fun c => dec (Byte.to_N c)) b) (x5d :: s)) as (c & t & X & D).
    rewrite X in E. injection E as <- _. cbn in D. lia.
  - exfalso. cbn [map] in E. destruct (C (Byte.to_N x) (map (fun c => dec (Byte.to_N c)) a) (x5d :: r)) as (c & t & X & D).
    rewrite X in E. injection E as -> _. cbn in D. lia.
  - assert (J : forall z l r, join (lit ", ") (map (fun c => dec (Byte.to_N c)) (z :: l)) ++ x5d :: r = dec (Byte.to_N z) ++
      match l with [] => x5d :: r | _ => x2c :: x20 :: join (lit ", ") (map (fun c => dec (Byte.to_N c)) l) ++ x5d :: r end).
    { intros z [|w l] r0; [reflexivity|]. cbn [map join]. rewrite <- app_assoc. reflexivity. }
    rewrite !J in E. apply dec_peel in E as [E F];
      [|destruct a; cbn; lia|destruct b; cbn; lia]. apply byte_inj in E as <-.
    destruct a as [|a0 a], b as [|b0 b]; try discriminate F.
    + injection F as <-. auto.
    + assert (G : forall (x y : byte) p q, x :: y :: p = x :: y :: q -> p = q) by (intros ? ? ? ? X; injection X; auto).
      apply G, IH in F as [-> ->]. auto.
Qed.
Lemma list_tells' : forall a b, tells' (debug_list a) (debug_list b) (a = b).
Proof.
  intros a b r s E. unfold debug_list in E. rewrite <- !app_assoc in E. apply app_inv_head in E.
  exact (join_tells a b r s E).
Qed.
Lemma u256_tells : forall a b, tells (debug_u256 a) (debug_u256 b) (a = b).
Proof.
  intros a b r s _ _ E. unfold debug_u256, debug_tuple in E. rewrite <- !app_assoc in E.
  apply app_inv_head, app_inv_head in E. apply list_tells' in E as [-> E]. apply app_inv_head in E. auto.
Qed.
Lemma u24_tells : forall a b, tells (debug_u24 a) (debug_u24 b) (a = b).
Proof.
  intros a b r s _ _ E. unfold debug_u24, debug_tuple in E. rewrite <- !app_assoc in E.
  apply app_inv_head, app_inv_head in E. apply dec_peel in E as [-> E]; [|cbn; lia..]. apply app_inv_head in E. auto.
Qed.
Lemma b0_tells : forall t a b, tells (debug_b0 t a) (debug_b0 t b) (a = b).
Proof.
  intros t [la da] [lb db]. eapply tells_imp; [|apply struct_tells; apply at_cons with (P := la = lb); [|apply at_cons with (P := da = db); [|apply at_nil]]].
  - intros (-> & -> & _). reflexivity.
  - cbn [b0_length]. destruct (b0_lentype t); auto using dec_tells, u24_tells.
  - apply tells_weak, list_tells'.
Qed.

(** ** Strings *)
Lemma code_of : forall c n, utf8_char c n -> code_point c = n.
Proof. intros c n H. destruct H; reflexivity. Qed.
Definition no_cont (t : bytes) : Prop := match t with [] => True | b :: _ => is_cont b = false end.
Lemma valid_no_cont : forall t, utf8_valid t = true -> no_cont t.
Proof.
  intros t H. destruct (utf8_valid_step t H) as [->|(c & n & u & -> & U & _)]; [exact I|].
  destruct U; cbn [app no_cont]; apply in_range_false; lia.
Qed.
Lemma chars_char : forall c n t, utf8_char c n -> no_cont t -> chars (c ++ t) = c :: chars t.
Proof.
  assert (one : forall a t, no_cont t -> chars (a :: t) = [a] :: chars t).
  { intros a [|b t] H; [reflexivity|]. cbn [no_cont] in H. cbn [chars]. rewrite H. reflexivity. }
  assert (more : forall a b t c cs, is_cont b = true -> chars (b :: t) = c :: cs -> chars (a :: b :: t) = (a :: c) :: cs).
  { intros a b t c cs H E. change (chars (a :: b :: t)) with (let cs := chars (b :: t) in
      if is_cont b then match cs with c :: cs' => (a :: c) :: cs' | [] => [[a]] end else [a] :: cs).
    cbv zeta. rewrite H, E. reflexivity. }
  intros c n t U H. destruct U; cbn [app]; repeat (apply more; [apply in_range_iff; lia|]); apply one, H.
Qed.

Definition unhex (c : byte) : N := if Byte.to_N c <=? 57 then Byte.to_N c - 48 else Byte.to_N c - 87.
Lemma hex_digit_facts : forall d, d < 16 -> unhex (hex_digit d) = d /\ hex_digit d <> x7d.
Proof.
  intros d H. assert (In d [0;1;2;3;4;5;6;7;8;9;10;11;12;13;14;15]) as I by (cbn [In]; lia).
  cbn [In] in I. repeat (destruct I as [<-|I]; [vm_compute; split; [reflexivity|discriminate]|]). contradiction.
Qed.
Definition value (l : list N) : N := fold_left (fun a d => 16 * a + d) l 0.
Lemma value_no_zeros : forall l, value (no_zeros l) = value l.
Proof.
  induction l as [|x [|y l] IH]; [reflexivity..|]. cbn [no_zeros]. destruct (x =? 0) eqn:Z; [|reflexivity].
  apply N.eqb_eq in Z as ->. cbn [no_zeros] in IH. rewrite IH. reflexivity.
Qed.
Lemma no_zeros_in : forall l x, In x (no_zeros l) -> In x l.
Proof.
  induction l as [|x [|y l] IH]; intros z H; [exact H..|]. cbn [no_zeros] in H. destruct (x =? 0); [right; apply IH, H|exact H].
Qed.
Definition digits6 (n : N) := [n / 1048576 mod 16; n / 65536 mod 16; n / 4096 mod 16; n / 256 mod 16; n / 16 mod 16; n mod 16].
Lemma digits6_small : forall n d, In d (digits6 n) -> d < 16.
Proof.
  intros n d H. unfold digits6 in H. cbn [In] in H.
  repeat (destruct H as [<-|H]; [apply N.mod_lt; discriminate|]). contradiction.
Qed.
Lemma value_digits6 : forall n, n < 16777216 -> value (digits6 n) = n.
Proof. intros n H. unfold value, digits6. cbn [fold_left]. lia. Qed.
Lemma hex_inj : forall a b, a < 16777216 -> b < 16777216 -> hex a = hex b -> a = b.
Proof.
  intros a b A B E. unfold hex in E. fold (digits6 a) (digits6 b) in E.
  assert (M : forall n, map unhex (map hex_digit (no_zeros (digits6 n))) = no_zeros (digits6 n)).
  { intros n. rewrite map_map. etransitivity; [|apply map_id]. apply map_ext_in. intros d H.
    apply hex_digit_facts. apply (digits6_small n), no_zeros_in, H. }
  apply (f_equal (map unhex)) in E. rewrite !M in E. apply (f_equal value) in E.
  rewrite !value_no_zeros, !value_digits6 in E by assumption. exact E.
Qed.
Lemma hex_no : forall n, ~ In x7d (hex n).
Proof.
  intros n H. unfold hex in H. fold (digits6 n) in H. apply in_map_iff in H as (d & E & H).
  apply no_zeros_in, digits6_small in H. apply hex_digit_facts in H as [_ H]. contradiction.
Qed.

Lemma char_unique : forall c c' n, utf8_char c n -> utf8_char c' n -> c = c'.
Proof.
  intros c c' n A B. apply utf8_char_encode in A as [_ A]. apply utf8_char_encode in B as [_ B].
  apply wire_inj. congruence.
Qed.
Lemma char_small : forall c n, utf8_char c n -> n < 16777216.
Proof. intros c n A. apply utf8_char_encode in A as [[A|A] _]; lia. Qed.
Lemma literal_peel : forall c n c' n' x y, utf8_char c n -> utf8_char c' n' -> c ++ x = c' ++ y -> c = c' /\ x = y.
Proof.
  intros c n c' n' x y A B E. destruct A, B; cbn [app] in E; inversion E; subst; try (exfalso; lia); auto.
Qed.
Lemma literal_head : forall c n x z, utf8_char c n -> n <> 34 -> n <> 92 -> c ++ x <> x5c :: z /\ c ++ x <> x22 :: z.
Proof.
  intros c n x z U A B. split; intro E; destruct U; cbn [app] in E; injection E as -> _;
    try (apply A; reflexivity); try (apply B; reflexivity); cbn in *; lia.
Qed.

Section Text.
Variable special : N -> bool.

Lemma char_forms : forall c n, utf8_char c n ->
  (exists z, debug_char special c = [x5c; z] /\ In (n, z) [(0, x30); (9, x74); (10, x6e); (13, x72); (34, x22); (92, x5c)]) \/
  (debug_char special c = [x5c; x75; x7b] ++ hex n ++ [x7d]) \/
  (debug_char special c = c /\ n <> 34 /\ n <> 92).
Proof.
  intros c n U. unfold debug_char. rewrite (code_of c n U). cbv zeta.
  repeat match goal with |- context [?x =? ?y] => let E := fresh in destruct (x =? y) eqn:E;
    [apply N.eqb_eq in E as ->; left; eexists; split; [reflexivity|cbn [In]; tauto]|] end.
  right. destruct (special n); [left; reflexivity|right]. split; [reflexivity|]. split; lia.
Qed.
Lemma char_peel : forall c n c' n' x y, utf8_char c n -> utf8_char c' n' ->
  debug_char special c ++ x = debug_char special c' ++ y -> c = c' /\ x = y.
Proof.
  intros c n c' n' x y U U' E.
  destruct (char_forms c n U) as [(z & F & I)|[F|(F & A & B)]], (char_forms c' n' U') as [(z' & F' & I')|[F'|(F' & A' & B')]];
    rewrite F, F' in E.
  - cbn [app] in E. injection E as <- <-. split; [|reflexivity]. cbn [In] in I, I'.
    assert (n = n') as <-; [|exact (char_unique c c' n U U')].
    repeat (destruct I as [I|I]; [injection I as <- <-;
      repeat (destruct I' as [I'|I']; [try discriminate I'; injection I' as <-; reflexivity|]); contradiction|]). contradiction.
  - exfalso. cbn [app] in E. injection E as -> _. cbn [In] in I. repeat (destruct I as [I|I]; [discriminate I|]). contradiction.
  - exfalso. cbn [app] in E. destruct (literal_head c' n' y (z :: x) U' A' B') as [H _]. apply H. symmetry. exact E.
  - exfalso. cbn [app] in E. injection E as <- _. cbn [In] in I'. repeat (destruct I' as [I'|I']; [discriminate I'|]). contradiction.
  - cbn [app] in E. injection E as E. rewrite <- !app_assoc in E. cbn [app] in E.
    apply split_sep in E as [E ->]; [|apply hex_no..]. apply hex_inj in E as <-; [|eapply char_small; eassumption..].
    split; [exact (char_unique c c' n U U')|reflexivity].
  - exfalso. rewrite <- app_assoc in E. cbn [app] in E. destruct (literal_head c' n' y (x75 :: x7b :: (hex n ++ [x7d]) ++ x) U' A' B') as [H _].
    apply H. symmetry. exact E.
  - exfalso. cbn [app] in E. destruct (literal_head c n x (z' :: y) U A B) as [H _]. exact (H E).
  - exfalso. rewrite <- app_assoc in E. cbn [app] in E. destruct (literal_head c n x (x75 :: x7b :: (hex n' ++ [x7d]) ++ y) U A B) as [H _].
    exact (H E).
  - exact (literal_peel c n c' n' x y U U' E).
Qed.
Lemma char_no_quote : forall c n x z, utf8_char c n -> debug_char special c ++ x <> x22 :: z.
Proof.
  intros c n x z U E. destruct (char_forms c n U) as [(w & F & I)|[F|(F & A & B)]]; rewrite F in E; [discriminate E..|].
  exact (proj2 (literal_head c n x z U A B) E).
Qed.
Lemma body_peel : forall k a b r s, (length a <= k)%nat -> utf8_valid a = true -> utf8_valid b = true ->
  flat_map (debug_char special) (chars a) ++ x22 :: r = flat_map (debug_char special) (chars b) ++ x22 :: s -> a = b /\ r = s.
Proof.
  induction k as [|k IH]; intros a b r s L A B E;
    (destruct (utf8_valid_step a A) as [->|(c & n & t & -> & U & T)];
     destruct (utf8_valid_step b B) as [->|(c' & n' & t' & -> & U' & T')]).
  1, 5: injection E as <-; auto.
  1, 4: exfalso; rewrite (chars_char c' n' t' U' (valid_no_cont t' T')) in E; cbn [flat_map chars app] in E;
        rewrite <- app_assoc in E; symmetry in E; exact (char_no_quote _ _ _ _ U' E).
  1, 3: exfalso; rewrite (chars_char c n t U (valid_no_cont t T)) in E; cbn [flat_map chars app] in E;
        rewrite <- app_assoc in E; exact (char_no_quote _ _ _ _ U E).
  - exfalso. destruct U; cbn in L; lia.
  - rewrite (chars_char c n t U (valid_no_cont t T)), (chars_char c' n' t' U' (valid_no_cont t' T')) in E.
    cbn [flat_map] in E. rewrite <- !app_assoc in E. apply (char_peel c n c' n') in E as [<- E]; [|assumption..].
    apply IH in E as [-> ->]; auto. destruct U; cbn in L; lia.
Qed.
Lemma str_tells' : forall a b, utf8_text a -> utf8_text b -> tells' (debug_str special a) (debug_str special b) (a = b).
Proof.
  intros a b A B r s E. unfold debug_str in E. rewrite <- !app_assoc in E. apply app_inv_head in E.
  apply (body_peel (length a)) in E; auto; apply utf8_valid_iff; assumption.
Qed.
Lemma str0_tells : forall t m n a b, str_ok m a -> str_ok n b -> tells (debug_str0 special t a) (debug_str0 special t b) (a = b).
Proof.
  intros t m n [la da] [lb db] (A & _) (B & _).
  eapply tells_imp; [|apply struct_tells; apply at_cons; [apply dec_tells|apply at_cons; [apply tells_weak, (str_tells' da db); [exact A|exact B]|apply at_nil]]].
  cbn [str0_length]. intros (-> & -> & _). reflexivity.
Qed.
End Text.

(** ** How strings are shown *)
Lemma no_zeros_head : forall l, l <> [] -> no_zeros l <> [] /\ (hd_error (no_zeros l) = Some 0 -> no_zeros l = [0]).
Proof.
  induction l as [|x [|y l] IH]; intros H; [contradiction|..].
  - split; [discriminate|]. cbn. intros [= ->]. reflexivity.
  - cbn [no_zeros]. destruct (x =? 0) eqn:Z; [apply IH; discriminate|]. split; [discriminate|].
    cbn [hd_error]. intros [= ->]. discriminate Z.
Qed.
Lemma hex_digit_wire : forall d, d < 16 -> let w := Byte.to_N (hex_digit d) in
  (48 <= w <= 57 \/ 97 <= w <= 102) /\ (if w <=? 57 then w - 48 else w - 87) = d /\ (w = 48 -> d = 0).
Proof.
  intros d H. assert (In d [0;1;2;3;4;5;6;7;8;9;10;11;12;13;14;15]) as I by (cbn [In]; lia).
  cbn [In] in I. repeat (destruct I as [<-|I]; [cbv zeta; match goal with |- context [Byte.to_N (hex_digit ?d)] =>
    let v := eval vm_compute in (Byte.to_N (hex_digit d)) in change (Byte.to_N (hex_digit d)) with v end; cbn [N.leb N.compare Pos.compare Pos.compare_cont]; lia|]). contradiction.
Qed.
Lemma hex_fold : forall l acc, (forall d, In d l -> d < 16) ->
  fold_left (fun acc d => 16 * acc + (if d <=? 57 then d - 48 else d - 87)) (wire (map hex_digit l)) acc =
  fold_left (fun a d => 16 * a + d) l acc.
Proof.
  induction l as [|d l IH]; intros acc H; [reflexivity|]. cbn [map wire fold_left].
  destruct (hex_digit_wire d) as (_ & E & _); [apply H; left; reflexivity|]. cbv zeta in E. rewrite E.
  apply IH. intros e I. apply H. right. exact I.
Qed.
Lemma hex_spec : forall n, n < 16777216 -> hexadecimal (wire (hex n)) n.
Proof.
  intros n H. unfold hex. fold (digits6 n).
  assert (S : forall d, In d (no_zeros (digits6 n)) -> d < 16) by (intros d I; apply (digits6_small n), no_zeros_in, I).
  destruct (no_zeros_head (digits6 n)) as [N0 H0]; [discriminate|].
  split; [|split; [|split]].
  - destruct (no_zeros (digits6 n)); [contradiction|discriminate].
  - apply Forall_forall. intros w I. unfold wire in I. rewrite map_map in I. apply in_map_iff in I as (d & <- & I).
    apply (hex_digit_wire d), S, I.
  - rewrite hex_fold by exact S. fold (value (no_zeros (digits6 n))). rewrite value_no_zeros. apply value_digits6, H.
  - destruct (no_zeros (digits6 n)) as [|d l]; [contradiction|]. cbn [map wire hd_error]. intros [= E].
    apply hex_digit_wire in E; [|apply S; left; reflexivity]. subst d. specialize (H0 eq_refl). injection H0 as ->. reflexivity.
Qed.
Lemma char_shown : forall special c n, utf8_char c n -> shown_as special n (wire (debug_char special c)).
Proof.
  intros special c n U. unfold debug_char. rewrite (code_of c n U). cbv zeta.
  repeat match goal with |- context [?x =? ?y] => let E := fresh in destruct (x =? y) eqn:E;
    [apply N.eqb_eq in E as ->; apply sa_own; cbn; tauto|] end.
  assert (~ In n (map fst own_escapes)) by (cbn; lia).
  destruct (special n) eqn:S.
  - rewrite !wire_app. apply (sa_hex special n (wire (hex n))); auto. apply hex_spec. exact (char_small c n U).
  - apply utf8_char_encode in U as [_ U]. rewrite <- U. apply sa_self; auto.
Qed.
Lemma str_shown : forall special s cs, Forall scalar_value cs -> wire s = flat_map utf8_encode cs ->
  exists ps, Forall2 (shown_as special) cs ps /\ wire (debug_str special s) = 34 :: concat ps ++ [34].
Proof.
  intros special s cs F E. unfold debug_str. rewrite !wire_app.
  enough (X : exists ps, Forall2 (shown_as special) cs ps /\ wire (flat_map (debug_char special) (chars s)) = concat ps)
    by (destruct X as (ps & A & B); exists ps; split; [exact A|rewrite B; reflexivity]).
  revert s E. induction F as [|n cs Hn Hcs IH]; intros bs E.
  - destruct bs; [|discriminate]. exists []. split; [constructor|reflexivity].
  - cbn [flat_map] in E. destruct (encode_char n Hn) as (c & Hc & Ec). rewrite <- Ec in E.
    destruct (split_at _ (len c) bs) as (c' & t & -> & Hl).
    { assert (X : len (wire bs) = len (wire c ++ flat_map utf8_encode cs)) by (rewrite E; reflexivity).
      rewrite len_app, !len_wire in X. lia. }
    rewrite wire_app in E. apply app_inj_len in E as [E1 E2]; [|rewrite !len_wire; exact Hl].
    apply wire_inj in E1. subst c'. destruct (IH t E2) as (ps & A & B).
    exists (wire (debug_char special c) :: ps). split; [constructor; [apply char_shown, Hc|exact A]|].
    rewrite (chars_char c n t Hc) by (apply valid_no_cont, utf8_valid_iff; exists cs; auto).
    cbn [flat_map concat]. rewrite wire_app, B. reflexivity.
Qed.

(** ** Names *)
Definition letterb (c : byte) : bool := let n := Byte.to_N c in (48 <=? n) && (n <=? 57) || (65 <=? n) && (n <=? 90) || (97 <=? n) && (n <=? 122).
Lemma names_tell : forall a b r s, forallb letterb a = true -> forallb letterb b = true -> ender r -> ender s ->
  a ++ r = b ++ s -> a = b /\ r = s.
Proof.
  intros a b r s A B R S E. apply (span (fun c => letterb c = true)) in E; [exact E|apply Forall_forall, forallb_forall; assumption..| |].
  - destruct r as [|c r]; [exact I|]. destruct R as [->|[-> _]]; discriminate.
  - destruct s as [|c s]; [exact I|]. destruct S as [->|[-> _]]; discriminate.
Qed.
Lemma sc_code_tells : forall a b, tells (sc_code_name a) (sc_code_name b) (a = b).
Proof.
  intros a b r s R S E. apply names_tell in E as [E ->]; [|destruct a; reflexivity|destruct b; reflexivity|assumption..].
  split; [|reflexivity]. destruct a, b; try reflexivity; discriminate E.
Qed.
Lemma omc_code_tells : forall a b, tells (omc_code_name a) (omc_code_name b) (a = b).
Proof.
  intros a b r s R S E. apply names_tell in E as [E ->]; [|destruct a; reflexivity|destruct b; reflexivity|assumption..].
  split; [|reflexivity]. destruct a, b; try reflexivity; discriminate E.
Qed.
Definition type_named (n : bytes) : option message_type := find (fun t => bytes_eqb (message_type_name t) n) (map fst mt_table).
Lemma type_named_ok : forall t, type_named (message_type_name t) = Some t.
Proof. intros []; vm_compute; reflexivity. Qed.
Lemma type_tells : forall a b, tells (message_type_name a) (message_type_name b) (a = b).
Proof.
  intros a b r s R S E. apply names_tell in E as [E ->]; [|destruct a; reflexivity|destruct b; reflexivity|assumption..].
  split; [|reflexivity]. apply (f_equal type_named) in E. rewrite !type_named_ok in E. injection E. auto.
Qed.
Lemma flags_tell : forall fs fs' f g, flags_ok fs f -> flags_ok fs' g ->
  tells (flags_debug fs f) (flags_debug fs' g) (f = g /\ (fs = fs' \/ f = 0)).
Proof.
  intros fs fs' f g Hf Hg r s R S. apply flags_cases in Hf. apply flags_cases in Hg. cbn [In] in Hf, Hg.
  repeat (destruct Hf as [Hf|Hf]; [injection Hf as <- <-;
    repeat (destruct Hg as [Hg|Hg]; [injection Hg as <- <-; vm_compute; intro E;
      first [discriminate E
            |injection E as E; first [split; [split; [reflexivity|first [left; reflexivity|right; reflexivity]]|exact E]
                                     |exfalso; subst r; destruct R as [R|[_ [? R]]]; discriminate R
                                     |exfalso; subst s; destruct S as [S|[_ [? S]]]; discriminate S]]|]);
    contradiction|]).
  contradiction.
Qed.

(** ** Messages *)
Lemma f32_tells : forall ft x y, f32_text_ok ft -> u32_ok x -> u32_ok y -> tells (ft x) (ft y) (x = y \/ (is_nan_bits x /\ is_nan_bits y)).
Proof.
  intros ft x y [A B] X Y r s R S E. apply (span (fun c => c <> x2c /\ c <> x20)) in E as [E ->].
  - split; [apply A; assumption|reflexivity].
  - apply Forall_forall. intros c I. split; intros ->; revert I; apply B, X.
  - apply Forall_forall. intros c I. split; intros ->; revert I; apply B, Y.
  - destruct r as [|c r]; [exact I|]. destruct R as [->|[-> _]]; intros [? ?]; congruence.
  - destruct s as [|c s]; [exact I|]. destruct S as [->|[-> _]]; intros [? ?]; congruence.
Qed.
Lemma tells_eq : forall a b P, tells a b P -> a = b -> P.
Proof. intros a b P T E. destruct (T [] []) as [p _]; [exact I|exact I|rewrite E; reflexivity|exact p]. Qed.
Lemma f32_same : forall ft x y, f32_text_ok ft -> u32_ok x -> u32_ok y -> x = y \/ (is_nan_bits x /\ is_nan_bits y) -> ft x = ft y.
Proof. intros ft x y [A _] X Y H. apply A; assumption. Qed.

Ltac peel := first
  [ apply at_nil
  | apply at_cons;
    [first [apply dec_tells | apply flags_tell; eassumption | eapply str0_tells; eassumption | apply u256_tells | apply b0_tells
           | apply sc_code_tells | apply omc_code_tells | apply f32_tells; eassumption | apply type_tells | apply tells_weak, list_tells']
    |peel] ].

Lemma sc_texts : forall special fs fs' a b, sc_ok fs a -> sc_ok fs' b ->
  (debug_sc special fs a = debug_sc special fs' b -> a = b /\ (fs = fs' \/ sc_flags a = 0)).
Proof.
  intros special fs fs' a b A B. destruct A as (A1 & A2 & A3 & A4 & A5 & A6 & A7 & A8 & A9 & _), B as (B1 & B2 & B3 & B4 & B5 & B6 & B7 & B8 & B9 & _).
  intro E. unfold debug_sc in E. eapply tells_eq in E; [|apply struct_tells; peel].
  destruct a as [a1 a2 a3 a4 a5 a6 a7 a8 a9], b as [b1 b2 b3 b4 b5 b6 b7 b8 b9]. cbn [sc_min_version sc_max_version sc_flags sc_endpoint_host sc_endpoint_port sc_vendor sc_hardware_version sc_firmware sc_device_id] in E |- *.
  destruct E as (-> & -> & (-> & F) & -> & -> & -> & -> & -> & -> & _). auto.
Qed.
Lemma scs_texts : forall fs fs' a b, flags_ok fs (scs_flags a) -> flags_ok fs' (scs_flags b) ->
  (debug_scs fs a = debug_scs fs' b -> a = b /\ (fs = fs' \/ scs_flags a = 0)).
Proof.
  intros fs fs' [v f] [v' f'] A B E. unfold debug_scs in E. eapply tells_eq in E; [|apply struct_tells; peel].
  cbn in E |- *. destruct E as (-> & (-> & F) & _). auto.
Qed.
Lemma sce_texts : forall fs fs' a b, flags_ok fs (sce_flags a) -> flags_ok fs' (sce_flags b) ->
  (debug_sce fs a = debug_sce fs' b -> a = b /\ (fs = fs' \/ sce_flags a = 0)).
Proof.
  intros fs fs' [f c] [f' c'] A B E. unfold debug_sce in E. eapply tells_eq in E; [|apply struct_tells; peel].
  cbn in E |- *. destruct E as ((-> & F) & -> & _). auto.
Qed.
Lemma omce_texts : forall n a b, debug_omce n a = debug_omce n b -> a = b.
Proof.
  intros n [f c] [f' c'] E. unfold debug_omce in E. eapply tells_eq in E; [|apply struct_tells; peel].
  cbn in E. destruct E as (-> & -> & _). auto.
Qed.
Lemma message_texts : forall special ft k show a b, f32_text_ok ft -> debug_message special ft k = Some show ->
  msg_ok k a -> msg_ok k b -> (show a = show b <-> same_but_nan k a b).
Proof.
  intros special ft k show a b F D A B. unfold same_but_nan.
  destruct k; cbn [debug_message] in D; try discriminate D; apply (f_equal (fun o => match o with Some x => x | None => show end)) in D; cbv beta iota in D; subst show;
    cbn [zero_rate hash_rates msg_ok] in *;
    try (split; [intro E; split; [|constructor]|intros [-> _]; reflexivity]).
  1,4: eapply sc_texts in E; [|eassumption..]; apply E.
  1,3: destruct A, B; eapply scs_texts in E; [|eassumption..]; apply E.
  1,2: destruct A, B; eapply sce_texts in E; [|eassumption..]; apply E.
  - eapply tells_eq in E; [|apply struct_tells; peel]. destruct a, b. cbn in E. destruct E as (-> & _). reflexivity.
  - destruct A as (A1 & A2 & A3 & A4), B as (B1 & B2 & B3 & B4). split.
    + intro E. eapply tells_eq in E; [|apply struct_tells; peel]. destruct E as (-> & -> & R & -> & _).
      split; [reflexivity|constructor; [exact R|constructor]].
    + intros [E R]. inversion R; subst. destruct a, b. cbn in *. injection E as -> -> ->.
      rewrite (f32_same ft osmc_nominal_hash_rate osmc_nominal_hash_rate0); auto.
  - eapply tells_eq in E; [|apply struct_tells; peel]. destruct a, b. cbn in E. destruct E as (-> & -> & -> & -> & -> & _). reflexivity.
  - apply omce_texts in E. exact E.
  - destruct A as (A1 & A2 & A3 & A4 & A5), B as (B1 & B2 & B3 & B4 & B5). split.
    + intro E. eapply tells_eq in E; [|apply struct_tells; peel]. destruct E as (-> & -> & R & -> & -> & _).
      split; [reflexivity|constructor; [exact R|constructor]].
    + intros [E R]. inversion R; subst. destruct a, b. cbn in *. injection E as -> -> -> ->.
      rewrite (f32_same ft oemc_nominal_hash_rate oemc_nominal_hash_rate0); auto.
  - eapply tells_eq in E; [|apply struct_tells; peel]. destruct a, b. cbn in E. destruct E as (-> & -> & -> & -> & -> & _). reflexivity.
  - apply omce_texts in E. exact E.
  - destruct A as (A1 & A2 & A3), B as (B1 & B2 & B3). split.
    + intro E. eapply tells_eq in E; [|apply struct_tells; peel]. destruct E as (-> & R & -> & _).
      split; [reflexivity|constructor; [exact R|constructor]].
    + intros [E R]. inversion R; subst. destruct a, b. cbn in *. injection E as -> ->.
      rewrite (f32_same ft uc_nominal_hash_rate uc_nominal_hash_rate0); auto.
Qed.
Lemma frame_texts : forall a b, debug_frame a = debug_frame b -> a = b.
Proof.
  intros [t p] [t' p'] E. unfold debug_frame in E. eapply tells_eq in E; [|apply struct_tells; peel].
  cbn in E. destruct E as (-> & -> & _). reflexivity.
Qed.

(** ** Different structs *)
Lemma lit_inj : forall a b, lit a = lit b -> a = b.
Proof.
  intros a b H. unfold lit in H. apply (f_equal string_of_list_byte) in H. rewrite !string_of_list_byte_of_string in H. exact H.
Qed.
Lemma struct_starts : forall special ft k show m, debug_message special ft k = Some show ->
  exists r, show m = lit (struct_name k) ++ x20 :: r.
Proof.
  intros special ft k show m D. destruct k; cbn [debug_message] in D; try discriminate D;
    apply (f_equal (fun o => match o with Some x => x | None => show end)) in D; cbv beta iota in D; subst show; eexists; reflexivity.
Qed.
Lemma name_tells : forall special ft k k' show show' a b, debug_message special ft k = Some show -> debug_message special ft k' = Some show' ->
  show a = show' b -> struct_name k = struct_name k'.
Proof.
  intros special ft k k' show show' a b D D' E.
  destruct (struct_starts special ft k show a D) as [r R], (struct_starts special ft k' show' b D') as [r' R'].
  rewrite R, R' in E. apply split_sep in E as [E _]; [apply lit_inj, E|..].
  - destruct k; vm_compute; intro H; repeat (destruct H as [H|H]; [discriminate H|]); exact H.
  - destruct k'; vm_compute; intro H; repeat (destruct H as [H|H]; [discriminate H|]); exact H.
Qed.
Lemma setup_modules : forall special,
  (forall a b, sc_ok MiningSetupFlags a -> sc_ok JnSetupFlags b ->
     (debug_sc special MiningSetupFlags a = debug_sc special JnSetupFlags b <-> a = b /\ sc_flags a = 0)) /\
  (forall a b, flags_ok MiningSuccessFlags (scs_flags a) -> flags_ok JnSuccessFlags (scs_flags b) ->
     (debug_scs MiningSuccessFlags a = debug_scs JnSuccessFlags b <-> a = b /\ scs_flags a = 0)) /\
  (forall a b, flags_ok MiningSetupFlags (sce_flags a) -> flags_ok JnSetupFlags (sce_flags b) ->
     (debug_sce MiningSetupFlags a = debug_sce JnSetupFlags b <-> a = b /\ sce_flags a = 0)).
Proof.
  intros special. split; [|split]; intros a b A B; split.
  - intro E. apply sc_texts in E as [E [F|F]]; auto. discriminate F.
  - intros [<- F]. destruct a. cbn in F. subst. reflexivity.
  - intro E. apply scs_texts in E as [E [F|F]]; auto. discriminate F.
  - intros [<- F]. destruct a. cbn in F. subst. reflexivity.
  - intro E. apply sce_texts in E as [E [F|F]]; auto. discriminate F.
  - intros [<- F]. destruct a. cbn in F. subst. reflexivity.
Qed.

(** ** The hash rates that are shown alike, and an example of a text for f32 *)
Definition nan_channel (n : N) : update_channel := mkUC 7 n (repeat x2a 32).
Lemma nan_clash : forall special ft, f32_text_ok ft -> exists k show a b, debug_message special ft k = Some show /\
  msg_ok k a /\ msg_ok k b /\ a <> b /\ show a = show b.
Proof.
  intros special ft F. exists K_UpdateChannel. eexists. exists (nan_channel 0x7fc00000), (nan_channel 0x7fc00001).
  assert (A : msg_ok K_UpdateChannel (nan_channel 0x7fc00000)) by (split; [|split]; reflexivity).
  assert (B : msg_ok K_UpdateChannel (nan_channel 0x7fc00001)) by (split; [|split]; reflexivity).
  split; [reflexivity|]. split; [exact A|]. split; [exact B|]. split; [discriminate|].
  apply (message_texts special ft K_UpdateChannel _ (nan_channel 0x7fc00000) (nan_channel 0x7fc00001) F eq_refl A B).
  split; [reflexivity|]. constructor; [|constructor]. right. split; reflexivity.
Qed.
Definition sample_f32_text (x : N) : bytes := if 0x7f800000 <? x mod 0x80000000 then lit "NaN" else dec x.
Lemma sample_f32_text_ok : f32_text_ok sample_f32_text.
Proof.
  assert (NN : forall x, dec x <> lit "NaN").
  { intros x E. pose proof (dec_no x x4e) as D. rewrite E in D. specialize (D (or_introl eq_refl)). cbn in D. lia. }
  split.
  - intros x y _ _. unfold sample_f32_text, is_nan_bits.
    destruct (0x7f800000 <? x mod 0x80000000) eqn:A, (0x7f800000 <? y mod 0x80000000) eqn:B;
      apply N.ltb_lt in A || apply N.ltb_ge in A; apply N.ltb_lt in B || apply N.ltb_ge in B.
    + tauto.
    + split; [intro E; symmetry in E; elim (NN _ E)|]. intros [->|[_ H]]; [|apply N.lt_nge in H; contradiction]. apply N.lt_nge in A. contradiction.
    + split; [intro E; elim (NN _ E)|]. intros [->|[H _]]; [|apply N.lt_nge in H; contradiction]. apply N.lt_nge in B. contradiction.
    + split; [intro E; left; apply dec_inj, E|]. intros [->|[H _]]; [reflexivity|apply N.lt_nge in H; contradiction].
  - intros x _. unfold sample_f32_text. destruct (0x7f800000 <? x mod 0x80000000).
    + split; vm_compute; intro H; repeat (destruct H as [H|H]; [discriminate H|]); exact H.
    + split; intro H; apply dec_no in H; cbn in H; lia.
Qed.

(** ** The whole text *)
Lemma fields_join : forall l, l <> [] -> debug_fields true l =
  lit " { " ++ between (lit ", ") (map (fun p => lit (fst p) ++ lit ": " ++ snd p) l) ++ lit " }".
Proof.
  intros [|[f t] l] H; [contradiction|]. cbn [debug_fields map between fst snd]. rewrite <- !app_assoc. do 4 f_equal.
  clear. induction l as [|[g u] l IH]; [reflexivity|]. cbn [debug_fields map flat_map fst snd].
  rewrite <- !app_assoc, <- IH. reflexivity.
Qed.
(** The fields of a struct are as they should be. *)
Inductive shown : list (string * bytes) -> list (string * (bytes -> Prop)) -> Prop :=
| sh_nil : shown [] []
| sh_cons : forall f t (P : bytes -> Prop) l l', P t -> shown l l' -> shown ((f, t) :: l) ((f, P) :: l').
Lemma struct_shown : forall n l fs, l <> [] -> shown l fs -> record_text n fs (debug_struct n l).
Proof.
  intros n l fs N S. exists (map snd l). split.
  - clear N. induction S; constructor; auto.
  - unfold debug_struct. rewrite fields_join by exact N. do 4 f_equal.
    clear N. induction S; [reflexivity|]. cbn [map combine fst snd]. rewrite IHS. reflexivity.
Qed.
Lemma join_between : forall sep l, join sep l = between sep l.
Proof.
  intros sep [|x l]; [reflexivity|]. revert x. induction l as [|y l IH]; intros x; [symmetry; apply app_nil_r|].
  change (join sep (x :: y :: l)) with (x ++ sep ++ join sep (y :: l)). rewrite IH. cbn [between flat_map]. rewrite <- app_assoc. reflexivity.
Qed.
Lemma list_shown : forall bs, bytes_text bs (debug_list bs).
Proof.
  intros bs. exists (map (fun b => dec (Byte.to_N b)) bs). split.
  - induction bs; constructor; auto. apply dec_decimal.
  - unfold debug_list. rewrite join_between. reflexivity.
Qed.
Lemma u256_shown : forall v, u256 v (debug_u256 v).
Proof. intros v. exists (debug_list v). split; [apply list_shown|reflexivity]. Qed.
Lemma string_shown : forall special s, utf8_text s -> string_text special s (debug_str special s).
Proof.
  intros special s (cs & A & B). destruct (str_shown special s cs A B) as (ps & C & D). exists cs, ps. auto.
Qed.
Lemma str0_shown : forall special m v, str_ok m v -> str255 special v (debug_str0 special STR0_255 v).
Proof.
  intros special m v (A & _). apply struct_shown; [discriminate|]. constructor; [apply dec_decimal|].
  constructor; [apply string_shown, A|constructor].
Qed.
Lemma b0_shown : forall v, b032 v (debug_b0 B0_32 v).
Proof.
  intros v. apply struct_shown; [discriminate|]. constructor; [apply dec_decimal|]. constructor; [apply list_shown|constructor].
Qed.
Lemma sc_reason_shown : forall c, variant (sc_reason c) (sc_code_name c).
Proof. intros []; reflexivity. Qed.
Lemma omc_reason_shown : forall c, variant (omc_reason c) (omc_code_name c).
Proof. intros []; reflexivity. Qed.
Ltac show := first
  [ apply sh_nil
  | apply sh_cons;
    [first [exact (dec_decimal _) | (unfold exactly; apply flags_text_exact; assumption) | eapply str0_shown; eassumption | apply u256_shown | apply b0_shown
           | apply sc_reason_shown | apply omc_reason_shown | reflexivity]
    |show] ].
Lemma message_shown : forall special ft k show m, debug_message special ft k = Some show -> msg_ok k m ->
  record_text (struct_name k) (fields_shown special ft k m) (show m).
Proof.
  intros special ft k show m D A.
  destruct k; cbn [debug_message] in D; try discriminate D; apply (f_equal (fun o => match o with Some x => x | None => show end)) in D; cbv beta iota in D; subst show;
    cbn [msg_ok fields_shown struct_name] in *; unfold setup_fields, debug_sc, debug_scs, debug_sce, debug_omce, sc_ok in *;
    repeat match goal with H : _ /\ _ |- _ => destruct H end;
    (apply struct_shown; [discriminate|]); show.
Qed.
Lemma frame_shown : forall m, record_text "Message"
  [("message_type", variant (type_variant (m_type m))); ("payload", bytes_text (m_payload m))]%string (debug_frame m).
Proof.
  intros [t p]. apply struct_shown; [discriminate|]. constructor; [destruct t; reflexivity|]. constructor; [apply list_shown|constructor].
Qed.
