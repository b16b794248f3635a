(** * HeapProofs: what decoding reads and puts on the heap. *)
From Coq Require Import Lia ZifyBool ZifyNat ZifyN.
From Verif Require Import Base Codec Types Messages Frame Catalog Macro Nest Reasons Heap SpecWire SpecTypes SpecReason SpecHeap Display
  BaseFacts CodecFacts TypesFacts MsgProofs CodecProofs ReasonProofs FrameFacts NestProofs WordProofs SpecNest.

Lemma buffered_app : forall a b, buffered (a ++ b) = buffered a + buffered b.
Proof. induction a as [|[n|n] a IH]; intro b; cbn [app buffered]; rewrite ?IH; lia. Qed.
Lemma asks_app : forall a b, asks (a ++ b) = asks a + asks b.
Proof. induction a as [|[n|n] a IH]; intro b; cbn [app asks]; rewrite ?IH; lia. Qed.
Lemma asked_app : forall a b, asked (a ++ b) = asked a + asked b.
Proof. induction a as [|[n|n] a IH]; intro b; cbn [app asked]; rewrite ?IH; lia. Qed.

(** [f] fixed bytes, [r] reads. *)
Definition fits {A} (f r : N) (p p' : parser) (ev : list event) (o : Result A) : Prop :=
  p_bytes p' = p_bytes p /\ p_start p <= p_start p' /\ asks ev <= r /\
  match o with
  | Ok _ => p_start p' = p_start p + asked ev /\ asked ev = f + buffered ev /\ asks ev = r
  | Err _ => buffered ev <= p_start p' - p_start p + longest_text
  | Panic => buffered ev <= p_start p' - p_start p
  end.
Definition costs {A} (m : Dh A) (d : De A) (f r : N) : Prop :=
  forall pf p, rust_slice (p_bytes p) -> let '(ev, p', o) := m pf p in d pf p = (p', o) /\ fits f r p p' ev o.

Lemma costs_bind' : forall A B (m : Dh A) d (k : A -> Dh B) kd f r f' r',
  costs m d f r -> (forall a, (exists pf p p', d pf p = (p', Ok a)) -> costs (k a) (kd a) f' r') ->
  costs (dh_bind m k) (de_bind d kd) (f + f') (r + r').
Proof.
  intros A B m d k kd f r f' r' H K pf p R. unfold dh_bind, de_bind. specialize (H pf p R).
  destruct (m pf p) as [[ev p'] o]. destruct H as (E & Hb & Hs & Hr & Ho). rewrite E. destruct o as [a|e|].
  - specialize (K a (ex_intro _ _ (ex_intro _ _ (ex_intro _ _ E))) pf p'). rewrite Hb in K. specialize (K R).
    destruct (k a pf p') as [[ev' p''] o']. destruct K as (E' & Kb & Ks & Kr & Ko). split; [exact E'|].
    destruct Ho as (O1 & O2 & O3). unfold fits. rewrite buffered_app, asks_app, asked_app. split; [congruence|]. split; [lia|]. split; [lia|].
    destruct o'; lia.
  - split; [reflexivity|]. repeat split; try assumption. lia.
  - split; [reflexivity|]. repeat split; try assumption. lia.
Qed.
Lemma costs_bind : forall A B (m : Dh A) d (k : A -> Dh B) kd f r f' r',
  costs m d f r -> (forall a, costs (k a) (kd a) f' r') -> costs (dh_bind m k) (de_bind d kd) (f + f') (r + r').
Proof. intros. apply costs_bind'; auto. Qed.
Lemma costs_lift : forall A (o : Result A), costs (dh_lift o) (de_lift o) 0 0.
Proof. intros A o pf p _. unfold dh_lift. split; [reflexivity|]. unfold fits. cbn [asks buffered asked]. split; [reflexivity|]. destruct o; unfold longest_text; lia. Qed.
Lemma costs_err : forall A e f r, costs (@dh_lift A (Err e)) (de_lift (Err e)) f r.
Proof. intros A e f r pf p _. unfold dh_lift. split; [reflexivity|]. unfold fits. cbn [asks buffered asked]. split; [reflexivity|]. unfold longest_text; lia. Qed.
Definition short {A} (o : TResult A) : Prop := forall e t, o = Err (e, t) -> len t <= longest_text.
Lemma short_tag : forall A t (o : Result A), (len t <=? longest_text) = true -> short (tag t o).
Proof. intros A t [a|e|] H e' t' E; inversion E; subst; lia. Qed.
Lemma short_ok : forall A (a : A), short (Ok a).
Proof. intros A a e t E; discriminate. Qed.
Lemma short_err : forall A e t, (len t <=? longest_text) = true -> @short A (Err (e, t)).
Proof. intros A e t H e' t' E; inversion E; subst; lia. Qed.
Lemma short_bind : forall A B (o : TResult A) (k : A -> TResult B), short o -> (forall a, short (k a)) -> short (obind o k).
Proof. intros A B [a|[e t]|] k H K; cbn [obind]; [apply K|intros e' t' E; inversion E; subst; exact (H _ _ eq_refl)|intros e' t' E; discriminate]. Qed.
Lemma costs_text : forall A (ot : TResult A) o, erase ot = o -> short ot -> costs (dh_text ot) (de_lift o) 0 0.
Proof.
  intros A ot o <- S pf p _. unfold dh_text. destruct ot as [a|[e t]|]; (split; [reflexivity|]); unfold fits; cbn [asks buffered asked]; try (split; [reflexivity|]).
  - lia.
  - specialize (S _ _ eq_refl). lia.
  - lia.
Qed.
Lemma next_by_gets : forall n pf p, n < 2 ^ 63 -> rust_slice (p_bytes p) -> let '(p', o) := next_by n pf p in
  match o with
  | Ok b => p_bytes p' = p_bytes p /\ p_start p' = p_start p + n /\ len b = n
  | _ => p' = p
  end.
Proof.
  intros n pf p Hn R. unfold next_by. destruct (usize_add pf (p_start p) n) as [off|] eqn:U; [|reflexivity].
  unfold slice_get. destruct ((p_start p <=? off) && (off <=? len (p_bytes p))) eqn:B; [|reflexivity].
  cbn [p_bytes p_start]. apply Bool.andb_true_iff in B as [B1 B2]. unfold rust_slice in R. change (2 ^ 63) with 9223372036854775808 in *.
  assert (O : off = p_start p + n).
  { unfold usize_add in U. destruct (p_start p + n <? USIZE_MOD) eqn:L; [inversion U; reflexivity|].
    unfold USIZE_MOD in *. change (2 ^ 64) with 18446744073709551616 in *. lia. }
  split; [reflexivity|]. split; [exact O|]. unfold len in *. rewrite firstn_length, skipn_length. lia.
Qed.
Ltac text19 := match goal with |- context [len (lit ?s)] => change (len (lit s)) with 19 end.
Lemma costs_next : forall n, n < 2 ^ 63 -> costs (next_by_h n) (next_by n) n 1.
Proof.
  intros n Hn pf p R. unfold next_by_h, next_by_t. pose proof (next_by_gets n pf p Hn R) as G.
  destruct (next_by n pf p) as [p' [b|e|]]; cbn [tag]; (split; [reflexivity|]); unfold fits; cbn [asks buffered asked]; try (split; [reflexivity|]).
  - destruct G as (G1 & G2 & _). split; [exact G1|]. rewrite G2. lia.
  - subst p'. split; [reflexivity|]. text19. unfold longest_text. lia.
  - subst p'. split; [reflexivity|]. lia.
Qed.
(** A read whose bytes are copied: no fixed part. *)
Lemma costs_take : forall n B (k : bytes -> Dh B) kd f r, n < 2 ^ 63 -> (forall b, costs (k b) (kd b) f r) ->
  costs (dh_bind (next_by_h n) (fun b => dh_bind (dh_copy b) k)) (de_bind (next_by n) kd) f (1 + r).
Proof.
  intros n B k kd f r Hn K pf p R. unfold dh_bind, de_bind, dh_copy, next_by_h, next_by_t. pose proof (next_by_gets n pf p Hn R) as G.
  destruct (next_by n pf p) as [p' [b|e|]]; cbn [tag].
  - destruct G as (G1 & G2 & G3). specialize (K b pf p'). rewrite G1 in K. specialize (K R).
    destruct (k b pf p') as [[ev' p''] o']. destruct K as (E' & Kb & Ks & Kr & Ko). split; [exact E'|].
    unfold fits. cbn [app asks buffered asked]. rewrite G1 in Kb. rewrite G2 in *. rewrite G3. split; [congruence|].
    split; [lia|]. split; [lia|]. destruct o'; lia.
  - split; [reflexivity|]. subst p'. unfold fits. cbn [asks buffered asked]. split; [reflexivity|].
    text19. unfold longest_text. lia.
  - split; [reflexivity|]. subst p'. unfold fits. cbn [asks buffered asked]. split; [reflexivity|]. lia.
Qed.

Lemma uint_small : forall k v, (exists pf p p', de_uint k pf p = (p', Ok v)) -> v < 256 ^ N.of_nat k.
Proof.
  intros k v (pf & p & p' & E). unfold de_uint, de_bind, de_lift, de_ret in E. destruct (next_by (N.of_nat k) pf p) as [q [b|e|]]; try discriminate E.
  destruct (clone_from_slice (N.of_nat k) b) as [a|e|] eqn:C; try discriminate E. inversion E; subst. apply clone_ok in C as [_ C].
  rewrite <- C. apply of_le_bound.
Qed.
Lemma u24_small : forall v, (exists pf p p', de_u24 pf p = (p', Ok v)) -> v < 16777216.
Proof.
  intros v (pf & p & p' & E). unfold de_u24, de_bind, de_lift in E. destruct (next_by 3 pf p) as [q [b|e|]]; try discriminate E.
  destruct (clone_from_slice 3 b) as [a|e|]; try discriminate E. inversion E; subst. clear E. rename H1 into H.
  destruct (N.lt_ge_cases (of_le (a ++ [x00])) (2 ^ 24)) as [X|X].
  - rewrite (u24_new_ok _ X) in H. inversion H; subst. exact X.
  - rewrite (u24_new_err _ X) in H. discriminate H.
Qed.
Lemma len_small : forall lt v, (exists pf p p', de_len lt pf p = (p', Ok v)) -> v < 2 ^ 63.
Proof.
  intros lt v H. change (2 ^ 63) with 9223372036854775808. destruct lt; cbn [de_len] in H.
  - apply (uint_small 1) in H. change (256 ^ N.of_nat 1) with 256 in H. lia.
  - apply (uint_small 2) in H. change (256 ^ N.of_nat 2) with 65536 in H. lia.
  - apply u24_small in H. lia.
Qed.

Lemma costs_eq : forall A (m : Dh A) d f r f' r', costs m d f r -> f = f' -> r = r' -> costs m d f' r'.
Proof. intros; subst; assumption. Qed.
Lemma costs_uint : forall k, (k <= 32)%nat -> costs (de_uint_h k) (de_uint k) (N.of_nat k) 1.
Proof.
  intros k Hk. unfold de_uint_h, de_uint. eapply costs_eq.
  - apply costs_bind; [apply costs_next; change (2 ^ 63) with 9223372036854775808; lia|]. intro b.
    apply costs_bind; [apply costs_lift|]. intro a. apply costs_lift.
  - lia.
  - lia.
Qed.
Lemma costs_bool : costs de_bool_h de_bool 1 1.
Proof.
  change (costs de_bool_h de_bool (1 + (0 + 0)) (1 + (0 + 0))). unfold de_bool_h, de_bool.
  apply costs_bind; [apply costs_next; reflexivity|]. intro b. apply costs_bind; [apply costs_lift|]. intro a. apply costs_lift.
Qed.
Lemma costs_u24 : costs de_u24_h de_u24 3 1.
Proof.
  change (costs de_u24_h de_u24 (3 + (0 + 0)) (1 + (0 + 0))). unfold de_u24_h, de_u24.
  apply costs_bind; [apply costs_next; reflexivity|]. intro b. apply costs_bind; [apply costs_lift|]. intro a.
  apply costs_text; [apply erase_tag|apply short_tag; reflexivity].
Qed.
Lemma costs_u256 : costs de_u256_h de_u256 32 1.
Proof.
  change (costs de_u256_h de_u256 (32 + 0) (1 + 0)). unfold de_u256_h, de_u256.
  apply costs_bind; [apply costs_next; reflexivity|]. intro b. apply costs_lift.
Qed.
Lemma costs_len : forall lt, costs (de_len_h lt) (de_len lt) (match lt with LU8 => 1 | LU16 => 2 | LU24 => 3 end) 1.
Proof. intros []; cbn [de_len_h de_len]; [apply (costs_uint 1); lia|apply (costs_uint 2); lia|apply costs_u24]. Qed.
Lemma costs_b0 : forall t, costs (de_b0_h t) (de_b0 t) (match b0_lentype t with LU8 => 1 | LU16 => 2 | LU24 => 3 end) 2.
Proof.
  intro t. unfold de_b0_h, de_b0. eapply costs_eq; [|apply N.add_0_r|exact (eq_refl (1 + (1 + 0)))].
  apply costs_bind'; [apply costs_len|]. intros n Hn. apply costs_take; [exact (len_small _ _ Hn)|]. intro b.
  apply costs_text; [apply erase_tag|apply short_tag; reflexivity].
Qed.
Lemma costs_str0 : forall t, costs (de_str0_h t) (de_str0 t) 1 2.
Proof.
  intro t. change (costs (de_str0_h t) (de_str0 t) (1 + (0 + 0)) (1 + (1 + (0 + 0)))). unfold de_str0_h, de_str0.
  apply costs_bind'; [apply (costs_uint 1); lia|]. intros n Hn. apply costs_take; [exact (len_small LU8 _ Hn)|]. intro b.
  apply costs_bind; [apply costs_lift|]. intro s. apply costs_text; [apply erase_tag|apply short_tag; reflexivity].
Qed.
Lemma costs_flags : forall fs, costs (de_flags_h fs) (de_flags fs) 4 1.
Proof.
  intro fs. change (costs (de_flags_h fs) (de_flags fs) (4 + 0) (1 + 0)). unfold de_flags_h, de_flags.
  apply costs_bind; [apply (costs_uint 4); lia|]. intro b. apply costs_lift.
Qed.
Lemma costs_sc_code : costs de_sc_code_h de_sc_code 1 2.
Proof.
  change (costs de_sc_code_h de_sc_code (1 + 0) (2 + 0)). unfold de_sc_code_h, de_sc_code.
  apply costs_bind; [apply costs_str0|]. intro b. apply costs_lift.
Qed.
Lemma costs_omc_code : costs de_omc_code_h de_omc_code 1 2.
Proof.
  change (costs de_omc_code_h de_omc_code (1 + 0) (2 + 0)). unfold de_omc_code_h, de_omc_code.
  apply costs_bind; [apply costs_str0|]. intro b. apply costs_lift.
Qed.
Lemma costs_protocol : costs de_protocol_h de_protocol 1 1.
Proof.
  change (costs de_protocol_h de_protocol (1 + 0) (1 + 0)). unfold de_protocol_h, de_protocol.
  apply costs_bind; [apply (costs_uint 1); lia|]. intro b. apply costs_text; [apply erase_tag|apply short_tag; reflexivity].
Qed.
Lemma short_sc_new : forall mi ma fl eh ep ve hv fw di, short (sc_new_t mi ma fl eh ep ve hv fw di).
Proof.
  intros. unfold sc_new_t. destruct (is_empty ve); [apply short_err; reflexivity|]. destruct (is_empty fw); [apply short_err; reflexivity|].
  destruct (mi <? 2); [apply short_err; reflexivity|]. destruct (ma <? 2); [apply short_err; reflexivity|].
  do 5 (apply short_bind; [apply short_tag; reflexivity|intros ?]). apply short_ok.
Qed.
Ltac step := first
  [ apply (costs_uint 1); lia | apply (costs_uint 2); lia | apply (costs_uint 4); lia
  | apply costs_u256 | apply costs_b0 | apply costs_str0 | apply costs_flags | apply costs_u24 | apply costs_sc_code | apply costs_omc_code
  | apply costs_lift
  | apply costs_text; [first [apply erase_tag | apply erase_sc_new | apply erase_bind; [apply erase_tag|reflexivity]]
                      |first [apply short_tag; reflexivity | apply short_sc_new
                             | apply short_bind; [apply short_tag; reflexivity|intros ?; apply short_ok]]]
  | apply costs_bind; [|intros ?] ].
Ltac all_steps := eapply costs_eq; [repeat step|reflexivity..].
Lemma costs_sc : forall fs, costs (de_sc_h fs) (de_sc fs) 15 14.
Proof. intros fs. unfold de_sc_h, de_sc. all_steps. Qed.
Lemma costs_csc : costs de_csc_h de_csc 16 15.
Proof.
  change (costs de_csc_h de_csc (1 + (15 + 0)) (1 + (14 + 0))). unfold de_csc_h, de_csc. apply costs_bind; [apply costs_protocol|].
  intros []; try apply costs_err; (apply costs_bind; [apply costs_sc|intro; apply costs_lift]).
Qed.
Lemma costs_kind : forall k, costs (de_kind_h k) (fr_de (frameable_of k)) (fixed_part (T_msg k)) (parts (T_msg k)).
Proof.
  destruct k; cbn [de_kind_h frameable_of fr_de msg_of fixed_part parts]; try apply costs_sc; try apply costs_csc;
    unfold de_scs_h, de_scs, de_sce_h, de_sce, de_cec_h, de_cec, de_osmc_h, de_osmc, de_osmcs_h, de_osmcs, de_omce_h, de_omce,
      de_oemc_h, de_oemc, de_oemcs_h, de_oemcs, de_uc_h, de_uc,
      osmc_new_t, osmc_new, oemc_new_t, oemc_new, osmcs_new_t, osmcs_new, oemcs_new_t, oemcs_new, sce_new_t; all_steps.
Qed.
Lemma costs_message : costs de_message_h de_message 6 4.
Proof.
  change (costs de_message_h de_message (2 + (1 + (0 + (3 + 0)))) (1 + (1 + (0 + (1 + (1 + 0)))))). unfold de_message_h, de_message.
  apply costs_bind; [apply (costs_uint 2); lia|intros ext]. apply costs_bind; [apply (costs_uint 1); lia|intros msg].
  apply costs_bind; [apply costs_lift|intros mt].
  destruct (negb _); [apply costs_err|]. apply costs_bind'; [apply costs_u24|]. intros n Hn.
  apply costs_take; [exact (len_small LU24 _ Hn)|]. intro. apply costs_lift.
Qed.
Lemma costs_of : forall t, costs (de_of_h t) (de_of t) (fixed_part t) (parts t).
Proof.
  destruct t; cbn [de_of_h de_of fixed_part parts];
    first [apply (costs_uint 1); lia | apply (costs_uint 2); lia | apply (costs_uint 4); lia | apply costs_bool | apply costs_u24 | apply costs_u256
          | apply costs_b0 | apply costs_str0 | apply costs_flags | apply costs_sc_code | apply costs_omc_code | apply costs_protocol
          | apply costs_kind | apply costs_message].
Qed.
Lemma costs_shapes :
  (forall A (s : shape A), costs (shape_de_h s) (shape_de s) (shape_fixed s) (shape_parts s)) /\
  (forall F (fs : shapes F), costs (shapes_de_h fs) (shapes_de fs) (shapes_fixed fs) (shapes_parts fs)).
Proof.
  apply shape_both; cbn [shape_de_h shapes_de_h shape_de shapes_de shape_fixed shapes_fixed shape_parts shapes_parts].
  - apply costs_of.
  - intros F M fs IH open new. eapply costs_eq; [apply costs_bind; [exact IH|intro; apply costs_lift]|lia..].
  - apply costs_lift.
  - intros A F s IHs fs IHf. eapply costs_eq; [apply costs_bind; [exact IHs|intro; apply costs_bind; [exact IHf|intro; apply costs_lift]]|lia..].
Qed.

Theorem decode_costs : forall t pf p ev p' o, rust_slice (p_bytes p) -> de_of_h t pf p = (ev, p', o) ->
  de_of t pf p = (p', o) /\ p_start p <= p_start p' /\ asks ev <= parts t /\
  match o with
  | Ok _ => asked ev = p_start p' - p_start p /\ asked ev = fixed_part t + buffered ev /\ asks ev = parts t
  | Err _ => buffered ev <= p_start p' - p_start p + longest_text
  | Panic => buffered ev <= p_start p' - p_start p
  end.
Proof.
  intros t pf p ev p' o R E. pose proof (costs_of t pf p R) as C. rewrite E in C. destruct C as (C0 & _ & C1 & C2 & C3).
  split; [exact C0|]. split; [exact C1|]. split; [exact C2|]. destruct o; lia.
Qed.
Theorem nest_costs : forall A (s : shape A) pf p ev p' o, rust_slice (p_bytes p) -> shape_de_h s pf p = (ev, p', o) ->
  shape_de s pf p = (p', o) /\ p_start p <= p_start p' /\ asks ev <= shape_parts s /\
  match o with
  | Ok _ => asked ev = p_start p' - p_start p /\ asked ev = shape_fixed s + buffered ev /\ asks ev = shape_parts s
  | Err _ => buffered ev <= p_start p' - p_start p + longest_text
  | Panic => buffered ev <= p_start p' - p_start p
  end.
Proof.
  intros A s pf p ev p' o R E. pose proof (proj1 costs_shapes A s pf p R) as C. rewrite E in C. destruct C as (C0 & _ & C1 & C2 & C3).
  split; [exact C0|]. split; [exact C1|]. split; [exact C2|]. destruct o; lia.
Qed.

Lemma cursor_bytes : forall pre rest, p_bytes (cursor pre rest) = pre ++ rest.
Proof. reflexivity. Qed.
Lemma cursor_start : forall pre rest, p_start (cursor pre rest) = len pre.
Proof. reflexivity. Qed.
Theorem decode_value : forall t pf pre rest ev p' v, rust_slice (pre ++ rest) ->
  de_of_h t pf (cursor pre rest) = (ev, p', Ok v) -> len (lay t v) = fixed_part t + buffered ev.
Proof.
  intros t pf pre rest ev p' v R E. destruct (decode_costs t pf (cursor pre rest) ev p' (Ok v) R E) as (D & _ & _ & A1 & A2 & _).
  assert (K : t = T_bool \/ t <> T_bool) by (destruct t; (left; reflexivity) || (right; discriminate)). destruct K as [->|K].
  - pose proof (costs_bool pf (cursor pre rest) R) as C. cbn [de_of_h] in E. rewrite E in C. destruct C as (_ & _ & _ & _ & _ & C & C').
    rewrite <- A2. cbn [de_of_h] in E. unfold de_bool_h, dh_bind, next_by_h, next_by_t, dh_lift in E.
    destruct (next_by 1 pf (cursor pre rest)) as [q [b|e|]]; cbn [tag] in E; try discriminate E.
    destruct (clone_from_slice 1 b); try discriminate E. inversion E; subst. destruct (_ =? 1); reflexivity.
  - destruct (decode_canonical t pf pre rest p' v K R D) as (c & rest' & -> & -> & Ho & S).
    destruct (ty_encodes t) as (F & _ & _). destruct (F v Ho) as (cs & He & Hw). rewrite (emits_serialize _ _ _ He) in S.
    inversion S; subst c. rewrite <- Hw, len_wire, <- A2, A1, !cursor_start, len_app. lia.
Qed.
Theorem nest_value : forall A (s : shape A), storing s -> no_bool s -> forall pf pre rest ev p' v, rust_slice (pre ++ rest) ->
  shape_de_h s pf (cursor pre rest) = (ev, p', Ok v) -> len (shape_lay s v) = shape_fixed s + buffered ev.
Proof.
  intros A s St Nb pf pre rest ev p' v R E. destruct (nest_costs A s pf (cursor pre rest) ev p' (Ok v) R E) as (D & _ & _ & A1 & A2 & _).
  destruct (nest_canonical A s St Nb pf pre rest p' v R D) as (c & rest' & -> & -> & Ho & S).
  destruct (proj1 nest_emits A s v Ho) as (cs & He & Hw). rewrite (emits_serialize _ _ _ He) in S.
  inversion S; subst c. rewrite <- Hw, len_wire, <- A2, A1, !cursor_start, len_app. lia.
Qed.

Lemma parts_kind : forall k, parts (T_msg k) <= 15.
Proof. destruct k; cbn; lia. Qed.
Theorem receive_costs : forall k pf bs ev o, rust_slice bs -> receive_h k pf bs = (ev, o) ->
  o = obind (deserialize de_message pf bs) (unframe (frameable_of k) pf) /\ asks ev <= 19 /\
  match o with
  | Ok _ => buffered ev + 12 + fixed_part (T_msg k) <= 2 * len bs
  | _ => buffered ev <= 2 * len bs + longest_text
  end.
Proof.
  intros k pf bs ev o R E. unfold receive_h in E. unfold deserialize.
  destruct (de_message_h pf (mkParser bs 0)) as [[ev1 p1] o1] eqn:E1.
  destruct (decode_costs T_frame pf (mkParser bs 0) ev1 p1 o1 R E1) as (D1 & _ & A1 & B1). cbn [de_of val] in D1. rewrite D1. cbn [snd].
  pose proof (costs_message pf (mkParser bs 0) R) as C. rewrite E1 in C. destruct C as (_ & Cb & _). cbn [p_start p_bytes] in *.
  change (parts T_frame) with 4 in *. change (fixed_part T_frame) with 6 in *.
  assert (PB : p_start p1 <= len bs).
  { destruct (decode_total T_frame pf [] bs R) as (c & rest' & r & -> & X & _). change (cursor [] (c ++ rest')) with (mkParser (c ++ rest') 0) in X.
    cbn [de_of val] in X. rewrite D1 in X. inversion X; subst. rewrite cursor_start. rewrite len_app. cbn [app]. lia. }
  destruct o1 as [m|e|].
  - cbn [obind]. unfold unframe. assert (LP : buffered ev1 = len (m_payload m)).
    { pose proof (decode_value T_frame pf [] bs ev1 p1 m R E1) as V. cbn [lay] in V. change (fixed_part T_frame) with 6 in V. unfold frame_layout in V.
      destruct (spec_code (m_type m)) as [code chan]. rewrite !len_app, len_spec_le, len_wire in V.
      change (len [0; if chan then 128 else 0]) with 2 in V. change (len [code]) with 1 in V. lia. }
    destruct (negb (mt_eqb (fr_type (frameable_of k)) (m_type m))).
    + inversion E; subst. split; [reflexivity|]. split; [lia|]. unfold longest_text. lia.
    + assert (R2 : rust_slice (m_payload m)) by (unfold rust_slice in *; lia).
      destruct (de_kind_h k pf (mkParser (m_payload m) 0)) as [[ev2 p2] o2] eqn:E2. inversion E; subst ev o; clear E.
      destruct (decode_costs (T_msg k) pf (mkParser (m_payload m) 0) ev2 p2 o2 R2 E2) as (D2 & _ & A2 & B2). cbn [p_start] in B2.
      unfold deserialize. cbn [de_of val] in D2. rewrite D2. cbn [snd]. split; [reflexivity|]. rewrite asks_app, buffered_app.
      pose proof (parts_kind k). split; [lia|].
      assert (PB2 : p_start p2 <= len (m_payload m)).
      { destruct (decode_total (T_msg k) pf [] (m_payload m) R2) as (c & rest' & r & Ec & X & _).
        change (cursor [] (m_payload m)) with (mkParser (m_payload m) 0) in X. cbn [de_of val] in X. rewrite D2 in X. inversion X; subst.
        rewrite cursor_start, Ec. rewrite len_app. cbn [app]. lia. }
      destruct o2; lia.
  - inversion E; subst. cbn [obind]. split; [reflexivity|]. split; [lia|]. unfold longest_text in *. lia.
  - inversion E; subst. cbn [obind]. split; [reflexivity|]. split; [lia|]. unfold longest_text in *. lia.
Qed.
