(** * CutProofs: the pool of examples/setup_connection.rs reads a frame of which only the beginning has arrived. *)
From Coq Require Import ZArith Lia ZifyBool ZifyNat ZifyN.
From Verif Require Import Base Codec Types Messages Frame Catalog SpecWire SpecTypes SpecDecode BaseFacts CodecFacts Utf8Facts TypesFacts MessagesFacts
  FrameFacts CodecProofs MsgProofs TypesProofs FrameProofs DecodeProofs
  Network Apps AppProofs Samples Display SpecPool PoolProofs.
Ltac Zify.zify_post_hook ::= Z.div_mod_to_equations.
Open Scope N_scope.

Lemma cont_zero : is_cont x00 = false. Proof. reflexivity. Qed.
Lemma utf8_valid_zeros : forall k, utf8_valid (repeat x00 k) = true.
Proof. induction k as [|k IH]; [reflexivity|exact IH]. Qed.
Lemma utf8_pad : forall n a k, (length a <= n)%nat -> utf8_valid (a ++ repeat x00 k) = utf8_valid a.
Proof.
  induction n as [|n IH]; intros a k L.
  { destruct a; [|cbn in L; lia]. cbn [app]. apply utf8_valid_zeros. }
  destruct a as [|b0 t]; [apply utf8_valid_zeros|]. cbn [length] in L. cbn [app utf8_valid].
  destruct (in_range 0 127 b0). { apply IH; lia. }
  destruct (in_range 194 223 b0).
  { destruct t as [|b1 t]; cbn [app]; [destruct k; cbn [repeat]; rewrite ?cont_zero; reflexivity|].
    cbn [length] in L. rewrite IH by lia. reflexivity. }
  destruct (in_range 224 239 b0).
  { destruct t as [|b1 [|b2 t]]; cbn [app].
    - destruct k as [|[|k]]; cbn [repeat]; try reflexivity. rewrite cont_zero, !andb_false_r. reflexivity.
    - destruct k as [|k]; cbn [repeat]; try reflexivity. rewrite cont_zero, !andb_false_r. reflexivity.
    - cbn [length] in L. rewrite IH by lia. reflexivity. }
  destruct (in_range 240 244 b0); [|reflexivity].
  destruct t as [|b1 [|b2 [|b3 t]]]; cbn [app].
  - destruct k as [|[|[|k]]]; cbn [repeat]; try reflexivity. rewrite cont_zero, !andb_false_r. reflexivity.
  - destruct k as [|[|k]]; cbn [repeat]; try reflexivity. rewrite cont_zero, !andb_false_r. reflexivity.
  - destruct k as [|k]; cbn [repeat]; try reflexivity. rewrite cont_zero, !andb_false_r. reflexivity.
  - cbn [length] in L. rewrite IH by lia. reflexivity.
Qed.
Lemma utf8_text_pad : forall a k, utf8_text (a ++ repeat x00 k) <-> utf8_text a.
Proof. intros a k. rewrite <- !utf8_valid_iff, (utf8_pad (length a)) by lia. reflexivity. Qed.

(** ** The shape of the message *)
Definition len0 (s : str0) : N := len (str0_data s).
Definition front (v : setup_connection) : list N :=
  [0] ++ spec_le 2 (sc_min_version v) ++ spec_le 2 (sc_max_version v) ++ spec_le 4 (sc_flags v).
Definition dat (s : str0) : list N := wire (str0_data s).

Lemma lay_str_cons : forall s, str_ok 255 s -> lay_str s = len0 s :: dat s.
Proof.
  intros s (_ & L & _). unfold lay_str, spec_le, len0, dat. cbn [seq map app].
  rewrite N.pow_0_r, N.div_1_r, N.mod_small by lia. reflexivity.
Qed.
Lemma front_len : forall v, length (front v) = 9%nat. Proof. intros v. reflexivity. Qed.
Lemma dat_len : forall s, length (dat s) = N.to_nat (len0 s).
Proof. intros s. unfold dat, len0, len, wire. rewrite map_length. lia. Qed.
Lemma le2_len : forall x, length (spec_le 2 x) = 2%nat. Proof. reflexivity. Qed.

Definition to_hw (v : setup_connection) : list N :=
  front v ++ len0 (sc_endpoint_host v) :: dat (sc_endpoint_host v) ++ spec_le 2 (sc_endpoint_port v) ++
  len0 (sc_vendor v) :: dat (sc_vendor v) ++ len0 (sc_hardware_version v) :: dat (sc_hardware_version v).
Lemma shape : forall v, sc_ok MiningSetupFlags v ->
  layout K_CommonSetupConnection (CSC_Mining v) =
  to_hw v ++ len0 (sc_firmware v) :: dat (sc_firmware v) ++ len0 (sc_device_id v) :: dat (sc_device_id v).
Proof.
  intros v (_ & _ & _ & H1 & _ & H2 & H3 & H4 & H5 & _). cbn [layout]. unfold lay_sc, to_hw, front.
  rewrite !lay_str_cons by assumption. cbn [app]. rewrite <- !app_assoc. cbn [app]. rewrite <- !app_assoc. cbn [app].
  rewrite <- !app_assoc. cbn [app]. reflexivity.
Qed.
Lemma to_hw_len : forall v, N.of_nat (length (to_hw v)) + 6 = firmware_at v.
Proof.
  intros v. unfold to_hw, firmware_at. repeat (rewrite app_length || cbn [length]).
  rewrite front_len, !dat_len, le2_len. unfold len0. lia.
Qed.

(** The five length bytes of a message, by position. *)
Lemma nth_at : forall (a : list N) x b p, p = length a -> nth p (a ++ x :: b) 0 = x.
Proof. intros a x b p ->. apply nth_middle. Qed.

Lemma length_bytes : forall v tail,
  let w := to_hw v ++ len0 (sc_firmware v) :: tail in
  let h := N.to_nat (len0 (sc_endpoint_host v)) in
  let e := N.to_nat (len0 (sc_vendor v)) in
  let x := N.to_nat (len0 (sc_hardware_version v)) in
  nth 9 w 0 = len0 (sc_endpoint_host v) /\
  nth (12 + h) w 0 = len0 (sc_vendor v) /\
  nth (13 + h + e) w 0 = len0 (sc_hardware_version v) /\
  nth (14 + h + e + x) w 0 = len0 (sc_firmware v).
Proof.
  intros v tail w h e x. unfold w, to_hw. repeat (rewrite <- app_assoc; cbn [app]). split; [|split; [|split]].
  - apply nth_at. reflexivity.
  - match goal with |- nth _ (?a ++ ?y :: ?b ++ ?c ++ ?z :: ?d) 0 = _ =>
      replace (a ++ y :: b ++ c ++ z :: d) with ((a ++ y :: b ++ c) ++ z :: d) by (rewrite <- app_assoc; cbn [app]; rewrite <- app_assoc; reflexivity) end.
    apply nth_at. repeat (rewrite app_length || cbn [length]). rewrite front_len, dat_len, le2_len. fold h. lia.
  - match goal with |- nth _ (?a ++ ?y :: ?b ++ ?c ++ ?z :: ?d ++ ?u :: ?f) 0 = _ =>
      replace (a ++ y :: b ++ c ++ z :: d ++ u :: f) with ((a ++ y :: b ++ c ++ z :: d) ++ u :: f)
        by (repeat (rewrite <- app_assoc; cbn [app]); reflexivity) end.
    apply nth_at. repeat (rewrite app_length || cbn [length]). rewrite front_len, !dat_len, le2_len. fold h e. lia.
  - match goal with |- nth _ (?a ++ ?y :: ?b ++ ?c ++ ?z :: ?d ++ ?u :: ?f ++ ?s :: ?t) 0 = _ =>
      replace (a ++ y :: b ++ c ++ z :: d ++ u :: f ++ s :: t) with ((a ++ y :: b ++ c ++ z :: d ++ u :: f) ++ s :: t)
        by (repeat (rewrite <- app_assoc; cbn [app]); reflexivity) end.
    apply nth_at. repeat (rewrite app_length || cbn [length]). rewrite front_len, !dat_len, le2_len. fold h e x. lia.
Qed.

(** ** A message whose beginning is kept and whose rest is zero *)
Definition blank (j : nat) (l w : list N) : Prop := forall p, nth p w 0 = if (p <? j)%nat then nth p l 0 else 0.

Lemma firmware_seen : forall v v2 tail tail2 j,
  let l := to_hw v ++ len0 (sc_firmware v) :: tail in
  let w := to_hw v2 ++ len0 (sc_firmware v2) :: tail2 in
  blank j l w -> len0 (sc_vendor v2) <> 0 -> len0 (sc_firmware v2) <> 0 ->
  (length (to_hw v) < j)%nat /\ length (to_hw v2) = length (to_hw v) /\ len0 (sc_firmware v2) = len0 (sc_firmware v).
Proof.
  intros v v2 tail tail2 j l w HB NV NF.
  destruct (length_bytes v tail) as (A1 & A2 & A3 & A4). fold l in A1, A2, A3, A4.
  destruct (length_bytes v2 tail2) as (B1 & B2 & B3 & B4). fold w in B1, B2, B3, B4.
  cbv zeta in *. rewrite HB in B1, B2, B3, B4.
  assert (E1 : (9 <? j)%nat = true /\ len0 (sc_endpoint_host v2) = len0 (sc_endpoint_host v)).
  { destruct (9 <? j)%nat eqn:E; [split; [reflexivity|congruence]|]. exfalso. apply NV. rewrite <- B2.
    replace (_ <? j)%nat with false by lia. reflexivity. }
  destruct E1 as (_ & E1). rewrite E1 in *.
  assert (E2 : len0 (sc_vendor v2) = len0 (sc_vendor v)).
  { destruct (12 + N.to_nat (len0 (sc_endpoint_host v)) <? j)%nat; congruence. }
  rewrite E2 in *.
  assert (E3 : len0 (sc_hardware_version v2) = len0 (sc_hardware_version v)).
  { destruct (13 + N.to_nat (len0 (sc_endpoint_host v)) + N.to_nat (len0 (sc_vendor v)) <? j)%nat eqn:E; [congruence|].
    exfalso. apply NF. rewrite <- B4. replace (_ <? j)%nat with false by lia. reflexivity. }
  rewrite E3 in *.
  pose proof (to_hw_len v) as T1. pose proof (to_hw_len v2) as T2. unfold firmware_at in T1, T2.
  fold (len0 (sc_endpoint_host v)) in T1. fold (len0 (sc_vendor v)) in T1. fold (len0 (sc_hardware_version v)) in T1.
  fold (len0 (sc_endpoint_host v2)) in T2. fold (len0 (sc_vendor v2)) in T2. fold (len0 (sc_hardware_version v2)) in T2.
  destruct (14 + N.to_nat (len0 (sc_endpoint_host v)) + N.to_nat (len0 (sc_vendor v)) + N.to_nat (len0 (sc_hardware_version v)) <? j)%nat eqn:E;
    [|congruence].
  split; [lia|]. split; [lia|congruence].
Qed.

(** The message read back from a cut one. *)
Definition pad_str (k : nat) (s : str0) : str0 :=
  mkStr0 (len0 s) (firstn k (str0_data s) ++ repeat x00 (length (str0_data s) - k)).
Lemma pad_len : forall k s, len0 (pad_str k s) = len0 s.
Proof.
  intros k s. unfold len0, pad_str. cbn [str0_data]. unfold len. rewrite app_length, firstn_length, repeat_length. lia.
Qed.
Lemma pad_ok : forall k s, str_ok 255 s -> utf8_text (firstn k (str0_data s)) -> str_ok 255 (pad_str k s).
Proof.
  intros k s (A & B & D) U. split; [cbn [pad_str str0_data]; apply utf8_text_pad, U|].
  change (len (str0_data (pad_str k s))) with (len0 (pad_str k s)). rewrite pad_len. split; [exact B|reflexivity].
Qed.
Lemma pad_dat : forall k s, dat (pad_str k s) = firstn k (dat s) ++ repeat 0 (length (dat s) - k).
Proof.
  intros k s. unfold dat, pad_str. cbn [str0_data]. rewrite wire_app. unfold wire. rewrite firstn_map, map_length. f_equal.
  generalize (length (str0_data s) - k)%nat. induction n as [|n IH]; [reflexivity|]. cbn [repeat map]. rewrite IH. reflexivity.
Qed.
Definition empty_str : str0 := mkStr0 0 [].
Lemma empty_ok : str_ok 255 empty_str.
Proof. split; [exists []; split; [constructor|reflexivity]|]. split; [vm_compute; discriminate|reflexivity]. Qed.

Definition with_tail (v : setup_connection) (fw dev : str0) : setup_connection :=
  mkSC (sc_min_version v) (sc_max_version v) (sc_flags v) (sc_endpoint_host v) (sc_endpoint_port v) (sc_vendor v)
       (sc_hardware_version v) fw dev.

Lemma firstn_past : forall A (a b : list A) j, (length a <= j)%nat -> firstn j (a ++ b) = a ++ firstn (j - length a) b.
Proof. intros A a b j H. rewrite firstn_app, firstn_all2 by exact H. reflexivity. Qed.

Definition dev_left (k f : nat) (s : str0) : str0 := if (k <=? f)%nat then empty_str else pad_str (k - f - 1) s.

Lemma tail_shape : forall v j, sc_ok MiningSetupFlags v ->
  let l := layout K_CommonSetupConnection (CSC_Mining v) in
  let k := (j - length (to_hw v) - 1)%nat in
  let f := length (dat (sc_firmware v)) in
  let dev' := dev_left k f (sc_device_id v) in
  (length (to_hw v) < j <= length l)%nat ->
  exists z, firstn j l ++ repeat 0 (length l - j) =
    to_hw v ++ len0 (sc_firmware v) :: dat (pad_str k (sc_firmware v)) ++ len0 dev' :: dat dev' ++ repeat 0 z.
Proof.
  intros v j HV l k f dev' HJ.
  exists (if (k <=? f)%nat then length (dat (sc_device_id v)) else 0%nat).
  unfold l in *. rewrite (shape v HV) in *.
  rewrite firstn_past by lia. rewrite <- !app_assoc. f_equal.
  replace (j - length (to_hw v))%nat with (S k) by (unfold k; lia). cbn [firstn app]. f_equal.
  rewrite app_length in *. cbn [length] in *. rewrite app_length in *. cbn [length] in *.
  set (g := length (dat (sc_device_id v))) in *.
  replace (length (to_hw v) + S (length (dat (sc_firmware v)) + S g) - j)%nat with (f + S g - k)%nat by (unfold f, k; lia).
  rewrite pad_dat. fold f. unfold dev', dev_left. destruct (k <=? f)%nat eqn:E.
  - rewrite firstn_app. replace (k - length (dat (sc_firmware v)))%nat with 0%nat by (unfold f in E; lia).
    cbn [firstn]. rewrite app_nil_r. unfold empty_str, len0, dat. cbn [str0_data wire map]. rewrite len_nil.
    rewrite <- !app_assoc. f_equal. cbn [app].
    replace (f + S g - k)%nat with ((f - k) + S g)%nat by lia. rewrite repeat_app. reflexivity.
  - rewrite firstn_past by (fold f; lia). fold f. rewrite (firstn_all2 (dat (sc_firmware v))) by (fold f; lia).
    replace (f - k)%nat with 0%nat by lia. cbn [repeat]. rewrite !app_nil_r, <- !app_assoc. f_equal.
    replace (k - f)%nat with (S (k - f - 1)) by lia. cbn [firstn app]. rewrite pad_len. f_equal. rewrite pad_dat. fold g.
    f_equal; f_equal; lia.
Qed.

Lemma tail_written : forall v j, sc_ok MiningSetupFlags v ->
  let l := layout K_CommonSetupConnection (CSC_Mining v) in
  let k := (j - length (to_hw v) - 1)%nat in
  let f := length (dat (sc_firmware v)) in
  (length (to_hw v) < j <= length l)%nat ->
  utf8_text (firstn k (str0_data (sc_firmware v))) -> utf8_text (firstn (k - f - 1) (str0_data (sc_device_id v))) ->
  exists v' z, sc_ok MiningSetupFlags v' /\ sc_min_version v' = sc_min_version v /\
    firstn j l ++ repeat 0 (length l - j) = layout K_CommonSetupConnection (CSC_Mining v') ++ repeat 0 z.
Proof.
  intros v j HV l k f HJ U1 U2.
  destruct (tail_shape v j HV HJ) as (z & E). fold l k f in E.
  set (fw' := pad_str k (sc_firmware v)) in *.
  set (dev' := dev_left k f (sc_device_id v)) in *.
  assert (HV' : sc_ok MiningSetupFlags (with_tail v fw' dev')).
  { destruct HV as (H1 & H2 & H3 & H4 & H5 & H6 & H7 & H8 & H9 & H10 & H11 & H12 & H13).
    unfold sc_ok, with_tail. cbn [sc_min_version sc_max_version sc_flags sc_endpoint_host sc_endpoint_port sc_vendor
      sc_hardware_version sc_firmware sc_device_id]. repeat (split; [assumption|]).
    split; [apply pad_ok; assumption|]. split.
    { unfold dev', dev_left. destruct (k <=? f)%nat; [apply empty_ok|apply pad_ok; assumption]. }
    repeat (split; [assumption|]). intros X.
    assert (X' : len0 fw' = 0) by (unfold len0; rewrite X; reflexivity). unfold fw' in X'. rewrite pad_len in X'.
    apply H13. apply len_0. exact X'. }
  exists (with_tail v fw' dev'), z. split; [exact HV'|]. split; [reflexivity|].
  rewrite E, (shape _ HV'). cbn [with_tail sc_firmware sc_device_id].
  change (to_hw (with_tail v fw' dev')) with (to_hw v). unfold fw' at 2. rewrite pad_len.
  rewrite <- !app_assoc. cbn [app]. rewrite <- !app_assoc. reflexivity.
Qed.

Lemma wire_zeros : forall k, wire (repeat x00 k) = repeat 0 k.
Proof. induction k as [|k IH]; [reflexivity|]. cbn [repeat]. rewrite wire_cons, IH. reflexivity. Qed.
Lemma wire_firstn : forall k b, wire (firstn k b) = firstn k (wire b).
Proof. intros k b. unfold wire. symmetry. apply firstn_map. Qed.
Lemma length_wire : forall b, length (wire b) = length b.
Proof. intros b. apply map_length. Qed.

Lemma zero_header : forall h3 h4 h5 body, spec_val (wire [h3; h4; h5]) <= len body ->
  spec_decode_frame (x00 :: x00 :: x00 :: h3 :: h4 :: h5 :: body) =
  Ok (mkMessage MT_SetupConnection (firstn (N.to_nat (spec_val (wire [h3; h4; h5]))) body), 6 + spec_val (wire [h3; h4; h5])).
Proof.
  intros h3 h4 h5 body H. unfold spec_decode_frame.
  assert (W : exists t, wire (x00 :: x00 :: x00 :: h3 :: h4 :: h5 :: body) = 0 :: 0 :: 0 :: t) by (eexists; reflexivity).
  destruct W as (t & ->). change (spec_lookup (0 + 256 * (0 mod 128)) 0) with (Some MT_SetupConnection).
  cbn [spec_code snd]. change (128 <=? 0) with false. cbn [Bool.eqb negb skipn firstn].
  change (len [h3; h4; h5] <? 3) with false. cbv iota zeta.
  replace (len body <? spec_val (wire [h3; h4; h5])) with false by lia. reflexivity.
Qed.

Lemma cut_frame : forall enc a3 a4 a5 pl i, enc = x00 :: x00 :: x00 :: a3 :: a4 :: a5 :: pl ->
  spec_val (wire [a3; a4; a5]) = len pl -> len pl <= 1018 -> (i <= length enc)%nat ->
  exists pl' n, spec_decode_frame (read_1024 (firstn i enc)) = Ok (mkMessage MT_SetupConnection pl', n) /\
    ((6 <= i)%nat -> wire pl' = firstn (i - 6) (wire pl) ++ repeat 0 (length (wire pl) - (i - 6))) /\
    ((i < 6)%nat -> exists z, wire pl' = repeat 0 z).
Proof.
  intros enc a3 a4 a5 pl i -> HV HL Hi. cbn [length] in Hi.
  assert (HLn : (length pl <= 1018)%nat) by (unfold len in HL; lia).
  assert (RD : forall t, (length t <= 1024)%nat -> read_1024 t = t ++ repeat x00 (1024 - length t)).
  { intros t Ht. unfold read_1024. rewrite firstn_all2 by exact Ht. reflexivity. }
  assert (Z : forall h3 h4 h5 z, z = 1018%nat -> spec_val (wire [h3; h4; h5]) <= len pl ->
    exists pl' n, spec_decode_frame (x00 :: x00 :: x00 :: h3 :: h4 :: h5 :: repeat x00 z) = Ok (mkMessage MT_SetupConnection pl', n) /\
      exists z', wire pl' = repeat 0 z').
  { intros h3 h4 h5 z -> Hh. rewrite zero_header by (unfold len at 1; rewrite repeat_length; lia). do 2 eexists. split; [reflexivity|].
    exists (N.to_nat (spec_val (wire [h3; h4; h5]))). rewrite wire_firstn, wire_zeros.
    assert (X : (N.to_nat (spec_val (wire [h3; h4; h5])) <= 1018)%nat) by lia. revert X.
    generalize (N.to_nat (spec_val (wire [h3; h4; h5]))). intros m X.
    replace 1018%nat with (m + (1018 - m))%nat by lia. rewrite repeat_app, firstn_app, repeat_length, Nat.sub_diag, firstn_O, app_nil_r.
    apply firstn_all2. rewrite repeat_length. lia. }
  assert (VAL : forall x y z, spec_val (wire [x; y; z]) = Byte.to_N x + 256 * (Byte.to_N y + 256 * Byte.to_N z)).
  { intros x y z. unfold spec_val. cbn [wire map fold_right]. lia. }
  rewrite VAL in HV.
  pose proof (to_N_lt a3) as T3. pose proof (to_N_lt a4) as T4. pose proof (to_N_lt a5) as T5.
  destruct i as [|[|[|[|[|[|i]]]]]]; cbn [firstn]; rewrite RD by (cbn [length]; rewrite ?firstn_length; lia); cbn [length].
  1-4: destruct (Z x00 x00 x00 1018%nat eq_refl ltac:(rewrite VAL; change (Byte.to_N x00) with 0; lia)) as (p & n & D & E);
       exists p, n; split; [exact D|split; [lia|intros _; exact E]].
  - destruct (Z a3 x00 x00 1018%nat eq_refl ltac:(rewrite VAL; change (Byte.to_N x00) with 0; lia)) as (p & n & D & E).
    exists p, n; split; [exact D|split; [lia|intros _; exact E]].
  - destruct (Z a3 a4 x00 1018%nat eq_refl ltac:(rewrite VAL; change (Byte.to_N x00) with 0; lia)) as (p & n & D & E).
    exists p, n; split; [exact D|split; [lia|intros _; exact E]].
  - cbn [app]. set (body := firstn i pl ++ repeat x00 (1024 - S (S (S (S (S (S (length (firstn i pl))))))))).
    assert (LB : length body = 1018%nat).
    { unfold body. rewrite app_length, repeat_length, firstn_length. lia. }
    rewrite zero_header by (rewrite VAL, HV; unfold len; lia).
    do 2 eexists. split; [reflexivity|]. split; [|lia]. intros _.
    rewrite VAL, HV. replace (S (S (S (S (S (S i))))) - 6)%nat with i by lia. unfold len. rewrite Nat2N.id.
    rewrite wire_firstn. unfold body. rewrite wire_app, wire_firstn, wire_zeros, firstn_past.
    2:{ rewrite firstn_length, length_wire. lia. }
    f_equal. rewrite !firstn_length, !length_wire. replace (Nat.min i (length pl)) with i by lia.
    replace (1024 - S (S (S (S (S (S i))))))%nat with ((length pl - i) + (1018 - length pl))%nat by lia.
    rewrite repeat_app, firstn_app, repeat_length, Nat.sub_diag, firstn_O, app_nil_r.
    apply firstn_all2. rewrite repeat_length. lia.
Qed.

Lemma blank_kept : forall j l, (j <= length l)%nat -> blank j l (firstn j l ++ repeat 0 (length l - j)).
Proof.
  intros j l H p. destruct (p <? j)%nat eqn:E.
  - rewrite app_nth1 by (rewrite firstn_length; lia). rewrite <- (firstn_skipn j l) at 2.
    rewrite app_nth1 by (rewrite firstn_length; lia). reflexivity.
  - rewrite app_nth2 by (rewrite firstn_length; lia). apply nth_repeat.
Qed.
Lemma blank_zeros : forall z l, blank 0 l (repeat 0 z).
Proof. intros z l p. cbn. apply nth_repeat. Qed.

Lemma cut_reading : forall v j w, sc_ok MiningSetupFlags v ->
  let l := layout K_CommonSetupConnection (CSC_Mining v) in
  let k := (j - length (to_hw v) - 1)%nat in
  let f := length (dat (sc_firmware v)) in
  blank j l w -> ((length (to_hw v) < j)%nat -> (j <= length l)%nat /\ w = firstn j l ++ repeat 0 (length l - j)) ->
  forall m left, msg_ok K_CommonSetupConnection m -> w = layout K_CommonSetupConnection m ++ left ->
  (length (to_hw v) < j)%nat /\ utf8_text (firstn k (str0_data (sc_firmware v))) /\
  utf8_text (firstn (k - f - 1) (str0_data (sc_device_id v))).
Proof.
  intros v j w HV l k f HB HW m left HM E. destruct m as [v2|v2].
  2:{ exfalso. pose proof (HB 0%nat) as X. rewrite E in X. cbn [layout app nth] in X. unfold l in X. cbn [layout app nth] in X.
      destruct (0 <? j)%nat; discriminate X. }
  pose proof HM as HM2. cbn [msg_ok] in HM2. rewrite (shape v2 HM2), <- app_assoc in E. cbn [app] in E. rewrite <- app_assoc in E.
  cbn [app] in E. unfold l in HB. rewrite (shape v HV) in HB. rewrite E in HB.
  assert (NZ : len0 (sc_vendor v2) <> 0 /\ len0 (sc_firmware v2) <> 0).
  { unfold sc_ok in HM2. destruct HM2 as (_ & _ & _ & _ & _ & _ & _ & _ & _ & _ & _ & N1 & N2).
    split; intros X; apply len_0 in X; contradiction. }
  destruct (firmware_seen _ _ _ _ _ HB (proj1 NZ) (proj2 NZ)) as (J & LE & FE).
  destruct (HW J) as (JL & W2). split; [exact J|].
  destruct (tail_shape v j HV (conj J JL)) as (z & TS). fold l k f in TS. rewrite E, TS in W2. clear TS.
  apply app_inj_len in W2 as (_ & W2); [|unfold len; lia].
  injection W2 as _ W2. apply app_inj_len in W2 as (F2 & W2).
  2:{ unfold len. rewrite !dat_len, pad_len. lia. }
  assert (FD : str0_data (sc_firmware v2) = str0_data (pad_str k (sc_firmware v))) by (apply wire_inj; exact F2).
  assert (UO : utf8_text (str0_data (sc_firmware v2)) /\ utf8_text (str0_data (sc_device_id v2))).
  { unfold sc_ok, str_ok in HM2. tauto. }
  destruct UO as (UF & UD). split.
  { rewrite FD in UF. cbn [pad_str str0_data] in UF. exact (proj1 (utf8_text_pad _ _) UF). }
  injection W2 as DL W2. unfold dev_left in *. destruct (k <=? f)%nat eqn:KF.
  { replace (k - f - 1)%nat with 0%nat by lia. cbn [firstn]. exists []. split; [constructor|reflexivity]. }
  apply app_inj_len in W2 as (D2 & _); [|unfold len; rewrite !dat_len; lia].
  apply wire_inj in D2. rewrite D2 in UD. cbn [pad_str str0_data] in UD. exact (proj1 (utf8_text_pad _ _) UD).
Qed.

Theorem cut_delivery : forall v flags, constructed K_CommonSetupConnection (CSC_Mining v) ->
  flags_ok MiningSuccessFlags flags ->
  exists bs, sc_miner_send (CSC_Mining v) = Ok bs /\
    (len bs <= 1024 -> forall pf i, i <= len bs ->
     let r := sc_pool_recv pf flags (read_1024 (firstn (N.to_nat i) bs)) in
     let readable := firmware_at v < i /\ utf8_text (remains (firmware_at v) i (sc_firmware v)) /\
                     utf8_text (remains (device_at v) i (sc_device_id v)) in
     (readable -> exists reply, r = Ok (Some reply) /\ wire reply = success_frame (sc_min_version v) flags) /\
     (~ readable -> r = Panic)).
Proof.
  intros v flags HC HF. apply constructed_iff in HC. pose proof HC as HV. cbn [msg_ok] in HV.
  destruct (framed _ _ HC) as (fr & enc & F & T & P & U & S & LE & _).
  exists enc. split; [unfold sc_miner_send; rewrite F; cbn [unwrap obind]; rewrite S; reflexivity|].
  intros L pf i Hi r readable.
  assert (LP : len (m_payload fr) = len (layout K_CommonSetupConnection (CSC_Mining v))) by (rewrite <- P, len_wire; reflexivity).
  destruct (frame_len fr enc ltac:(lia) S) as (_ & W). unfold frame_layout in W. rewrite T in W.
  cbn [frameable_of fr_type spec_code] in W.
  assert (EQ : enc = x00 :: x00 :: x00 :: to_le 3 (len (m_payload fr)) ++ m_payload fr).
  { apply wire_inj. rewrite W. rewrite !wire_cons, wire_app, wire_to_le. reflexivity. }
  assert (VAL : spec_val (wire (to_le 3 (len (m_payload fr)))) = len (m_payload fr)).
  { rewrite val_of_le. apply of_le_to_le. assert (1018 < 256 ^ N.of_nat 3) by reflexivity. lia. }
  pose proof (length_to_le 3 (len (m_payload fr))) as L3.
  destruct (to_le 3 (len (m_payload fr))) as [|a3 [|a4 [|a5 [|]]]] eqn:TL; try discriminate L3. cbn [app] in EQ.
  destruct (cut_frame enc a3 a4 a5 (m_payload fr) (N.to_nat i) EQ VAL ltac:(lia) ltac:(unfold len in Hi; lia))
    as (pl & n & D & C6 & C0).
  set (buffer := read_1024 (firstn (N.to_nat i) enc)) in *.
  assert (SB : rust_slice buffer).
  { apply slice_1024. destruct (read_padded (firstn (N.to_nat i) enc)) as (_ & _ & _ & X & _). fold buffer in X. lia. }
  destruct (pool_exact pf flags buffer SB HF) as (PM & PU). fold r in PM, PU.
  set (l := layout K_CommonSetupConnection (CSC_Mining v)) in *.
  set (j := (N.to_nat i - 6)%nat) in *.
  pose proof (to_hw_len v) as HL.
  assert (LL : length l = length (m_payload fr)) by (unfold len in LP; lia).
  assert (JL : (j <= length l)%nat) by (unfold j; unfold len in *; lia).
  assert (SP : rust_slice pl) by exact (frame_payload_slice _ _ _ SB D).
  rewrite P in C6. fold l in C6.
  set (k := (j - length (to_hw v) - 1)%nat).
  set (f := length (dat (sc_firmware v))).
  assert (FL : f = length (str0_data (sc_firmware v))) by (unfold f, dat; apply length_wire).
  assert (RF : remains (firmware_at v) i (sc_firmware v) = firstn k (str0_data (sc_firmware v))).
  { unfold remains. f_equal. unfold k, j. lia. }
  assert (RD : remains (device_at v) i (sc_device_id v) = firstn (k - f - 1) (str0_data (sc_device_id v))).
  { unfold remains, device_at. f_equal. unfold k, j. rewrite FL. unfold len. lia. }
  assert (RJ : firmware_at v < i <-> (length (to_hw v) < j)%nat) by (unfold j; lia).
  unfold readable. rewrite RF, RD. clear RF RD. split.
  - intros (J & UF & UD). apply RJ in J.
    destruct (tail_written v j HV (conj J JL) UF UD) as (v' & z & HV' & MV & E). fold l in E.
    specialize (C6 ltac:(unfold j in J; lia)). rewrite E in C6.
    apply wire_split in C6 as (c & zs & -> & CW & _).
    destruct (decode_outcome K_CommonSetupConnection pf (c ++ zs) SP) as (DO & _).
    assert (DD : deserialize (fr_de (frameable_of K_CommonSetupConnection)) pf (c ++ zs) = Ok (CSC_Mining v')).
    { unfold deserialize. change (mkParser (c ++ zs) 0) with (cursor [] (c ++ zs)).
      pose proof (decode_encoded (T_msg K_CommonSetupConnection) (CSC_Mining v') c HV' CW pf [] zs SP) as X.
      cbn [de_of] in X. rewrite X. reflexivity. }
    apply DO in DD as (lf & DD).
    destruct (reply_bytes (sc_min_version v) flags (mining_min v HC) HF) as (reply & _ & RW).
    exists reply. split; [|exact RW]. symmetry. apply PU.
    eapply pool_mining; [exact D|reflexivity|exact DD|]. rewrite MV. exact RW.
  - intros NR. symmetry. apply PU.
    destruct (decode_table K_CommonSetupConnection pf [] pl SP) as (o & RO & _ & DO).
    destruct o as [[m lf]|e|]; [|eapply pool_bad_message; [exact D|reflexivity|exact RO]|contradiction].
    exfalso. apply NR. destruct DO as (c & -> & DE).
    destruct (decode_canonical (T_msg K_CommonSetupConnection) pf [] (c ++ lf) _ m ltac:(discriminate) SP DE)
      as (c' & rest' & E1 & E2 & OKM & SER).
    assert (WM : wire c' = layout K_CommonSetupConnection m).
    { apply (serialize_layout (T_msg K_CommonSetupConnection)) in SER; [exact SER|exact OKM]. }
    rewrite RJ.
    apply (cut_reading v j (wire (c ++ lf)) HV) with (m := m) (left := wire rest').
    + destruct (le_lt_dec 6 (N.to_nat i)) as [G|G].
      * rewrite (C6 G). apply blank_kept, JL.
      * destruct (C0 G) as (z & ->). replace j with 0%nat by (unfold j; lia). apply blank_zeros.
    + intros J. split; [exact JL|]. apply C6. unfold j in J. lia.
    + exact OKM.
    + rewrite E1, wire_app, WM. reflexivity.
Qed.

Lemma zero_header_short : forall h3 h4 h5 body, len body < spec_val (wire [h3; h4; h5]) ->
  spec_decode_frame (x00 :: x00 :: x00 :: h3 :: h4 :: h5 :: body) = Err ParseError.
Proof.
  intros h3 h4 h5 body H. unfold spec_decode_frame.
  assert (W : exists t, wire (x00 :: x00 :: x00 :: h3 :: h4 :: h5 :: body) = 0 :: 0 :: 0 :: t) by (eexists; reflexivity).
  destruct W as (t & ->). change (spec_lookup (0 + 256 * (0 mod 128)) 0) with (Some MT_SetupConnection).
  cbn [spec_code snd]. change (128 <=? 0) with false. cbn [Bool.eqb negb skipn firstn].
  change (len [h3; h4; h5] <? 3) with false. cbv iota zeta.
  replace (len body <? spec_val (wire [h3; h4; h5])) with true by lia. reflexivity.
Qed.

Lemma long_frame : forall enc a3 a4 a5 pl i, enc = x00 :: x00 :: x00 :: a3 :: a4 :: a5 :: pl ->
  spec_val (wire [a3; a4; a5]) = len pl -> 1018 < len pl ->
  spec_decode_frame (read_1024 (firstn i enc)) = Err ParseError \/
  exists pl' n z, spec_decode_frame (read_1024 (firstn i enc)) = Ok (mkMessage MT_SetupConnection pl', n) /\ wire pl' = repeat 0 z.
Proof.
  intros enc a3 a4 a5 pl i -> HV HL.
  assert (Z : forall h3 h4 h5 z, z = 1018%nat ->
    spec_decode_frame (x00 :: x00 :: x00 :: h3 :: h4 :: h5 :: repeat x00 z) = Err ParseError \/
    exists pl' n z', spec_decode_frame (x00 :: x00 :: x00 :: h3 :: h4 :: h5 :: repeat x00 z) = Ok (mkMessage MT_SetupConnection pl', n) /\
      wire pl' = repeat 0 z').
  { intros h3 h4 h5 z ->. set (v := spec_val (wire [h3; h4; h5])).
    assert (LR : len (repeat x00 1018) = 1018) by (unfold len; rewrite repeat_length; lia).
    destruct (N.lt_ge_cases (len (repeat x00 1018)) v) as [G|G].
    { left. apply zero_header_short. exact G. }
    right. rewrite zero_header by exact G. fold v. do 2 eexists. exists (N.to_nat v). split; [reflexivity|].
    rewrite wire_firstn, wire_zeros. rewrite LR in G.
    assert (X : (N.to_nat v <= 1018)%nat) by lia. revert X. generalize (N.to_nat v). intros m X.
    replace 1018%nat with (m + (1018 - m))%nat by lia. rewrite repeat_app, firstn_app, repeat_length, Nat.sub_diag, firstn_O, app_nil_r.
    apply firstn_all2. rewrite repeat_length. lia. }
  destruct i as [|[|[|[|[|[|i]]]]]]; cbn [firstn]; unfold read_1024.
  1-4: exact (Z x00 x00 x00 1018%nat eq_refl).
  - exact (Z a3 x00 x00 1018%nat eq_refl).
  - exact (Z a3 a4 x00 1018%nat eq_refl).
  - left. set (u := firstn i pl).
    change (spec_decode_frame (x00 :: x00 :: x00 :: a3 :: a4 :: a5 :: firstn 1018 u ++ repeat x00 (1018 - length u)) = Err ParseError).
    apply zero_header_short. rewrite HV. unfold len. rewrite app_length, firstn_length, repeat_length.
    unfold len in HL. clear - HL. lia.
Qed.

Theorem cut_long : forall v flags, constructed K_CommonSetupConnection (CSC_Mining v) ->
  flags_ok MiningSuccessFlags flags ->
  forall bs, sc_miner_send (CSC_Mining v) = Ok bs -> 1024 < len bs ->
  forall pf i, sc_pool_recv pf flags (read_1024 (firstn i bs)) = Panic.
Proof.
  intros v flags HC HF bs HB L pf i. apply constructed_iff in HC. pose proof HC as HV. cbn [msg_ok] in HV.
  destruct (framed _ _ HC) as (fr & enc & F & T & P & U & S & LE & _).
  assert (EB : bs = enc).
  { revert HB. unfold sc_miner_send. rewrite F. cbn [unwrap obind]. rewrite S. cbn. congruence. }
  subst bs. clear HB.
  destruct (frame_ok _ _ HC) as (bs0 & Hw0 & Hl0 & Hf0).
  assert (SM : len (m_payload fr) < 16777216).
  { rewrite Hf0 in F. injection F as <-. cbn [m_payload]. lia. }
  destruct (frame_len fr enc SM S) as (LF & W).
  unfold frame_layout in W. rewrite T in W. cbn [frameable_of fr_type spec_code] in W.
  assert (EQ : enc = x00 :: x00 :: x00 :: to_le 3 (len (m_payload fr)) ++ m_payload fr).
  { apply wire_inj. rewrite W. rewrite !wire_cons, wire_app, wire_to_le. reflexivity. }
  pose proof (length_to_le 3 (len (m_payload fr))) as L3.
  assert (VAL : spec_val (wire (to_le 3 (len (m_payload fr)))) = len (m_payload fr)).
  { rewrite val_of_le. apply of_le_to_le. change (256 ^ N.of_nat 3) with 16777216. exact SM. }
  destruct (to_le 3 (len (m_payload fr))) as [|a3 [|a4 [|a5 [|]]]] eqn:TL; try discriminate L3. cbn [app] in EQ.
  assert (LP : 1018 < len (m_payload fr)) by (rewrite EQ in L; unfold len in *; cbn [length] in L; lia).
  set (buffer := read_1024 (firstn i enc)) in *.
  assert (SB : rust_slice buffer).
  { apply slice_1024. destruct (read_padded (firstn i enc)) as (_ & _ & _ & X & _). fold buffer in X. lia. }
  destruct (pool_exact pf flags buffer SB HF) as (PM & PU). symmetry. apply PU.
  destruct (long_frame enc a3 a4 a5 (m_payload fr) i EQ VAL LP) as [D|(pl & n & z & D & E)]; fold buffer in D.
  { eapply pool_bad_frame. exact D. }
  assert (SP : rust_slice pl) by exact (frame_payload_slice _ _ _ SB D).
  destruct (decode_table K_CommonSetupConnection pf [] pl SP) as (o & RO & _ & DO).
  destruct o as [[m lf]|e|]; [|eapply pool_bad_message; [exact D|reflexivity|exact RO]|contradiction].
  exfalso. destruct DO as (c & -> & DE).
  destruct (decode_canonical (T_msg K_CommonSetupConnection) pf [] (c ++ lf) _ m ltac:(discriminate) SP DE)
    as (c' & rest' & E1 & E2 & OKM & SER).
  assert (WM : wire c' = layout K_CommonSetupConnection m).
  { apply (serialize_layout (T_msg K_CommonSetupConnection)) in SER; [exact SER|exact OKM]. }
  destruct (cut_reading v 0 (wire (c ++ lf)) HV) with (m := m) (left := wire rest') as (X & _).
  + rewrite E. apply blank_zeros.
  + intros J. lia.
  + exact OKM.
  + rewrite E1, wire_app, WM. reflexivity.
  + lia.
Qed.

Theorem cut_any : forall v flags, constructed K_CommonSetupConnection (CSC_Mining v) ->
  flags_ok MiningSuccessFlags flags ->
  exists bs, sc_miner_send (CSC_Mining v) = Ok bs /\
    forall pf i, i <= len bs ->
     let r := sc_pool_recv pf flags (read_1024 (firstn (N.to_nat i) bs)) in
     let readable := len bs <= 1024 /\ firmware_at v < i /\ utf8_text (remains (firmware_at v) i (sc_firmware v)) /\
                     utf8_text (remains (device_at v) i (sc_device_id v)) in
     (readable -> exists reply, r = Ok (Some reply) /\ wire reply = success_frame (sc_min_version v) flags) /\
     (~ readable -> r = Panic).
Proof.
  intros v flags HC HF. destruct (cut_delivery v flags HC HF) as (bs & HS & H). exists bs. split; [exact HS|].
  intros pf i Hi r readable. destruct (N.le_gt_cases (len bs) 1024) as [L|L].
  - specialize (H L pf i Hi). cbv zeta in H. destruct H as (A & B). unfold r, readable. split; intro X.
    + apply A. tauto.
    + apply B. tauto.
  - split; [intros (X & _); lia|]. intros _. exact (cut_long v flags HC HF bs HS L pf (N.to_nat i)).
Qed.

Lemma answered_early : exists v bs i reply, constructed K_CommonSetupConnection (CSC_Mining v) /\
  sc_miner_send (CSC_Mining v) = Ok bs /\ i < len bs /\ len bs <= 1024 /\
  sc_pool_recv Debug REQUIRES_FIXED_VERSION (read_1024 (firstn (N.to_nat i) bs)) = Ok (Some reply).
Proof.
  exists sample_sc. do 3 eexists. split; [apply constructed_iff; exact sample_sc_ok|].
  split; [vm_compute; reflexivity|]. split; [|split; [vm_compute; discriminate|]].
  2:{ instantiate (2 := firmware_at sample_sc + 1). vm_compute. reflexivity. }
  vm_compute. reflexivity.
Qed.

(** ** Texts *)
Lemma texts_clash : forall hex, exists a b, a <> b /\ noise_display hex a = noise_display hex b.
Proof. intros hex. exists MissingnsError, MissingreError. split; [discriminate|reflexivity]. Qed.
Lemma texts_equal : forall hex a b, a <> HexError -> b <> HexError ->
  noise_display hex a = noise_display hex b <->
  a = b \/ (In a [MissingnsError; MissingneError; MissingHsMacError; MissingrsError; MissingreError] /\
            In b [MissingnsError; MissingneError; MissingHsMacError; MissingrsError; MissingreError]).
Proof.
  intros hex a b HA HB. split.
  - destruct a, b; try contradiction; intros H; first [left; reflexivity | right; split; cbn; tauto | discriminate H].
  - intros [->|(A & B)]; [reflexivity|]. cbn in A, B.
    repeat match goal with H : _ \/ _ |- _ => destruct H as [<-|H] | H : False |- _ => destruct H end; reflexivity.
Qed.
