(** * TypesProofs: lemmas behind C01-C08 and C30-C34. *)
From Verif Require Import Base Codec Types Messages Frame Catalog SpecWire SpecTypes
  BaseFacts CodecFacts Utf8Facts TypesFacts MessagesFacts FrameFacts CodecProofs MsgProofs.
Ltac Zify.zify_post_hook ::= Z.div_mod_to_equations.

Lemma scalar_roundtrip : forall t size v,
  match t with
  | T_u8 => Some 1 | T_u16 => Some 2 | T_u32 => Some 4 | T_f32 => Some 4 | T_bool => Some 1
  | T_U24 => Some 3 | T_U256 => Some 32 | _ => None
  end = Some size -> ok t v ->
  exists enc, wire enc = lay t v /\ len enc = size /\
    (forall w, run vec_writer (ser_of t v) w = (w ++ enc, Ok size)) /\
    (forall pf pre rest, rust_slice (pre ++ enc ++ rest) ->
       de_of t pf (cursor pre (enc ++ rest)) = (cursor (pre ++ enc) rest, Ok v)).
Proof.
  intros t size v Hs Hv. destruct (roundtrip t v Hv) as (enc & Hw & _ & Hr & Hd).
  exists enc. assert (L : len enc = size).
  { rewrite <- (len_wire enc), Hw. destruct t; try discriminate; injection Hs as <-; cbn [lay];
      rewrite ?len_spec_le; try reflexivity.
    - destruct v; reflexivity.
    - rewrite len_wire. apply u256_len. exact Hv. }
  rewrite L in Hr. auto.
Qed.

Lemma bool_lsb : forall b pf pre rest, rust_slice (pre ++ b :: rest) ->
  de_bool pf (cursor pre (b :: rest)) = (cursor (pre ++ [b]) rest, Ok (N.odd (Byte.to_N b))).
Proof. intros b pf pre rest H. apply (reads_bool b pf pre rest). exact H. Qed.

Lemma bool_encoding : forall v w, run vec_writer (ser_bool v) w = (w ++ [if v then x01 else x00], Ok 1).
Proof.
  intros v w. rewrite (emits_run_vec _ _ _ _ _ (emits_bool v)). reflexivity.
Qed.

Lemma u24_range : forall v,
  (v <= 16777215 -> u24_new v = Ok v /\ u24_try_from_usize v = Ok v) /\
  (16777215 < v -> u24_new v = Err RequirementError /\ u24_try_from_usize v = Err RequirementError).
Proof.
  intros v. split; intros H.
  - assert (E : u24_new v = Ok v) by (apply u24_new_ok; lia). split; [exact E|exact E].
  - assert (E : u24_new v = Err RequirementError) by (apply u24_new_err; lia). split; [exact E|exact E].
Qed.

Lemma deserialize_ok : forall t pf bs v, rust_slice bs -> deserialize (de_of t) pf bs = Ok v -> ok t v.
Proof.
  intros t pf bs v Hs H. unfold deserialize in H. rewrite cursor_0 in H.
  destruct (decode_total t pf [] bs Hs) as (c & rest & r & _ & E & _ & _ & Q). rewrite E in H. apply Q, H.
Qed.

Lemma u24_wire : forall pf bs v, rust_slice bs -> deserialize de_u24 pf bs = Ok v -> v <= 16777215.
Proof. intros pf bs v Hs H. apply (deserialize_ok T_U24) in H; [|exact Hs]. cbn [ok val] in H. lia. Qed.

Lemma b0_new_exact : forall t v,
  (len v <= spec_b0_limit t -> b0_new t v = Ok (mkB0 (len v) v)) /\
  (spec_b0_limit t < len v -> b0_new t v = Err RequirementError).
Proof. intros t v. rewrite spec_b0_limit_eq. split; [apply b0_new_ok|apply b0_new_err]. Qed.

Lemma b0_roundtrip : forall t v b, b0_new t v = Ok b ->
  exists enc, wire enc = spec_le (spec_b0_hdr t) (len v) ++ wire v /\
    (forall w, run vec_writer (ser_b0 t b) w = (w ++ enc, Ok (len enc))) /\
    (forall pf pre rest, rust_slice (pre ++ enc ++ rest) ->
       de_b0 t pf (cursor pre (enc ++ rest)) = (cursor (pre ++ enc) rest, Ok b)).
Proof.
  intros t v b H. apply b0_new_inv in H as [L ->].
  destruct (roundtrip (T_B0 t) (mkB0 (len v) v)) as (enc & Hw & _ & Hr & Hd).
  { split; [cbn; rewrite spec_b0_limit_eq; exact L|reflexivity]. }
  exists enc. split; [exact Hw|]. split; [exact Hr|exact Hd].
Qed.

Lemma str0_new_exact : forall t v,
  (len v <= spec_str_limit t -> str0_new t v = Ok (mkStr0 (len v) v)) /\
  (spec_str_limit t < len v -> str0_new t v = Err RequirementError).
Proof. intros t v. rewrite spec_str_limit_eq. split; [apply str0_new_ok|apply str0_new_err]. Qed.

Lemma str0_roundtrip : forall t v s, utf8_text v -> str0_new t v = Ok s ->
  exists enc, wire enc = spec_le 1 (len v) ++ wire v /\
    (forall w, run vec_writer (ser_str0 s) w = (w ++ enc, Ok (len enc))) /\
    (forall pf pre rest, rust_slice (pre ++ enc ++ rest) ->
       de_str0 t pf (cursor pre (enc ++ rest)) = (cursor (pre ++ enc) rest, Ok s)).
Proof.
  intros t v s U H. apply str_new_inv in H as [L ->].
  destruct (roundtrip (T_STR0 t) (mkStr0 (len v) v)) as (enc & Hw & _ & Hr & Hd).
  { split; [exact U|]. split; [cbn; rewrite spec_str_limit_eq; exact L|reflexivity]. }
  exists enc. split; [exact Hw|]. split; [exact Hr|exact Hd].
Qed.

Lemma spec_decode_str_functional : forall t rest r1 r2,
  spec_decode_str t rest r1 -> spec_decode_str t rest r2 -> r1 = r2.
Proof.
  intros t [|h body] r1 r2; cbn [spec_decode_str]; [congruence|].
  intros [(A & ->)|[(A & B & ->)|[(A & B & C & ->)|(A & B & C & ->)]]]
         [(A' & ->)|[(A' & B' & ->)|[(A' & B' & C' & ->)|(A' & B' & C' & ->)]]];
    try reflexivity; try contradiction; exfalso; lia.
Qed.

Lemma utf8_exact : forall t pf n s rest,
  Byte.to_N n = len s -> len s <= spec_str_limit t -> rust_slice (n :: s ++ rest) ->
  (is_ok (deserialize (de_str0 t) pf (n :: s ++ rest)) <->
   exists cs, Forall scalar_value cs /\ wire s = flat_map utf8_encode cs).
Proof.
  intros t pf n s rest Hn Hl Hs. fold (utf8_text s). unfold deserialize. rewrite cursor_0.
  destruct (str_table t pf [] (n :: s ++ rest) Hs) as (r & HT & HR). cbn [spec_decode_str] in HT.
  rewrite Hn in HT. rewrite firstn_len_app in HT.
  destruct HT as [(A & ->)|[(A & B & ->)|[(A & B & C & ->)|(A & B & C & ->)]]].
  - rewrite len_app in A. lia.
  - rewrite HR. split; [intros [? ?]; discriminate|contradiction].
  - lia.
  - rewrite HR. cbn [snd]. split; [auto|]. intros _. eexists; reflexivity.
Qed.

(** ** Flags *)
Lemma flags_decode : forall fs pf bits rest,
  rust_slice (to_le 4 bits ++ rest) -> u32_ok bits ->
  (flags_ok fs bits -> de_flags fs pf (cursor [] (to_le 4 bits ++ rest)) = (cursor (to_le 4 bits) rest, Ok bits)) /\
  (~ flags_ok fs bits -> snd (de_flags fs pf (cursor [] (to_le 4 bits ++ rest))) = Err UnknownFlags).
Proof.
  intros fs pf bits rest Hs Hb.
  assert (R : de_u32 pf (cursor [] (to_le 4 bits ++ rest)) = (cursor ([] ++ to_le 4 bits) rest, Ok bits)).
  { apply (decode_encoded T_u32); [exact Hb|apply wire_to_le|exact Hs]. }
  unfold de_flags. split; intros H; rewrite (de_bind_ok _ _ _ _ _ _ _ _ R); unfold de_lift.
  - assert (E : flags_from_bits fs bits = Some bits) by (apply flags_from_bits_iff; auto). rewrite E. reflexivity.
  - destruct (flags_from_bits fs bits) as [r|] eqn:E; [|reflexivity].
    apply flags_from_bits_iff in E as [_ E]. contradiction.
Qed.

Lemma flags_ops : forall fs a b, flags_ok fs a -> flags_ok fs b ->
  flags_ok fs (flags_union a b) /\ flags_ok fs (flags_inter a b) /\ flags_ok fs (flags_diff a b) /\
  flags_ok fs (flags_symdiff a b) /\ flags_ok fs (flags_complement fs a).
Proof.
  intros fs a b Ha Hb. unfold flags_ok, flags_union, flags_inter, flags_diff, flags_symdiff, flags_complement in *.
  repeat split; intros i Hi.
  - rewrite N.lor_spec, orb_true_iff in Hi. destruct Hi; auto.
  - rewrite N.land_spec, andb_true_iff in Hi. destruct Hi; auto.
  - rewrite N.ldiff_spec, andb_true_iff in Hi. destruct Hi; auto.
  - rewrite N.lxor_spec in Hi. destruct (N.testbit a i) eqn:E; [auto|]. destruct (N.testbit b i) eqn:E2; [auto|discriminate].
  - rewrite N.land_spec, andb_true_iff in Hi. destruct Hi as [_ Hi]. rewrite flags_all_ones in Hi.
    destruct (N.lt_ge_cases i (flag_width fs)) as [L|L]; [exact L|].
    rewrite N.ones_spec_high in Hi by exact L. discriminate.
Qed.

(** Which bits the operations set (the meaning of the operators). *)
Lemma flags_ops_bits : forall fs a b i,
  N.testbit (flags_union a b) i = N.testbit a i || N.testbit b i /\
  N.testbit (flags_inter a b) i = N.testbit a i && N.testbit b i /\
  N.testbit (flags_diff a b) i = N.testbit a i && negb (N.testbit b i) /\
  N.testbit (flags_symdiff a b) i = xorb (N.testbit a i) (N.testbit b i) /\
  (flags_ok fs a -> N.testbit (flags_complement fs a) i = negb (N.testbit a i) && (i <? flag_width fs)).
Proof.
  intros fs a b i. unfold flags_union, flags_inter, flags_diff, flags_symdiff, flags_complement.
  rewrite N.lor_spec, N.ldiff_spec, N.lxor_spec, !N.land_spec, N.lxor_spec, flags_all_ones.
  repeat (split; [reflexivity|]). intros H.
  destruct (i <? flag_width fs) eqn:E.
  - rewrite (N.ones_spec_low (flag_width fs)) by lia. rewrite N.ones_spec_low by (destruct fs; cbn in E; lia).
    rewrite xorb_true_r. reflexivity.
  - rewrite (N.ones_spec_high (flag_width fs)) by lia. rewrite !andb_false_r. reflexivity.
Qed.

(** ** Error codes *)
Lemma sc_code_exact : forall s,
  (forall c, len s :: wire s = lay_sc_code c -> sc_code_from_str s = Ok c) /\
  ((forall c, len s :: wire s <> lay_sc_code c) -> sc_code_from_str s = Err UnknownErrorCode).
Proof.
  intros s. split.
  - intros c H. assert (E : s = sc_code_str c).
    { apply wire_inj. destruct c; cbn [lay_sc_code] in H; injection H as _ H; exact H. }
    subst s. apply sc_code_from_str_ok.
  - intros H. destruct (sc_code_from_str s) as [c|e|] eqn:E.
    + apply sc_code_from_str_inv in E. exfalso. apply (H c). subst s. destruct c; reflexivity.
    + unfold sc_code_from_str in E. repeat (destruct (bytes_eqb _ _); [discriminate|]). exact (eq_sym E).
    + exfalso. exact (sc_code_from_str_no_panic s E).
Qed.
Lemma omc_code_exact : forall s,
  (forall c, len s :: wire s = lay_omc_code c -> omc_code_from_str s = Ok c) /\
  ((forall c, len s :: wire s <> lay_omc_code c) -> omc_code_from_str s = Err UnknownErrorCode).
Proof.
  intros s. split.
  - intros c H. assert (E : s = omc_code_str c).
    { apply wire_inj. destruct c; cbn [lay_omc_code] in H; injection H as _ H; exact H. }
    subst s. apply omc_code_from_str_ok.
  - intros H. destruct (omc_code_from_str s) as [c|e|] eqn:E.
    + apply omc_code_from_str_inv in E. exfalso. apply (H c). subst s. destruct c; reflexivity.
    + unfold omc_code_from_str in E. repeat (destruct (bytes_eqb _ _); [discriminate|]). exact (eq_sym E).
    + exfalso. exact (omc_code_from_str_no_panic s E).
Qed.
Lemma sc_code_string : forall c, len (sc_code_str c) :: wire (sc_code_str c) = lay_sc_code c /\
  len (sc_code_str c) <= 32 /\ sc_code_from_str (sc_code_str c) = Ok c.
Proof. destruct c; repeat split; vm_compute; discriminate. Qed.
Lemma omc_code_string : forall c, len (omc_code_str c) :: wire (omc_code_str c) = lay_omc_code c /\
  len (omc_code_str c) <= 32 /\ omc_code_from_str (omc_code_str c) = Ok c.
Proof. destruct c; repeat split; vm_compute; discriminate. Qed.
Lemma sc_code_str_inj : forall a b, sc_code_str a = sc_code_str b -> a = b.
Proof. destruct a, b; intros H; try reflexivity; discriminate. Qed.
Lemma omc_code_str_inj : forall a b, omc_code_str a = omc_code_str b -> a = b.
Proof. destruct a, b; intros H; try reflexivity; discriminate. Qed.

(** ** Sub protocol dispatch *)
Lemma csc_dispatch : forall pf pre b rest, rust_slice (pre ++ b :: rest) ->
  snd (de_csc pf (cursor pre (b :: rest))) =
  match Byte.to_N b with
  | 0 => match snd (de_sc MiningSetupFlags pf (cursor (pre ++ [b]) rest)) with
         | Ok v => Ok (CSC_Mining v) | Err e => Err e | Panic => Panic end
  | 1 => match snd (de_sc JnSetupFlags pf (cursor (pre ++ [b]) rest)) with
         | Ok v => Ok (CSC_JobNegotiation v) | Err e => Err e | Panic => Panic end
  | 2 | 3 => Err Unimplemented
  | _ => Err DeserializationError
  end.
Proof.
  intros pf pre b rest Hs. pose proof (to_N_lt b) as B.
  assert (R : de_u8 pf (cursor pre ([b] ++ rest)) = (cursor (pre ++ [b]) rest, Ok (Byte.to_N b))).
  { apply (decode_encoded T_u8); [exact B| |exact Hs]. cbn [lay]. unfold spec_le. cbn [map seq wire].
    rewrite N.pow_0_r, N.div_1_r, N.mod_small by exact B. reflexivity. }
  change (b :: rest) with ([b] ++ rest). unfold de_csc, de_protocol. unfold de_bind at 1.
  rewrite (de_bind_ok _ _ _ _ _ _ _ _ R). unfold de_lift at 1.
  destruct (Byte.to_N b) as [|[[|[]|]|[]|]]; cbn [protocol_try_from]; try reflexivity.
  - unfold de_bind. destruct (de_sc MiningSetupFlags pf (cursor (pre ++ [b]) rest)) as [p [v|e|]]; reflexivity.
  - unfold de_bind. destruct (de_sc JnSetupFlags pf (cursor (pre ++ [b]) rest)) as [p [v|e|]]; reflexivity.
Qed.

Lemma csc_first_byte : forall m enc, serialize (ser_csc m) = Ok enc -> msg_ok K_CommonSetupConnection m ->
  exists rest, wire enc = match m with CSC_Mining v => 0 :: rest | CSC_JobNegotiation v => 1 :: rest end.
Proof.
  intros m enc H Hm. apply (serialize_layout (T_msg K_CommonSetupConnection)) in H; [|exact Hm].
  cbn [lay layout] in H. destruct m; eexists; exact H.
Qed.

(** ** Time *)
Lemma unix_time : forall t : Z,
  ((t < 0)%Z -> system_unix_time_to_u32 t = Err SystemTimeError) /\
  ((0 <= t)%Z -> exists n, system_unix_time_to_u32 t = Ok n /\ n < 2 ^ 32 /\
     ((t < 2 ^ 32 * 10 ^ 9)%Z -> (Z.of_N n * 10 ^ 9 <= t < (Z.of_N n + 1) * 10 ^ 9)%Z)).
Proof.
  intros t. unfold system_unix_time_to_u32. split; intros H.
  - assert (E : (t <? 0)%Z = true) by lia. rewrite E. reflexivity.
  - assert (E : (t <? 0)%Z = false) by lia. rewrite E. eexists. split; [reflexivity|].
    split; [apply N.mod_lt; lia|]. intros L.
    assert (B : Z.to_N (t / 1000000000) < 2 ^ 32).
    { assert ((t / 1000000000 < 2 ^ 32)%Z) by (apply Z.div_lt_upper_bound; lia). lia. }
    rewrite N.mod_small by exact B. rewrite Z2N.id by (apply Z.div_pos; lia).
    change (10 ^ 9)%Z with 1000000000%Z. pose proof (Z.div_mod t 1000000000). pose proof (Z.mod_pos_bound t 1000000000). lia.
Qed.

(** ** Remaining codec lemmas *)
Lemma no_panic_cursor : forall t pf pre rest, rust_slice (pre ++ rest) ->
  snd (de_of t pf (cursor pre rest)) <> Panic.
Proof.
  intros t pf pre rest H. destruct (decode_total t pf pre rest H) as (c & rest' & r & _ & E & Np & _).
  rewrite E. exact Np.
Qed.

Lemma next_by_panic_iff : forall pf bs start step,
  (snd (next_by step pf (mkParser bs start)) = Panic <-> pf = Debug /\ 2 ^ 64 <= start + step).
Proof.
  intros pf bs start step. unfold next_by, usize_add, USIZE_MOD. cbn [p_start p_bytes].
  destruct (start + step <? 2 ^ 64) eqn:E.
  - destruct (slice_get _ _ _); cbn; split; try discriminate; lia.
  - destruct pf; cbn [snd].
    + split; [|reflexivity]. intros _. split; [reflexivity|lia].
    + destruct (slice_get _ _ _); cbn; split; try discriminate; intros [? _]; discriminate.
Qed.
Lemma next_by_panics : exists bs start step, rust_slice bs /\ start <= len bs /\ step < 2 ^ 64 /\
  snd (next_by step Debug (mkParser bs start)) = Panic.
Proof.
  exists [x00; x01], 1, (2 ^ 64 - 1). repeat split; vm_compute; discriminate.
Qed.

Lemma forward_local : forall t pf pre rest, rust_slice (pre ++ rest) ->
  exists c rest' r, rest = c ++ rest' /\
    de_of t pf (cursor pre rest) = (mkParser (pre ++ rest) (len pre + len c), r) /\
    (forall v, r = Ok v -> forall pf2 pre2 rest2, rust_slice (pre2 ++ c ++ rest2) ->
       de_of t pf2 (cursor pre2 (c ++ rest2)) = (cursor (pre2 ++ c) rest2, Ok v)).
Proof.
  intros t pf pre rest H. destruct (decode_total t pf pre rest H) as (c & rest' & r & -> & E & _ & L & _).
  exists c, rest', r. split; [reflexivity|]. split.
  - rewrite E. unfold cursor. rewrite len_app, <- app_assoc. reflexivity.
  - intros v ->. apply L. discriminate.
Qed.

Lemma truncated : forall t pf pre c rest v, rust_slice (pre ++ c ++ rest) ->
  de_of t pf (cursor pre (c ++ rest)) = (cursor (pre ++ c) rest, Ok v) ->
  forall pf2 pre2 c1 c2, c = c1 ++ c2 -> c2 <> [] -> rust_slice (pre2 ++ c1) ->
  snd (de_of t pf2 (cursor pre2 c1)) = Err ParseError.
Proof.
  intros t pf pre c rest v Hs E pf2 pre2 c1 c2 Hc Hn Hs2.
  destruct (decode_total t pf pre (c ++ rest) Hs) as (c' & rest' & r & E1 & E2 & _ & L & _).
  rewrite E in E2. injection E2 as _ EL <-. rewrite !len_app in EL.
  apply app_inj_len in E1 as [<- _]; [|lia].
  destruct (L ltac:(discriminate)) as [_ T]. destruct (T pf2 pre2 c1 c2 Hc Hn Hs2) as [p' Ep].
  rewrite Ep. reflexivity.
Qed.

Lemma count_written : forall t v, ok t v -> exists enc, wire enc = lay t v /\
  forall w, run vec_writer (ser_of t v) w = (w ++ enc, Ok (len enc)).
Proof. intros t v H. destruct (encode_vec t v H) as (enc & Hw & _ & Hr). eauto. Qed.

Lemma constructed_iff : forall k m, constructed k m <-> msg_ok k m.
Proof. intros k m. split; [apply constructed_ok|apply ok_constructed]. Qed.

Lemma hand_built_count : exists s w n, utf8_text (str0_data s) /\ u8_ok (str0_length s) /\
  run vec_writer (ser_str0 s) [] = (w, Ok n) /\ n <> len w.
Proof.
  exists (mkStr0 5 [x41; x42]), [x05; x41; x42], 6. split; [apply utf8_valid_iff; reflexivity|].
  split; [reflexivity|]. split; [reflexivity|]. vm_compute. discriminate.
Qed.

Lemma hand_built_count_iff : forall s w, u8_ok (str0_length s) ->
  exists n, run vec_writer (ser_str0 s) w = (w ++ to_le 1 (str0_length s) ++ str0_data s, Ok n) /\
  (n = len (to_le 1 (str0_length s) ++ str0_data s) <-> str0_length s = len (str0_data s)).
Proof.
  intros [l d] w _. cbn [str0_length str0_data]. exists (1 + l). split.
  - unfold ser_str0, ser_u8, ser_uint, wwrite, wok. cbn [wbind run vec_writer str0_length str0_data].
    rewrite len_to_le, <- app_assoc. reflexivity.
  - rewrite len_app, len_to_le. lia.
Qed.

Lemma short_writer : exists (wr : writer bytes) t v enc w n,
  (forall w buf w' n, wr w buf = (w', Some n) -> n <= len buf /\ w' = w ++ firstn (N.to_nat n) buf) /\
  ok t v /\ serialize (ser_of t v) = Ok enc /\
  run wr (ser_of t v) [] = (w, Ok n) /\ n = len enc /\ w <> enc.
Proof.
  exists one_byte_writer, T_u32, 0x01020304, [x04; x03; x02; x01], [x04], 4.
  split.
  - intros w buf w' n E. unfold one_byte_writer in E. injection E as <- <-.
    destruct buf as [|b buf].
    + cbn. split; [lia|reflexivity].
    + cbn [firstn]. rewrite !len_cons, len_nil. split; [lia|]. reflexivity.
  - split; [reflexivity|]. split; [reflexivity|]. split; [reflexivity|]. split; [reflexivity|discriminate].
Qed.

Lemma whole_writer_complete : forall t v W (wr : writer W) taken failed w w' n,
  ok t v -> whole_writer wr taken failed -> failed w = false -> run wr (ser_of t v) w = (w', Ok n) ->
  exists enc, serialize (ser_of t v) = Ok enc /\ n = len enc /\ taken w' = taken w ++ enc.
Proof.
  intros t v W wr taken failed w w' n H1 H2 H3 H4.
  destruct (failing_writer t v W wr taken failed w w' _ H1 H2 H3 H4) as (enc & Hs & [(A & B & C)|(A & _)]).
  - injection A as ->. eauto.
  - discriminate.
Qed.
