(** * SizeProofs: smallest and largest encodings; what readers of several fields ask for. *)
From Verif Require Import Base Codec Types Messages Frame Catalog SpecWire SpecTypes SpecDecode Macro SpecMacro SpecPieces SpecSize
  BaseFacts CodecFacts Utf8Facts TypesFacts MessagesFacts FrameFacts CodecProofs MsgProofs TypesProofs DecodeProofs MacroProofs PieceProofs.

(** ** Bounds *)
Lemma str_size : forall k s, str_ok k s -> 1 <= len (lay_str s) <= 1 + k.
Proof. intros k s (_ & H & _). rewrite len_lay_str. lia. Qed.
Lemma b0_size : forall k h v, b0_ok k v -> N.of_nat h <= len (lay_b0 h v) <= N.of_nat h + k.
Proof. intros k h v (H & _). rewrite len_lay_b0. lia. Qed.
Lemma sc_size : forall fs m, sc_ok fs m -> 17 <= len (lay_sc m) <= 1290.
Proof.
  intros fs m H. split; [|exact (len_lay_sc fs m H)].
  destruct H as (_ & _ & _ & _ & _ & _ & _ & _ & _ & _ & _ & V & F).
  unfold lay_sc. rewrite !len_app, !len_spec_le, !len_lay_str.
  assert (P : forall b : bytes, b <> [] -> 1 <= len b).
  { intros [|x b] N; [contradiction|]. rewrite len_cons. lia. }
  apply P in V. apply P in F. change (N.of_nat 2) with 2. change (N.of_nat 4) with 4. lia.
Qed.
Lemma scc_size : forall c, 21 <= len (lay_sc_code c) <= 26.
Proof. destruct c; cbn; lia. Qed.
Lemma omc_size : forall c, 13 <= len (lay_omc_code c) <= 24.
Proof. destruct c; cbn; lia. Qed.
Lemma msg_size : forall k m, msg_ok k m -> fewest (T_msg k) <= len (layout k m) <= most (T_msg k).
Proof.
  intros k m H. destruct k; cbn [msg_ok layout fewest most] in *; rewrite ?len_app, ?len_spec_le, ?len_wire; try lia.
  - destruct m; apply sc_size in H; rewrite len_app, len_cons, len_nil; lia.
  - exact (sc_size _ _ H).
  - pose proof (scc_size (sce_error_code m)). lia.
  - exact (sc_size _ _ H).
  - pose proof (scc_size (sce_error_code m)). lia.
  - destruct H as (_ & H & _ & H2). rewrite (u256_len _ H2). apply str_size in H. lia.
  - destruct H as (_ & _ & H2 & H & _). rewrite (u256_len _ H2). apply (b0_size _ 1) in H. lia.
  - pose proof (omc_size (omce_error_code m)). lia.
  - destruct H as (_ & H & _ & H2 & _). rewrite (u256_len _ H2). apply str_size in H. lia.
  - destruct H as (_ & _ & H2 & _ & H). rewrite (u256_len _ H2). apply (b0_size _ 1) in H. lia.
  - pose proof (omc_size (omce_error_code m)). lia.
  - destruct H as (_ & _ & H2). rewrite (u256_len _ H2). lia.
Qed.
Lemma lay_size : forall t v, ok t v -> fewest t <= len (lay t v) <= most t.
Proof.
  destruct t; cbn [ok lay val fewest most]; intros v H; rewrite ?len_spec_le, ?len_wire; try lia.
  - destruct v; cbn; lia.
  - rewrite (u256_len _ H). lia.
  - apply (b0_size _ (spec_b0_hdr t)) in H. destruct t; cbn [spec_b0_limit spec_b0_hdr] in *; lia.
  - apply str_size in H. destruct t; cbn [spec_str_limit] in *; lia.
  - exact (scc_size v).
  - exact (omc_size v).
  - cbn. lia.
  - exact (msg_size k v H).
  - unfold frame_layout. destruct (spec_code (m_type v)) as [code chan]. rewrite !len_app, len_spec_le, len_wire.
    unfold len in *. cbn [length]. lia.
Qed.
Lemma encoded_size : forall t v enc, ok t v -> serialize (ser_of t v) = Ok enc -> fewest t <= len enc <= most t.
Proof.
  intros t v enc H S. destruct (encode_vec t v H) as (e & W & S' & _). rewrite S in S'. injection S' as ->.
  rewrite <- len_wire, W. exact (lay_size t v H).
Qed.

(** ** Attained *)
Definition letters (k : nat) : str0 := mkStr0 (N.of_nat k) (repeat x61 k).
Lemma letters_text : forall k, utf8_text (repeat x61 k).
Proof.
  intros k. exists (repeat 97 k). split.
  - induction k as [|k IH]; cbn [repeat]; constructor; [left; lia|exact IH].
  - induction k as [|k IH]; [reflexivity|]. cbn [repeat flat_map]. rewrite <- IH. reflexivity.
Qed.
Lemma letters_ok : forall k m, N.of_nat k <= m -> str_ok m (letters k).
Proof.
  intros k m H. split; [apply letters_text|]. unfold letters, len. cbn [str0_data str0_length]. rewrite repeat_length.
  split; [exact H|reflexivity].
Qed.
Lemma letters_len : forall k, len (lay_str (letters k)) = 1 + N.of_nat k.
Proof. intros k. rewrite len_lay_str. unfold letters, len. cbn [str0_data]. rewrite repeat_length. reflexivity. Qed.
Definition zeros (k : N) : b0 := mkB0 k (repeat x00 (N.to_nat k)).
Lemma zeros_ok : forall k m, k <= m -> b0_ok m (zeros k).
Proof. intros k m H. unfold b0_ok, zeros. cbn [b0_data b0_length]. rewrite (len_repeat byte x00 k). split; [exact H|reflexivity]. Qed.
Lemma zeros_len : forall h k, len (lay_b0 h (zeros k)) = N.of_nat h + k.
Proof. intros h k. rewrite len_lay_b0. unfold zeros. cbn [b0_data]. rewrite (len_repeat byte x00 k). reflexivity. Qed.
Lemma no_flags : forall fs, flags_ok fs 0.
Proof. intros fs i H. rewrite N.bits_0 in H. discriminate. Qed.
Definition z32 : bytes := repeat x00 32.
Definition sc_of (a b c d e : nat) : setup_connection := mkSC 2 2 0 (letters a) 0 (letters b) (letters c) (letters d) (letters e).
Lemma sc_of_ok : forall fs a b c d e, N.of_nat a <= 255 -> N.of_nat b <= 255 -> N.of_nat c <= 255 -> N.of_nat d <= 255 -> N.of_nat e <= 255 ->
  b <> O -> d <> O -> sc_ok fs (sc_of a b c d e).
Proof.
  intros fs a b c d e A B C D E B0 D0. unfold sc_ok, sc_of.
  cbn [sc_min_version sc_max_version sc_flags sc_endpoint_host sc_endpoint_port sc_vendor sc_hardware_version sc_firmware sc_device_id].
  split; [reflexivity|]. split; [reflexivity|]. split; [apply no_flags|]. split; [apply letters_ok; assumption|]. split; [reflexivity|].
  do 4 (split; [apply letters_ok; assumption|]). split; [discriminate|]. split; [discriminate|].
  split; [destruct b; [contradiction|discriminate]|destruct d; [contradiction|discriminate]].
Qed.
Lemma sc_of_len : forall a b c d e, len (lay_sc (sc_of a b c d e)) = 15 + N.of_nat a + N.of_nat b + N.of_nat c + N.of_nat d + N.of_nat e.
Proof.
  intros. unfold lay_sc, sc_of.
  cbn [sc_min_version sc_max_version sc_flags sc_endpoint_host sc_endpoint_port sc_vendor sc_hardware_version sc_firmware sc_device_id].
  rewrite !len_app, !len_spec_le, !letters_len. lia.
Qed.

Ltac size := rewrite ?len_app, ?len_spec_le, ?letters_len, ?zeros_len, ?len_wire, ?sc_of_len; reflexivity.
Lemma msg_attained : forall k, (exists m, msg_ok k m /\ len (layout k m) = fewest (T_msg k)) /\
  (exists m, msg_ok k m /\ len (layout k m) = most (T_msg k)).
Proof.
  assert (S : forall fs, sc_ok fs (sc_of 0 1 0 1 0) /\ sc_ok fs (sc_of 255 255 255 255 255)).
  { intros fs. split; apply sc_of_ok; discriminate. }
  destruct k; cbn [msg_ok layout fewest most msg_of].
  - split; [exists (CSC_Mining (sc_of 0 1 0 1 0))|exists (CSC_Mining (sc_of 255 255 255 255 255))]; (split; [apply S|size]).
  - split; [exists (sc_of 0 1 0 1 0)|exists (sc_of 255 255 255 255 255)]; (split; [apply S|size]).
  - split; exists (mkSCS 2 0); (split; [split; [reflexivity|apply no_flags]|size]).
  - split; [exists (mkSCE 0 UnsupportedProtocol)|exists (mkSCE 0 ProtocolVersionMismatch)];
      (split; [split; [apply no_flags|discriminate]|size]).
  - split; [exists (sc_of 0 1 0 1 0)|exists (sc_of 255 255 255 255 255)]; (split; [apply S|size]).
  - split; exists (mkSCS 2 0); (split; [split; [reflexivity|apply no_flags]|size]).
  - split; [exists (mkSCE 0 UnsupportedProtocol)|exists (mkSCE 0 ProtocolVersionMismatch)];
      (split; [split; [apply no_flags|discriminate]|size]).
  - split; exists (mkCEC 0); (split; [reflexivity|size]).
  - split; [exists (mkOSMC 0 (letters 0) 0 z32)|exists (mkOSMC 0 (letters 255) 0 z32)];
      (split; [do 3 (split; [first [reflexivity|apply letters_ok; discriminate]|]); reflexivity|size]).
  - split; [exists (mkOSMCS 0 0 z32 (zeros 0) 0)|exists (mkOSMCS 0 0 z32 (zeros 32) 0)];
      (split; [do 4 (split; [first [reflexivity|apply zeros_ok; discriminate]|]); reflexivity|size]).
  - split; [exists (mkOMCE 0 UnknownUser)|exists (mkOMCE 0 MaxTargetOutOfRange)]; (split; [reflexivity|size]).
  - split; [exists (mkOEMC 0 (letters 0) 0 z32 0)|exists (mkOEMC 0 (letters 255) 0 z32 0)];
      (split; [do 4 (split; [first [reflexivity|apply letters_ok; discriminate]|]); reflexivity|size]).
  - split; [exists (mkOEMCS 0 0 z32 0 (zeros 0))|exists (mkOEMCS 0 0 z32 0 (zeros 32))];
      (split; [do 4 (split; [first [reflexivity|apply zeros_ok; discriminate]|]); apply zeros_ok; discriminate|size]).
  - split; [exists (mkOMCE 0 UnknownUser)|exists (mkOMCE 0 MaxTargetOutOfRange)]; (split; [reflexivity|size]).
  - split; exists (mkUC 0 0 z32); (split; [repeat split; reflexivity|size]).
Qed.
Lemma lay_attained : forall t, (exists v, ok t v /\ len (lay t v) = fewest t) /\ (exists v, ok t v /\ len (lay t v) = most t).
Proof.
  destruct t; cbn [ok lay val fewest most]; try (split; exists 0; (split; [reflexivity|size])).
  - split; exists true; (split; [exact I|reflexivity]).
  - split; exists z32; (split; [reflexivity|size]).
  - split; [exists (zeros 0)|exists (zeros (spec_b0_limit t))];
      (split; [apply zeros_ok; destruct t; discriminate|rewrite zeros_len; destruct t; reflexivity]).
  - split; [exists (letters 0)|exists (letters (N.to_nat (spec_str_limit t)))];
      (split; [apply letters_ok; destruct t; discriminate|rewrite letters_len; destruct t; reflexivity]).
  - split; exists 0; (split; [apply no_flags|size]).
  - split; [exists UnsupportedProtocol|exists ProtocolVersionMismatch]; (split; [exact I|reflexivity]).
  - split; [exists UnknownUser|exists MaxTargetOutOfRange]; (split; [exact I|reflexivity]).
  - split; exists PMining; (split; [exact I|reflexivity]).
  - exact (msg_attained k).
  - assert (F : forall p, len (frame_layout (mkMessage MT_SetupConnection p)) = 6 + len p).
    { intros p. unfold frame_layout. cbn [m_type m_payload spec_code]. rewrite !len_app, len_spec_le, len_wire.
      unfold len. cbn [length]. lia. }
    split; [exists (mkMessage MT_SetupConnection []); rewrite F; split; reflexivity|].
    pose proof (len_repeat byte x00 16777215) as L. exists (mkMessage MT_SetupConnection (repeat x00 (N.to_nat 16777215))).
    rewrite F. cbn [m_payload]. rewrite L. split; reflexivity.
Qed.
Lemma encoded_attained : forall t,
  (exists v enc, ok t v /\ serialize (ser_of t v) = Ok enc /\ len enc = fewest t) /\
  (exists v enc, ok t v /\ serialize (ser_of t v) = Ok enc /\ len enc = most t).
Proof.
  intros t. destruct (lay_attained t) as [(v & H & L) (v2 & H2 & L2)].
  destruct (encode_vec t v H) as (e & W & S & _). destruct (encode_vec t v2 H2) as (e2 & W2 & S2 & _).
  split; [exists v, e|exists v2, e2]; rewrite <- len_wire, ?W, ?W2; auto.
Qed.

(** ** What decoding takes *)
Lemma taken_size : forall t pf pre rest p v, rust_slice (pre ++ rest) -> de_of t pf (cursor pre rest) = (p, Ok v) ->
  exists c rest', rest = c ++ rest' /\ p = cursor (pre ++ c) rest' /\ fewest t <= len c <= most t.
Proof.
  intros t pf pre rest p v Hs E. assert (D : t = T_bool \/ t <> T_bool) by (destruct t; (left; reflexivity) || (right; discriminate)).
  destruct D as [->|D].
  - destruct (type_follows T_bool pf pre rest Hs) as (r & (ra & R & R2) & F).
    destruct ra as [[x l]|e|].
    + rewrite R2 in F. destruct F as (_ & c & -> & E2). rewrite E in E2. injection E2 as -> _. exists c, l.
      split; [reflexivity|]. split; [reflexivity|].
      destruct R as (rb & [(L & ->)|(L & ->)] & R3); [discriminate R3|].
      assert (T : l = skipn 1 (c ++ l)) by (unfold gives in R3; congruence).
      apply (f_equal (@length byte)) in T. rewrite skipn_length, app_length in T. unfold len in *. rewrite app_length in L.
      cbn [fewest most]. lia.
    + rewrite R2 in F. rewrite E in F. discriminate F.
    + first [contradiction|rewrite R2 in F; contradiction].
  - destruct (decode_canonical t pf pre rest p v D Hs E) as (c & l & -> & -> & K & S).
    exists c, l. split; [reflexivity|]. split; [reflexivity|]. exact (encoded_size t v c K S).
Qed.
Lemma cut_same : forall a b c d : bytes, a ++ b = c ++ d -> len a = len c -> a = c /\ b = d.
Proof.
  induction a as [|x a IH]; intros b [|y c] d E L; rewrite ?len_cons, ?len_nil in L; try lia; [auto|].
  cbn [app] in E. injection E as -> E. destruct (IH b c d E ltac:(lia)) as [-> ->]. auto.
Qed.
Lemma cursor_same : forall a b c d, cursor a b = cursor c d -> a = c /\ b = d.
Proof. unfold cursor. intros a b c d E. injection E as E L. exact (cut_same a b c d E L). Qed.
Lemma taken_most : forall t rest v l, rust_slice rest -> reading_ty t rest (Ok (v, l)) -> len rest <= len l + most t /\ rust_slice l.
Proof.
  intros t rest v l Hs R. destruct (type_follows t Debug [] rest Hs) as (r & R2 & F).
  rewrite (type_single t _ _ _ R2 R) in F. destruct F as (_ & c & -> & E).
  destruct (taken_size t Debug [] (c ++ l) _ v Hs E) as (c2 & l2 & E2 & P & B).
  apply cursor_same in P. destruct P as [_ P].
  subst l2. rewrite E2, len_app. split; [lia|]. unfold rust_slice in *. rewrite len_app in Hs. lia.
Qed.

(** ** Several fields *)
Lemma fields_size : forall ts v, fields_ok ts v -> total fewest ts <= len (fields_lay ts v) <= total most ts.
Proof.
  induction ts as [|t ts IH]; intros v H; cbn [fields_lay total fold_right]; [rewrite len_nil; lia|].
  destruct H as [H1 H2]. apply lay_size in H1. apply IH in H2. unfold total in H2. rewrite len_app. lia.
Qed.
Lemma fields_encoded : forall ts v enc, fields_ok ts v -> serialize (im_ser ts v) = Ok enc -> total fewest ts <= len enc <= total most ts.
Proof.
  intros ts v enc H S. destruct (im_writes ts v H) as (e & W & S' & _). rewrite S in S'. injection S' as ->.
  rewrite <- len_wire, W. exact (fields_size ts v H).
Qed.
Lemma fields_attained : forall ts,
  (exists v enc, fields_ok ts v /\ serialize (im_ser ts v) = Ok enc /\ len enc = total fewest ts) /\
  (exists v enc, fields_ok ts v /\ serialize (im_ser ts v) = Ok enc /\ len enc = total most ts).
Proof.
  intros ts.
  assert (K : (exists v, fields_ok ts v /\ len (fields_lay ts v) = total fewest ts) /\
    (exists v, fields_ok ts v /\ len (fields_lay ts v) = total most ts)).
  { induction ts as [|t ts [(v & H & L) (w & G & M)]]; [split; exists tt; split; (exact I || reflexivity)|].
    destruct (lay_attained t) as [(a & A & La) (b & B & Lb)]. unfold total in *.
    split; [exists (a, v)|exists (b, w)]; cbn [fields_ok fields_lay fst snd fold_right]; rewrite len_app; (split; [auto|lia]). }
  destruct K as [(v & H & L) (w & G & M)].
  destruct (im_writes ts v H) as (e & W & S & _). destruct (im_writes ts w G) as (e2 & W2 & S2 & _).
  split; [exists v, e|exists w, e2]; rewrite <- len_wire, ?W, ?W2; auto.
Qed.
Lemma asks_enough : forall ts rest r, rust_slice rest -> reading_fields ts rest r -> asks ts <= len rest -> r <> Err ParseError.
Proof.
  induction ts as [|t ts IH]; intros rest r Hs R L; cbn [reading_fields asks] in *; [unfold gives in R; congruence|].
  destruct R as (ra & R1 & R2). pose proof (en_ty t rest ra R1 ltac:(lia)) as P. destruct ra as [[x l]|e|]; [|congruence|contradiction].
  destruct (taken_most t rest x l Hs R1) as [T Hl].
  destruct R2 as (rb & R3 & R4). pose proof (IH l rb Hl R3 ltac:(lia)) as Q.
  destruct rb as [[y l2]|e|]; [unfold gives in R4; congruence|congruence|contradiction].
Qed.
Lemma declared_enough : forall ts M (new : fields ts -> Result M), (forall v, fields_ok ts v -> new v <> Err ParseError) ->
  forall pf bs, rust_slice bs -> asks ts <= len bs -> deserialize (im_de ts new) pf bs <> Err ParseError.
Proof.
  intros ts M new Hn pf bs Hs H. destruct (im_reads ts M new pf [] bs Hs) as (r & R & _ & D).
  pose proof (asks_enough ts bs r Hs R H) as P. unfold deserialize. rewrite cursor_0.
  destruct r as [[v l]|e|]; [| |contradiction].
  - destruct D as (K & c & _ & E). rewrite E. exact (Hn v K).
  - rewrite D. congruence.
Qed.
Lemma least_reading : forall t, exists bs, len bs + 1 = enough_for t /\ reading_ty t bs (Err ParseError).
Proof.
  intros t. destruct (least_for t) as (bs & L & D). exists bs. split; [exact L|].
  destruct (type_follows t Debug [] bs) as (r & R & F).
  { rewrite app_nil_l. unfold rust_slice. pose proof (enough_small t). change (2 ^ 25) with 33554432 in H.
    change (2 ^ 63 - 1) with 9223372036854775807. lia. }
  specialize (D Debug). unfold deserialize in D. rewrite cursor_0 in D.
  destruct r as [[v l]|e|]; [| |contradiction].
  - destruct F as (_ & c & _ & E). rewrite E in D. discriminate D.
  - rewrite D in F. injection F as <-. exact R.
Qed.
Lemma asks_least : forall ts, ts <> [] -> asks ts <= 2 ^ 63 -> exists bs, len bs + 1 = asks ts /\ reading_fields ts bs (Err ParseError).
Proof.
  induction ts as [|t ts IH]; intros N L; [contradiction|]. cbn [asks reading_fields] in *.
  destruct (N.max_spec (enough_for t) (most t + asks ts)) as [[A ->]|[A ->]].
  - assert (T : ts <> []).
    { intros ->. cbn [asks] in A. assert (most t <= enough_for t); [|lia].
      destruct t as [| | | | | | |b|s| | | | |k|]; try destruct b; try destruct s; try destruct k; discriminate. }
    destruct (IH T ltac:(lia)) as (bs & Lb & R). destruct (lay_attained t) as [_ (v & H & Lv)].
    destruct (encode_vec t v H) as (e & W & _ & _). exists (e ++ bs). rewrite <- W, len_wire in Lv.
    split; [rewrite len_app; lia|].
    exists (Ok (v, bs)). split; [|exists (Err ParseError); split; [exact R|reflexivity]].
    assert (Hs : rust_slice ([] ++ e ++ bs)).
    { rewrite app_nil_l. unfold rust_slice. rewrite len_app. change (2 ^ 63) with 9223372036854775808 in *. lia. }
    destruct (type_follows t Debug [] (e ++ bs) Hs) as (r & R2 & F).
    destruct (ty_encodes t) as (_ & Rd & _). pose proof (Rd v e H W Debug [] bs Hs : de_of t Debug (cursor [] (e ++ bs)) = (cursor ([] ++ e) bs, Ok v)) as E.
    destruct r as [[x l]|er|]; [| |contradiction].
    + destruct F as (_ & c & Ec & E2). rewrite E in E2. injection E2 as E2 E3 E4.
      destruct (cut_same _ _ _ _ E2 E3) as [_ ->]. rewrite E4. exact R2.
    + rewrite E in F. discriminate F.
  - destruct (least_reading t) as (bs & Lb & R). exists bs. split; [exact Lb|]. exists (Err ParseError). split; [exact R|reflexivity].
Qed.
Lemma declared_least : forall ts, ts <> [] -> asks ts <= 2 ^ 63 -> exists bs, len bs + 1 = asks ts /\
  forall M (new : fields ts -> Result M) pf, deserialize (im_de ts new) pf bs = Err ParseError.
Proof.
  intros ts N L. destruct (asks_least ts N L) as (bs & Lb & R). exists bs. split; [exact Lb|]. intros M new pf.
  destruct (im_reads ts M new pf [] bs) as (r & R2 & U & D).
  { rewrite app_nil_l. unfold rust_slice. change (2 ^ 63) with 9223372036854775808 in *. lia. }
  rewrite <- (U _ R) in D. unfold deserialize. rewrite cursor_0. exact D.
Qed.
Lemma asks_messages : forall k, k <> K_CommonSetupConnection -> enough_for (T_msg k) = asks (declaration k).
Proof. destruct k; intros H; try contradiction; reflexivity. Qed.
