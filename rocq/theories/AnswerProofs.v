(** * AnswerProofs: the miner of examples/setup_connection.rs on arbitrary input. *)
From Coq Require Import Strings.String ZArith Lia ZifyBool ZifyNat ZifyN.
From Verif Require Import Base Codec Types Messages Frame Catalog SpecWire SpecTypes SpecDecode BaseFacts CodecFacts TypesFacts MessagesFacts
  FrameFacts CodecProofs MsgProofs TypesProofs FrameProofs DecodeProofs
  Network Display Apps AppProofs SpecPool PoolProofs NoiseFacts CutProofs SpecAnswer.
Local Open Scope N_scope.
Local Open Scope list_scope.

(** ** Reading a buffer of 1024 bytes as a SetupConnectionSuccess *)
Lemma flags_lt4 : forall f, flags_ok MiningSuccessFlags f <-> f < 4.
Proof.
  intros f. split.
  - intro H. assert (X : flags_from_bits MiningSuccessFlags f = Some f) by (apply flags_from_bits_iff; auto).
    unfold flags_from_bits in X. destruct (_ =? 0) eqn:E; [|discriminate].
    apply N.eqb_eq in E. change (flags_all MiningSuccessFlags) with (N.ones 2) in E. rewrite N.ldiff_ones_r in E.
    rewrite N.shiftl_mul_pow2, N.shiftr_div_pow2 in E. change (2 ^ 2) with 4 in E.
    pose proof (N.div_mod f 4 ltac:(lia)). pose proof (N.mod_lt f 4 ltac:(lia)). lia.
  - intros H i Hi. cbn [flag_width]. destruct (N.lt_ge_cases i 2) as [L|L]; [exact L|].
    rewrite <- (N.mod_small f (2 ^ 2)) in Hi by exact H. rewrite N.mod_pow2_bits_high in Hi by exact L. discriminate.
Qed.

Lemma success_reading : forall p,
  (len p < 6 -> exists e, reading_of K_MiningSetupConnectionSuccess p (Err e)) /\
  (6 <= len p ->
   let v := spec_val (wire (firstn 2 p)) in let f := spec_val (wire (firstn 4 (skipn 2 p))) in
   (f < 4 -> exists left, reading_of K_MiningSetupConnectionSuccess p (Ok (mkSCS v f, left))) /\
   (4 <= f -> exists e, reading_of K_MiningSetupConnectionSuccess p (Err e))).
Proof.
  intros p. cbn [reading_of]. unfold next at 1. split.
  - intro H. exists ParseError. destruct (N.lt_ge_cases (len p) 2) as [L|L].
    + exists (Err ParseError). split; [|reflexivity]. unfold int, next. exists (Err ParseError).
      split; [left; split; [exact L|reflexivity]|reflexivity].
    + exists (Ok (spec_val (wire (firstn 2 p)), skipn 2 p)). split.
      { unfold int, next. exists (Ok (firstn 2 p, skipn 2 p)). split; [right; split; [exact L|reflexivity]|reflexivity]. }
      unfold flag_bits, next. exists (Err ParseError). split; [|reflexivity].
      exists (Err ParseError). split; [|reflexivity]. unfold int, next. exists (Err ParseError). split; [|reflexivity].
      left. split; [|reflexivity]. unfold len in *. rewrite skipn_length. lia.
  - intro H. set (v := spec_val (wire (firstn 2 p))). set (f := spec_val (wire (firstn 4 (skipn 2 p)))). assert (S4 : int 4 (skipn 2 p) (Ok (f, skipn 4 (skipn 2 p)))).
    { unfold int, next. exists (Ok (firstn 4 (skipn 2 p), skipn 4 (skipn 2 p))). split; [|reflexivity].
      right. split; [|reflexivity]. unfold len in *. rewrite skipn_length. lia. }
    assert (S2 : int 2 p (Ok (v, skipn 2 p))).
    { unfold int, next. exists (Ok (firstn 2 p, skipn 2 p)). split; [|reflexivity]. right. split; [lia|reflexivity]. }
    split; intro F.
    + eexists. exists (Ok (v, skipn 2 p)). split; [exact S2|].
      unfold next. exists (Ok (f, skipn 4 (skipn 2 p))). split; [|reflexivity].
      unfold flag_bits, next. exists (Ok (f, skipn 4 (skipn 2 p))). split; [exact S4|].
      right. split; [|reflexivity]. intro X. apply X. apply flags_lt4, F.
    + exists UnknownFlags. exists (Ok (v, skipn 2 p)). split; [exact S2|].
      unfold next. exists (Err UnknownFlags). split; [|reflexivity].
      unfold flag_bits, next. exists (Ok (f, skipn 4 (skipn 2 p))). split; [exact S4|].
      left. split; [|reflexivity]. intro X. apply flags_lt4 in X. lia.
Qed.

(** The outcome as a function of the frame. *)
Definition shown (buffer : bytes) : list bytes * bool :=
  match spec_decode_frame buffer with
  | Ok (m, _) =>
      if mt_eqb (m_type m) MT_SetupConnectionSuccess then
        let p := m_payload m in
        let f := spec_val (wire (firstn 4 (skipn 2 p))) in
        if len p <? 6 then ([received_line], true)
        else if f <? 4 then ([received_line; flags_line f], false) else ([received_line], true)
      else ([received_line], false)
  | _ => ([received_line], true)
  end.
Lemma line_text : forall f, f < 4 ->
  lit "Miner: Received a SetupConnectionSuccess message with feature flags supported by the Mining Pool: "
  ++ flags_debug MiningSuccessFlags f = flags_line f.
Proof.
  intros f H. assert (X : f = 0 \/ f = 1 \/ f = 2 \/ f = 3) by lia.
  destruct X as [-> | [-> | [-> | ->]]]; vm_compute; reflexivity.
Qed.

Lemma listen_shown : forall pf bs, sc_miner_listen pf bs = shown (read_1024 bs).
Proof.
  intros pf bs. unfold sc_miner_listen, sc_miner_recv, shown.
  assert (L : len (read_1024 bs) = 1024) by (destruct (read_padded bs) as (? & ? & ? & X & ?); exact X).
  assert (Hs : rust_slice (read_1024 bs)) by (apply slice_1024; lia).
  set (buffer := read_1024 bs) in *. clearbody buffer.
  pose proof (frame_outcome pf buffer Hs) as F.
  change (lit "Miner: received message from Pool") with received_line.
  destruct (spec_decode_frame buffer) as [[m n]|e|] eqn:S; [| |contradiction]; rewrite F; cbn [unwrap obind]; [|reflexivity].
  destruct (mt_eqb (m_type m) MT_SetupConnectionSuccess) eqn:T.
  2:{ assert (E : forall A (a b : A), match m_type m with MT_SetupConnectionSuccess => a | _ => b end = b).
      { intros. destruct (m_type m); try reflexivity. discriminate. }
      rewrite E. reflexivity. }
  apply mt_eqb_iff in T. rewrite T.
  pose proof (frame_payload_slice _ _ _ Hs S) as Hp.
  destruct (unframe_outcome K_MiningSetupConnectionSuccess pf m Hp (eq_sym T)) as (UO & UE).
  destruct (success_reading (m_payload m)) as (R1 & R2). cbv zeta.
  destruct (len (m_payload m) <? 6) eqn:E6.
  - destruct (R1 ltac:(lia)) as (e & R). apply UE in R. cbn [msg_of frameable_of] in R |- *. rewrite R. reflexivity.
  - destruct (R2 ltac:(lia)) as (R3 & R4). destruct (_ <? 4) eqn:E4.
    + destruct (R3 ltac:(lia)) as (lf & R). pose proof (proj2 (UO _) (ex_intro _ lf R)) as U.
      cbn [msg_of frameable_of] in U |- *. rewrite U. cbn [unwrap obind scs_flags]. rewrite line_text by lia. reflexivity.
    + destruct (R4 ltac:(lia)) as (e & R). apply UE in R. cbn [msg_of frameable_of] in R |- *. rewrite R. reflexivity.
Qed.

(** ** From the bytes to the frame and back *)
Lemma decode_answer : forall buffer n rest, n < 2 ^ 24 -> wire buffer = [0; 0; 1] ++ spec_le 3 n ++ rest ->
  wire (skipn 6 buffer) = rest /\
  spec_decode_frame buffer =
    if len rest <? n then Err ParseError
    else Ok (mkMessage MT_SetupConnectionSuccess (firstn (N.to_nat n) (skipn 6 buffer)), 6 + n).
Proof.
  intros buffer n rest Hn W.
  destruct (wire_split buffer _ _ W) as (h & t & -> & Wh & Wt).
  destruct (wire_split t _ _ Wt) as (l & r & -> & Wl & Wr).
  apply wire_le_inv in Wl. subst l.
  assert (Lh : List.length h = 3%nat) by (rewrite <- length_wire, Wh; reflexivity).
  assert (Ll : List.length (to_le 3 n) = 3%nat) by reflexivity.
  assert (S3 : skipn 3 (h ++ to_le 3 n ++ r) = to_le 3 n ++ r).
  { rewrite skipn_app, Lh. rewrite skipn_all2 by lia. reflexivity. }
  assert (S6 : skipn 6 (h ++ to_le 3 n ++ r) = r).
  { rewrite skipn_app, Lh. rewrite skipn_all2 by lia. rewrite skipn_app, Ll. rewrite skipn_all2 by lia. reflexivity. }
  rewrite S6. split; [exact Wr|].
  unfold spec_decode_frame. rewrite S3, S6, W.
  change ([0; 0; 1] ++ spec_le 3 n ++ rest) with (0 :: 0 :: 1 :: spec_le 3 n ++ rest). cbv iota beta.
  change (spec_lookup (0 + 256 * (0 mod 128)) 1) with (Some MT_SetupConnectionSuccess). cbv iota beta.
  change (negb (Bool.eqb (snd (spec_code MT_SetupConnectionSuccess)) (128 <=? 0))) with false. cbv iota beta.
  rewrite (firstn_app_exact _ 3 (to_le 3 n) r) by reflexivity.
  change (len (to_le 3 n) <? 3) with false. cbv iota beta zeta.
  rewrite <- of_le_spec_val, of_le_to_le by exact Hn.
  rewrite <- Wr, len_wire. reflexivity.
Qed.
Lemma answer_decode : forall buffer m k, spec_decode_frame buffer = Ok (m, k) -> m_type m = MT_SetupConnectionSuccess ->
  exists n rest, n < 2 ^ 24 /\ n <= len rest /\ wire buffer = [0; 0; 1] ++ spec_le 3 n ++ rest /\
    m_payload m = firstn (N.to_nat n) (skipn 6 buffer).
Proof.
  intros buffer m k H T. unfold spec_decode_frame in H.
  destruct (wire buffer) as [|e0 [|e1 [|c w]]] eqn:W; try discriminate.
  destruct (spec_lookup _ _) as [t|] eqn:L; [|discriminate].
  destruct (negb _) eqn:CB; [discriminate|].
  destruct (_ <? 3) eqn:L3; [discriminate|]. destruct (_ <? spec_val _) eqn:LB; [discriminate|].
  assert (M : m = mkMessage t (firstn (N.to_nat (spec_val (wire (firstn 3 (skipn 3 buffer))))) (skipn 6 buffer))).
  { apply (f_equal (fun r => match r with Ok (m, _) => m | _ => m end)) in H. symmetry. exact H. }
  subst m. cbn [m_type] in T. subst t. cbn [m_payload].
  apply spec_lookup_inv in L as [E0 Ec]. cbn [spec_code fst] in Ec. subst c.
  apply Bool.negb_false_iff, Bool.eqb_prop in CB. change (snd (spec_code MT_SetupConnectionSuccess)) with false in CB.
  assert (B1 : e1 < 128) by lia. rewrite N.mod_small in E0 by exact B1. assert (e0 = 0 /\ e1 = 0) as [-> ->] by lia.
  set (h := firstn 3 (skipn 3 buffer)) in *.
  assert (Lh : len h = 3).
  { assert (X : len h <= 3) by (unfold h; rewrite NoiseFacts.len_firstn'; lia). lia. }
  exists (spec_val (wire h)), (wire (skipn 6 buffer)). rewrite <- of_le_spec_val in *.
  split; [pose proof (of_le_bound h) as B; rewrite Lh in B; exact B|].
  split; [rewrite len_wire; lia|]. split; [|reflexivity].
  rewrite (spec_le_of_le 3 h Lh).
  rewrite <- wire_app. 
  assert (SK : skipn 6 buffer = skipn 3 (skipn 3 buffer)).
  { destruct buffer as [|a [|b [|c buffer]]]; try discriminate W. cbn [skipn]. reflexivity. }
  rewrite SK. unfold h. rewrite firstn_skipn.
  destruct buffer as [|a [|b [|c buffer]]]; try discriminate W. cbn [skipn].
  rewrite !wire_cons in W. injection W as A B C D. rewrite <- D. reflexivity.
Qed.

Lemma miner_exact : forall pf bs,
  padded bs (read_1024 bs) /\ miner_shows (read_1024 bs) (sc_miner_listen pf bs) /\
  forall r, miner_shows (read_1024 bs) r -> r = sc_miner_listen pf bs.
Proof.
  intros pf bs. split; [apply read_padded|]. rewrite listen_shown.
  assert (L : len (read_1024 bs) = 1024) by (destruct (read_padded bs) as (? & ? & ? & X & ?); exact X).
  set (buffer := read_1024 bs) in *. clearbody buffer. clear bs. split.
  - unfold shown. destruct (spec_decode_frame buffer) as [[m k]|e|] eqn:S.
    2:{ eapply shows_bad_frame, S. }
    2:{ exfalso. pose proof (frame_outcome pf buffer (slice_1024 buffer ltac:(lia))) as F. rewrite S in F. exact F. }
    destruct (mt_eqb (m_type m) MT_SetupConnectionSuccess) eqn:T.
    2:{ eapply shows_nothing; [exact S|]. intros X. apply mt_eqb_iff in X. congruence. }
    apply mt_eqb_iff in T. destruct (answer_decode _ _ _ S T) as (n & rest & Hn & Hl & W & P). cbv zeta.
    destruct (decode_answer _ _ _ Hn W) as (WR & _).
    assert (LR : len rest = 1018).
    { apply (f_equal len) in W. rewrite len_wire, L, !len_app, len_spec_le in W. change (len [0; 0; 1]) with 3 in W. lia. }
    assert (LP : len (m_payload m) = n).
    { rewrite P. apply len_firstn. rewrite <- len_wire, WR. exact Hl. }
    rewrite LP. destruct (n <? 6) eqn:E6.
    { eapply shows_short; [|exact W]. lia. }
    set (r6 := skipn 6 buffer) in *.
    assert (F2 : firstn 2 (m_payload m) = firstn 2 r6).
    { rewrite P. rewrite firstn_firstn. f_equal. lia. }
    assert (F4 : firstn 4 (skipn 2 (m_payload m)) = firstn 4 (skipn 2 r6)).
    { rewrite P. rewrite skipn_firstn_comm, firstn_firstn. f_equal. lia. }
    rewrite F4. set (fb := firstn 4 (skipn 2 r6)) in *. set (vb := firstn 2 r6) in *.
    assert (L6 : len r6 = 1018) by (rewrite <- len_wire, WR; exact LR).
    assert (Lf : len fb = 4).
    { unfold fb. rewrite NoiseFacts.len_firstn'. unfold len in *. rewrite skipn_length. lia. }
    assert (Lv : len vb = 2) by (unfold vb; rewrite NoiseFacts.len_firstn'; lia).
    assert (W' : wire buffer = [0; 0; 1] ++ spec_le 3 n ++ spec_le 2 (of_le vb) ++ spec_le 4 (of_le fb) ++ wire (skipn 4 (skipn 2 r6))).
    { rewrite W, <- WR. do 2 f_equal. rewrite (spec_le_of_le 2 vb Lv), (spec_le_of_le 4 fb Lf), <- !wire_app. f_equal.
      unfold vb, fb. rewrite !firstn_skipn. reflexivity. }
    rewrite <- of_le_spec_val.
    pose proof (of_le_bound vb) as Bv. rewrite Lv in Bv. pose proof (of_le_bound fb) as Bf. rewrite Lf in Bf.
    destruct (of_le fb <? 4) eqn:E4.
    + eapply shows_flags; [| | |exact W']; [lia|exact Bv|lia].
    + eapply shows_bad_flags; [| | |exact W']; [lia|exact Bv|]. split; [lia|exact Bf].
  - intros r R. unfold shown. destruct R as [n v f rest Hn Hv Hf W|m k S T|e S|n rest Hn W|n v f rest Hn Hv Hf W].
    3:{ rewrite S. reflexivity. }
    2:{ rewrite S. destruct (mt_eqb _ _) eqn:E; [apply mt_eqb_iff in E; contradiction|reflexivity]. }
    2:{ destruct (decode_answer _ n _ ltac:(lia) W) as (WR & ->). destruct (_ <? n); [reflexivity|].
        change (mt_eqb (m_type _) _) with true. cbv iota zeta. cbn [m_payload].
        rewrite NoiseFacts.len_firstn'. destruct (_ <? 6) eqn:E; [reflexivity|lia]. }
    all: destruct (decode_answer _ n _ ltac:(lia) W) as (WR & ->);
      assert (LR : len (spec_le 2 v ++ spec_le 4 f ++ rest) = 1018)
        by (apply (f_equal len) in W; rewrite len_wire, L, !len_app, !len_spec_le in W; rewrite !len_app, !len_spec_le;
            change (len [0; 0; 1]) with 3 in W; lia);
      rewrite LR; destruct (1018 <? n) eqn:EN; [lia|];
      change (mt_eqb (m_type _) _) with true; cbv iota zeta; cbn [m_payload];
      set (r6 := skipn 6 buffer) in *;
      assert (L6 : len r6 = 1018) by (rewrite <- len_wire, WR; exact LR);
      rewrite NoiseFacts.len_firstn', L6; destruct (_ <? 6) eqn:E6; [lia|];
      assert (FB : firstn 4 (skipn 2 (firstn (N.to_nat n) r6)) = to_le 4 f)
        by (rewrite skipn_firstn_comm, firstn_firstn;
            replace (Init.Nat.min 4 (N.to_nat n - 2)) with 4%nat by lia;
            destruct (wire_split r6 _ _ WR) as (c1 & c2 & -> & W1 & W2);
            destruct (wire_split c2 _ _ W2) as (c3 & c4 & -> & W3 & W4);
            apply wire_le_inv in W1; apply wire_le_inv in W3; subst c1 c3; reflexivity);
      rewrite FB, <- of_le_spec_val, of_le_to_le by (change (256 ^ N.of_nat 4) with (2 ^ 32); lia).
    + destruct (f <? 4) eqn:E4; [reflexivity|lia].
    + destruct (f <? 4) eqn:E4; [lia|reflexivity].
Qed.
Lemma miner_dies : forall pf, exists bs, snd (sc_miner_listen pf bs) = true.
Proof. intros pf. exists [x00; x00; x01]. destruct pf; vm_compute; reflexivity. Qed.

(** ** An answer cut short *)
Lemma shows_listen : forall pf bs r, miner_shows (read_1024 bs) r -> sc_miner_listen pf bs = r.
Proof. intros pf bs r H. symmetry. apply (proj2 (proj2 (miner_exact pf bs)) r H). Qed.
Lemma shows_bytes : forall pf bs a b f rest, f < 4 ->
  read_1024 bs = [x00; x00; x01; x06; x00; x00; a; b; b8 f; x00; x00; x00] ++ rest ->
  sc_miner_listen pf bs = ([received_line; flags_line f], false).
Proof.
  intros pf bs a b f rest Hf E. apply shows_listen. rewrite E.
  apply (shows_flags _ 6 (of_le [a; b]) f (wire rest)); [lia| |exact Hf|].
  - pose proof (of_le_bound [a; b]) as B. exact B.
  - rewrite wire_app. rewrite (spec_le_of_le 2 [a; b] eq_refl).
    assert (X : f = 0 \/ f = 1 \/ f = 2 \/ f = 3) by lia.
    destruct X as [-> | [-> | [-> | ->]]]; reflexivity.
Qed.
Lemma answer_cut : forall pf version flags reply i, version < 2 ^ 16 -> flags < 4 ->
  wire reply = success_frame version flags -> i <= 12 ->
  sc_miner_listen pf (firstn (N.to_nat i) reply) = cut_shows i flags.
Proof.
  intros pf version flags reply i Hv Hf W Hi.
  assert (R : reply = [x00; x00; x01; x06; x00; x00; b8 version; b8 (version / 256); b8 flags; x00; x00; x00]).
  { apply wire_inj. rewrite W. unfold success_frame.
    rewrite <- !wire_to_le. change [0; 0; 1; 6; 0; 0] with (wire [x00; x00; x01; x06; x00; x00]). rewrite <- !wire_app. f_equal.
    assert (X : flags = 0 \/ flags = 1 \/ flags = 2 \/ flags = 3) by lia.
    destruct X as [-> | [-> | [-> | ->]]]; reflexivity. }
  subst reply. clear W. set (a := b8 version). set (b := b8 (version / 256)). clearbody a b.
  assert (X : i = 0 \/ i = 1 \/ i = 2 \/ i = 3 \/ i = 4 \/ i = 5 \/ i = 6 \/ i = 7 \/ i = 8 \/ i = 9 \/ i = 10 \/ i = 11 \/ i = 12) by lia.
  repeat (destruct X as [-> | X]); [..|subst i];
    match goal with |- context [N.to_nat ?k] => let n := eval vm_compute in (N.to_nat k) in change (N.to_nat k) with n end;
    unfold cut_shows; cbn [N.leb N.eqb N.compare Pos.compare Pos.compare_cont Pos.eqb firstn].
  all: try (eapply shows_bytes; [exact Hf || reflexivity|]; unfold read_1024; cbn [firstn List.length Nat.sub app]; reflexivity).
  - destruct pf; vm_compute; reflexivity.
  - destruct pf; vm_compute; reflexivity.
  - destruct pf; vm_compute; reflexivity.
  - destruct pf; vm_compute; reflexivity.
Qed.

Lemma reply_cut : forall pf pf' flags buffer reply, rust_slice buffer -> flags < 4 ->
  sc_pool_recv pf flags buffer = Ok (Some reply) ->
  len reply = 12 /\ forall i, i <= 12 -> sc_miner_listen pf' (firstn (N.to_nat i) reply) = cut_shows i flags.
Proof.
  intros pf pf' flags buffer reply Hs Hf H.
  destruct (pool_exact pf flags buffer Hs (proj2 (flags_lt4 _) Hf)) as (D & _). rewrite H in D.
  inversion D as [| | |m n v lf rp S T R W| ]. subst rp.
  assert (V : u16_ok (sc_min_version v)) by (apply (csc_min_u16 _ _ _ R), (frame_payload_slice _ _ _ Hs S)).
  split.
  - rewrite <- len_wire, W. reflexivity.
  - intros i Hi. apply (answer_cut pf' (sc_min_version v) flags reply i V Hf W Hi).
Qed.
Lemma other_flags_shown : forall pf, exists buffer reply i,
  sc_pool_recv pf REQUIRES_FIXED_VERSION buffer = Ok (Some reply) /\
  sc_miner_listen pf (firstn (N.to_nat i) reply) = ([received_line; flags_line 0], false).
Proof.
  intros pf.
  exists (map b8 ([0; 0; 0; 28; 0; 0; 0; 2; 0; 2; 0; 1; 0; 0; 0; 1; 48; 97; 33; 1; 66; 1; 83; 5; 98; 114; 97; 105; 105; 4; 117; 117; 105; 100])),
    [x00; x00; x01; x06; x00; x00; x02; x00; x01; x00; x00; x00], 8.
  split; destruct pf; vm_compute; reflexivity.
Qed.
