(** * PieceProofs: ParseError means that bytes are missing; frames in pieces. *)
From Verif Require Import Base Codec Types Messages Frame Catalog SpecWire SpecTypes SpecDecode Macro SpecMacro SpecPieces
  BaseFacts CodecFacts Utf8Facts TypesFacts MessagesFacts FrameFacts CodecProofs MsgProofs TypesProofs DecodeProofs MacroProofs.
Ltac Zify.zify_post_hook ::= Z.div_mod_to_equations.

(** ** Enough bytes *)
Definition enough {A} (K : N) (t : reading A) : Prop := forall rest r, t rest r -> K <= len rest ->
  match r with Ok (_, l) => len rest <= len l + K | Err e => e <> ParseError | Panic => False end.

Lemma en_gives : forall A (v : A) K, enough K (gives v).
Proof. intros A v K rest r -> H. lia. Qed.
Lemma en_fails : forall A e K, e <> ParseError -> enough K (@fails A e).
Proof. intros A e K He rest r -> H. exact He. Qed.
Lemma en_next : forall A B (a : reading A) (f : A -> reading B) Ka Kb,
  enough Ka a -> (forall x, enough Kb (f x)) -> enough (Ka + Kb) (next a f).
Proof.
  intros A B a f Ka Kb Ha Hf rest r (ra & Ra & Rb) H. pose proof (Ha rest ra Ra ltac:(lia)) as P.
  destruct ra as [[x l]|e|]; [|subst r; exact P|contradiction].
  pose proof (Hf x l r Rb ltac:(lia)) as Q. destruct r as [[y l2]|e|]; auto. lia.
Qed.
Lemma en_check : forall A w e (k : reading A) K, e <> ParseError -> enough K k -> enough K (check w e k).
Proof. intros A w e k K He Hk rest r [(_ & ->)|(_ & R)] H; [exact He|exact (Hk _ _ R H)]. Qed.
Lemma en_raw : forall k, enough (N.of_nat k) (raw k).
Proof.
  intros k rest r [(L & ->)|(L & ->)] H; [lia|]. unfold len in *. rewrite skipn_length. lia.
Qed.
Lemma en_weaken : forall A (t : reading A) K K', enough K t -> K <= K' -> enough K' t.
Proof.
  intros A t K K' H L rest r R L2. pose proof (H rest r R ltac:(lia)) as P. destruct r as [[x l]|e|]; auto. lia.
Qed.
Lemma en_int : forall k, enough (N.of_nat k) (int k).
Proof.
  intros k. eapply en_weaken; [apply en_next; [apply en_raw|intros; apply (en_gives _ _ 0)]|]. lia.
Qed.
Lemma en_flags : forall fs, enough 4 (flag_bits fs).
Proof.
  intros fs. eapply en_weaken; [apply en_next; [apply (en_int 4)|intros; apply en_check; [discriminate|apply (en_gives _ _ 0)]]|]. lia.
Qed.
Lemma en_tabled : forall A (rest : bytes) (r : Result (A * N)) K,
  match r with Ok (_, n) => n <= K | Err e => e <> ParseError | Panic => False end ->
  match tabled rest r with Ok (_, l) => len rest <= len l + K | Err e => e <> ParseError | Panic => False end.
Proof.
  intros A rest r K H. destruct r as [[v n]|e|]; cbn [tabled]; auto. unfold len. rewrite skipn_length. lia.
Qed.
Lemma en_str : forall s, enough 256 (reading_ty (T_STR0 s)).
Proof.
  intros s rest r (r0 & T & ->) H. apply en_tabled. destruct rest as [|h body]; [rewrite len_nil in H; lia|].
  rewrite len_cons in H. pose proof (to_N_lt h) as B. cbn [spec_decode_str] in T.
  destruct T as [(A & T)|[(A & C & T)|[(A & C & D & T)|(A & C & D & T)]]]; subst r0; try discriminate; lia.
Qed.
Lemma en_text : enough 256 text.
Proof. exact (en_str STR0_255). Qed.
Lemma en_b0 : forall b, enough (enough_for (T_B0 b)) (reading_ty (T_B0 b)).
Proof.
  intros b rest r -> H. apply en_tabled. unfold spec_decode_b0.
  set (h := spec_b0_hdr b). set (header := firstn h rest). set (n := spec_val (wire header)).
  assert (Eh : enough_for (T_B0 b) + 1 = N.of_nat h + 256 ^ N.of_nat h) by (subst h; destruct b; reflexivity).
  assert (Hh : N.of_nat h <= enough_for (T_B0 b)) by (subst h; destruct b; cbn; lia).
  assert (Lh : len header = N.of_nat h) by (subst header; unfold len in *; rewrite firstn_length; lia).
  assert (Bn : n < 256 ^ N.of_nat h) by (subst n; rewrite <- Lh, val_of_le; apply of_le_bound).
  assert (Lb : len (skipn h rest) + N.of_nat h = len rest) by (unfold len in *; rewrite skipn_length; lia).
  rewrite Lh, N.ltb_irrefl. destruct (len (skipn h rest) <? n) eqn:E; [lia|].
  destruct (spec_b0_limit b <? n); [discriminate|]. lia.
Qed.
Lemma en_prefix32 : enough 256 prefix32.
Proof. exact (en_b0 B0_32). Qed.
Lemma en_code : forall A (image : A -> list N), enough 256 (code image).
Proof.
  intros A image. eapply en_weaken; [apply en_next; [exact en_text|]|].
  - intros s. instantiate (1 := 0). intros rest r [(c & _ & ->)|(_ & ->)] _; [lia|discriminate].
  - lia.
Qed.
Lemma en_frame : enough 16777221 (reading_ty T_frame).
Proof.
  intros rest r -> H. apply en_tabled. unfold spec_decode_frame.
  destruct rest as [|a [|b [|c rest]]]; cbn [wire map]; try (unfold len in H; cbn [length] in H; lia).
  destruct (spec_lookup _ _) as [t|]; [|discriminate]. destruct (negb _); [discriminate|].
  cbn [skipn]. set (header := firstn 3 rest). rewrite !len_cons in H.
  assert (Lh : len header = 3) by (subst header; unfold len in *; rewrite firstn_length; lia).
  pose proof (of_le_bound header) as B. rewrite Lh in B. change (256 ^ 3) with 16777216 in B.
  rewrite val_of_le, Lh. cbn [N.ltb N.compare Pos.compare Pos.compare_cont].
  change (match rest with | [] => [] | _ :: l => match l with | [] => [] | _ :: l0 => match l0 with | [] => [] | _ :: l1 => l1 end end end)
    with (skipn 3 rest).
  assert (Lb : len (skipn 3 rest) + 3 = len rest) by (unfold len in *; rewrite skipn_length; lia).
  destruct (len (skipn 3 rest) <? of_le header) eqn:E; [lia|]. lia.
Qed.

Ltac en := repeat first [apply en_gives | apply en_check; [discriminate|] | eapply en_next; [
  first [apply (en_int 1)|apply (en_int 2)|apply (en_int 4)|apply en_flags|exact en_text|exact en_prefix32|apply (en_raw 32)|apply en_code]|intros ?] ].
Lemma en_sc : forall fs, enough 1290 (read_sc fs).
Proof.
  intros fs. eapply en_weaken; [unfold read_sc; en|]. instantiate (1 := 0). vm_compute. discriminate.
Qed.
(** Behind a prefix of at most 32 bytes there are at least 4 of the 256. *)
Lemma en_prefix_then : forall A (f : b0 -> N -> A), enough 256 (next prefix32 (fun x => next (int 4) (fun g => gives (f x g)))).
Proof.
  intros A f rest r (ra & Ra & Rb) H. pose proof (en_prefix32 rest ra Ra H) as P.
  destruct ra as [[x l]|e|]; [|subst r; exact P|contradiction].
  assert (L : len rest <= len l + 33).
  { unfold prefix32 in Ra. destruct (spec_decode_b0 B0_32 rest) as [[v n]|e|] eqn:E; try discriminate. injection Ra as _ Ra.
    assert (n <= 33); [|subst l; unfold len; rewrite skipn_length; lia].
    unfold spec_decode_b0 in E. destruct (_ <? _); [discriminate|]. destruct (_ <? _); [discriminate|].
    destruct (spec_b0_limit B0_32 <? _) eqn:E3; [discriminate|].
    apply (f_equal (fun r => match r with Ok (_, k) => k | _ => 0 end)) in E. cbv beta iota in E. rewrite <- E.
    apply N.ltb_ge in E3. change (spec_b0_limit B0_32) with 32 in E3. change (N.of_nat (spec_b0_hdr B0_32)) with 1. lia. }
  assert (Q : enough 4 (next (int 4) (fun g => gives (f x g)))).
  { change 4 with (N.of_nat 4 + 0). apply en_next; [apply en_int|intros; apply en_gives]. }
  pose proof (Q l r Rb ltac:(lia)) as Q'. destruct r as [[y l2]|e|]; auto. lia.
Qed.
Lemma en_msg : forall k, enough (enough_for (T_msg k)) (reading_of k).
Proof.
  destruct k; cbn [reading_of enough_for]; try apply en_sc;
    try (eapply en_weaken; [do 3 (eapply en_next; [first [apply (en_int 4)|apply (en_raw 32)]|intros ?]);
      apply (en_prefix_then _ (fun x g => mkOSMCS _ _ _ x g))|vm_compute; discriminate]);
    try (eapply en_weaken; [solve [en]|instantiate (1 := 0); vm_compute; discriminate]).
  change 1291 with (N.of_nat 1 + 1290). apply en_next; [apply en_int|]. intros p.
  assert (S : forall fs (f : setup_connection -> common_setup_connection), enough 1290 (next (read_sc fs) (fun v => gives (f v)))).
  { intros fs f. change 1290 with (1290 + 0). apply en_next; [apply en_sc|intros; apply en_gives]. }
  destruct p as [|[[p|p|]|[p|p|]|]]; first [apply en_fails; discriminate | apply S].
Qed.
Lemma en_ty : forall t, enough (enough_for t) (reading_ty t).
Proof.
  destruct t; try apply (en_int 1); try apply (en_int 2); try apply (en_int 4); try apply (en_int 3); try apply (en_raw 32);
    try apply en_b0; try apply en_str; try apply en_flags; try apply en_code; try apply en_msg; try apply en_frame; cbn [reading_ty enough_for].
  - change 1 with (N.of_nat 1 + 0). apply en_next; [apply en_int|intros; apply en_gives].
  - change 1 with (N.of_nat 1 + 0). apply en_next; [apply en_int|]. intros p.
    destruct p as [|[[p|p|]|[p|p|]|]]; first [apply en_fails; discriminate | apply en_gives].
Qed.
Lemma en_fields : forall ts, enough (enough_for_all ts) (reading_fields ts).
Proof.
  induction ts as [|t ts IH]; cbn [enough_for_all fold_right reading_fields]; [apply en_gives|].
  apply en_next; [apply en_ty|]. intros x. rewrite <- (N.add_0_r (fold_right _ 0 ts)). apply en_next; [exact IH|].
  intros; apply en_gives.
Qed.

Lemma en_decl : forall ts M (new : fields ts -> Result M), (forall v, fields_ok ts v -> new v <> Err ParseError) ->
  forall pf bs, rust_slice bs -> enough_for_all ts <= len bs -> deserialize (im_de ts new) pf bs <> Err ParseError.
Proof.
  intros ts M new Hn pf bs Hs H. destruct (im_reads ts M new pf [] bs Hs) as (r & R & _ & D).
  pose proof (en_fields ts bs r R H) as P. unfold deserialize. rewrite cursor_0.
  destruct r as [[v l]|e|]; [| |contradiction].
  - destruct D as (K & c & _ & E). rewrite E. exact (Hn v K).
  - rewrite D. congruence.
Qed.
Lemma en_de : forall t pf bs, rust_slice bs -> enough_for t <= len bs -> deserialize (de_of t) pf bs <> Err ParseError.
Proof.
  intros t pf bs Hs H. destruct (type_follows t pf [] bs Hs) as (r & R & D).
  pose proof (en_ty t bs r R H) as P. unfold deserialize. rewrite cursor_0.
  destruct r as [[v l]|e|]; [| |contradiction].
  - destruct D as (K & c & _ & E). rewrite E. discriminate.
  - rewrite D. congruence.
Qed.

(** ** One byte less is not enough *)
Lemma least_b0 : forall b, exists bs, len bs + 1 = enough_for (T_B0 b) /\ forall pf, deserialize (de_of (T_B0 b)) pf bs = Err ParseError.
Proof.
  intros b. set (h := spec_b0_hdr b). set (k := N.to_nat (256 ^ N.of_nat h - 2)). exists (repeat xff h ++ repeat x00 k).
  assert (L : len (repeat xff h ++ repeat x00 k) = N.of_nat h + (256 ^ N.of_nat h - 2)).
  { unfold len. rewrite app_length, !repeat_length. subst k. lia. }
  assert (Eh : enough_for (T_B0 b) + 1 = N.of_nat h + 256 ^ N.of_nat h) by (subst h; destruct b; reflexivity).
  assert (P : 256 ^ N.of_nat h = 256 \/ 256 ^ N.of_nat h = 65536 \/ 256 ^ N.of_nat h = 16777216).
  { subst h. destruct b; cbn [spec_b0_hdr]; [left|left|left|right; left|right; right]; reflexivity. }
  split; [rewrite L; lia|]. intros pf.
  destruct (type_follows (T_B0 b) pf [] (repeat xff h ++ repeat x00 k)) as (r & R & D).
  { rewrite app_nil_l. unfold rust_slice. rewrite L. change (2 ^ 63 - 1) with 9223372036854775807. assert (N.of_nat h <= 3) by (subst h; destruct b; cbn; lia). lia. }
  unfold deserialize. rewrite cursor_0.
  assert (E : r = Err ParseError); [|subst r; exact D].
  change (r = tabled (repeat xff h ++ repeat x00 k) (spec_decode_b0 b (repeat xff h ++ repeat x00 k))) in R.
  rewrite R. unfold spec_decode_b0. fold h.
  assert (F : firstn h (repeat xff h ++ repeat x00 k) = repeat xff h).
  { rewrite firstn_app, repeat_length, Nat.sub_diag. cbn [firstn]. rewrite app_nil_r. apply firstn_all2. rewrite repeat_length. lia. }
  assert (S : skipn h (repeat xff h ++ repeat x00 k) = repeat x00 k).
  { rewrite skipn_app, repeat_length, Nat.sub_diag. cbn [skipn]. rewrite skipn_all2 by (rewrite repeat_length; lia). reflexivity. }
  rewrite F, S. assert (Lf : len (repeat xff h) = N.of_nat h) by (unfold len; rewrite repeat_length; reflexivity).
  rewrite Lf, N.ltb_irrefl.
  assert (V : spec_val (wire (repeat xff h)) = 256 ^ N.of_nat h - 1) by (subst h; destruct b; vm_compute; reflexivity).
  assert (Lk : len (repeat x00 k) = 256 ^ N.of_nat h - 2) by (unfold len; rewrite repeat_length; subst k; lia).
  rewrite V, Lk. replace (_ <? _) with true by lia. reflexivity.
Qed.
Lemma least_frame : exists bs, len bs + 1 = enough_for T_frame /\ forall pf, deserialize (de_of T_frame) pf bs = Err ParseError.
Proof.
  assert (K : exists body : bytes, len body = 16777214).
  { exists (repeat x00 (N.to_nat 16777214)). unfold len. rewrite repeat_length. lia. }
  destruct K as [body Lk]. set (bs := [x00; x00; x00; xff; xff; xff] ++ body). exists bs.
  assert (L : len bs = 16777220) by (subst bs; rewrite len_app, Lk; reflexivity).
  split; [rewrite L; reflexivity|]. intros pf.
  destruct (type_follows T_frame pf [] bs) as (r & R & D); [rewrite app_nil_l; unfold rust_slice; rewrite L; vm_compute; discriminate|].
  unfold deserialize. rewrite cursor_0.
  assert (E : r = Err ParseError); [|subst r; exact D].
  change (r = tabled bs (spec_decode_frame bs)) in R.
  rewrite R. subst bs. unfold spec_decode_frame. cbn [app wire map firstn skipn].
  change (spec_lookup _ _) with (Some MT_SetupConnection). rewrite Lk. vm_compute. reflexivity.
Qed.
Definition text255 : bytes := xff :: repeat x61 255.
Lemma least_for : forall t, exists bs, len bs + 1 = enough_for t /\ forall pf, deserialize (de_of t) pf bs = Err ParseError.
Proof.
  intros t.
  assert (K : (exists b, t = T_B0 b) \/ t = T_frame \/
    exists bs, len bs + 1 = enough_for t /\ forall pf, deserialize (de_of t) pf bs = Err ParseError).
  { destruct t; try (left; eexists; reflexivity); try (right; left; reflexivity); right; right.
    all: try (destruct s); try (destruct f); try (destruct k).
    all: first [
      exists []; split; [reflexivity|intros []; reflexivity] |
      exists [x00]; split; [reflexivity|intros []; reflexivity] |
      exists [x00; x00]; split; [reflexivity|intros []; reflexivity] |
      exists [x00; x00; x00]; split; [reflexivity|intros []; reflexivity] |
      exists (repeat x00 5); split; [reflexivity|intros []; reflexivity] |
      exists (repeat x00 31); split; [reflexivity|intros []; reflexivity] |
      exists (repeat x00 39); split; [reflexivity|intros []; reflexivity] |
      exists (xff :: repeat x61 254); split; [reflexivity|intros []; vm_compute; reflexivity] |
      exists (repeat x00 4 ++ xff :: repeat x61 254); split; [reflexivity|intros []; vm_compute; reflexivity] |
      exists (repeat x00 40 ++ xff :: repeat x61 254); split; [reflexivity|intros []; vm_compute; reflexivity] |
      exists (repeat x00 42 ++ xff :: repeat x61 254); split; [reflexivity|intros []; vm_compute; reflexivity] |
      exists (repeat x00 4 ++ text255 ++ repeat x00 35); split; [reflexivity|intros []; vm_compute; reflexivity] |
      exists (repeat x00 4 ++ text255 ++ repeat x00 37); split; [reflexivity|intros []; vm_compute; reflexivity] |
      exists (repeat x00 8 ++ text255 ++ [x00; x00] ++ text255 ++ text255 ++ text255 ++ xff :: repeat x61 254); split; [reflexivity|intros []; vm_compute; reflexivity] |
      exists (repeat x00 9 ++ text255 ++ [x00; x00] ++ text255 ++ text255 ++ text255 ++ xff :: repeat x61 254); split; [reflexivity|intros []; vm_compute; reflexivity] ]. }
  destruct K as [[b ->]|[->|(bs & L & D)]]; [apply least_b0|apply least_frame|exists bs; split; [exact L|exact D]].
Qed.

(** ** More bytes change nothing else *)
Lemma stable_ty : forall t pf bs s, rust_slice (bs ++ s) -> deserialize (de_of t) pf bs <> Err ParseError ->
  deserialize (de_of t) pf (bs ++ s) = deserialize (de_of t) pf bs.
Proof.
  intros t pf bs s Hs. unfold deserialize. rewrite !cursor_0.
  assert (Hb : rust_slice bs) by (unfold rust_slice in *; rewrite len_app in Hs; lia).
  destruct (decode_total t pf [] bs Hb) as (c & l & r & -> & E & _ & L & _). rewrite E. cbn [snd]. intros H.
  destruct (L H) as (L1 & _). rewrite <- app_assoc in *. rewrite (L1 pf [] (l ++ s) Hs). reflexivity.
Qed.
Lemma good_fields : forall ts, good (de_fields ts) (fun v _ => fields_ok ts v).
Proof.
  induction ts as [|t ts IH]; cbn [de_fields fields fields_ok].
  - apply good_ret. exact I.
  - destruct (ty_encodes t) as (_ & _ & G). eapply good_bind; [exact G|]. intros x c Hx. cbn beta in Hx.
    eapply good_bind; [exact IH|]. intros xs c2 Hxs. cbn beta in Hxs. apply good_ret. split; assumption.
Qed.
Lemma stable_decl : forall ts M (new : fields ts -> Result M) pf bs s, rust_slice (bs ++ s) ->
  deserialize (im_de ts new) pf bs <> Err ParseError ->
  deserialize (im_de ts new) pf (bs ++ s) = deserialize (im_de ts new) pf bs.
Proof.
  intros ts M new pf bs s Hs. unfold deserialize. rewrite !cursor_0. unfold im_de, de_bind.
  assert (Hb : rust_slice bs) by (unfold rust_slice in *; rewrite len_app in Hs; lia).
  destruct (good_fields ts pf [] bs Hb) as (c & l & r & -> & E & _ & L & _).
  change (P [] (c ++ l)) with (cursor [] (c ++ l)) in E. rewrite E. intros H.
  assert (Hr : r <> Err ParseError) by (intros ->; apply H; reflexivity).
  destruct (L Hr) as (L1 & _). rewrite <- app_assoc in *. specialize (L1 pf [] (l ++ s) Hs).
  change (P [] (c ++ l ++ s)) with (cursor [] (c ++ l ++ s)) in L1. rewrite L1.
  destruct r as [v|e|]; reflexivity.
Qed.

Lemma len_zeros : forall K, len (repeat x00 (N.to_nat K)) = K.
Proof. intros K. apply len_repeat. Qed.
Lemma enough_small : forall t, enough_for t <= 2 ^ 25.
Proof. destruct t as [| | | | | | |[]| | | | | |[]|]; vm_compute; discriminate. Qed.

Lemma incomplete_ty : forall t pf bs, len bs <= 2 ^ 62 ->
  deserialize (de_of t) pf bs = Err ParseError <->
  exists s, rust_slice (bs ++ s) /\ deserialize (de_of t) pf (bs ++ s) <> deserialize (de_of t) pf bs.
Proof.
  intros t pf bs Hb. split.
  - intros E. exists (repeat x00 (N.to_nat (enough_for t))). pose proof (enough_small t) as K.
    assert (Hs : rust_slice (bs ++ repeat x00 (N.to_nat (enough_for t)))).
    { unfold rust_slice. rewrite len_app, len_zeros. change (2 ^ 63) with (2 * 2 ^ 62). change (2 ^ 62) with (2 ^ 37 * 2 ^ 25) in *. lia. }
    split; [exact Hs|]. rewrite E. apply en_de; [exact Hs|]. rewrite len_app, len_zeros. lia.
  - intros (s & Hs & H).
    assert (D : deserialize (de_of t) pf bs = Err ParseError \/ deserialize (de_of t) pf bs <> Err ParseError).
    { destruct (deserialize (de_of t) pf bs) as [v|e|]; [right; discriminate| |right; discriminate].
      destruct e; try (right; discriminate). left. reflexivity. }
    destruct D as [D|D]; [exact D|]. exfalso. apply H. apply stable_ty; assumption.
Qed.

Lemma incomplete_decl : forall ts M (new : fields ts -> Result M), (forall v, fields_ok ts v -> new v <> Err ParseError) ->
  forall pf bs, len bs + enough_for_all ts <= 2 ^ 63 - 1 ->
  deserialize (im_de ts new) pf bs = Err ParseError <->
  exists s, rust_slice (bs ++ s) /\ deserialize (im_de ts new) pf (bs ++ s) <> deserialize (im_de ts new) pf bs.
Proof.
  intros ts M new Hn pf bs Hb. split.
  - intros E. exists (repeat x00 (N.to_nat (enough_for_all ts))).
    assert (Hs : rust_slice (bs ++ repeat x00 (N.to_nat (enough_for_all ts)))).
    { unfold rust_slice. rewrite len_app, len_zeros. exact Hb. }
    split; [exact Hs|]. rewrite E. apply en_decl; [exact Hn|exact Hs|]. rewrite len_app, len_zeros. lia.
  - intros (s & Hs & H).
    assert (D : deserialize (im_de ts new) pf bs = Err ParseError \/ deserialize (im_de ts new) pf bs <> Err ParseError).
    { destruct (deserialize (im_de ts new) pf bs) as [v|e|]; [right; discriminate| |right; discriminate].
      destruct e; try (right; discriminate). left. reflexivity. }
    destruct D as [D|D]; [exact D|]. exfalso. apply H. apply stable_decl; assumption.
Qed.

(** ** Frames in pieces *)
Lemma frame_front : forall pf buf m, rust_slice buf -> deserialize de_message pf buf = Ok m ->
  exists c l, buf = c ++ l /\ len c = 6 + len (m_payload m) /\ wire c = frame_layout m /\
    skipn (6 + length (m_payload m)) buf = l /\ len (m_payload m) < 16777216.
Proof.
  intros pf buf m Hs E. unfold deserialize in E. rewrite cursor_0 in E.
  destruct (de_message pf (cursor [] buf)) as [p r] eqn:F. cbn [snd] in E. subst r.
  apply (decode_canonical T_frame) in F as (c & l & -> & -> & K & S); [|discriminate|exact Hs].
  pose proof (serialize_layout T_frame m c K S) as W. cbn [lay] in W. cbn [ok] in K.
  assert (L : len c = 6 + len (m_payload m)).
  { rewrite <- len_wire, W, frame_layout_eq, !len_app, !len_spec_le, len_wire. change (N.of_nat 2) with 2. change (N.of_nat 1) with 1. change (N.of_nat 3) with 3. lia. }
  exists c, l. repeat (split; [reflexivity || assumption|]). split; [|exact K].
  assert (Lc : length c = (6 + length (m_payload m))%nat) by (unfold len in L; lia).
  rewrite <- Lc, skipn_app, skipn_all, Nat.sub_diag. reflexivity.
Qed.

Lemma waiting_fun : forall pf buf ms1 l1 st1, waiting pf buf ms1 l1 st1 -> forall ms2 l2 st2, waiting pf buf ms2 l2 st2 ->
  ms1 = ms2 /\ l1 = l2 /\ st1 = st2.
Proof.
  intros pf buf ms1 l1 st1 H. induction H as [buf E|buf e E N|buf m ms buf' st E H IH]; intros ms2 l2 st2 G;
    inversion G; subst; try congruence; auto.
  - split; [reflexivity|]. split; [reflexivity|]. congruence.
  - assert (m0 = m) as -> by congruence. destruct (IH _ _ _ H1) as (-> & -> & ->). auto.
Qed.
Lemma waiting_total : forall pf n buf, (length buf <= n)%nat -> rust_slice buf -> exists ms l st, waiting pf buf ms l st.
Proof.
  intros pf n. induction n as [|n IH]; intros buf Hl Hs.
  - destruct buf; [|cbn in Hl; lia]. do 3 eexists. apply W_more. destruct pf; reflexivity.
  - destruct (deserialize de_message pf buf) as [m|e|] eqn:E.
    + destruct (frame_front pf buf m Hs E) as (c & l & -> & L & _ & Sk & _).
      destruct (IH l) as (ms & l' & st & W).
      { rewrite app_length in Hl. unfold len in L. lia. }
      { unfold rust_slice in *. rewrite len_app in Hs. lia. }
      do 3 eexists. eapply W_take; [exact E|]. rewrite Sk. exact W.
    + assert (D : e = ParseError \/ e <> ParseError) by (destruct e; first [left; reflexivity|right; discriminate]).
      destruct D as [->|D]; do 3 eexists; [apply W_more, E|eapply W_stop; eassumption].
    + exfalso. exact (no_panic T_frame pf buf Hs E).
Qed.

Lemma waiting_more : forall pf a ms l st, waiting pf a ms l st -> forall b, rust_slice (a ++ b) ->
  match st with
  | None => forall ms2 l2 st2, waiting pf (l ++ b) ms2 l2 st2 -> waiting pf (a ++ b) (ms ++ ms2) l2 st2
  | Some e => waiting pf (a ++ b) ms (l ++ b) (Some e)
  end.
Proof.
  intros pf a ms l st H. induction H as [a E|a e E N|a m ms l st E H IH]; intros b Hs.
  - intros ms2 l2 st2 G. exact G.
  - eapply W_stop; [|exact N]. rewrite <- E. apply (stable_ty T_frame); [exact Hs|]. change (deserialize de_message pf a <> Err ParseError). rewrite E. congruence.
  - assert (Hb : rust_slice a) by (unfold rust_slice in *; rewrite len_app in Hs; lia).
    assert (E2 : deserialize de_message pf (a ++ b) = Ok m).
    { rewrite <- E. apply (stable_ty T_frame); [exact Hs|]. change (deserialize de_message pf a <> Err ParseError). rewrite E. discriminate. }
    destruct (frame_front pf a m Hb E) as (c & r & -> & L & _ & Sk & _). rewrite Sk in *.
    assert (Sk2 : skipn (6 + length (m_payload m)) ((c ++ r) ++ b) = r ++ b).
    { assert (Lc : length c = (6 + length (m_payload m))%nat) by (unfold len in L; lia).
      rewrite <- Lc, <- app_assoc, skipn_app, skipn_all, Nat.sub_diag. reflexivity. }
    assert (Hr : rust_slice (r ++ b)) by (unfold rust_slice in *; rewrite <- app_assoc, len_app in Hs; lia).
    specialize (IH b Hr). destruct st as [e|].
    + eapply W_take; [exact E2|]. rewrite Sk2. exact IH.
    + intros ms2 l2 st2 G. cbn [app]. eapply W_take; [exact E2|]. rewrite Sk2. apply IH, G.
Qed.

Lemma waiting_short : forall pf a ms l st, waiting pf a ms l st -> (length l <= length a)%nat.
Proof. intros pf a ms l st H. induction H; auto. rewrite skipn_length in IHwaiting. lia. Qed.

Lemma receiving_whole0 : forall pf buf pieces ms l st, receiving pf buf pieces ms l st ->
  deserialize de_message pf buf = Err ParseError -> rust_slice (buf ++ concat pieces) ->
  exists l', waiting pf (buf ++ concat pieces) ms l' st /\ (st = None -> l' = l).
Proof.
  intros pf buf pieces ms l st H.
  induction H as [buf|buf piece pieces ms buf' e W|buf piece pieces ms buf' ms' buf'' st W H IH]; cbn [concat]; intros E Hs.
  - exists buf. rewrite app_nil_r. split; [apply W_more, E|auto].
  - exists (buf' ++ concat pieces). rewrite app_assoc in *. split; [|discriminate].
    exact (waiting_more _ _ _ _ _ W (concat pieces) Hs).
  - assert (E' : deserialize de_message pf buf' = Err ParseError).
    { clear -W. remember None as st. induction W; auto. discriminate. }
    pose proof (waiting_short _ _ _ _ _ W) as Lw.
    destruct IH as (l' & G & F).
    { exact E'. }
    { rewrite app_assoc in Hs. unfold rust_slice, len in *. rewrite !app_length in *. lia. }
    exists l'. rewrite app_assoc in *. split; [|exact F].
    exact (waiting_more _ _ _ _ _ W (concat pieces) Hs _ _ _ G).
Qed.
Lemma empty_waits : forall pf, deserialize de_message pf [] = Err ParseError.
Proof. intros []; reflexivity. Qed.

Lemma receiving_total : forall pf pieces buf, rust_slice (buf ++ concat pieces) -> exists ms l st, receiving pf buf pieces ms l st.
Proof.
  intros pf pieces. induction pieces as [|p pieces IH]; intros buf Hs; cbn [concat] in Hs.
  - do 3 eexists. constructor.
  - rewrite app_assoc in Hs. assert (Hb : rust_slice (buf ++ p)) by (unfold rust_slice in *; rewrite len_app in Hs; lia).
    destruct (waiting_total pf _ (buf ++ p) (le_n _) Hb) as (ms & l & st & W). destruct st as [e|].
    + do 3 eexists. eapply R_stop, W.
    + pose proof (waiting_short _ _ _ _ _ W) as Lw. destruct (IH l) as (ms2 & l2 & st2 & R).
      { unfold rust_slice, len in *. rewrite !app_length in *. lia. }
      do 3 eexists. eapply R_piece; eassumption.
Qed.

Lemma pieces_agree : forall pf pieces ms l st whole ms' l' st',
  receiving pf [] pieces ms l st -> concat pieces = whole -> rust_slice whole -> waiting pf whole ms' l' st' ->
  ms = ms' /\ st = st' /\ (st = None -> l = l').
Proof.
  intros pf pieces ms l st whole ms' l' st' R <- Hs W.
  destruct (receiving_whole0 _ _ _ _ _ _ R (empty_waits pf) Hs) as (l0 & W0 & F). cbn [app] in W0.
  destruct (waiting_fun _ _ _ _ _ W0 _ _ _ W) as (-> & -> & ->). split; [reflexivity|]. split; [reflexivity|].
  intros E. symmetry. apply F, E.
Qed.

Lemma frames_wait : forall pf ms encs, Forall (fun m => len (m_payload m) < 16777216) ms ->
  Forall2 (fun m e => serialize (ser_message m) = Ok e) ms encs ->
  forall rest, rust_slice (concat encs ++ rest) -> deserialize de_message pf rest = Err ParseError ->
  waiting pf (concat encs ++ rest) ms rest None.
Proof.
  intros pf ms encs K F. induction F as [|m e ms encs S F IH]; cbn [concat]; intros rest Hs E.
  - apply W_more, E.
  - inversion K as [|? ? Km Kms]; subst. rewrite <- app_assoc in *.
    pose proof (serialize_layout T_frame m e Km S) as W.
    pose proof (decode_encoded T_frame m e Km W pf [] (concat encs ++ rest) Hs) as D. cbn [de_of] in D.
    assert (E2 : deserialize de_message pf (e ++ concat encs ++ rest) = Ok m).
    { unfold deserialize. rewrite cursor_0, D. reflexivity. }
    destruct (frame_front pf _ m Hs E2) as (c & r & X & L & W2 & Sk & _).
    assert (e = c) as <- by (apply wire_inj; rewrite W2; exact W).
    apply app_inv_head in X. eapply W_take; [exact E2|]. rewrite Sk, <- X. apply IH; auto.
    unfold rust_slice in *. rewrite len_app in Hs. lia.
Qed.

(** Proper beginnings of a frame are awaited. *)
Lemma begun_waits : forall pf m e cut, len (m_payload m) < 16777216 -> serialize (ser_message m) = Ok e ->
  (exists s, s <> [] /\ e = cut ++ s) -> deserialize de_message pf cut = Err ParseError.
Proof.
  intros pf m e cut K S (s & Hs & ->).
  pose proof (serialize_layout T_frame m _ K S) as W.
  assert (Sl : rust_slice (cut ++ s)).
  { unfold rust_slice. rewrite <- len_wire, W. cbn [lay]. rewrite frame_layout_eq, !len_app, !len_spec_le, len_wire.
    change (N.of_nat 2) with 2. change (N.of_nat 1) with 1. change (N.of_nat 3) with 3. change (2 ^ 63) with 9223372036854775808. lia. }
  pose proof (decode_encoded T_frame m _ K W pf [] []) as D. rewrite app_nil_r in D. specialize (D Sl). cbn [de_of] in D.
  destruct (decode_total T_frame pf [] (cut ++ s) Sl) as (c & l & r & X & E & _ & L & _). cbn [de_of] in E.
  rewrite D in E. injection E as _ Ln <-. cbn [app] in Ln.
  assert (c = cut ++ s) as ->.
  { rewrite <- (app_nil_r (cut ++ s)) in X. apply app_inj_len in X as [X _]; [congruence|exact Ln]. }
  destruct (L ltac:(discriminate)) as (_ & T). destruct (T pf [] cut s eq_refl Hs) as (p' & Ep).
  { unfold rust_slice in *. rewrite len_app in Sl. cbn [app]. lia. }
  cbn [de_of] in Ep. unfold deserialize. rewrite cursor_0, Ep. reflexivity.
Qed.

Lemma pieces_sent : forall pf ms encs rest pieces, Forall (fun m => len (m_payload m) < 16777216) ms ->
  Forall2 (fun m e => serialize (ser_message m) = Ok e) ms encs ->
  (rest = [] \/ exists m e s, len (m_payload m) < 16777216 /\ serialize (ser_message m) = Ok e /\ s <> [] /\ e = rest ++ s) ->
  rust_slice (concat encs ++ rest) -> concat pieces = concat encs ++ rest ->
  receiving pf [] pieces ms rest None.
Proof.
  intros pf ms encs rest pieces K F R Hs E.
  assert (Er : deserialize de_message pf rest = Err ParseError).
  { destruct R as [->|(m & e & s & Km & S & N & X)]; [apply empty_waits|]. eapply begun_waits; eauto. }
  pose proof (frames_wait pf ms encs K F rest Hs Er) as W.
  destruct (receiving_total pf pieces []) as (ms' & l & st & G).
  { cbn [app]. rewrite E. exact Hs. }
  destruct (pieces_agree _ _ _ _ _ _ _ _ _ G E Hs W) as (-> & -> & L). rewrite (L eq_refl) in G. exact G.
Qed.

Lemma receiving_fun : forall pf buf pieces ms1 l1 st1, receiving pf buf pieces ms1 l1 st1 ->
  forall ms2 l2 st2, receiving pf buf pieces ms2 l2 st2 -> ms2 = ms1 /\ l2 = l1 /\ st2 = st1.
Proof.
  intros pf buf pieces ms1 l1 st1 H.
  induction H as [buf|buf piece pieces ms buf' e W|buf piece pieces ms buf' ms' buf'' st W H IH]; intros ms2 l2 st2 G.
  - inversion G; auto.
  - inversion G as [|? ? ? ? ? ? W2|? ? ? ? ? ? ? ? W2]; subst; destruct (waiting_fun _ _ _ _ _ W2 _ _ _ W) as (? & ? & ?); subst; auto; discriminate.
  - inversion G as [|? ? ? ? ? ? W2|? ? ? ? ? ? ? ? W2 G2]; subst; destruct (waiting_fun _ _ _ _ _ W2 _ _ _ W) as (? & ? & E); subst;
      try discriminate. destruct (IH _ _ _ G2) as (-> & -> & ->). auto.
Qed.
Lemma any_pieces : forall pf pieces, rust_slice (concat pieces) ->
  exists ms left st,
    receiving pf [] pieces ms left st /\
    (forall ms' left' st', receiving pf [] pieces ms' left' st' -> ms' = ms /\ left' = left /\ st' = st) /\
    exists left1, waiting pf (concat pieces) ms left1 st /\ (st = None -> left1 = left) /\
    (forall ms' left' st', waiting pf (concat pieces) ms' left' st' -> ms' = ms /\ left' = left1 /\ st' = st).
Proof.
  intros pf pieces Hs. destruct (receiving_total pf pieces [] Hs) as (ms & l & st & R). exists ms, l, st.
  split; [exact R|]. split; [intros; eapply receiving_fun; eassumption|].
  destruct (receiving_whole0 _ _ _ _ _ _ R (empty_waits pf) Hs) as (l1 & W & F). exists l1. split; [exact W|]. split; [exact F|].
  intros ms' l' st' W'. exact (waiting_fun _ _ _ _ _ W' _ _ _ W).
Qed.
